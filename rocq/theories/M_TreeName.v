(** Where the block files of a tree export are: the file system by name, and a
    connection to a tree export from commit_client to its last reply.
    Definitions only. *)
From Verif Require Import Base M_Const M_Disk M_Tree M_Raw M_Par M_Nego M_Conf M_Virt M_Hook.
Open Scope list_scope.

(** The files of the machine by name (open, treefiles.c:72, 79; unlink,
    treefiles.c:44).  Simplification: directories are made as needed
    (treefiles.c:48-59) and not kept; two different names are two different
    files (no links); the diff file (nbd-server.c:2152), in cowdir
    or the parent directory, is not among them. *)
Definition names := list Z -> option file.

(** what follows [dir] in the name [q] (treefiles.c:65-67) *)
Fixpoint below (dir q : list Z) : option (list Z) :=
  match dir, q with
  | [], _ => Some q
  | a :: d, b :: t => if a =? b then below d t else None
  | _ :: _, [] => None
  end.

(** The storage as a process sees it that looks for its block files below [dir]:
    the name of a block file is client->exportname with the path of
    construct_path appended (treefiles.c:38-40, 65-67; client->exportname passed
    at nbd-server.c:1153, nbdsrv.c:286); all else from [w]. *)
Definition tree_world (dir : list Z) (fs : names) (w : world) : world :=
  mkW (fun h => match h with
                | FTree p => match fs (dir ++ p) with Some f => f | None => mkFile 0 (fun _ => 0) end
                | _ => w_file w h
                end)
      (fun p => match fs (dir ++ p) with Some _ => true | None => false end)
      (w_orc w) (w_tick w) (w_errno w) (w_heap w) (w_dpos w) (w_map w) (w_mapsz w) (w_dlen w) (w_tr w).
(** and the file system afterwards (nbd-server.c:3286) *)
Definition names_after (dir : list Z) (fs : names) (w : world) : names :=
  fun q => match below dir q with
           | Some p => if w_exists w p then Some (w_file w (FTree p)) else None
           | None => fs q
           end.

(** refused or gone before serving; no further step; undefined behaviour; the
    file system, the bytes written to the client and to the log *)
Inductive tree_end := (* nbd-server.c:3260-3296 *)
| TRefused
| TNot
| TUb
| TEnd (fs : names) (out log : list Z).

(** The part of a connection that starts with commit_client (nbd-server.c:2283,
    in M_Hook.v) for a tree export of [size] bytes and goes on with
    mainloop_threaded (nbd-server.c:3286) as far as the schedule goes.  setupexport
    leaves client->export NULL and takes the configured size (2026-2028).  The
    name used for block files is client->exportname as commit_client left it. *)
Definition tree_connection (pid : list Z) (a : attempt) (s : hst) (size : Z) (structured tls lg : bool) (n : nat)
    (inp : list Z) (turns : list choice) (fs : names) (w : world) : tree_end :=
  match commit pid a s with
  | HGo true s' =>
      let dir := s_name s' in
      let c := mkC (h_flags (a_conf a)) size None (zlen dir) structured tls in
      match sys_run lg c turns (sys_init n inp (tree_world dir fs w)) with
      | SNot => TNot
      | SUb => TUb
      | SGo y | SExit y => TEnd (names_after dir fs (y_w y)) (y_out y) (y_log y)
      end
  | HGo false _ | HGone _ => TRefused
  | HUb | HOther => TUb
  end.
