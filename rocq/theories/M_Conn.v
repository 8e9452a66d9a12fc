(** A connection from its first byte to the last reply: negotiation, what it does
    to the files, and the requests served by the thread pool.  Definitions only. *)
From Verif Require Import Base M_Const M_Disk M_Tree M_Raw M_Setup M_Par M_Io M_Acl M_Nego.
Open Scope list_scope.

(** What is stored on the machine: numbered files, and the block files of each
    tree export (their contents and whether they are there).  Simplification:
    the trees of different exports are different directories
    (treefiles.c:29-52); the tree of an export stands for the directory its
    connections use, which for a copy-on-write tree without cowdir is the parent
    of the configured one (nbd-server.c:2149, see M_TreeName.v). *)
Record disks := mkDk { d_file : nat -> file; d_block : nat -> list Z -> file; d_there : nat -> list Z -> bool }.
Definition set_dfile (g : nat) (f : file) (D : disks) : disks := (* nbd-server.c:2105 *)
  mkDk (fun n => if (n =? g)%nat then f else d_file D n) (d_block D) (d_there D).

(** a file of [n] bytes after ftruncate of an empty one (nbd-server.c:2105) *)
Definition zeroes (n : Z) : file := mkFile n (fun _ => 0).

(** What a successful setupexport gives the only file of an export
    (nbd-server.c:2018-2140): a temporary one is made new by mkstemp (2058) and
    extended (2103-2105); one found empty is extended if a size is configured
    (2103-2105); otherwise, and for several files (2021-2024) or on demand (2026-2028),
    nothing. *)
Definition growth (e : export) : option Z :=
  if flag (x_flags e) F_TREEFILES || flag (x_flags e) F_WAIT || flag (x_flags e) F_MULTIFILE then None
  else if flag (x_flags e) F_TEMPORARY then Some (x_expected e)
  else match x_files e with
       | m :: _ => if (mb_size m =? 0) && negb (x_expected e =? 0) then Some (x_expected e) else None
       | [] => None
       end.

Section Conn.
(** [place i k]: which file of the machine is the k-th file of export i.  Exports
    may share files.  The file of a temporary export has no name
    (nbd-server.c:2091) and stands for the one made when it is opened. *)
Variable place : nat -> nat -> nat.

(** The effect of one event of the negotiation on the disks: opening the files of
    an export (commit_client, nbd-server.c:2341).  Simplification: a diff file
    (2346, 2352) belongs to the process alone and is not kept here; a file that
    another export has extended since is left alone. *)
Definition after_event (l : list export) (D : disks) (v : nev) : disks :=
  match v with
  | NOpen i true =>
      match nth_error l i with
      | Some e =>
          match growth e with
          | Some n =>
              if flag (x_flags e) F_TEMPORARY || (fsize (d_file D (place i 0%nat)) =? 0)
              then set_dfile (place i 0%nat) (zeroes n) D else D
          | None => D
          end
      | None => D
      end
  | _ => D
  end.
Definition after_nego (l : list export) (tr : list nev) (D : disks) : disks := (* nbd-server.c:2283-2360 *)
  fold_left (after_event l) tr D.

(** The storage as the process serving export [i] sees it: every file of the
    machine, the tree of that export, an empty diff file and page map
    (nbd-server.c:2142-2167); memory and system calls from [w]. *)
Definition conn_world (i : nat) (size : Z) (D : disks) (w : world) : world :=
  mkW (fun h => match h with
                | FExp g => d_file D g
                | FTree p => d_block D i p
                | FDiff => zeroes 0
                | _ => w_file w h
                end)
      (d_there D i) (w_orc w) (w_tick w) (w_errno w) (w_heap w) 0 (fun _ => NOPAGE) (size / DIFFPAGESIZE) 0 [].
(** and the disks when it has done so (nbd-server.c:3286, mainloop_threaded) *)
Definition disks_after (i : nat) (D : disks) (w : world) : disks :=
  mkDk (fun g => w_file w (FExp g))
       (fun j p => if (j =? i)%nat then w_file w (FTree p) else d_block D j p)
       (fun j p => if (j =? i)%nat then w_exists w p else d_there D j p).

(** client->export (nbd-server.c:2094-2095): file numbers and start offsets *)
Definition array (i : nat) (fs : option (list (nat * Z))) : option (list finfo) :=
  option_map (map (fun p => mkFI (FExp (place i (fst p))) (snd p))) fs.

(** How far a connection got: the events of negotiation, the export served, the
    disks, the bytes written while serving requests and the transaction log *)
Inductive conn_end := (* nbd-server.c:3219-3296 *)
| CNot
| CUb
| CEnd (tr : list nev) (served : option nat) (D : disks) (out log : list Z).

(** handle_modern_connection in the child (nbd-server.c:3244-3296): negotiate
    (3260), then mainloop_threaded (3286) on export [i] with [n] threads, as far as
    the schedule [turns] goes.  [fs] are the files setupexport put into
    client->export (nbd-server.c:2094-2095, see M_Setup).  Simplifications: the
    socket calls (3247-3258) succeed; whether a transaction log is written
    ([lg], 2333) is given. *)
Definition connection (E : nenv) (l : list export) (glob : Z) (lg : bool) (n : nat)
    (fs : nat -> option (list (nat * Z))) (namelen : Z) (plain secure : list Z) (turns : list choice)
    (D : disks) (w : world) : conn_end :=
  match negotiate E (fresh l glob plain secure) with
  | NStuck => CNot
  | NUb _ => CUb
  | NDie s | NRet None s => CEnd (n_tr s) None (after_nego l (n_tr s) D) [] []
  | NRet (Some i) s =>
      let D1 := after_nego l (n_tr s) D in
      let c := mkC (x_flags (nth_export i s)) (n_size s) (array i (fs i)) namelen (n_struct s) (n_tls s) in
      match sys_run lg c turns (sys_init n (n_in s) (conn_world i (n_size s) D1 w)) with
      | SNot => CNot
      | SUb => CUb
      | SGo y | SExit y => CEnd (n_tr s) (Some i) (disks_after i D1 (y_w y)) (y_out y) (y_log y)
      end
  end.
End Conn.
