(** Several connections at once: every connection has a process of its own
    (spawn_child, nbd-server.c:3162-3203, called from handle_modern_connection,
    nbd-server.c:3232), which runs as in M_Par.v; the processes share the files
    they export.  Definitions only. *)
From Verif Require Import Base M_Const M_Disk M_Tree M_Raw M_Par.

(** Files a process has for itself although another process may call its own
    by the same name: the diff file, named after the process
    (nbd-server.c:2142-2155), the anonymous file of read-only trees
    (treefiles.c:83-92), the file of a temporary export, made by mkstemp in
    setupexport (nbd-server.c:2023, 2055-2058, 2090-2091). *)
Definition private (c : client) (h : fref) : bool :=
  match h with
  | FDiff | FDummy => true
  | FExp _ => cflag c F_TEMPORARY && negb (cflag c F_MULTIFILE)
  | _ => false
  end.

(** What a process sees: the shared files and the outcomes of system calls from
    [shared]; errno, memory (nbdsrv.h:60-86) and private files are its own. *)
Definition enter (c : client) (shared own : world) : world :=
  mkW (fun h => if private c h then w_file own h else w_file shared h)
      (w_exists shared) (w_orc shared) (w_tick shared) (w_errno own) (w_heap own)
      (w_dpos own) (w_map own) (w_mapsz own) (w_dlen own) (w_tr shared).

(** One process: the client record, whether it logs, its threads, and whether
    it has exited (nbd-server.c:468, 3222-3260). *)
Record proc := mkProc {
  pr_client : client;
  pr_lg : bool;
  pr_sys : sys;
  pr_gone : bool
}.

(** All processes serving connections (the hash table [children],
    nbd-server.c:3187), and the storage. *)
Record group := mkG {
  g_w : world;
  g_procs : list proc
}.

(** replace one process (nbd-server.c:3232) *)
Definition set_proc (l : list proc) (b : nat) (x : proc) : list proc :=
  firstn b l ++ x :: skipn (S b) l.

(** Outcome of one step: the next state; not possible now; undefined behaviour
    in some process. *)
Inductive gout := GGo (g : group) | GNot | GUb.

(** One step of process [b] (the kernel's scheduler; nbd-server.c:3095-3152 and
    3025-3093 run in every process).  A process that exits (nbd-server.c:468)
    leaves the others running. *)
Definition g_step (b : nat) (x : choice) (g : group) : gout :=
  match nth_error (g_procs g) b with
  | None => GNot
  | Some p =>
      if pr_gone p then GNot
      else
        match sys_step (pr_lg p) (pr_client p) x (y_setw (enter (pr_client p) (g_w g) (y_w (pr_sys p))) (pr_sys p)) with
        | SGo s => GGo (mkG (y_w s) (set_proc (g_procs g) b (mkProc (pr_client p) (pr_lg p) s false)))
        | SNot => GNot
        | SUb => GUb
        | SExit s => GGo (mkG (y_w s) (set_proc (g_procs g) b (mkProc (pr_client p) (pr_lg p) s true)))
        end
  end.

(** A schedule; steps that are not possible are skipped. *)
Fixpoint g_run (l : list (nat * choice)) (g : group) : gout :=
  match l with
  | [] => GGo g
  | (b, x) :: l =>
      match g_step b x g with
      | GGo g' => g_run l g'
      | GNot => g_run l g
      | GUb => GUb
      end
  end.

(** A connection entering the transmission phase (nbd-server.c:3095): the client
    record, whether there is a log, the number of pool threads, all bytes the
    client will send, and the memory of the process. *)
Record conn := mkConn {
  cn_client : client;
  cn_lg : bool;
  cn_threads : nat;
  cn_in : list Z;
  cn_own : world
}.

(** All connections at the beginning of their transmission phases
    (nbd-server.c:3095-3104).  Simplification: a connection made later is one
    that is not scheduled until then. *)
Definition g_init (cs : list conn) (w : world) : group :=
  mkG w (map (fun k => mkProc (cn_client k) (cn_lg k) (sys_init (cn_threads k) (cn_in k) (cn_own k)) false) cs).
