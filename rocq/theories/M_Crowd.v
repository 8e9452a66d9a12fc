(** All connections of a server at once, to any of its exports: one process each
    (spawn_child, nbd-server.c:3162-3203, called at 3232), all working on the
    same disks.  Definitions only. *)
From Verif Require Import Base M_Const M_Disk M_Tree M_Raw M_Par M_Conn.
Open Scope list_scope.

(** The storage as the process serving export [i] sees it at some moment: files
    and the tree of the export from the disks; the diff file (named after the
    process, nbd-server.c:2150-2151), the page map, memory and errno
    (nbdsrv.h:60-86) are its own; so are the outcomes of its system calls. *)
Definition look (i : nat) (D : disks) (w : world) : world :=
  mkW (fun h => match h with FExp g => d_file D g | FTree p => d_block D i p | _ => w_file w h end)
      (d_there D i) (w_orc w) (w_tick w) (w_errno w) (w_heap w) (w_dpos w) (w_map w) (w_mapsz w) (w_dlen w) (w_tr w).

(** A connection entering the transmission phase (nbd-server.c:3286): the export
    it serves, the client record ([FExp g] stands for file [g] of the machine),
    whether there is a log, the number of pool threads, all bytes the client will
    send, and what the process has for itself. *)
Record entry := mkEn {
  en_export : nat;
  en_client : client;
  en_lg : bool;
  en_threads : nat;
  en_in : list Z;
  en_own : world
}.

(** A process: its connection, its threads, and whether it has exited
    (nbd-server.c:468, 3287-3292). *)
Record task := mkTk { tk_entry : entry; tk_sys : sys; tk_gone : bool }.

(** all processes (the hash table [children], nbd-server.c:3187) and the disks *)
Record crowd := mkCd { cd_disks : disks; cd_tasks : list task }.
Definition set_task (l : list task) (b : nat) (x : task) : list task := (* nbd-server.c:3232 *)
  firstn b l ++ x :: skipn (S b) l.

(** Outcome of one step: the next state; not possible now; undefined behaviour in
    some process. *)
Inductive cout := KGo (k : crowd) | KNot | KUb.

(** One step of process [b]: some thread of it moves (nbd-server.c:3025-3152). *)
Definition c_step (b : nat) (x : choice) (k : crowd) : cout :=
  match nth_error (cd_tasks k) b with
  | None => KNot
  | Some t =>
      if tk_gone t then KNot
      else
        let e := tk_entry t in
        let i := en_export e in
        let s0 := y_setw (look i (cd_disks k) (y_w (tk_sys t))) (tk_sys t) in
        match sys_step (en_lg e) (en_client e) x s0 with
        | SGo s => KGo (mkCd (disks_after i (cd_disks k) (y_w s)) (set_task (cd_tasks k) b (mkTk e s false)))
        | SNot => KNot
        | SUb => KUb
        | SExit s => KGo (mkCd (disks_after i (cd_disks k) (y_w s)) (set_task (cd_tasks k) b (mkTk e s true)))
        end
  end.

(** A schedule; steps that are not possible are skipped. *)
Fixpoint c_run (l : list (nat * choice)) (k : crowd) : cout :=
  match l with
  | [] => KGo k
  | (b, x) :: l =>
      match c_step b x k with
      | KGo k' => c_run l k'
      | KNot => c_run l k
      | KUb => KUb
      end
  end.

(** All connections at the beginning of their transmission phases
    (nbd-server.c:3286).  Simplification: a connection made later is one that is
    not scheduled until then, and setupexport has run for all (see M_Conn.v for
    what it does to the disks). *)
Definition c_init (es : list entry) (D : disks) : crowd :=
  mkCd D (map (fun e => mkTk e (sys_init (en_threads e) (en_in e) (look (en_export e) D (en_own e))) false) es).

(** one connection on a machine without the others (nbd-server.c:3286) *)
Definition alone (e : entry) (l : list choice) (D : disks) : sout :=
  sys_run (en_lg e) (en_client e) l (sys_init (en_threads e) (en_in e) (look (en_export e) D (en_own e))).
