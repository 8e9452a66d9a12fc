(** Several connections to one waitfile export.  Each is a process with its own
    diff file, page table and waiting thread; the awaited file is one for all
    (nbd-server.c:1984-2007, 2026-2036, 2142-2167, 3162-3201).  Definitions only.

    Simplifications as in M_Wait; connections are all there from the start; the
    awaited file is looked at only by a process that has noticed it, so it may as
    well be there from the start.  One step of one thread of one process at a time. *)
From Verif Require Import Base M_Const M_Disk M_Wait.

(** the awaited file, its size, what of it is on the disk, the processes
    (nbd-server.c:1987, 2006, 2150-2153) *)
Record wgroup := mkWg { wg_file : Z -> Z; wg_fsize : Z; wg_disk : Z -> Z; wg_conns : list wst }.

(** a process sees the one file (nbd-server.c:1957, 1987) *)
Definition lend (g : wgroup) (s : wst) : wst := s_disk (wg_disk g) (s_file (wg_file g) (wg_fsize g) s).
(** ... and leaves it to the others (nbd-server.c:1957, 1213) *)
Fixpoint set_conn (k : nat) (s : wst) (l : list wst) : list wst :=
  match l with [] => [] | x :: l => match k with O => s :: l | S k => x :: set_conn k s l end end.
Definition give_back (k : nat) (s : wst) (g : wgroup) : wgroup := (* nbd-server.c:1957, 1213 *)
  mkWg (w_file s) (w_fsize s) (w_disk s) (set_conn k s (wg_conns g)).

(** a step of one process: noticing the file opens it as it is (nbd-server.c:1984-1988),
    all else is as with one connection (M_Wait) *)
Definition conn_step (e : wenv) (c : wchoice) (s : wst) : wout :=
  match c, w_cpc s with
  | WCom _, CWait => WGo (s_cpc (CPass false 0 0) s)
  | _, _ => wstep e c s
  end.
(** outcome of a step of the group (nbd-server.c:3162-3201) *)
Inductive wgout := WgGo (g : wgroup) | WgUb.
(** process [k] runs; nothing happens when it cannot (nbd-server.c:3162-3201) *)
Definition wg_step (e : wenv) (k : nat) (c : wchoice) (g : wgroup) : wgout :=
  match nth_error (wg_conns g) k with
  | None => WgGo g
  | Some s =>
      match conn_step e c (lend g s) with
      | WGo s' => WgGo (give_back k s' g)
      | WNot => WgGo g
      | WUb => WgUb
      end
  end.
Fixpoint wg_run (e : wenv) (l : list (nat * wchoice)) (g : wgroup) : wgout := (* nbd-server.c:3162-3201 *)
  match l with
  | [] => WgGo g
  | (k, c) :: l => match wg_step e k c g with WgGo g => wg_run e l g | WgUb => WgUb end
  end.
(** every process after its own setupexport and copyonwrite_prepare
    (nbd-server.c:2026-2036, 2155-2164); the file as it will be found *)
Definition wg_start (e : wenv) (reqss : list (list wreq)) : wgroup :=
  let f := fun b => if b <? we_f0size e then we_f0 e b else 0 in
  mkWg f (we_f0size e) f (map wstart reqss).
