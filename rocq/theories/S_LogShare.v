(** What connections that share a log are entitled to. *)
From Verif Require Import Base M_LogShare.
Local Open Scope list_scope.

(** two connections write at the same time *)
Definition both_write (s : lstate) : Prop :=
  exists c d l m, c <> d /\ ls_conn s c = Some l /\ ls_conn s d = Some m /\ l_hold l = true /\ l_hold m = true.
(** who an event belongs to *)
Definition of (e : lev) : nat := match e with LOpen c _ | LLock c | LWrite c _ | LUnlock c | LClose c | LDie c => c end.
Definition ends (e : lev) : Prop := match e with LClose _ => True | _ => False end.
Definition locks (e : lev) : Prop := match e with LLock _ => True | _ => False end.
(** the bytes a connection writes, in order *)
Definition bytes_of (c : nat) (e : lev) : list Z :=
  match e with LOpen d b | LWrite d b => if Nat.eqb d c then b else [] | _ => [] end.
Definition all_bytes (c : nat) (es : list lev) : list Z := concat (map (bytes_of c) es).
