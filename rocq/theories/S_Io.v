(** What a transfer between a byte stream and memory should do. *)
From Verif Require Import Base M_Io.

(** [got] was taken off the stream and is in memory at [p], nothing else
    changed *)
Definition delivered (inp rest : list Z) (m m' : Z -> Z) (p : Z) (got : list Z) : Prop :=
  inp = got ++ rest /\ slice m' p (zlen got) = got /\
  forall i, i < p \/ p + zlen got <= i -> m' i = m i.

(** results that end a receive loop: end of stream, and errors other than "try
    again" (EAGAIN is 11) *)
Definition hard (c : rdres) : Prop :=
  match c with RdSome _ => False | RdFail e => e <> 11 | RdEof => True end.
(** number of calls that carry data *)
Definition is_data (c : rdres) : bool := match c with RdSome _ => true | _ => false end.
Definition data_calls (calls : list rdres) : Z := zlen (filter is_data calls).
