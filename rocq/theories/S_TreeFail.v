(** Vocabulary for tree exports with failing calls. *)
From Verif Require Import Base M_TreeMulti M_TreeFail.

(** no process ends between making a block file and giving it its size *)
Definition orderly_step (x : fchoice) (f : fsys) : Prop :=
  match x with
  | FEnd k => forall c i, nth_error (t_conns (f_sys f)) k = Some c -> q_ops c <> nil -> q_pc c <> AtMade i
  | _ => True
  end.
Fixpoint orderly (l : list fchoice) (f : fsys) : Prop :=
  match l with
  | nil => True
  | cons x l => orderly_step x f /\ orderly l (f_step x f)
  end.
(** part of a piece that was asked for *)
Definition piece_of (o o' : top) : Prop :=
  match o, o' with
  | TWrite p off d, TWrite p' off' d' => p = p' /\ exists a b, d' = (a ++ d ++ b)%list /\ off = off' + zlen a
  | TRead p off n, TRead p' off' n' => p = p' /\ off' <= off /\ off + n <= off' + n'
  | TTrim p, TTrim p' => p = p'
  | _, _ => False
  end.
(** a piece has to do with byte [i] of its page *)
Definition covers (o : top) (i : Z) : Prop :=
  match o with
  | TWrite _ off d => off <= i < off + zlen d
  | TRead _ off n => off <= i < off + n
  | TTrim _ => True
  end.
(** the part of a request for byte [i] is still to be done, or was done, or failed *)
Definition accounted (f : fsys) (k : nat) (o' : top) (i : Z) : Prop :=
  exists o, piece_of o o' /\ covers o i /\
    ((exists c, nth_error (t_conns (f_sys f)) k = Some c /\ In o (q_ops c)) \/
     (exists r, In (k, o, r) (t_log (f_sys f))) \/ In (k, o) (f_failed f)).
(** what was done to one page *)
Definition on_page (p : Z) (log : list (nat * top * tres)) : list (nat * top * tres) := filter (fun e => page_of (snd (fst e)) =? p) log.
(** no process ends between making the block file of page [p] and giving it its size *)
Definition orderly_step_on (p : Z) (x : fchoice) (f : fsys) : Prop :=
  match x with
  | FEnd k => forall c o rest i, nth_error (t_conns (f_sys f)) k = Some c -> q_ops c = cons o rest -> page_of o = p -> q_pc c <> AtMade i
  | _ => True
  end.
Fixpoint orderly_on (p : Z) (l : list fchoice) (f : fsys) : Prop :=
  match l with
  | nil => True
  | cons x l => orderly_step_on p x f /\ orderly_on p l (f_step x f)
  end.
