(** Specification vocabulary for error reports. *)
From Verif Require Import Base.
Open Scope list_scope.

(** a text without zero bytes *)
Definition c_string (s : list Z) : Prop := ~ In 0 s.
(** there is no %x in [s] / the first %x of [s] comes after [pre] and before [post] *)
Definition lacks (x : Z) (s : list Z) : Prop := forall a b, s <> a ++ [37; x] ++ b.
Definition splits (x : Z) (s pre post : list Z) : Prop :=
  s = pre ++ [37; x] ++ post /\ forall a b, s = a ++ [37; x] ++ b -> (length pre <= length a)%nat.

(** [full] is the report asked for by [s]: the first %m is the text [em] of the last
    error; failing that the first %h is [eh].  [used] bytes come before what
    follows the sequence. *)
Inductive asks (em eh s : list Z) : list Z -> Z -> Prop :=
| Asks_m pre post : splits 109 s pre post -> asks em eh s (pre ++ em ++ post) (zlen pre + zlen em)
| Asks_h pre post : lacks 109 s -> splits 104 s pre post -> asks em eh s (pre ++ eh ++ post) (zlen pre + zlen eh)
| Asks_none : lacks 109 s -> lacks 104 s -> asks em eh s s 0.
