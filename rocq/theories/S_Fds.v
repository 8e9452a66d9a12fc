(** Specification vocabulary for the descriptors of the root process. *)
From Verif Require Import Base M_Fds.
Local Open Scope list_scope.

(** Started with [b] open descriptors and the limit [limit], there is room in
    every round of [l]: the children that have not committed to an export yet,
    the connections waiting in the round, and two more. *)
Definition roomy (limit : Z) (b : nat) (l : list round) : Prop :=
  forall l1 w l2 r, l = l1 ++ w :: l2 -> rounds limit l1 (root0 b) = Some r ->
    Z.of_nat b + zlen (o_child r) + zlen (w_conns w) + 2 <= Z.min limit 1024.

(** a client that connects and stays silent *)
Definition silent : round := mkRound [true] [].
