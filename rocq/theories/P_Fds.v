(** C83: many connections at once, as seen by the root process. *)
From Verif Require Import Base M_Fds S_Fds L_Fds.
Local Open Scope list_scope.

(** As long as there is room, no round runs into undefined behaviour, every
    connection for which fork succeeds is handed to a child, and descriptors are
    not lost: apart from the [b] at the start there is exactly one for each child
    that has not committed to an export yet. *)
Theorem C83_with_room_partial : forall limit b l, roomy limit b l -> Z.of_nat b <= Z.min limit 1024 ->
  exists r, rounds limit l (root0 b) = Some r /\ length (o_fds r) = (b + length (o_child r))%nat /\
    forall fd, In fd (o_fds r) -> 0 <= fd < Z.min limit 1024.
Proof.
  intros limit b l Hr Hb. destruct (rounds_good limit b l Hr Hb) as (r & E & _ & _ & _ & Hl & Hf). exists r. split; [exact E|]. split; [exact Hl|].
  rewrite Forall_forall in Hf. exact Hf.
Qed.
Print Assumptions C83_with_room_partial.
Theorem C83_all_taken_partial : forall limit b l w, roomy limit b (l ++ [w]) -> Z.of_nat b <= Z.min limit 1024 ->
  exists r r', rounds limit l (root0 b) = Some r /\ one_round limit w r = Some (r', length (filter (fun fork_ok => fork_ok) (w_conns w))).
Proof.
  intros limit b l w Hr Hb. destruct (rounds_good limit b l) as (r & E & Hg); [|exact Hb|].
  { intros l1 w' l2 r -> Hx. apply (Hr l1 w' (l2 ++ [w])); [now rewrite <- app_assoc|exact Hx]. }
  destruct (round_good limit b (Z.min limit 1024) w r Hg) as (r' & E' & _); [lia|lia|exact (Hr l w [] r eq_refl E)|]. exists r, r'. auto.
Qed.
Print Assumptions C83_all_taken_partial.
(** two listening sockets, connections on both, one child that commits *)
Example C83_room_demo : roomy 20 5 [mkRound [true; true] []; mkRound [true; false] [7]; mkRound [] [8; 9]] /\
  rounds 20 [mkRound [true; true] []; mkRound [true; false] [7]; mkRound [] [8; 9]] (root0 5) = Some (mkRoot [0; 1; 2; 3; 4] []).
Proof.
  split; [|vm_compute; reflexivity]. intros l1 w l2 r E Hr.
  destruct l1 as [|w1 l1]; [injection E as <- _; injection Hr as <-; vm_compute; discriminate|]. injection E as <- E.
  destruct l1 as [|w2 l1]; [injection E as <- _; vm_compute in Hr; injection Hr as <-; vm_compute; discriminate|]. injection E as <- E.
  destruct l1 as [|w3 l1]; [injection E as <- _; vm_compute in Hr; injection Hr as <-; vm_compute; discriminate|]. injection E as <- E.
  destruct l1; discriminate E.
Qed.

(** Without room it fails for every limit: clients that do no more than connect,
    which anyone who can reach the port may do, bring the root process to
    undefined behaviour, with one connection per round and at the number given
    exactly.  Up to a limit of 1024 descriptors it is the unchecked socketpair;
    with a higher limit it is FD_ISSET. *)
Theorem C83_silent_refuted : forall limit b n, Z.of_nat b + 2 <= limit -> Z.of_nat b + 2 <= 1024 ->
  Z.of_nat b + 1 + Z.of_nat n = Z.min limit 1024 ->
  rounds limit (repeat silent n) (root0 b) = None /\
  (forall m, (m < n)%nat -> rounds limit (repeat silent m) (root0 b) <> None).
Proof. exact silent_ub. Qed.
Print Assumptions C83_silent_refuted.
Example C83_silent_demo : rounds 12 (repeat silent 5) (root0 6) = None /\
  rounds 12 (repeat silent 4) (root0 6) = Some (mkRoot [11; 10; 9; 8; 0; 1; 2; 3; 4; 5] [8; 9; 10; 11]).
Proof. vm_compute. auto. Qed.
(** With the usual limit and six descriptors at the start: 1017 connections. *)
Theorem C83_usual_limit_refuted : exists n, Z.of_nat n = 1017 /\ rounds 1024 (repeat silent n) (root0 6) = None.
Proof.
  assert (H : exists n, Z.of_nat n = 1017) by (exists (Z.to_nat 1017); lia). destruct H as [n Hn]. exists n. split; [exact Hn|].
  refine (proj1 (silent_ub 1024 6 n _ _ _)); lia.
Qed.
Print Assumptions C83_usual_limit_refuted.
(** A round that finds the last free descriptor taken by the accepted connection
    itself is enough; the table need not have been filled by silent clients. *)
Theorem C83_last_descriptor_refuted : exists limit r, Forall (fun fd => 0 <= fd < 1024) (o_fds r) /\ o_child r = [] /\
  one_round limit (mkRound [true] []) r = None /\ one_round (limit - 1) (mkRound [true] []) r = Some (r, 0%nat).
Proof.
  exists 7, (root0 6). split; [|vm_compute; auto]. apply Forall_forall. intros x Hx. vm_compute in Hx. lia.
Qed.
Print Assumptions C83_last_descriptor_refuted.
