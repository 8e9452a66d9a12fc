(** C84 with system calls that fail or are cut short and processes that end. *)
From Verif Require Import Base M_Const M_Disk M_TreeMulti S_TreeMulti L_TreeMulti P_TreeMulti M_TreeFail S_TreeFail L_TreeFail L_TreePage.
Local Open Scope list_scope.

(** Pieces that fail change nothing and every other answer is the one of a single
    disk doing the pieces one after the other; only what was asked for is done. *)
Theorem C84_failing_calls_partial : forall b qs s0 l,
  sane b -> holds b s0 -> Forall (Forall in_page) qs -> (forall p, (exists k, only_by p k qs) \/ settled b p qs) -> orderly l (f_init b qs) ->
  let f := f_run l (f_init b qs) in
  explains s0 (t_log (f_sys f)) /\
  (forall k o r, In (k, o, r) (t_log (f_sys f)) -> exists q o', nth_error qs k = Some q /\ In o' q /\ piece_of o o') /\
  (forall k o, In (k, o) (f_failed f) -> exists q o', nth_error qs k = Some q /\ In o' q /\ piece_of o o') /\
  ((forall c, In c (t_conns (f_sys f)) -> q_ops c = []) -> holds (t_blk (f_sys f)) (final s0 (t_log (f_sys f)))).
Proof. exact failing_tree. Qed.
Print Assumptions C84_failing_calls_partial.

(** A request is not dropped: for every byte of it the part that has to do with it
    is still to be done, or was answered, or failed through a failing call, as long
    as the process has not ended. *)
Theorem C84_nothing_dropped : forall b qs l k q o i, nth_error qs k = Some q -> In o q -> covers o i -> ~ In (FEnd k) l ->
  accounted (f_run l (f_init b qs)) k o i.
Proof. exact nothing_dropped. Qed.
Print Assumptions C84_nothing_dropped.
Theorem C84_fails_only_through_calls : forall b qs l k o, In (k, o) (f_failed (f_run l (f_init b qs))) -> In (FFail k) l.
Proof. intros b qs l k o I. destruct (f_run_failed _ _ _ _ I) as [[]|A]. exact A. Qed.
Print Assumptions C84_fails_only_through_calls.

(** the first connection makes page 1, its WRITE is cut after one byte and fails
    for the rest; the second reads page 0 in two parts; the third ends before it has
    made page 2 *)
Definition fail_qs : list (list top) := [[TWrite 1 5 [7; 8; 9]; TRead 1 5 3]; [TRead 0 9 4]; [TWrite 2 0 [5]]].
Definition fail_sched : list fchoice :=
  [FStep 0; FStep 0; FStep 0; FShort 0 1; FStep 0; FStep 0; FFail 0; FStep 1; FShort 1 3; FStep 1; FStep 1; FStep 1; FStep 2; FEnd 2; FStep 0; FStep 0].
Definition orderlyb := fix go (l : list fchoice) (f : fsys) : bool :=
  match l with
  | [] => true
  | x :: l =>
      match x with
      | FEnd k => match nth_error (t_conns (f_sys f)) k with
                  | Some c => match q_ops c, q_pc c with _ :: _, AtMade _ => false | _, _ => true end
                  | None => true end
      | _ => true end && go l (f_step x f)
  end.
Lemma orderlyb_ok l : forall f, orderlyb l f = true -> orderly l f.
Proof.
  induction l as [|x l IH]; intros f; cbn [orderlyb orderly]; [auto|]. rewrite andb_true_iff. intros [A B]. split; [|auto].
  destruct x as [k|k m|k|k]; cbn [orderly_step]; auto. intros c i Hk Hq. rewrite Hk in A. destruct (q_ops c); [congruence|].
  destruct (q_pc c); congruence.
Qed.
Example C84_failing_calls_ex :
  sane demo_blocks /\ holds demo_blocks demo_store /\ Forall (Forall in_page) fail_qs /\
  (forall p, (exists k, only_by p k fail_qs) \/ settled demo_blocks p fail_qs) /\ orderly fail_sched (f_init demo_blocks fail_qs) /\
  f_failed (f_run fail_sched (f_init demo_blocks fail_qs)) = [(0%nat, TWrite 1 6 [8; 9])] /\
  t_log (f_sys (f_run fail_sched (f_init demo_blocks fail_qs))) =
    [ (0%nat, TWrite 1 5 [7], TDone); (1%nat, TRead 0 9 3, TData [9; 10; 11]); (1%nat, TRead 0 12 1, TData [12]);
      (0%nat, TRead 1 5 3, TData [7; 0; 0]) ] /\
  map q_ops (t_conns (f_sys (f_run fail_sched (f_init demo_blocks fail_qs)))) = [[]; []; []].
Proof.
  split; [apply C84_demo|]. split; [apply C84_demo|].
  split; [repeat first [apply Forall_nil | apply Forall_cons]; unfold in_page, zlen; cbn [length Z.of_nat]; lia|].
  split. { intros p. left. exists (if (p =? 1)%Z then 0%nat else if (p =? 0)%Z then 1%nat else 2%nat). intros j q o Hj Ho <-.
    destruct j as [|[|[|j]]]; [| | |destruct j; discriminate Hj]; injection Hj as <-; cbn in Ho;
      repeat (destruct Ho as [<-|Ho]; [reflexivity|]); destruct Ho. }
  split; [apply orderlyb_ok; vm_compute; reflexivity|]. split; vm_compute; auto.
Qed.

Example C84_nothing_dropped_ex : nth_error fail_qs 0 = Some [TWrite 1 5 [7; 8; 9]; TRead 1 5 3] /\ covers (TWrite 1 5 [7; 8; 9]) 6 /\ ~ In (FEnd 0) fail_sched /\
  accounted (f_run fail_sched (f_init demo_blocks fail_qs)) 0 (TWrite 1 5 [7; 8; 9]) 6 /\ In (0%nat, TWrite 1 6 [8; 9]) (f_failed (f_run fail_sched (f_init demo_blocks fail_qs))).
Proof.
  assert (N : ~ In (FEnd 0) fail_sched) by (intros I; cbn in I; repeat (destruct I as [I|I]; [discriminate I|]); destruct I).
  assert (C : covers (TWrite 1 5 [7; 8; 9]) 6) by (unfold covers, zlen; cbn [length Z.of_nat]; lia).
  split; [reflexivity|]. split; [exact C|]. split; [exact N|]. split; [eapply C84_nothing_dropped; [reflexivity|now left|exact C|exact N]|]. vm_compute. now left.
Qed.

(** A process that ends between making a block file and giving it its size (through
    a signal, or since the disk is full) leaves an empty one: afterwards a READ of
    that page fails on every connection though no call does, also after somebody
    has written to it. *)
Definition ended_qs : list (list top) := [[TRead 1 0 1]; [TRead 1 0 1; TWrite 1 0 [7]; TRead 1 8 1]].
Theorem C84_ended_process_refuted : exists l, let f := f_run l (f_init demo_blocks ended_qs) in
  sane demo_blocks /\ holds demo_blocks demo_store /\ f_failed f = [] /\
  t_log (f_sys f) = [(1%nat, TRead 1 0 1, TFail); (1%nat, TWrite 1 0 [7], TDone); (1%nat, TRead 1 8 1, TFail)].
Proof.
  exists ([FStep 0; FStep 0; FEnd 0] ++ repeat (FStep 1) 6). cbv zeta. split; [apply C84_demo|]. split; [apply C84_demo|]. split; vm_compute; reflexivity.
Qed.
Print Assumptions C84_ended_process_refuted.

(** Every page for itself: what is done to a page that one connection works on, or
    that is there and that nobody discards, is right and lasts whatever happens to
    the others: connections may race for them and processes may end while making
    them. *)
Theorem C84_page_by_page_partial : forall p b qs s0 l,
  sane b -> holds_page b s0 p -> (forall q o, In q qs -> In o q -> page_of o = p -> in_page o) ->
  (exists k, only_by p k qs) \/ settled b p qs -> orderly_on p l (f_init b qs) ->
  let f := f_run l (f_init b qs) in
  explains s0 (on_page p (t_log (f_sys f))) /\
  ((forall c o, In c (t_conns (f_sys f)) -> In o (q_ops c) -> page_of o <> p) ->
     holds_page (t_blk (f_sys f)) (final s0 (on_page p (t_log (f_sys f)))) p).
Proof. exact one_page. Qed.
Print Assumptions C84_page_by_page_partial.

(** page 1 is left empty by the first connection and fails for the others, all race
    to discard and make page 2; what the second and third do to page 0 is right *)
Definition mixed_qs : list (list top) := [[TRead 1 0 1]; [TWrite 0 2 [7; 8]; TRead 1 0 1; TWrite 2 0 [5]]; [TTrim 2; TRead 0 1 4; TWrite 2 0 [6]]].
Definition mixed_sched : list fchoice := [FStep 0; FStep 0; FStep 1; FEnd 0; FStep 1; FStep 2; FStep 1; FStep 1; FStep 1; FStep 1; FStep 2; FStep 2; FStep 2; FStep 1; FStep 2; FStep 2; FStep 1; FStep 1; FStep 2; FStep 1].
Example C84_page_by_page_ex :
  sane demo_blocks /\ holds_page demo_blocks demo_store 0 /\ settled demo_blocks 0 mixed_qs /\
  (forall q o, In q mixed_qs -> In o q -> page_of o = 0 -> in_page o) /\
  orderly_on 0 mixed_sched (f_init demo_blocks mixed_qs) /\ ~ orderly mixed_sched (f_init demo_blocks mixed_qs) /\
  In (1%nat, TRead 1 0 1, TFail) (t_log (f_sys (f_run mixed_sched (f_init demo_blocks mixed_qs)))) /\
  on_page 0 (t_log (f_sys (f_run mixed_sched (f_init demo_blocks mixed_qs)))) = [(1%nat, TWrite 0 2 [7; 8], TDone); (2%nat, TRead 0 1 4, TData [1; 7; 8; 4])] /\
  map q_ops (t_conns (f_sys (f_run mixed_sched (f_init demo_blocks mixed_qs)))) = [[]; []; []].
Proof.
  split; [apply C84_demo|]. split; [apply C84_demo|].
  split. { split; [discriminate|]. intros q Hq Hi. cbn in Hq. repeat (destruct Hq as [<-|Hq]; [cbn in Hi; repeat (destruct Hi as [Hi|Hi]; [discriminate Hi|]); destruct Hi|]). destruct Hq. }
  split. { intros q o Hq Ho Hp. cbn in Hq. repeat (destruct Hq as [<-|Hq]; [cbn in Ho; repeat (destruct Ho as [<-|Ho]; [first [discriminate Hp|unfold in_page, zlen; cbn [length Z.of_nat]; lia]|]); destruct Ho|]). destruct Hq. }
  split. { unfold mixed_sched. cbn [orderly_on]. repeat split. intros c o rest i Hk Ho Hp. vm_compute in Hk. injection Hk as <-. injection Ho as <- <-. discriminate Hp. }
  split. { intros O. unfold mixed_sched in O. cbn [orderly] in O. destruct O as (_ & _ & _ & O & _). eapply O; [vm_compute; reflexivity|discriminate|reflexivity]. }
  vm_compute. repeat split; auto.
Qed.
