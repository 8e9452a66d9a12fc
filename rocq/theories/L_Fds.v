(** Lemmas for C83. *)
From Coq Require Import FinFun.
From Verif Require Import Base M_Fds S_Fds.
Local Open Scope list_scope.

Lemma is_open_spec fd l : is_open fd l = true <-> In fd l.
Proof.
  unfold is_open. rewrite existsb_exists. split.
  - intros (x & Hx & E). apply Z.eqb_eq in E. now subst.
  - intros H. exists fd. split; [exact H|]. apply Z.eqb_refl.
Qed.
Lemma is_open_no fd l : is_open fd l = false <-> ~ In fd l.
Proof. rewrite <- is_open_spec. destruct (is_open fd l); split; congruence. Qed.
Lemma lowest_from_spec l n : forall fd,
  fd <= lowest_from n fd l <= fd + Z.of_nat n /\
  (forall y, fd <= y < lowest_from n fd l -> In y l) /\
  (lowest_from n fd l < fd + Z.of_nat n -> ~ In (lowest_from n fd l) l).
Proof.
  induction n as [|n IH]; intros fd; cbn [lowest_from].
  { split; [lia|]. split; [intros; lia|intros; lia]. }
  destruct (is_open fd l) eqn:E.
  - destruct (IH (fd + 1)) as (H1 & H2 & H3). split; [lia|]. split.
    + intros y Hy. destruct (Z.eq_dec y fd) as [->|]; [now apply is_open_spec|apply H2; lia].
    + intros H. apply H3. lia.
  - split; [lia|]. split; [intros; lia|]. intros _. now apply is_open_no.
Qed.
Lemma upto_incl n l : (forall y, 0 <= y < Z.of_nat n -> In y l) -> incl (map Z.of_nat (seq 0 n)) l.
Proof. intros H x Hx. apply in_map_iff in Hx as (k & <- & Hk). apply in_seq in Hk. apply H. lia. Qed.
Lemma nodup_upto a n : NoDup (map Z.of_nat (seq a n)).
Proof. apply Injective_map_NoDup; [intros x y; lia|apply seq_NoDup]. Qed.
Lemma lowest_spec l : 0 <= lowest l <= Z.of_nat (length l) /\ (forall y, 0 <= y < lowest l -> In y l) /\ ~ In (lowest l) l.
Proof.
  unfold lowest. destruct (lowest_from_spec l (length l) 0) as (H1 & H2 & H3). split; [lia|]. split; [exact H2|].
  destruct (Z_lt_dec (lowest_from (length l) 0 l) (Z.of_nat (length l))) as [Hl|Hl]; [apply H3; lia|].
  assert (E : lowest_from (length l) 0 l = Z.of_nat (length l)) by lia. rewrite E in *. intros Hi.
  pose proof (upto_incl _ _ H2) as Hinc.
  assert (Hin : incl l (map Z.of_nat (seq 0 (length l)))).
  { apply NoDup_length_incl; [apply nodup_upto|rewrite map_length, seq_length; lia|exact Hinc]. }
  apply Hin in Hi. apply in_map_iff in Hi as (k & Ek & Hk). apply in_seq in Hk. lia.
Qed.
Lemma lowest_is l x : 0 <= x -> ~ In x l -> (forall y, 0 <= y < x -> In y l) -> lowest l = x.
Proof.
  intros H0 Hn Hy. destruct (lowest_spec l) as (H1 & H2 & H3).
  destruct (Z_lt_dec (lowest l) x) as [H|H]; [exfalso; apply H3, Hy; lia|].
  destruct (Z_lt_dec x (lowest l)) as [H'|H']; [exfalso; apply Hn, H2; lia|lia].
Qed.
Lemma close_in fd l x : In x (close_fd fd l) <-> In x l /\ x <> fd.
Proof. unfold close_fd. rewrite filter_In, negb_true_iff, Z.eqb_neq. tauto. Qed.
Lemma close_notin fd l : ~ In fd l -> close_fd fd l = l.
Proof.
  intros H. unfold close_fd. induction l as [|x t IH]; [reflexivity|]. cbn [filter]. cbn [In] in H.
  destruct (Z.eqb_spec x fd); [tauto|]. cbn [negb]. rewrite IH by tauto. reflexivity.
Qed.
Lemma close_hd fd l : close_fd fd (fd :: l) = close_fd fd l.
Proof. unfold close_fd. cbn [filter]. now rewrite Z.eqb_refl. Qed.
Lemma close_tl fd x l : x <> fd -> close_fd fd (x :: l) = x :: close_fd fd l.
Proof. intros H. unfold close_fd. cbn [filter]. destruct (Z.eqb_spec x fd); [congruence|reflexivity]. Qed.
Lemma nodup_close fd l : NoDup l -> NoDup (close_fd fd l).
Proof. apply NoDup_filter. Qed.
Lemma close_len fd l : NoDup l -> In fd l -> S (length (close_fd fd l)) = length l.
Proof.
  induction l as [|x t IH]; intros Hn Hi; [destruct Hi|]. apply NoDup_cons_iff in Hn as [Hx Hn].
  destruct (Z.eq_dec x fd) as [->|Hd].
  - rewrite close_hd, close_notin by exact Hx. reflexivity.
  - rewrite close_tl by exact Hd. cbn [length]. f_equal. apply IH; [exact Hn|]. destruct Hi; [congruence|assumption].
Qed.

(** ** room *)
(** [b] descriptors besides those of the children, all below [n] *)
Definition good (b : nat) (n : Z) (r : rootp) : Prop :=
  NoDup (o_fds r) /\ NoDup (o_child r) /\ incl (o_child r) (o_fds r) /\
  length (o_fds r) = (b + length (o_child r))%nat /\ Forall (fun x => 0 <= x < n) (o_fds r).
Lemma new_fd_room limit n l : Z.of_nat (length l) < n -> n <= limit -> exists fd, new_fd limit l = Some fd /\ ~ In fd l /\ 0 <= fd < n.
Proof.
  intros H1 H2. destruct (lowest_spec l) as (L1 & _ & L3). exists (lowest l). unfold new_fd.
  destruct (Z.ltb_spec (lowest l) limit); [|lia]. repeat split; try lia. exact L3.
Qed.
Lemma accept_good limit b n ok r : good b n r -> n <= limit -> Z.of_nat b + zlen (o_child r) + 3 <= n ->
  exists r', accept_one limit ok r = FdOk r' ok /\ good b n r' /\ zlen (o_child r') = zlen (o_child r) + (if ok then 1 else 0).
Proof.
  intros (N1 & N2 & Hi & Hl & Hf) Hn Hr. unfold zlen in *. unfold accept_one.
  destruct (new_fd_room limit n (o_fds r)) as (net & -> & E1 & R1); [lia|exact Hn|].
  destruct (new_fd_room limit n (net :: o_fds r)) as (s0 & -> & E2 & R2); [cbn [length]; lia|exact Hn|].
  destruct (new_fd_room limit n (s0 :: net :: o_fds r)) as (s1 & -> & E3 & R3); [cbn [length]; lia|exact Hn|].
  cbn [In] in E2, E3.
  assert (C1 : close_fd net (close_fd s0 (s1 :: s0 :: net :: o_fds r)) = s1 :: o_fds r).
  { rewrite close_tl, close_hd, (close_tl s0 net), (close_notin s0) by intuition congruence. rewrite close_tl, close_hd, close_notin by intuition congruence. reflexivity. }
  assert (C2 : close_fd net (close_fd s1 (close_fd s0 (s1 :: s0 :: net :: o_fds r))) = o_fds r).
  { rewrite (close_tl s0 s1), (close_hd s0), (close_tl s0 net), (close_notin s0) by intuition congruence. rewrite close_hd, (close_tl s1), (close_notin s1) by intuition congruence.
    rewrite close_hd, close_notin by intuition congruence. reflexivity. }
  destruct ok.
  - rewrite C1. eexists. split; [reflexivity|]. cbn [o_child]. split; [|rewrite app_length; cbn [length]; lia].
    assert (Hs : ~ In s1 (o_child r)) by (intros X; apply Hi in X; tauto).
    unfold good. cbn [o_fds o_child]. split; [constructor; tauto|]. split.
    { rewrite <- (rev_involutive (o_child r ++ [s1])). apply NoDup_rev. rewrite rev_app_distr. cbn. constructor; [now rewrite <- in_rev|now apply NoDup_rev]. }
    split; [intros x Hx; apply in_app_or in Hx as [Hx|[<-|[]]]; [right; now apply Hi|now left]|].
    split; [rewrite app_length; cbn [length]; lia|]. constructor; [exact R3|exact Hf].
  - rewrite C2. eexists. split; [reflexivity|]. cbn [o_child]. split; [unfold good; cbn [o_fds o_child]; tauto|lia].
Qed.
Lemma accept_all_good limit b n l : forall r k, good b n r -> n <= limit -> Z.of_nat b + zlen (o_child r) + zlen l + 2 <= n ->
  exists r', accept_all limit l r k = Some (r', k + length (filter (fun ok => ok) l))%nat /\ good b n r'.
Proof.
  induction l as [|ok l IH]; intros r k Hg Hn Hr; cbn [accept_all].
  { exists r. cbn [filter length]. now rewrite Nat.add_0_r. }
  unfold zlen in Hr. cbn [length] in Hr. destruct (accept_good limit b n ok r Hg Hn) as (r1 & -> & Hg1 & L1); [unfold zlen; lia|].
  unfold zlen in L1. destruct (IH r1 (if ok then S k else k) Hg1 Hn) as (r2 & -> & Hg2).
  { unfold zlen. destruct ok; lia. }
  exists r2. split; [|exact Hg2]. do 2 f_equal. cbn [filter]. destruct ok; cbn [length]; lia.
Qed.
Lemma close_one_good b n r fd : good b n r -> good b n (close_one r fd).
Proof.
  intros (N1 & N2 & Hi & Hl & Hf). unfold close_one. destruct (is_open fd (o_child r)) eqn:E; [|unfold good; tauto].
  apply is_open_spec in E. unfold good. cbn [o_fds o_child].
  split; [now apply nodup_close|]. split; [now apply nodup_close|].
  split; [intros x; rewrite !close_in; intros [X1 X2]; split; [now apply Hi|exact X2]|].
  pose proof (close_len fd _ N1 (Hi _ E)). pose proof (close_len fd _ N2 E). split; [lia|].
  rewrite Forall_forall in *. intros x Hx. apply close_in in Hx as [Hx _]. auto.
Qed.
Lemma close_all_good b n l : forall r, good b n r -> good b n (fold_left close_one l r).
Proof. induction l as [|fd l IH]; intros r H; [exact H|]. cbn [fold_left]. apply IH, close_one_good, H. Qed.
Lemma round_good limit b n w r : good b n r -> n <= limit -> n <= 1024 -> Z.of_nat b + zlen (o_child r) + zlen (w_conns w) + 2 <= n ->
  exists r', one_round limit w r = Some (r', length (filter (fun ok => ok) (w_conns w))) /\ good b n r'.
Proof.
  intros Hg Hn Hs Hr. unfold one_round.
  assert (forallb can_set (o_child r) = true) as ->.
  { apply forallb_forall. intros x Hx. destruct Hg as (_ & _ & Hi & _ & Hf). rewrite Forall_forall in Hf. specialize (Hf x (Hi x Hx)). unfold can_set. lia. }
  destruct (accept_all_good limit b n (w_conns w) r 0 Hg Hn Hr) as (r1 & -> & Hg1).
  assert (forallb can_set (o_child r1) = true) as ->.
  { apply forallb_forall. intros x Hx. destruct Hg1 as (_ & _ & Hi & _ & Hf). rewrite Forall_forall in Hf. specialize (Hf x (Hi x Hx)). unfold can_set. lia. }
  eexists. split; [reflexivity|]. now apply close_all_good.
Qed.
Lemma rounds_app limit l1 l2 : forall r, rounds limit (l1 ++ l2) r = match rounds limit l1 r with Some r' => rounds limit l2 r' | None => None end.
Proof. induction l1 as [|w l1 IH]; intros r; [reflexivity|]. cbn [rounds app]. destruct (one_round limit w r) as [[r' k]|]; [apply IH|reflexivity]. Qed.
Lemma good0 b n : Z.of_nat b <= n -> good b n (root0 b).
Proof.
  intros H. unfold good, root0. cbn [o_fds o_child]. split; [apply nodup_upto|]. split; [constructor|]. split; [intros x []|].
  split; [rewrite map_length, seq_length; cbn; lia|]. apply Forall_forall. intros x Hx. apply in_map_iff in Hx as (k & <- & Hk). apply in_seq in Hk. lia.
Qed.
Lemma rounds_good limit b l : roomy limit b l -> Z.of_nat b <= Z.min limit 1024 ->
  exists r, rounds limit l (root0 b) = Some r /\ good b (Z.min limit 1024) r.
Proof.
  induction l as [|w l IH] using rev_ind; intros Hr Hb.
  { exists (root0 b). split; [reflexivity|]. now apply good0. }
  destruct IH as (r & E & Hg); [|exact Hb|].
  { intros l1 w' l2 r -> Hx. apply (Hr l1 w' (l2 ++ [w])); [now rewrite <- app_assoc|exact Hx]. }
  specialize (Hr l w [] r eq_refl E). destruct (round_good limit b (Z.min limit 1024) w r Hg) as (r' & E' & Hg'); try lia.
  exists r'. split; [|exact Hg']. rewrite rounds_app, E. cbn [rounds]. now rewrite E'.
Qed.

(** ** no room *)
Definition filled (b k : Z) (r : rootp) : Prop :=
  (forall x, In x (o_fds r) <-> 0 <= x < b \/ b + 2 <= x < b + 2 + k) /\
  (forall x, In x (o_child r) <-> b + 2 <= x < b + 2 + k).
Lemma filled_new limit b k r : 0 <= b -> 0 <= k -> filled b k r -> b + 1 < limit ->
  accept_one limit true r = if b + 2 + k <? limit then
    FdOk (mkRoot (close_fd b (close_fd (b + 1) (b + 2 + k :: b + 1 :: b :: o_fds r))) (o_child r ++ [b + 2 + k])) true else FdUb.
Proof.
  intros Hb Hk [Hf Hc] Hl. unfold accept_one, new_fd.
  rewrite (lowest_is (o_fds r) b) by first [lia | rewrite Hf; lia | intros y Hy; apply Hf; lia | cbn [In]; rewrite Hf; lia | intros y Hy; cbn [In]; rewrite Hf; lia].
  destruct (Z.ltb_spec b limit); [|lia].
  rewrite (lowest_is (b :: o_fds r) (b + 1)) by first [lia | rewrite Hf; lia | intros y Hy; apply Hf; lia | cbn [In]; rewrite Hf; lia | intros y Hy; cbn [In]; rewrite Hf; lia].
  destruct (Z.ltb_spec (b + 1) limit); [|lia].
  rewrite (lowest_is (b + 1 :: b :: o_fds r) (b + 2 + k)) by first [lia | rewrite Hf; lia | intros y Hy; apply Hf; lia | cbn [In]; rewrite Hf; lia | intros y Hy; cbn [In]; rewrite Hf; lia].
  destruct (b + 2 + k <? limit); reflexivity.
Qed.
Lemma filled_step limit b k r : 0 <= b -> 0 <= k -> filled b k r -> b + 2 + k < limit -> b + 2 + k < 1024 ->
  exists r', one_round limit silent r = Some (r', 1%nat) /\ filled b (k + 1) r'.
Proof.
  intros Hb Hk Hfl Hl Hs. unfold one_round, silent. cbn [w_conns w_gone accept_all fold_left].
  assert (forallb can_set (o_child r) = true) as ->.
  { apply forallb_forall. intros x Hx. destruct Hfl as [_ Hc]. apply Hc in Hx. unfold can_set. lia. }
  rewrite (filled_new limit b k r Hb Hk Hfl) by lia. destruct (Z.ltb_spec (b + 2 + k) limit); [|lia].
  cbn [o_child]. assert (forallb can_set (o_child r ++ [b + 2 + k]) = true) as ->.
  { apply forallb_forall. intros x Hx. destruct Hfl as [_ Hc]. apply in_app_iff in Hx as [Hx|[<-|[]]]; [apply Hc in Hx|]; unfold can_set; lia. }
  eexists. split; [reflexivity|]. destruct Hfl as [Hf Hc]. split; intros x; cbn [o_fds o_child].
  - rewrite !close_in. cbn [In]. rewrite Hf. lia.
  - rewrite in_app_iff. cbn [In]. rewrite Hc. lia.
Qed.
Lemma filled_many limit b n : 0 <= b -> forall k r, 0 <= k -> filled b k r -> b + 1 + k + Z.of_nat n < limit -> b + 1 + k + Z.of_nat n < 1024 ->
  exists r', rounds limit (repeat silent n) r = Some r' /\ filled b (k + Z.of_nat n) r'.
Proof.
  intros Hb. induction n as [|n IH]; intros k r Hk Hf Hl Hs.
  { exists r. split; [reflexivity|]. now rewrite Z.add_0_r. }
  cbn [repeat rounds]. destruct (filled_step limit b k r Hb Hk Hf) as (r1 & -> & Hf1); try lia.
  destruct (IH (k + 1) r1) as (r2 & E2 & Hf2); try lia; [exact Hf1|]. exists r2. split; [exact E2|].
  replace (k + Z.of_nat (S n)) with (k + 1 + Z.of_nat n) by lia. exact Hf2.
Qed.
Lemma filled0 b : filled (Z.of_nat b) 0 (root0 b).
Proof.
  split; intros x; unfold root0; cbn [o_fds o_child]; [|cbn; lia]. rewrite in_map_iff. split.
  - intros (k & <- & Hk). apply in_seq in Hk. lia.
  - intros H. exists (Z.to_nat x). split; [lia|]. apply in_seq. lia.
Qed.
Lemma silent_ub limit b n : Z.of_nat b + 2 <= limit -> Z.of_nat b + 2 <= 1024 ->
  Z.of_nat b + 1 + Z.of_nat n = Z.min limit 1024 -> rounds limit (repeat silent n) (root0 b) = None /\
  (forall m, (m < n)%nat -> rounds limit (repeat silent m) (root0 b) <> None).
Proof.
  intros H1 H2 Hn. assert (Hlt : forall m, (m < n)%nat -> exists r, rounds limit (repeat silent m) (root0 b) = Some r /\ filled (Z.of_nat b) (Z.of_nat m) r).
  { intros m Hm. destruct (filled_many limit (Z.of_nat b) m ltac:(lia) 0 (root0 b)) as (r & E & Hf); try lia; [apply filled0|]. exists r. now rewrite Z.add_0_l in Hf. }
  split; [|intros m Hm; destruct (Hlt m Hm) as (r & -> & _); discriminate].
  destruct n as [|n]; [lia|]. destruct (Hlt n ltac:(lia)) as (r & E & Hf).
  replace (repeat silent (S n)) with (repeat silent n ++ [silent]) by (rewrite <- repeat_cons; reflexivity).
  rewrite rounds_app, E. cbn [rounds]. unfold one_round. destruct (forallb can_set (o_child r)) eqn:Ec; [|reflexivity].
  cbn [silent w_conns accept_all]. rewrite (filled_new limit (Z.of_nat b) (Z.of_nat n) r) by first [lia | exact Hf].
  destruct (Z.ltb_spec (Z.of_nat b + 2 + Z.of_nat n) limit) as [Hl|Hl]; [|reflexivity]. cbn [o_child].
  replace (forallb can_set (o_child r ++ [Z.of_nat b + 2 + Z.of_nat n])) with false; [reflexivity|].
  rewrite forallb_app. cbn [forallb]. unfold can_set at 2. replace (Z.of_nat b + 2 + Z.of_nat n <? 1024) with false by lia. now rewrite !andb_false_r.
Qed.
