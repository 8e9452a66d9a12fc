(** Lemmas about several connections to one tree export without any restriction
    on the pages they share. *)
From Verif Require Import Base M_Const M_Disk M_TreeMulti S_TreeMulti L_TreeMulti.
Local Open Scope list_scope.

Section Any.
Variable s0 : store.
Variable qs : list (list top).
Hypothesis HQ : Forall (Forall in_page) qs.

Definition bytes_ok (p off : Z) (a : list Z) : Prop := forall j, 0 <= j < zlen a -> could_be s0 qs p (off + j) (znth 0 a j).
Definition file_ok (p : Z) (f : file) : Prop := forall j, 0 <= j < 4096 -> could_be s0 qs p j (frd f j).
Definition conn_ok (own : nat -> Z -> Prop) (c : tconn) : Prop :=
  (exists q, In q qs /\ incl (q_ops c) q) /\
  match q_ops c with
  | [] => True
  | o :: _ =>
      match q_pc c with AtMade i | AtOpened i => own i (page_of o) | _ => True end /\
      match o with TRead p off n => zlen (q_acc c) <= n /\ bytes_ok p off (q_acc c) | _ => q_acc c = [] end
  end.
Definition blk_ok (own : nat -> Z -> Prop) (b : blocks) : Prop :=
  (forall p i, d_dir b p = Some i -> own i p) /\
  (forall i p, own i p -> (i < d_next b)%nat /\ file_ok p (d_ino b i)) /\
  (forall i p p', own i p -> own i p' -> p = p').
Definition log_ok (e : nat * top * tres) : Prop :=
  match e with
  | (_, TRead p off n, TData d) => zlen d = n /\ bytes_ok p off d
  | (_, TRead _ _ _, TDone) => False
  | (_, TRead _ _ _, TFail) => True
  | (_, _, r) => r = TDone
  end.
Definition any_ok (t : tsys) : Prop :=
  exists own, blk_ok own (t_blk t) /\ (forall c, In c (t_conns t) -> conn_ok own c) /\ Forall log_ok (t_log t).

Lemma op_in_page q o : In q qs -> In o q -> in_page o.
Proof. intros H1 H2. rewrite Forall_forall in HQ. specialize (HQ q H1). rewrite Forall_forall in HQ. exact (HQ o H2). Qed.

Lemma znth_app_l (a b : list Z) j : 0 <= j < zlen a -> znth 0 (a ++ b) j = znth 0 a j.
Proof. intros H. unfold znth, zlen in *. apply app_nth1. lia. Qed.
Lemma znth_app_r (a b : list Z) j : zlen a <= j -> znth 0 (a ++ b) j = znth 0 b (j - zlen a).
Proof.
  intros H. unfold znth, zlen in *.
  rewrite app_nth2 by lia. f_equal. lia.
Qed.
Lemma zlen_app' (a b : list Z) : zlen (a ++ b) = zlen a + zlen b.
Proof. unfold zlen. rewrite app_length. lia. Qed.

Lemma bytes_more p off a f m : file_ok p f -> 0 <= off -> 0 <= m -> off + zlen a + m <= 4096 ->
  bytes_ok p off a -> bytes_ok p off (a ++ slice (frd f) (off + zlen a) m).
Proof.
  intros Hf H0 Hm Hr Ha j Hj. assert (Hz : zlen a >= 0) by (unfold zlen; lia). destruct (Z.lt_ge_cases j (zlen a)) as [L|L].
  - rewrite znth_app_l by lia. apply Ha. lia.
  - rewrite znth_app_r by lia. rewrite zlen_app', slice_zlen in Hj by lia. rewrite slice_znth by lia.
    replace (off + zlen a + (j - zlen a)) with (off + j) by lia. apply Hf. lia.
Qed.

Lemma file_write p off d f q : In q qs -> In (TWrite p off d) q -> file_ok p f -> file_ok p (fwrite f off (zlen d) (fun j => znth 0 d j)).
Proof.
  intros H1 H2 Hf j Hj. pose proof (op_in_page _ _ H1 H2) as [A B]. assert (Hz : 0 <= zlen d) by (unfold zlen; lia).
  destruct (Z.lt_ge_cases j (Z.max (fsize f) (off + zlen d))) as [L|L].
  - rewrite frd_fwrite by lia. destruct ((off <=? j) && (j <? off + zlen d)) eqn:E; [|exact (Hf j Hj)].
    right. right. exists q, off, d. split; [exact H1|]. split; [exact H2|]. split; [lia|reflexivity].
  - left. unfold frd, fwrite. cbn [fsize fdata]. destruct (Z.ltb_spec j (Z.max (fsize f) (off + zlen d))); [lia|]. now rewrite andb_false_r.
Qed.
Lemma file_grow p f : file_ok p f -> file_ok p (fwrite f (TREEPAGESIZE - 1) 1 (fun _ => 0)).
Proof.
  intros Hf j Hj. unfold TREEPAGESIZE. destruct (Z.lt_ge_cases j (Z.max (fsize f) (4096 - 1 + 1))) as [L|L]; [|lia].
  rewrite frd_fwrite by lia. destruct ((4096 - 1 <=? j) && (j <? 4096 - 1 + 1)); [now left|exact (Hf j Hj)].
Qed.

Lemma in_put cs k c c0 x : nth_error cs k = Some c0 -> In x (put_conn cs k c) -> x = c \/ In x cs.
Proof.
  intros Hk. unfold put_conn. rewrite in_app_iff. intros [H|[H|H]]; [right|left|right].
  - rewrite <- (firstn_skipn k cs). apply in_app_iff. now left.
  - congruence.
  - rewrite <- (firstn_skipn (S k) cs). apply in_app_iff. now right.
Qed.
Lemma conn_mono (own own' : nat -> Z -> Prop) c : (forall i p, own i p -> own' i p) -> conn_ok own c -> conn_ok own' c.
Proof.
  intros H [A B]. split; [exact A|]. destruct (q_ops c) as [|o r]; [exact I|]. destruct B as [B1 B2]. split; [|exact B2].
  destruct (q_pc c); auto.
Qed.

(** the outcome of a step that leaves the files as they are *)
Lemma ok_go own t k c c' : blk_ok own (t_blk t) -> (forall c, In c (t_conns t) -> conn_ok own c) -> Forall log_ok (t_log t) ->
  nth_error (t_conns t) k = Some c -> conn_ok own c' -> any_ok (mkTs (t_blk t) (put_conn (t_conns t) k c') (t_log t)).
Proof.
  intros H1 H2 H3 Hk Hc. exists own. cbn [t_blk t_conns t_log]. split; [exact H1|]. split; [|exact H3].
  intros x Hx. destruct (in_put _ _ _ _ _ Hk Hx) as [->|Hx']; auto.
Qed.
Lemma ok_ino own b i p f : blk_ok own b -> own i p -> file_ok p f -> blk_ok own (set_ino i f b).
Proof.
  intros (A & B & C) Ho Hf. split; [exact A|]. split; [|exact C]. intros j p' Hj. split; [exact (proj1 (B j p' Hj))|].
  cbn [set_ino d_ino]. destruct (Nat.eqb_spec j i) as [->|N]; [|exact (proj2 (B j p' Hj))]. now rewrite (C i p' p Hj Ho).
Qed.
Lemma ok_next own c o rest : conn_ok own c -> q_ops c = o :: rest -> conn_ok own (mkTc rest AtStart []).
Proof.
  intros [(q & Hq & Hi) _] E. rewrite E in Hi. split; [exists q; split; [exact Hq|]; intros x Hx; apply Hi; now right|].
  cbn [q_ops q_pc q_acc]. destruct rest as [|o2 r2]; [exact I|]. split; [exact I|]. destruct o2 as [| p off n|]; try reflexivity.
  assert (P : in_page (TRead p off n)) by (apply (op_in_page q); [exact Hq|apply Hi; right; now left]). cbn in P.
  split; [unfold zlen; cbn; lia|]. intros j Hj. unfold zlen in Hj. cbn in Hj. lia.
Qed.

Lemma any_step k t : any_ok t -> any_ok (t_step k t).
Proof.
  intros (own & HB & HC & HL). pose proof (ex_intro _ own (conj HB (conj HC HL)) : any_ok t) as H0.
  unfold t_step. destruct (nth_error (t_conns t) k) as [c|] eqn:Hk; [|exact H0].
  destruct (q_ops c) as [|o rest] eqn:Ho; [exact H0|]. cbv zeta.
  pose proof (HC c (nth_error_In _ _ Hk)) as Hc. pose proof Hc as [(q & Hq & Hi) Hpc]. rewrite Ho in Hi, Hpc. destruct Hpc as [Hpc Hacc].
  assert (Hoq : In o q) by (apply Hi; now left). pose proof (op_in_page q o Hq Hoq) as HP. pose proof HB as (B1 & B2 & B3).
  assert (FIN : forall b r, blk_ok own b -> log_ok (k, o, r) ->
     any_ok (mkTs b (put_conn (t_conns t) k (mkTc rest AtStart [])) (t_log t ++ [(k, o, r)]))).
  { intros b r Hb Hr. exists own. cbn [t_blk t_conns t_log]. split; [exact Hb|]. split.
    - intros x Hx. destruct (in_put _ _ _ _ _ Hk Hx) as [->|Hx']; [exact (ok_next own c o rest Hc Ho)|auto].
    - apply Forall_app. split; [exact HL|]. constructor; [exact Hr|constructor]. }
  assert (GO : forall pc, match pc with AtMade i | AtOpened i => own i (page_of o) | _ => True end -> conn_ok own (mkTc (o :: rest) pc (q_acc c))).
  { intros pc Hpc'. split; [exists q; split; assumption|]. cbn [q_ops q_pc q_acc]. split; assumption. }
  assert (AS : any_ok (mkTs (t_blk t) (put_conn (t_conns t) k
      (mkTc (o :: rest) match d_dir (t_blk t) (page_of o) with Some i => AtOpened i | None => AtMissing end (q_acc c))) (t_log t))).
  { apply (ok_go own t k c _ HB HC HL Hk). apply GO. destruct (d_dir (t_blk t) (page_of o)) as [i|] eqn:E; [exact (B1 _ _ E)|exact I]. }
  assert (AM : any_ok (match d_dir (t_blk t) (page_of o) with
     | Some i => mkTs (t_blk t) (put_conn (t_conns t) k (mkTc (o :: rest) (AtMade i) (q_acc c))) (t_log t)
     | None => mkTs (mkBlk (fun q0 => if q0 =? page_of o then Some (d_next (t_blk t)) else d_dir (t_blk t) q0)
          (fun j => if Nat.eqb j (d_next (t_blk t)) then mkFile 0 (fun _ => 0) else d_ino (t_blk t) j) (S (d_next (t_blk t))))
          (put_conn (t_conns t) k (mkTc (o :: rest) (AtMade (d_next (t_blk t))) (q_acc c))) (t_log t) end)).
  { destruct (d_dir (t_blk t) (page_of o)) as [i|] eqn:E.
    - apply (ok_go own t k c _ HB HC HL Hk). apply GO. exact (B1 _ _ E).
    - set (n := d_next (t_blk t)) in *. exists (fun i p => own i p \/ (i = n /\ p = page_of o)). cbn [t_blk t_conns t_log].
      split; [split; [|split]|split; [|exact HL]]; cbn [d_dir d_ino d_next].
      + intros p i. destruct (Z.eqb_spec p (page_of o)) as [->|N]; [intros [= <-]; now right|]. intros H. left. exact (B1 _ _ H).
      + intros i p [H|[-> ->]].
        * destruct (B2 i p H) as [L F]. fold n in L. split; [lia|]. destruct (Nat.eqb_spec i n); [lia|exact F].
        * split; [lia|]. rewrite Nat.eqb_refl. intros j Hj. left. unfold frd. cbn [fsize fdata]. now destruct ((0 <=? j) && (j <? 0)).
      + intros i p p' [H|[-> ->]] [H'|[H1' ->]]; [exact (B3 _ _ _ H H')| | |reflexivity].
        * subst i. destruct (B2 n p H) as [L _]. fold n in L. lia.
        * destruct (B2 n p' H') as [L _]. fold n in L. lia.
      + intros x Hx. destruct (in_put _ _ _ _ _ Hk Hx) as [->|Hx'].
        * split; [exists q; split; assumption|]. cbn [q_ops q_pc q_acc]. split; [now right|exact Hacc].
        * apply (conn_mono own); [intros; now left|auto]. }
  assert (MK : forall i, own i (page_of o) -> any_ok (mkTs (set_ino i (fwrite (d_ino (t_blk t) i) (TREEPAGESIZE - 1) 1 (fun _ => 0)) (t_blk t))
      (put_conn (t_conns t) k (mkTc (o :: rest) (AtOpened i) (q_acc c))) (t_log t))).
  { intros i Hown. exists own. cbn [t_blk t_conns t_log]. split; [|split; [|exact HL]].
    - apply (ok_ino own _ i (page_of o)); [exact HB|exact Hown|]. apply file_grow. exact (proj2 (B2 _ _ Hown)).
    - intros x Hx. destruct (in_put _ _ _ _ _ Hk Hx) as [->|Hx']; [exact (GO (AtOpened i) Hown)|auto]. }
  destruct o as [p off d|p off n|p].
  - destruct (q_pc c) as [| |i|i]; cbn [page_of] in *.
    + exact AS.
    + exact AM.
    + exact (MK i Hpc).
    + apply FIN; [|reflexivity]. apply (ok_ino own _ i p); [exact HB|exact Hpc|].
      apply (file_write p off d _ q Hq Hoq). exact (proj2 (B2 _ _ Hpc)).
  - destruct (q_pc c) as [| |i|i]; cbn [page_of] in *.
    + exact AS.
    + exact AM.
    + exact (MK i Hpc).
    + destruct Hacc as [HA1 HA2]. cbn [in_page] in HP. set (f := d_ino (t_blk t) i). assert (Hf : file_ok p f) by exact (proj2 (B2 _ _ Hpc)).
      set (m := Z.max 0 (Z.min (n - zlen (q_acc c)) (fsize f - (off + zlen (q_acc c))))).
      assert (Hm : 0 <= m <= n - zlen (q_acc c)) by lia. clearbody m.
      destruct (Z.leb_spec (n - zlen (q_acc c)) 0); [apply FIN; [exact HB|split; [lia|exact HA2]]|].
      destruct (Z.leb_spec m 0); [apply FIN; [exact HB|exact I]|].
      assert (HN : bytes_ok p off (q_acc c ++ slice (frd f) (off + zlen (q_acc c)) m)) by (apply bytes_more; [exact Hf|lia|lia|lia|exact HA2]).
      destruct (Z.eqb_spec m (n - zlen (q_acc c))) as [E|N].
      * apply FIN; [exact HB|]. split; [|exact HN]. rewrite zlen_app', slice_zlen by lia. lia.
      * apply (ok_go own t k c _ HB HC HL Hk). split; [exists q; split; assumption|]. cbn [q_ops q_pc q_acc]. split; [exact I|].
        split; [|exact HN]. rewrite zlen_app', slice_zlen by lia. lia.
  - assert (any_ok (mkTs (set_dir p None (t_blk t)) (put_conn (t_conns t) k (mkTc rest AtStart [])) (t_log t ++ [(k, TTrim p, TDone)]))).
    { apply FIN; [|reflexivity]. split; [|split; assumption]. intros x i. cbn [set_dir d_dir]. destruct (x =? p); [discriminate|apply B1]. }
    destruct (q_pc c); exact H.
Qed.
Lemma any_run l : forall t, any_ok t -> any_ok (t_run l t).
Proof. induction l as [|k l IH]; intros t H; [exact H|]. unfold t_run. cbn [fold_left]. apply IH. now apply any_step. Qed.
Lemma any_init b : sane b -> holds b s0 -> any_ok (t_init b qs).
Proof.
  intros [S1 S2] Hh. exists (fun i p => d_dir b p = Some i). cbn [t_init t_blk t_conns t_log]. split; [split; [auto|split]|split; [|constructor]].
  - intros i p H. split; [exact (S1 _ _ H)|]. specialize (Hh p). unfold holds_page in Hh. rewrite H in Hh. destruct Hh as [_ Hh].
    intros j Hj. right. left. exact (Hh j Hj).
  - intros i p p' H H'. exact (S2 _ _ _ H H').
  - intros c Hc. apply in_map_iff in Hc. destruct Hc as (q & <- & Hq). split; [exists q; split; [exact Hq|apply incl_refl]|].
    cbn [q_ops q_pc q_acc]. destruct q as [|o r]; [exact I|]. split; [exact I|]. destruct o as [|p off n|]; try reflexivity.
    pose proof (op_in_page _ (TRead p off n) Hq (or_introl eq_refl)) as P. cbn in P.
    split; [unfold zlen; cbn; lia|]. intros j Hj. unfold zlen in Hj. cbn in Hj. lia.
Qed.
End Any.

Lemma never_invents b qs s0 l : sane b -> holds b s0 -> Forall (Forall in_page) qs ->
  let t := t_run l (t_init b qs) in
  (forall k p off n d, In (k, TRead p off n, TData d) (t_log t) ->
     zlen d = n /\ forall j, 0 <= j < n -> could_be s0 qs p (off + j) (znth 0 d j)) /\
  (forall p i, d_dir (t_blk t) p = Some i -> forall j, 0 <= j < 4096 -> could_be s0 qs p j (frd (d_ino (t_blk t) i) j)) /\
  (forall k o r, In (k, o, r) (t_log t) -> match o with TRead _ _ _ => r <> TDone | _ => r = TDone end).
Proof.
  intros Hs Hh HQ t. destruct (any_run s0 qs HQ l _ (any_init s0 qs HQ b Hs Hh)) as (own & (B1 & B2 & B3) & _ & HL).
  fold t in B1, B2, HL. rewrite Forall_forall in HL. split; [|split].
  - intros k p off n d H. specialize (HL _ H). cbn in HL. destruct HL as [L1 L2]. split; [exact L1|]. rewrite <- L1. exact L2.
  - intros p i H j Hj. exact (proj2 (B2 _ _ (B1 _ _ H)) j Hj).
  - intros k o r H. specialize (HL _ H). destruct o; cbn in HL; [exact HL| |exact HL]. destruct r; [destruct HL|discriminate|discriminate].
Qed.
