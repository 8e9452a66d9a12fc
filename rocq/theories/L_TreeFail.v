(** Lemmas for tree exports with failing calls. *)
From Verif Require Import Base M_Const M_Disk M_TreeMulti S_TreeMulti L_TreeMulti M_TreeFail S_TreeFail.
Local Open Scope list_scope.

(** replacing the queue of a process *)
Lemma edit_inv b cs s k c c' : inv b cs s -> nth_error cs k = Some c ->
  (forall o', In o' (q_ops c') -> exists o, In o (q_ops c) /\ page_of o = page_of o' /\ (forall p, o' = TTrim p -> o = TTrim p)) ->
  (forall p, made_at c p -> made_at c' p) -> pc_ok b s c' -> inv b (put_conn cs k c') s.
Proof.
  intros (I1 & I2 & I3) Hk Hq Hm Hp.
  assert (Hget : forall j x, nth_error (put_conn cs k c') j = Some x -> (j = k /\ x = c') \/ (j <> k /\ nth_error cs j = Some x)).
  { intros j x Hx. destruct (Nat.eq_dec j k) as [->|N]; [left; split; [reflexivity|]; rewrite (put_same _ _ _ _ Hk) in Hx; congruence|].
    right. split; [exact N|]. now rewrite (put_other _ _ _ _ _ Hk N) in Hx. }
  split; [exact I1|]. split.
  - intros p. destruct (I2 p) as [(A & B & C)|(k0 & A & B)].
    + left. split; [exact A|]. split; [|exact C]. intros j x Hx Hin. destruct (Hget j x Hx) as [[-> ->]|[N Hx']]; [|exact (B j x Hx' Hin)].
      destruct (Hq _ Hin) as (o & H1 & _ & H2). apply (B k c Hk). rewrite <- (H2 p eq_refl). exact H1.
    + right. exists k0. split.
      * intros j x o Hx Hin Hpo. destruct (Hget j x Hx) as [[-> ->]|[N Hx']]; [|exact (A j x o Hx' Hin Hpo)].
        destruct (Hq _ Hin) as (o2 & H1 & H2 & _). apply (A k c o2 Hk H1). congruence.
      * destruct B as [B|(x & Hx & M)]; [now left|]. right. destruct (Nat.eq_dec k0 k) as [->|N].
        -- rewrite Hk in Hx. injection Hx as <-. exists c'. split; [apply (put_same _ _ _ _ Hk)|auto].
        -- exists x. split; [now rewrite (put_other _ _ _ _ _ Hk N)|exact M].
  - intros j x Hx. destruct (Hget j x Hx) as [[-> ->]|[N Hx']]; [exact Hp|exact (I3 j x Hx')].
Qed.
Lemma sim_edit s0 t k c c' : sim s0 t -> nth_error (t_conns t) k = Some c ->
  (forall o', In o' (q_ops c') -> exists o, In o (q_ops c) /\ page_of o = page_of o' /\ (forall p, o' = TTrim p -> o = TTrim p)) ->
  (forall p, made_at c p -> made_at c' p) -> pc_ok (t_blk t) (final s0 (t_log t)) c' ->
  sim s0 (mkTs (t_blk t) (put_conn (t_conns t) k c') (t_log t)).
Proof. intros [A B] Hk Hq Hm Hp. split; [exact A|]. cbn [t_blk t_conns t_log]. eapply edit_inv; eauto. Qed.

Lemma zlen_first m (d : list Z) : 0 < m < zlen d -> zlen (firstn (Z.to_nat m) d) = m.
Proof. intros H. unfold zlen in *. rewrite firstn_length_le by lia. lia. Qed.
Lemma zlen_skip m (d : list Z) : 0 < m < zlen d -> zlen (skipn (Z.to_nat m) d) = zlen d - m.
Proof. intros H. unfold zlen in *. rewrite skipn_length. lia. Qed.

Lemma halves_spec m o o1 o2 : halves m o = Some (o1, o2) -> page_of o1 = page_of o /\ page_of o2 = page_of o /\
  (in_page o -> in_page o1 /\ in_page o2) /\ (forall p, o1 <> TTrim p) /\ (forall p, o2 <> TTrim p) /\ (forall p, o <> TTrim p).
Proof.
  destruct o as [p off d|p off n|p]; cbn [halves]; [| |discriminate].
  - destruct ((0 <? m) && (m <? zlen d)) eqn:E; [|discriminate]. intros H; injection H as <- <-.
    split; [reflexivity|]. split; [reflexivity|]. split; [|repeat split; discriminate].
    cbn [in_page]. rewrite zlen_first, zlen_skip by lia. lia.
  - destruct ((0 <? m) && (m <? n)) eqn:E; [|discriminate]. intros H; injection H as <- <-.
    split; [reflexivity|]. split; [reflexivity|]. split; [|repeat split; discriminate]. cbn [in_page]. lia.
Qed.

Lemma f_step_sim s0 x f : orderly_step x f -> sim s0 (f_sys f) -> sim s0 (f_sys (f_step x f)).
Proof.
  intros O S. destruct x as [k|k m|k|k]; cbn [f_step].
  - apply t_step_sim. exact S.
  - destruct (nth_error (t_conns (f_sys f)) k) as [[[|o rest] pc [|? ?]]|] eqn:Hk; try exact S.
    destruct (halves m o) as [[o1 o2]|] eqn:Hh; [|exact S]. cbn [f_sys]. destruct (halves_spec _ _ _ _ Hh) as (P1 & P2 & P3 & T1 & T2 & T3).
    destruct S as [E I0]. pose proof I0 as (_ & _ & I3). destruct (I3 _ _ Hk) as (Q1 & Q2 & Q3). cbn [q_acc q_ops q_pc] in Q1, Q2, Q3. inversion Q2; subst.
    apply (sim_edit s0 (f_sys f) k _ _ (conj E I0) Hk); cbn [q_ops q_pc q_acc].
    + intros o' [<-|[<-|I]].
      * exists o. split; [now left|]. split; [congruence|]. intros p Hp. destruct (T1 p Hp).
      * exists o. split; [now left|]. split; [congruence|]. intros p Hp. destruct (T2 p Hp).
      * exists o'. split; [now right|]. auto.
    + intros p (oo & rr & i & A & B & C). cbn [q_ops q_pc] in *. injection A as <- <-. exists o1, (o2 :: rest), i. cbn [q_ops q_pc]. split; [reflexivity|]. split; congruence.
    + split; [reflexivity|]. cbn [q_ops q_pc]. split; [constructor; [apply P3; assumption|constructor; [apply P3; assumption|assumption]]|].
      rewrite P1. destruct pc as [| |i|i]; [exact I|..].
      * split; [apply Q3|exact T1].
      * split; [apply Q3|]. split; [apply Q3|]. split; [apply Q3|exact T1].
      * split; [apply Q3|exact T1].
  - destruct (nth_error (t_conns (f_sys f)) k) as [[[|o rest] pc acc]|] eqn:Hk; try exact S.
    assert (G : (forall i, pc <> AtMade i) -> sim s0 (mkTs (t_blk (f_sys f)) (put_conn (t_conns (f_sys f)) k (mkTc rest AtStart [])) (t_log (f_sys f)))).
    { intros NM. destruct S as [E I0]. pose proof I0 as (_ & _ & I3). destruct (I3 _ _ Hk) as (Q1 & Q2 & _). cbn [q_ops] in Q2. inversion Q2; subst.
      apply (sim_edit s0 (f_sys f) k _ _ (conj E I0) Hk); cbn [q_ops q_pc q_acc].
      - intros o' I. exists o'. split; [now right|]. auto.
      - intros p (oo & rr & i & A & B & C). cbn [q_pc] in C. destruct (NM i C).
      - split; [reflexivity|]. cbn [q_ops q_pc]. split; [assumption|]. destruct rest; exact I. }
    destruct o; destruct pc; try exact S; apply G; discriminate.
  - destruct (nth_error (t_conns (f_sys f)) k) as [c|] eqn:Hk; [|exact S]. cbn [f_sys]. cbn [orderly_step] in O.
    apply (sim_edit s0 (f_sys f) k c _ S Hk); cbn [q_ops q_pc q_acc].
    + intros o' [].
    + intros p (oo & rr & i & A & B & C). destruct (O c i Hk); [rewrite A; discriminate|exact C].
    + split; [reflexivity|]. cbn [q_ops q_pc]. split; [constructor|exact I].
Qed.
Lemma f_run_sim s0 l : forall f, orderly l f -> sim s0 (f_sys f) -> sim s0 (f_sys (f_run l f)).
Proof.
  induction l as [|x l IH]; intros f O S; [exact S|]. destruct O as [O1 O2]. unfold f_run. cbn [fold_left]. apply IH; [exact O2|].
  apply f_step_sim; assumption.
Qed.

(** every piece done or failed is part of one asked for on that connection *)
Lemma piece_refl o : piece_of o o.
Proof. destruct o; cbn [piece_of]; [split; [reflexivity|]; exists [], []; rewrite app_nil_r; unfold zlen; cbn; split; [reflexivity|lia]|lia|reflexivity]. Qed.
Lemma piece_halves m o o1 o2 o' : halves m o = Some (o1, o2) -> piece_of o o' -> piece_of o1 o' /\ piece_of o2 o'.
Proof.
  destruct o as [p off d|p off n|p]; cbn [halves]; [| |discriminate].
  - destruct ((0 <? m) && (m <? zlen d)) eqn:E; [|discriminate]. intros H; injection H as <- <-.
    destruct o' as [p' off' d'|p' off' n'|p']; cbn [piece_of]; try contradiction. intros (-> & a & b & -> & ->). split; (split; [reflexivity|]).
    + exists a, (skipn (Z.to_nat m) d ++ b). rewrite (app_assoc (firstn _ _)), firstn_skipn. auto.
    + exists (a ++ firstn (Z.to_nat m) d), b. rewrite <- app_assoc, (app_assoc (firstn _ _)), firstn_skipn. split; [reflexivity|].
      unfold zlen. rewrite app_length. rewrite Nat2Z.inj_add. pose proof (zlen_first m d) as L. unfold zlen in *. lia.
  - destruct ((0 <? m) && (m <? n)) eqn:E; [|discriminate]. intros H; injection H as <- <-.
    destruct o' as [p' off' d'|p' off' n'|p']; cbn [piece_of]; try contradiction. lia.
Qed.
Definition asked (qs : list (list top)) (k : nat) (o : top) : Prop := exists q o', nth_error qs k = Some q /\ In o' q /\ piece_of o o'.
Definition all_asked (qs : list (list top)) (f : fsys) : Prop :=
  (forall k c o, nth_error (t_conns (f_sys f)) k = Some c -> In o (q_ops c) -> asked qs k o) /\
  (forall k o r, In (k, o, r) (t_log (f_sys f)) -> asked qs k o) /\
  (forall k o, In (k, o) (f_failed f) -> asked qs k o).
Lemma edit_asked qs f k c c' b g fl : all_asked qs f -> nth_error (t_conns (f_sys f)) k = Some c ->
  (forall o, In o (q_ops c') -> asked qs k o) -> (forall j o r, In (j, o, r) g -> In (j, o, r) (t_log (f_sys f)) \/ asked qs j o) ->
  (forall j o, In (j, o) fl -> In (j, o) (f_failed f) \/ asked qs j o) ->
  all_asked qs (mkFs (mkTs b (put_conn (t_conns (f_sys f)) k c') g) fl).
Proof.
  intros (A & B & C) Hk Hq Hg Hf. split; [|split]; cbn [f_sys f_failed t_conns t_log].
  - intros j x o Hx Ho. destruct (Nat.eq_dec j k) as [->|N].
    + rewrite (put_same _ _ _ _ Hk) in Hx. injection Hx as <-. auto.
    + rewrite (put_other _ _ _ _ _ Hk N) in Hx. eauto.
  - intros j o r I. destruct (Hg j o r I); eauto.
  - intros j o I. destruct (Hf j o I); eauto.
Qed.
Lemma f_step_asked qs x f : all_asked qs f -> all_asked qs (f_step x f).
Proof.
  intros H. pose proof H as (A & B & C). destruct x as [k|k m|k|k]; cbn [f_step].
  - destruct (t_step_shape k (f_sys f)) as [->|(c & o & rest & Hk & Ho & [(b & pc & a & ->)|(b & r & ->)])].
    + destruct f; exact H.
    + apply edit_asked with c; auto. cbn [q_ops]. intros o' I. apply (A k c o' Hk). rewrite Ho. exact I.
    + apply edit_asked with c; auto.
      * cbn [q_ops]. intros o' I. apply (A k c o' Hk). rewrite Ho. now right.
      * intros j o' r' I. apply in_app_or in I. destruct I as [I|[E|[]]]; [now left|]. injection E as <- <- _. right. apply (A k c o Hk). rewrite Ho. now left.
  - destruct (nth_error (t_conns (f_sys f)) k) as [[[|o rest] pc [|? ?]]|] eqn:Hk; try exact H.
    destruct (halves m o) as [[o1 o2]|] eqn:Hh; [|exact H].
    destruct (A k _ o Hk ltac:(now left)) as (q & o' & Q1 & Q2 & Q3). destruct (piece_halves _ _ _ _ _ Hh Q3) as [P1 P2].
    eapply edit_asked; eauto. cbn [q_ops]. intros y [<-|[<-|I]]; [exists q, o'; auto|exists q, o'; auto|]. apply (A k _ y Hk). now right.
  - destruct (nth_error (t_conns (f_sys f)) k) as [[[|o rest] pc acc]|] eqn:Hk; try exact H.
    assert (G : all_asked qs (mkFs (mkTs (t_blk (f_sys f)) (put_conn (t_conns (f_sys f)) k (mkTc rest AtStart [])) (t_log (f_sys f))) (f_failed f ++ [(k, o)]))).
    { eapply edit_asked; eauto.
      - cbn [q_ops]. intros y I. apply (A k _ y Hk). now right.
      - intros j y I. apply in_app_or in I. destruct I as [I|[E|[]]]; [now left|]. injection E as <- <-. right. apply (A k _ o Hk). now left. }
    destruct o; destruct pc; try exact H; exact G.
  - destruct (nth_error (t_conns (f_sys f)) k) as [c|] eqn:Hk; [|exact H]. eapply edit_asked; eauto. cbn [q_ops]. intros o [].
Qed.
Lemma f_run_asked qs l : forall f, all_asked qs f -> all_asked qs (f_run l f).
Proof. induction l as [|x l IH]; intros f H; [exact H|]. unfold f_run. cbn [fold_left]. apply IH. now apply f_step_asked. Qed.
Lemma f_init_asked b qs : all_asked qs (f_init b qs).
Proof.
  split; [|split]; cbn; try contradiction. intros k c o Hk Ho. rewrite nth_error_map in Hk. destruct (nth_error qs k) as [q|] eqn:E; [|discriminate].
  injection Hk as <-. exists q, o. split; [exact E|]. split; [exact Ho|apply piece_refl].
Qed.

Lemma failing_tree b qs s0 l :
  sane b -> holds b s0 -> Forall (Forall in_page) qs -> (forall p, (exists k, only_by p k qs) \/ settled b p qs) -> orderly l (f_init b qs) ->
  let f := f_run l (f_init b qs) in
  explains s0 (t_log (f_sys f)) /\
  (forall k o r, In (k, o, r) (t_log (f_sys f)) -> asked qs k o) /\ (forall k o, In (k, o) (f_failed f) -> asked qs k o) /\
  ((forall c, In c (t_conns (f_sys f)) -> q_ops c = []) -> holds (t_blk (f_sys f)) (final s0 (t_log (f_sys f)))).
Proof.
  intros H1 H2 H3 H4 O f. assert (S : sim s0 (f_sys f)) by (apply f_run_sim; [exact O|apply t_init_sim; assumption]).
  pose proof (f_run_asked qs l _ (f_init_asked b qs)) as (_ & A & B). split; [apply S|]. split; [exact A|]. split; [exact B|]. apply done_holds. exact S.
Qed.

(** nothing is dropped *)
Lemma covers_halves m o o1 o2 i : halves m o = Some (o1, o2) -> covers o i -> covers o1 i \/ covers o2 i.
Proof.
  destruct o as [p off d|p off n|p]; cbn [halves]; [| |discriminate].
  - destruct ((0 <? m) && (m <? zlen d)) eqn:E; [|discriminate]. intros H; injection H as <- <-. cbn [covers].
    rewrite zlen_first, zlen_skip by lia. lia.
  - destruct ((0 <? m) && (m <? n)) eqn:E; [|discriminate]. intros H; injection H as <- <-. cbn [covers]. lia.
Qed.
Lemma put_gets cs k j (c c' x : tconn) : nth_error cs k = Some c -> nth_error cs j = Some x ->
  nth_error (put_conn cs k c') j = Some (if Nat.eqb j k then c' else x).
Proof.
  intros Hk Hj. destruct (Nat.eqb_spec j k) as [->|N]; [apply (put_same _ _ _ _ Hk)|]. now rewrite (put_other _ _ _ _ _ Hk N).
Qed.
Lemma f_step_accounted x f k o' i : x <> FEnd k -> accounted f k o' i -> accounted (f_step x f) k o' i.
Proof.
  intros N (o & P & C & W).
  assert (KEEP : forall b j c c' g fl, nth_error (t_conns (f_sys f)) j = Some c ->
    (j <> k \/ In o (q_ops c) -> j <> k \/ In o (q_ops c') \/ (exists r, In (k, o, r) g) \/ In (k, o) fl) ->
    (forall y, In y (t_log (f_sys f)) -> In y g) -> (forall y, In y (f_failed f) -> In y fl) ->
    accounted (mkFs (mkTs b (put_conn (t_conns (f_sys f)) j c') g) fl) k o' i).
  { intros b j c c' g fl Hj Hq Hg Hf. exists o. split; [exact P|]. split; [exact C|]. cbn [f_sys t_conns t_log f_failed].
    destruct W as [(x0 & Hx & Ho)|[(r & I)|I]]; [|right; left; exists r; auto|right; right; auto].
    pose proof (put_gets _ _ _ _ c' _ Hj Hx) as G. destruct (Nat.eqb_spec k j) as [->|NE].
    - rewrite Hj in Hx. injection Hx as <-. destruct (Hq (or_intror Ho)) as [E|[E|E]]; [congruence|left; eauto|right; exact E].
    - left. eauto. }
  destruct x as [j|j m|j|j]; cbn [f_step].
  - destruct (t_step_shape j (f_sys f)) as [->|(c & o0 & rest & Hk & Ho & [(b & pc & a & ->)|(b & r & ->)])].
    + exists o. destruct f; auto.
    + apply KEEP with c; auto. cbn [q_ops]. rewrite Ho. tauto.
    + apply KEEP with c; auto; [|intros y I; apply in_or_app; now left]. cbn [q_ops]. rewrite Ho. intros [E|[->|I]]; [now left| |auto].
      destruct (Nat.eq_dec j k) as [->|NE]; [|now left]. right. right. left. exists r. apply in_or_app. right. now left.
  - destruct (nth_error (t_conns (f_sys f)) j) as [[[|o0 rest] pc [|? ?]]|] eqn:Hk; try (exists o; auto; fail).
    destruct (halves m o0) as [[o1 o2]|] eqn:Hh; [|exists o; auto].
    destruct W as [(x0 & Hx & Ho)|W]; [|exists o; split; [exact P|]; split; [exact C|]; right; exact W].
    pose proof (put_gets _ _ _ _ (mkTc (o1 :: o2 :: rest) pc []) _ Hk Hx) as G. destruct (Nat.eqb_spec k j) as [->|NE].
    + rewrite Hk in Hx. injection Hx as <-. destruct Ho as [<-|I].
      * destruct (piece_halves _ _ _ _ _ Hh P) as [P1 P2]. destruct (covers_halves _ _ _ _ _ Hh C) as [C1|C2].
        -- exists o1. split; [exact P1|]. split; [exact C1|]. left. eexists. split; [exact G|]. now left.
        -- exists o2. split; [exact P2|]. split; [exact C2|]. left. eexists. split; [exact G|]. right. now left.
      * exists o. split; [exact P|]. split; [exact C|]. left. eexists. split; [exact G|]. right. now right.
    + exists o. split; [exact P|]. split; [exact C|]. left. eauto.
  - destruct (nth_error (t_conns (f_sys f)) j) as [[[|o0 rest] pc acc]|] eqn:Hk; try (exists o; auto; fail).
    assert (G : accounted (mkFs (mkTs (t_blk (f_sys f)) (put_conn (t_conns (f_sys f)) j (mkTc rest AtStart [])) (t_log (f_sys f))) (f_failed f ++ [(j, o0)])) k o' i).
    { eapply KEEP; eauto; [|intros y I; apply in_or_app; now left]. cbn [q_ops]. intros [E|[->|I]]; [now left| |auto].
      destruct (Nat.eq_dec j k) as [->|NE]; [|now left]. right. right. right. apply in_or_app. right. now left. }
    destruct o0; destruct pc; try (exists o; auto; fail); exact G.
  - destruct (nth_error (t_conns (f_sys f)) j) as [c|] eqn:Hk; [|exists o; auto].
    eapply KEEP; eauto.
Qed.
Lemma f_run_accounted l : forall f k o' i, ~ In (FEnd k) l -> accounted f k o' i -> accounted (f_run l f) k o' i.
Proof.
  induction l as [|x l IH]; intros f k o' i N A; [exact A|]. unfold f_run. cbn [fold_left]. apply IH; [intros I; apply N; now right|].
  apply f_step_accounted; [intros ->; apply N; now left|exact A].
Qed.
Lemma nothing_dropped b qs l k q o i : nth_error qs k = Some q -> In o q -> covers o i -> ~ In (FEnd k) l -> accounted (f_run l (f_init b qs)) k o i.
Proof.
  intros Hq Ho C N. apply f_run_accounted; [exact N|]. exists o. split; [apply piece_refl|]. split; [exact C|]. left.
  exists (mkTc q AtStart []). split; [|exact Ho]. unfold f_init, t_init. cbn [f_sys t_conns]. rewrite nth_error_map, Hq. reflexivity.
Qed.
(** a piece fails only if one of its calls does *)
Lemma f_run_failed l : forall f k o, In (k, o) (f_failed (f_run l f)) -> In (k, o) (f_failed f) \/ In (FFail k) l.
Proof.
  induction l as [|x l IH]; intros f k o I; [now left|]. unfold f_run in I. cbn [fold_left] in I. destruct (IH _ _ _ I) as [A|A]; [|right; now right].
  destruct x as [j|j m|j|j]; cbn [f_step] in A.
  - now left.
  - destruct (nth_error (t_conns (f_sys f)) j) as [[[|o0 rest] pc [|? ?]]|]; try (now left). destruct (halves m o0) as [[o1 o2]|]; now left.
  - destruct (nth_error (t_conns (f_sys f)) j) as [[[|o0 rest] pc acc]|]; try (now left).
    assert (G : In (k, o) (f_failed f ++ [(j, o0)]) -> In (k, o) (f_failed f) \/ In (FFail k) (FFail j :: l)).
    { intros H. apply in_app_or in H. destruct H as [H|[H|[]]]; [now left|]. injection H as <- _. right. now left. }
    destruct o0; destruct pc; try (now left); apply G; exact A.
  - destruct (nth_error (t_conns (f_sys f)) j); now left.
Qed.
