(** One page of a tree export, whatever happens to the others. *)
From Verif Require Import Base M_Const M_Disk M_TreeMulti S_TreeMulti L_TreeMulti M_TreeFail S_TreeFail L_TreeFail.
Local Open Scope list_scope.

Section Page.
  Variable p : Z.

  (** a process, as far as page [p] is concerned *)
  Definition cok (b : blocks) (s : store) (c : tconn) : Prop :=
    (forall o, In o (q_ops c) -> page_of o = p -> in_page o) /\
    match q_ops c with
    | [] => True
    | o :: _ =>
        (page_of o = p -> q_acc c = [] /\
           match q_pc c with
           | AtStart => True
           | AtMissing => d_dir b p = None /\ (forall r, o <> TTrim r)
           | AtMade i => d_dir b p = Some i /\ fsize (d_ino b i) = 0 /\ (forall j, 0 <= j < 4096 -> s p j = 0) /\ (forall r, o <> TTrim r)
           | AtOpened i => d_dir b p = Some i /\ (forall r, o <> TTrim r)
           end) /\
        (page_of o <> p -> match q_pc c with AtMade i | AtOpened i => (i < d_next b)%nat /\ d_dir b p <> Some i | _ => True end)
    end.
  Definition pinv (b : blocks) (cs : list tconn) (s : store) : Prop :=
    sane b /\ page_ok b cs s p /\ (forall j c, nth_error cs j = Some c -> cok b s c).

  (** a step that leaves the page alone *)
  Lemma pinv_other b cs s k c c' b' : pinv b cs s -> nth_error cs k = Some c -> sane b' ->
    d_dir b' p = d_dir b p -> (forall i, d_dir b p = Some i -> d_ino b' i = d_ino b i) -> (d_next b <= d_next b')%nat ->
    (forall o', In o' (q_ops c') -> page_of o' = p -> exists o, In o (q_ops c) /\ page_of o = p /\ (o' = TTrim p -> o = TTrim p)) ->
    ~ made_at c p -> cok b' s c' -> pinv b' (put_conn cs k c') s.
  Proof.
    intros (I1 & I2 & I3) Hk Hs Hd Hi Hn Hq Hm Hc.
    assert (Hget : forall j x, nth_error (put_conn cs k c') j = Some x -> (j = k /\ x = c') \/ (j <> k /\ nth_error cs j = Some x)).
    { intros j x Hx. destruct (Nat.eq_dec j k) as [->|N]; [left; split; [reflexivity|]; rewrite (put_same _ _ _ _ Hk) in Hx; congruence|].
      right. split; [exact N|]. now rewrite (put_other _ _ _ _ _ Hk N) in Hx. }
    assert (Hsame : holds_page b s p -> holds_page b' s p) by (apply holds_same; auto).
    split; [exact Hs|]. split.
    - destruct I2 as [(A1 & A2 & A3)|(k0 & A1 & A2)].
      + left. rewrite Hd. split; [exact A1|]. split; [|auto]. intros j x Hx Hin. destruct (Hget j x Hx) as [[-> ->]|[N Hx']]; [|exact (A2 j x Hx' Hin)].
        destruct (Hq _ Hin eq_refl) as (o & H1 & _ & H2). apply (A2 k c Hk). rewrite <- (H2 eq_refl). exact H1.
      + right. exists k0. split.
        * intros j x o Hx Hin Hpo. destruct (Hget j x Hx) as [[-> ->]|[N Hx']]; [|exact (A1 j x o Hx' Hin Hpo)].
          destruct (Hq _ Hin Hpo) as (o2 & H1 & H2 & _). apply (A1 k c o2 Hk H1 H2).
        * destruct A2 as [A2|(x & Hx & M)]; [left; auto|]. right. destruct (Nat.eq_dec k0 k) as [->|N].
          -- rewrite Hk in Hx. injection Hx as <-. destruct (Hm M).
          -- exists x. split; [now rewrite (put_other _ _ _ _ _ Hk N)|exact M].
    - intros j x Hx. destruct (Hget j x Hx) as [[-> ->]|[N Hx']]; [exact Hc|]. destruct (I3 j x Hx') as [B1 B2]. split; [exact B1|].
      destruct (q_ops x) as [|o r]; [exact I|]. destruct B2 as [B2 B3]. split.
      + intros E. destruct (B2 E) as [B4 B5]. split; [exact B4|]. destruct (q_pc x) as [| |i|i]; [exact I|..]; rewrite Hd; auto.
        destruct B5 as (B5 & B6 & B7). rewrite (Hi i B5). auto.
      + intros E. specialize (B3 E). destruct (q_pc x) as [| |i|i]; auto; rewrite Hd; (split; [lia|apply B3]).
  Qed.

  (** a step of a process on the page *)
  Lemma pinv_step b cs s k c o rest b' c' s' :
    pinv b cs s -> nth_error cs k = Some c -> q_ops c = o :: rest -> page_of o = p ->
    (forall i, (i < d_next b)%nat -> d_dir b' p = Some i -> d_dir b p = Some i) -> (d_next b <= d_next b')%nat ->
    sane b' -> incl (q_ops c') (q_ops c) -> cok b' s' c' ->
    (holds_page b' s' p \/ made_at c' p) ->
    ((forall r, o <> TTrim r) -> d_dir b p <> None -> holds_page b s p -> d_dir b' p = d_dir b p /\ holds_page b' s' p) ->
    pinv b' (put_conn cs k c') s'.
  Proof.
    intros (I1 & I2 & I3) Hk Ho Hpo Dn Hn S' Hinc Hpc Hpg Hset.
    assert (Hget : forall j x, nth_error (put_conn cs k c') j = Some x -> (j = k /\ x = c') \/ (j <> k /\ nth_error cs j = Some x)).
    { intros j x Hx. destruct (Nat.eq_dec j k) as [->|N]; [left; split; [reflexivity|]; rewrite (put_same _ _ _ _ Hk) in Hx; congruence|].
      right. split; [exact N|]. now rewrite (put_other _ _ _ _ _ Hk N) in Hx. }
    assert (Hops : forall j x y, nth_error (put_conn cs k c') j = Some x -> In y (q_ops x) -> exists x0, nth_error cs j = Some x0 /\ In y (q_ops x0)).
    { intros j x y Hx Hy. destruct (Hget j x Hx) as [[-> ->]|[N Hx']]; [exists c; auto|exists x; auto]. }
    assert (Hsettled : (d_dir b p <> None /\ (forall j c, nth_error cs j = Some c -> ~ In (TTrim p) (q_ops c)) /\ holds_page b s p) -> forall r, o <> TTrim r).
    { intros (_ & A2 & _) r ->. apply (A2 k c Hk). rewrite Ho. cbn [page_of] in Hpo. subst r. now left. }
    split; [exact S'|]. split.
    - destruct I2 as [A|(k0 & A1 & A2)].
      + left. pose proof (Hsettled A) as Hnt. destruct A as (A1 & A2 & A3). destruct (Hset Hnt A1 A3) as [E1 E2]. split; [now rewrite E1|]. split; [|exact E2].
        intros j x Hx Hin. destruct (Hops _ _ _ Hx Hin) as (x0 & Hx0 & Hi). exact (A2 j x0 Hx0 Hi).
      + right. assert (k0 = k) as -> by (symmetry; apply (A1 k c o Hk); [rewrite Ho; now left|exact Hpo]). exists k. split.
        { intros j x y Hx Hy Hp. destruct (Hops _ _ _ Hx Hy) as (x0 & Hx0 & Hi). exact (A1 j x0 y Hx0 Hi Hp). }
        destruct Hpg as [Hh|Hm]; [now left|right]. exists c'. split; [exact (put_same _ _ _ _ Hk)|exact Hm].
    - intros j x Hx. destruct (Hget j x Hx) as [[-> ->]|[N Hx']]; [exact Hpc|].
      destruct (I3 j x Hx') as [B1 B2]. split; [exact B1|].
      destruct (q_ops x) as [|y t] eqn:Ey; [exact I|]. destruct B2 as [B2 B3]. split.
      + intros Ep. destruct (B2 Ep) as [B4 B5]. split; [exact B4|].
        (* two processes on the page: it is settled *)
        destruct I2 as [A|(k0 & A1 & A2)].
        2:{ exfalso. assert (k = k0) by (apply (A1 k c o Hk); [rewrite Ho; now left|exact Hpo]).
            assert (j = k0) by (apply (A1 j x y Hx'); [rewrite Ey; now left|exact Ep]). congruence. }
        pose proof (Hsettled A) as Hnt. destruct A as (A1 & A2 & A3). destruct (Hset Hnt A1 A3) as [E1 E2].
        destruct (q_pc x) as [| |i|i]; [exact I|..].
        * destruct B5 as [B5 _]. congruence.
        * exfalso. destruct B5 as (B5 & B6 & _). unfold holds_page in A3. rewrite B5 in A3. destruct A3. lia.
        * rewrite E1. exact B5.
      + intros Ep. specialize (B3 Ep). destruct (q_pc x) as [| |i|i]; auto; (split; [lia|]); intros E; apply B3, Dn; auto; lia.
  Qed.

  Lemma t_step_sane k t : sane (t_blk t) -> sane (t_blk (t_step k t)).
  Proof.
    intros HS. pose proof HS as [N1 N2]. unfold t_step. destruct (nth_error (t_conns t) k) as [c|]; [|exact HS].
    destruct (q_ops c) as [|o rest]; [exact HS|]. cbv zeta.
    assert (T : forall r, sane (set_dir r None (t_blk t))).
    { intros r. split; cbn.
      - intros q m. destruct (q =? r); [discriminate|apply N1].
      - intros q q' m. destruct (q =? r); [discriminate|]. destruct (q' =? r); [discriminate|apply N2]. }
    assert (W : forall r, sane (mkBlk (fun q => if q =? r then Some (d_next (t_blk t)) else d_dir (t_blk t) q)
                            (fun j => if Nat.eqb j (d_next (t_blk t)) then mkFile 0 (fun _ => 0) else d_ino (t_blk t) j) (S (d_next (t_blk t))))).
    { intros r. split; cbn.
      + intros q n. destruct (Z.eqb_spec q r) as [->|]; [intros [= <-]; lia|]. intros Hq. specialize (N1 _ _ Hq). lia.
      + intros q q' n. destruct (Z.eqb_spec q r) as [->|], (Z.eqb_spec q' r) as [->|].
        * reflexivity.
        * intros [= <-] Hq. specialize (N1 _ _ Hq). lia.
        * intros Hq [= <-]. specialize (N1 _ _ Hq). lia.
        * apply N2. }
    destruct o as [r off d|r off n|r]; [| |apply T].
    - destruct (q_pc c); [exact HS| |apply sane_ino; exact HS|apply sane_ino; exact HS]. cbn [page_of]. destruct (d_dir (t_blk t) r); [exact HS|apply W].
    - destruct (q_pc c); [exact HS| |apply sane_ino; exact HS|].
      + cbn [page_of]. destruct (d_dir (t_blk t) r); [exact HS|apply W].
      + destruct (_ <=? 0); [exact HS|]. destruct (_ <=? 0); [exact HS|]. destruct (_ =? _); exact HS.
  Qed.

  Definition psim (s0 : store) (t : tsys) : Prop :=
    explains s0 (on_page p (t_log t)) /\ pinv (t_blk t) (t_conns t) (final s0 (on_page p (t_log t))).
  Lemma on_page_app l e : on_page p (l ++ [e]) = on_page p l ++ (if page_of (snd (fst e)) =? p then [e] else []).
  Proof. unfold on_page. rewrite filter_app. reflexivity. Qed.

  (** what a step on another page may change *)
  Lemma t_step_away k t c o rest : sane (t_blk t) -> nth_error (t_conns t) k = Some c -> q_ops c = o :: rest -> page_of o <> p ->
    (match q_pc c with AtMade i | AtOpened i => (i < d_next (t_blk t))%nat /\ d_dir (t_blk t) p <> Some i | _ => True end) ->
    let b := t_blk t in let b' := t_blk (t_step k t) in
    d_dir b' p = d_dir b p /\ (forall i, d_dir b p = Some i -> d_ino b' i = d_ino b i) /\ (d_next b <= d_next b')%nat /\
    exists c', t_conns (t_step k t) = put_conn (t_conns t) k c' /\
      ((t_log (t_step k t) = t_log t /\ q_ops c' = o :: rest /\
        match q_pc c' with AtMade i | AtOpened i => (i < d_next b')%nat /\ d_dir b' p <> Some i | _ => True end) \/
       (exists r, t_log (t_step k t) = t_log t ++ [(k, o, r)] /\ c' = mkTc rest AtStart [])).
  Proof.
    intros [N1 N2] Hk Ho Hp Hpc. cbv zeta. unfold t_step. rewrite Hk, Ho. cbv zeta.
    assert (Hdir : forall i, d_dir (t_blk t) (page_of o) = Some i -> (i < d_next (t_blk t))%nat /\ d_dir (t_blk t) p <> Some i).
    { intros i Hi. split; [exact (N1 _ _ Hi)|]. intros E. apply Hp. exact (N2 _ _ _ Hi E). }
    assert (Hino : forall i f, d_dir (t_blk t) p <> Some i -> forall j, d_dir (t_blk t) p = Some j -> d_ino (set_ino i f (t_blk t)) j = d_ino (t_blk t) j).
    { intros i f H j Hj. apply ino_other. congruence. }
    assert (Hnew : forall j, d_dir (t_blk t) p = Some j -> j <> d_next (t_blk t)) by (intros j Hj; specialize (N1 _ _ Hj); lia).
    destruct o as [r off d|r off n|r]; cbn [page_of] in *; [| |].
    - destruct (q_pc c) as [| |i|i]; cbn [t_blk t_conns t_log].
      + split; [reflexivity|]. split; [auto|]. split; [lia|]. eexists. split; [reflexivity|]. left. split; [reflexivity|]. split; [reflexivity|].
        cbn [q_pc]. destruct (d_dir (t_blk t) r) as [i|] eqn:E; [apply Hdir; reflexivity|exact I].
      + destruct (d_dir (t_blk t) r) as [i|] eqn:E; cbn [t_blk t_conns t_log].
        * split; [reflexivity|]. split; [auto|]. split; [lia|]. eexists. split; [reflexivity|]. left. split; [reflexivity|]. split; [reflexivity|]. apply Hdir; reflexivity.
        * cbn [d_dir d_ino d_next]. destruct (Z.eqb_spec p r); [congruence|]. split; [reflexivity|].
          split; [intros j Hj; specialize (Hnew j Hj); destruct (Nat.eqb_spec j (d_next (t_blk t))); [congruence|reflexivity]|]. split; [lia|].
          eexists. split; [reflexivity|]. left. split; [reflexivity|]. split; [reflexivity|]. cbn [q_pc]. split; [lia|]. intros E2. exact (Hnew _ E2 eq_refl).
      + split; [reflexivity|]. split; [apply Hino, Hpc|]. split; [cbn; lia|]. eexists. split; [reflexivity|]. left. split; [reflexivity|]. split; [reflexivity|]. exact Hpc.
      + split; [reflexivity|]. split; [apply Hino, Hpc|]. split; [cbn; lia|]. eexists. split; [reflexivity|]. right. eexists. split; reflexivity.
    - destruct (q_pc c) as [| |i|i]; cbn [t_blk t_conns t_log].
      + split; [reflexivity|]. split; [auto|]. split; [lia|]. eexists. split; [reflexivity|]. left. split; [reflexivity|]. split; [reflexivity|].
        cbn [q_pc]. destruct (d_dir (t_blk t) r) as [i|] eqn:E; [apply Hdir; reflexivity|exact I].
      + destruct (d_dir (t_blk t) r) as [i|] eqn:E; cbn [t_blk t_conns t_log].
        * split; [reflexivity|]. split; [auto|]. split; [lia|]. eexists. split; [reflexivity|]. left. split; [reflexivity|]. split; [reflexivity|]. apply Hdir; reflexivity.
        * cbn [d_dir d_ino d_next]. destruct (Z.eqb_spec p r); [congruence|]. split; [reflexivity|].
          split; [intros j Hj; specialize (Hnew j Hj); destruct (Nat.eqb_spec j (d_next (t_blk t))); [congruence|reflexivity]|]. split; [lia|].
          eexists. split; [reflexivity|]. left. split; [reflexivity|]. split; [reflexivity|]. cbn [q_pc]. split; [lia|]. intros E2. exact (Hnew _ E2 eq_refl).
      + split; [reflexivity|]. split; [apply Hino, Hpc|]. split; [cbn; lia|]. eexists. split; [reflexivity|]. left. split; [reflexivity|]. split; [reflexivity|]. exact Hpc.
      + assert (X : d_dir (t_blk t) p = d_dir (t_blk t) p /\ (forall i, d_dir (t_blk t) p = Some i -> d_ino (t_blk t) i = d_ino (t_blk t) i) /\ (d_next (t_blk t) <= d_next (t_blk t))%nat) by auto.
        destruct (_ <=? 0); [|destruct (_ <=? 0); [|destruct (_ =? _)]]; cbn [t_blk t_conns t_log];
          (split; [reflexivity|]; split; [auto|]; split; [lia|]; eexists; split; [reflexivity|]); try (right; eexists; split; reflexivity).
        left. split; [reflexivity|]. split; [reflexivity|]. exact I.
    - cbn [t_blk t_conns t_log set_dir d_dir d_ino d_next]. destruct (Z.eqb_spec p r); [congruence|]. split; [reflexivity|]. split; [auto|]. split; [lia|].
      eexists. split; [reflexivity|]. right. eexists. split; reflexivity.
  Qed.

  Lemma p_holds b cs s k c o rest : pinv b cs s -> nth_error cs k = Some c -> q_ops c = o :: rest -> page_of o = p -> (forall i, q_pc c <> AtMade i) ->
    holds_page b s p.
  Proof.
    intros (I1 & I2 & I3) Hk Ho Hpo Hpc. destruct I2 as [(_ & _ & A)|(k0 & A1 & [A|(x & Hx & Hm)])]; [exact A|exact A|].
    exfalso. assert (k = k0) as <- by (apply (A1 k c o Hk); [rewrite Ho; now left|exact Hpo]). rewrite Hk in Hx. injection Hx as <-.
    destruct Hm as (o2 & r2 & i2 & _ & _ & E). exact (Hpc _ E).
  Qed.

  Lemma t_step_psim_at s0 k t c o rest : psim s0 t -> nth_error (t_conns t) k = Some c -> q_ops c = o :: rest -> page_of o = p -> psim s0 (t_step k t).
  Proof.
    intros [HE HI] Hk Ho Hpo. pose proof (t_step_sane k t (proj1 HI)) as HS'. revert HS'. unfold t_step. rewrite Hk, Ho. cbv zeta. rewrite Hpo.
    set (b := t_blk t) in *. set (s := final s0 (on_page p (t_log t))) in *.
    pose proof HI as (I1 & I2 & I3). destruct (I3 k c Hk) as (Hin & Hp). rewrite Ho in Hp, Hin. destruct Hp as [Hp _]. destruct (Hp Hpo) as [Ha Hp0]. clear Hp. rename Hp0 into Hp.
    pose proof I1 as [N1 N2].
    assert (Hop : in_page o) by (apply Hin; [now left|exact Hpo]).
    assert (Hgo : forall b' c', pinv b' (put_conn (t_conns t) k c') s -> psim s0 (mkTs b' (put_conn (t_conns t) k c') (t_log t))).
    { intros b' c' H. split; [exact HE|exact H]. }
    assert (Hfin : forall b' r, right_answer s o r -> pinv b' (put_conn (t_conns t) k (mkTc rest AtStart [])) (effect o s) ->
       psim s0 (mkTs b' (put_conn (t_conns t) k (mkTc rest AtStart [])) (t_log t ++ [(k, o, r)]))).
    { intros b' r H1 H2. unfold psim. cbn [t_log t_blk t_conns]. rewrite on_page_app. cbn [fst snd]. rewrite Hpo, Z.eqb_refl. split.
      - apply explains_app. split; [exact HE|exact H1].
      - rewrite final_app. exact H2. }
    assert (Hpcr : forall b' s', cok b' s' (mkTc rest AtStart [])).
    { intros b' s'. unfold cok. cbn [q_acc q_ops q_pc]. split; [intros x Hx; apply Hin; now right|]. destruct rest; [exact I|]. auto. }
    assert (Hincr : forall pc a, incl (q_ops (mkTc rest pc a)) (q_ops c)) by (intros pc a x Hx; rewrite Ho; now right).
    assert (Hcok : forall b' s' pc, (match pc with
           | AtStart => True
           | AtMissing => d_dir b' p = None /\ (forall r, o <> TTrim r)
           | AtMade i => d_dir b' p = Some i /\ fsize (d_ino b' i) = 0 /\ (forall j, 0 <= j < 4096 -> s' p j = 0) /\ (forall r, o <> TTrim r)
           | AtOpened i => d_dir b' p = Some i /\ (forall r, o <> TTrim r)
           end) -> cok b' s' (mkTc (o :: rest) pc (q_acc c))).
    { intros b' s' pc H. split; [exact Hin|]. cbn [q_ops q_acc q_pc]. split; [intros _; split; [exact Ha|exact H]|]. intros E. destruct (E Hpo). }
    assert (Hstart : (forall r, o <> TTrim r) -> q_pc c = AtStart ->
      psim s0 (mkTs b (put_conn (t_conns t) k (mkTc (o :: rest) (match d_dir b p with Some i => AtOpened i | None => AtMissing end) (q_acc c))) (t_log t))).
    { intros Hnt Hpc. apply Hgo. pose proof (p_holds b _ s k c o rest HI Hk Ho Hpo ltac:(intros i; rewrite Hpc; discriminate)) as Hh.
      eapply (pinv_step b _ s k c o rest b); try eassumption; auto.
      - cbn [q_ops]. rewrite Ho. apply incl_refl.
      - apply Hcok. destruct (d_dir b p) eqn:Ed; auto. }
    assert (Hmiss : (forall r, o <> TTrim r) -> q_pc c = AtMissing ->
      let t' := match d_dir b p with
              | Some i => mkTs b (put_conn (t_conns t) k (mkTc (o :: rest) (AtMade i) (q_acc c))) (t_log t)
              | None => mkTs (mkBlk (fun q => if q =? p then Some (d_next b) else d_dir b q)
                              (fun j => if Nat.eqb j (d_next b) then mkFile 0 (fun _ => 0) else d_ino b j) (S (d_next b)))
                       (put_conn (t_conns t) k (mkTc (o :: rest) (AtMade (d_next b)) (q_acc c))) (t_log t)
              end in sane (t_blk t') -> psim s0 t').
    { intros Hnt Hpc t' HS'. subst t'. rewrite Hpc in Hp. destruct Hp as [Hd _]. rewrite Hd in *. apply Hgo.
      pose proof (p_holds b _ s k c o rest HI Hk Ho Hpo ltac:(intros i; rewrite Hpc; discriminate)) as Hh. unfold holds_page in Hh. rewrite Hd in Hh.
      eapply (pinv_step b _ s k c o rest); try eassumption.
      - cbn. rewrite Z.eqb_refl. intros i Hi [= <-]. lia.
      - cbn. lia.
      - cbn [q_ops]. rewrite Ho. apply incl_refl.
      - apply Hcok. cbn. rewrite Z.eqb_refl, Nat.eqb_refl. auto.
      - right. exists o, rest, (d_next b). cbn [q_ops q_pc]. auto.
      - intros _ H. congruence. }
    assert (Hmade : forall i, (forall r, o <> TTrim r) -> q_pc c = AtMade i ->
      psim s0 (mkTs (set_ino i (fwrite (d_ino b i) (TREEPAGESIZE - 1) 1 (fun _ => 0)) b) (put_conn (t_conns t) k (mkTc (o :: rest) (AtOpened i) (q_acc c))) (t_log t))).
    { intros i Hnt Hpc. rewrite Hpc in Hp. destruct Hp as (Hd & Hf & Hz & _). apply Hgo.
      assert (Hh' : holds_page (set_ino i (fwrite (d_ino b i) (TREEPAGESIZE - 1) 1 (fun _ => 0)) b) s p).
      { unfold holds_page. change (d_dir (set_ino i (fwrite (d_ino b i) (TREEPAGESIZE - 1) 1 (fun _ => 0)) b) p) with (d_dir b p). rewrite Hd, ino_same.
        change TREEPAGESIZE with 4096. split; [cbn; lia|]. intros j Hj. rewrite frd_fwrite by (cbn; lia). rewrite Hz by lia.
        destruct (_ && _); [reflexivity|]. unfold frd. rewrite Hf. destruct (Z.leb_spec 0 j), (Z.ltb_spec j 0); try lia; reflexivity. }
      eapply (pinv_step b _ s k c o rest); try eassumption.
      - auto.
      - cbn. lia.
      - cbn [q_ops]. rewrite Ho. apply incl_refl.
      - apply Hcok. cbn. auto.
      - left. exact Hh'.
      - intros _ _ _. split; [reflexivity|exact Hh']. }
    destruct o as [pg off d|pg off n|pg]; cbn [page_of] in Hpo.
    - (* WRITE *)
      assert (Hnt : forall r, TWrite pg off d <> TTrim r) by discriminate.
      destruct (q_pc c) as [| |i|i] eqn:Hpc; [intros _; now apply Hstart|now apply Hmiss|intros _; now apply Hmade|intros HS'].
      destruct Hp as [Hd _]. apply Hfin; [reflexivity|].
      pose proof (p_holds b _ s k c _ rest HI Hk Ho Hpo ltac:(intros j; rewrite Hpc; discriminate)) as Hh.
      cbn [in_page] in Hop. pose proof (Zle_0_nat (length d)) as Hl. fold (zlen d) in Hl.
      assert (Hh' : holds_page (set_ino i (fwrite (d_ino b i) off (zlen d) (fun j => znth 0 d j)) b) (effect (TWrite pg off d) s) p).
      { unfold holds_page in *. change (d_dir (set_ino i (fwrite (d_ino b i) off (zlen d) (fun j => znth 0 d j)) b) p) with (d_dir b p).
        rewrite Hd in *. destruct Hh as [Hs Hb]. rewrite ino_same. split; [cbn; lia|]. intros j Hj. rewrite frd_fwrite by lia. rewrite Hb by exact Hj.
        cbn [effect]. rewrite Hpo, Z.eqb_refl. reflexivity. }
      eapply (pinv_step b _ s k c); try eassumption.
      + auto.
      + cbn. lia.
      + apply Hincr.
      + apply Hpcr.
      + left. exact Hh'.
      + intros _ _ _. split; [reflexivity|exact Hh'].
    - (* READ *)
      assert (Hnt : forall r, TRead pg off n <> TTrim r) by discriminate.
      destruct (q_pc c) as [| |i|i] eqn:Hpc; [intros _; now apply Hstart|now apply Hmiss|intros _; now apply Hmade|intros HS'].
      destruct Hp as [Hd _]. pose proof (p_holds b _ s k c _ rest HI Hk Ho Hpo ltac:(intros j; rewrite Hpc; discriminate)) as Hh.
      cbn [in_page] in Hop. rewrite Ha. change (zlen (@nil Z)) with 0. rewrite Z.sub_0_r, Z.add_0_r. cbn [app].
      pose proof Hh as Hh0. unfold holds_page in Hh0. rewrite Hd in Hh0. destruct Hh0 as [Hs Hb].
      assert (Z.max 0 (Z.min n (fsize (d_ino b i) - off)) = n) as -> by lia.
      destruct (Z.leb_spec n 0); [lia|]. rewrite Z.eqb_refl. apply Hfin.
      + cbn [right_answer]. f_equal. rewrite Hpo. apply slice_ext. intros j Hj. apply Hb. lia.
      + eapply (pinv_step b _ s k c); try eassumption; cbn [effect]; auto.
    - (* TRIM *)
      intros HS'.
      assert (Hh' : holds_page (set_dir pg None b) (effect (TTrim pg) s) p).
      { unfold holds_page. cbn. rewrite Hpo, Z.eqb_refl. reflexivity. }
      rewrite Hpo in *. apply Hfin; [reflexivity|]. eapply (pinv_step b _ s k c); try eassumption.
      + reflexivity.
      + cbn. rewrite Z.eqb_refl. discriminate.
      + cbn. lia.
      + apply Hincr.
      + apply Hpcr.
      + left. exact Hh'.
      + intros Hnt. exfalso. exact (Hnt _ eq_refl).
  Qed.

  Lemma t_step_psim s0 k t : psim s0 t -> psim s0 (t_step k t).
  Proof.
    intros S. destruct (nth_error (t_conns t) k) as [c|] eqn:Hk; [|unfold t_step; rewrite Hk; exact S].
    destruct (q_ops c) as [|o rest] eqn:Ho; [unfold t_step; rewrite Hk, Ho; exact S|].
    destruct (Z.eq_dec (page_of o) p) as [E|E]; [exact (t_step_psim_at s0 k t c o rest S Hk Ho E)|].
    destruct S as [HE HI]. pose proof HI as (I1 & I2 & I3). destruct (I3 k c Hk) as (Hin & Hp). rewrite Ho in Hp, Hin. destruct Hp as [_ Hp]. specialize (Hp E).
    destruct (t_step_away k t c o rest I1 Hk Ho E Hp) as (D1 & D2 & D3 & c' & Hc & Hl).
    assert (L : on_page p (t_log (t_step k t)) = on_page p (t_log t)).
    { destruct Hl as [(-> & _)|(r & -> & _)]; [reflexivity|]. rewrite on_page_app. cbn [fst snd]. destruct (Z.eqb_spec (page_of o) p); [congruence|apply app_nil_r]. }
    unfold psim. rewrite L, Hc. split; [exact HE|]. apply (pinv_other (t_blk t) _ _ _ c); auto.
    - now apply t_step_sane.
    - intros o' Ho' Hpo. exists o'. split; [|auto]. rewrite Ho. destruct Hl as [(_ & Q & _)|(r & _ & ->)]; [now rewrite Q in Ho'|now right].
    - intros (o2 & r2 & i2 & A & B & _). rewrite Ho in A. injection A as <- <-. congruence.
    - destruct Hl as [(_ & Q & P)|(r & _ & ->)].
      + split; rewrite Q; [exact Hin|]. split; [congruence|intros _; exact P].
      + split; cbn [q_ops q_pc q_acc]; [intros x Hx; apply Hin; now right|]. destruct rest; auto.
  Qed.

  (** replacing the queue of a process *)
  Lemma psim_edit s0 t k c c' : psim s0 t -> nth_error (t_conns t) k = Some c ->
    (forall o', In o' (q_ops c') -> page_of o' = p -> exists o, In o (q_ops c) /\ page_of o = p /\ (o' = TTrim p -> o = TTrim p)) ->
    (made_at c p -> made_at c' p) -> cok (t_blk t) (final s0 (on_page p (t_log t))) c' ->
    psim s0 (mkTs (t_blk t) (put_conn (t_conns t) k c') (t_log t)).
  Proof.
    intros [HE (I1 & I2 & I3)] Hk Hq Hm Hc. split; [exact HE|]. cbn [t_blk t_conns t_log]. set (b := t_blk t) in *. set (cs := t_conns t) in *.
    assert (Hget : forall j x, nth_error (put_conn cs k c') j = Some x -> (j = k /\ x = c') \/ (j <> k /\ nth_error cs j = Some x)).
    { intros j x Hx. destruct (Nat.eq_dec j k) as [->|N]; [left; split; [reflexivity|]; rewrite (put_same _ _ _ _ Hk) in Hx; congruence|].
      right. split; [exact N|]. now rewrite (put_other _ _ _ _ _ Hk N) in Hx. }
    split; [exact I1|]. split.
    - destruct I2 as [(A & B & C)|(k0 & A & B)].
      + left. split; [exact A|]. split; [|exact C]. intros j x Hx Hin. destruct (Hget j x Hx) as [[-> ->]|[N Hx']]; [|exact (B j x Hx' Hin)].
        destruct (Hq _ Hin eq_refl) as (o & H1 & _ & H2). apply (B k c Hk). rewrite <- (H2 eq_refl). exact H1.
      + right. exists k0. split.
        * intros j x o Hx Hin Hpo. destruct (Hget j x Hx) as [[-> ->]|[N Hx']]; [|exact (A j x o Hx' Hin Hpo)].
          destruct (Hq _ Hin Hpo) as (o2 & H1 & H2 & _). apply (A k c o2 Hk H1 H2).
        * destruct B as [B|(x & Hx & M)]; [now left|]. right. destruct (Nat.eq_dec k0 k) as [->|N].
          -- rewrite Hk in Hx. injection Hx as <-. exists c'. split; [apply (put_same _ _ _ _ Hk)|auto].
          -- exists x. split; [now rewrite (put_other _ _ _ _ _ Hk N)|exact M].
    - intros j x Hx. destruct (Hget j x Hx) as [[-> ->]|[N Hx']]; [exact Hc|exact (I3 j x Hx')].
  Qed.

  Lemma f_step_psim s0 x f : orderly_step_on p x f -> psim s0 (f_sys f) -> psim s0 (f_sys (f_step x f)).
  Proof.
    intros O S. destruct x as [k|k m|k|k]; cbn [f_step].
    - apply t_step_psim. exact S.
    - destruct (nth_error (t_conns (f_sys f)) k) as [[[|o rest] pc [|? ?]]|] eqn:Hk; try exact S.
      destruct (halves m o) as [[o1 o2]|] eqn:Hh; [|exact S]. cbn [f_sys]. destruct (halves_spec _ _ _ _ Hh) as (P1 & P2 & P3 & T1 & T2 & T3).
      pose proof S as (_ & _ & _ & I3). destruct (I3 _ _ Hk) as (Q1 & Q2). cbn [q_acc q_ops q_pc] in Q1, Q2. destruct Q2 as [Q2 Q3].
      apply (psim_edit s0 (f_sys f) k _ _ S Hk); cbn [q_ops q_pc q_acc].
      + intros o' [<-|[<-|I]] Hp.
        * exists o. split; [now left|]. split; [congruence|]. intros E. destruct (T1 _ E).
        * exists o. split; [now left|]. split; [congruence|]. intros E. destruct (T2 _ E).
        * exists o'. split; [now right|]. auto.
      + intros (oo & rr & i & A & B & C). cbn [q_ops q_pc] in *. injection A as <- <-. exists o1, (o2 :: rest), i. cbn [q_ops q_pc]. split; [reflexivity|]. split; congruence.
      + assert (In o (o :: rest)) as Io by now left. split; cbn [q_ops q_pc q_acc].
        * intros o' [<-|[<-|I]] Hp; [apply P3, Q1; congruence|apply P3, Q1; congruence|apply Q1; [now right|exact Hp]].
        * rewrite P1. split; [|exact Q3]. intros E. destruct (Q2 E) as [_ Q4]. split; [reflexivity|]. destruct pc as [| |i|i]; [exact I|..].
          -- split; [apply Q4|exact T1].
          -- split; [apply Q4|]. split; [apply Q4|]. split; [apply Q4|exact T1].
          -- split; [apply Q4|exact T1].
    - destruct (nth_error (t_conns (f_sys f)) k) as [[[|o rest] pc acc]|] eqn:Hk; try exact S.
      assert (G : (forall i, pc <> AtMade i) -> psim s0 (mkTs (t_blk (f_sys f)) (put_conn (t_conns (f_sys f)) k (mkTc rest AtStart [])) (t_log (f_sys f)))).
      { intros NM. pose proof S as (_ & _ & _ & I3). destruct (I3 _ _ Hk) as (Q1 & _). cbn [q_ops] in Q1.
        apply (psim_edit s0 (f_sys f) k _ _ S Hk); cbn [q_ops q_pc q_acc].
        - intros o' I Hp. exists o'. split; [now right|]. auto.
        - intros (oo & rr & i & A & B & C). cbn [q_pc] in C. destruct (NM i C).
        - split; cbn [q_ops q_pc q_acc]; [intros o' I; apply Q1; now right|]. destruct rest; auto. }
      destruct o; destruct pc; try exact S; apply G; discriminate.
    - destruct (nth_error (t_conns (f_sys f)) k) as [c|] eqn:Hk; [|exact S]. cbn [f_sys]. cbn [orderly_step_on] in O.
      apply (psim_edit s0 (f_sys f) k c _ S Hk); cbn [q_ops q_pc q_acc].
      + intros o' [].
      + intros (oo & rr & i & A & B & C). destruct (O c oo rr i Hk A B C).
      + split; cbn [q_ops]; [intros o []|exact I].
  Qed.
  Lemma f_run_psim s0 l : forall f, orderly_on p l f -> psim s0 (f_sys f) -> psim s0 (f_sys (f_run l f)).
  Proof.
    induction l as [|x l IH]; intros f O S; [exact S|]. destruct O as [O1 O2]. unfold f_run. cbn [fold_left]. apply IH; [exact O2|].
    apply f_step_psim; assumption.
  Qed.

  Lemma one_page b qs s0 l : sane b -> holds_page b s0 p -> (forall q o, In q qs -> In o q -> page_of o = p -> in_page o) ->
    (exists k, only_by p k qs) \/ settled b p qs -> orderly_on p l (f_init b qs) ->
    let f := f_run l (f_init b qs) in
    explains s0 (on_page p (t_log (f_sys f))) /\
    ((forall c o, In c (t_conns (f_sys f)) -> In o (q_ops c) -> page_of o <> p) -> holds_page (t_blk (f_sys f)) (final s0 (on_page p (t_log (f_sys f)))) p).
  Proof.
    intros Hs Hh Hq Hp Ho f.
    assert (S : psim s0 (f_sys f)).
    { apply f_run_psim; [exact Ho|]. split; [exact I|]. cbn [f_init f_sys t_init t_blk t_conns t_log on_page filter final fold_left].
      assert (Hget : forall j c, nth_error (map (fun q => mkTc q AtStart []) qs) j = Some c -> exists q, nth_error qs j = Some q /\ c = mkTc q AtStart []).
      { intros j c H. rewrite nth_error_map in H. destruct (nth_error qs j) as [q|]; [|discriminate]. injection H as <-. eauto. }
      split; [exact Hs|]. split.
      - destruct Hp as [[k Hk]|[Hd Ht]].
        + right. exists k. split; [|left; apply Hh]. intros j c o Hj Hi Hpg. destruct (Hget j c Hj) as (q & Hq' & ->). exact (Hk j q o Hq' Hi Hpg).
        + left. split; [exact Hd|]. split; [|apply Hh]. intros j c Hj. destruct (Hget j c Hj) as (q & Hq' & ->). apply Ht. eapply nth_error_In; eassumption.
      - intros j c Hj. destruct (Hget j c Hj) as (q & Hq' & ->). split; cbn [q_ops q_pc q_acc].
        + intros o. apply Hq. eapply nth_error_In; eassumption.
        + destruct q; auto. }
    split; [apply S|]. intros Hd. destruct S as (_ & _ & I2 & _).
    destruct I2 as [(_ & _ & A)|(k0 & A1 & [A|(x & Hx & Hm)])]; [exact A|exact A|].
    destruct Hm as (o & r & i & E & E2 & _). destruct (Hd x o) as []; [eapply nth_error_In; eassumption|rewrite E; now left|exact E2].
  Qed.
End Page.
