(** Lemmas for C84. *)
From Verif Require Import Base M_Const M_Disk M_TreeMulti S_TreeMulti.
Local Open Scope list_scope.

Lemma put_same l k c c0 : nth_error l k = Some c0 -> nth_error (put_conn l k c) k = Some c.
Proof.
  intros H. unfold put_conn. assert (Hk : (k < length l)%nat) by (apply nth_error_Some; congruence).
  rewrite nth_error_app2; rewrite firstn_length_le by lia; [|lia]. now rewrite Nat.sub_diag.
Qed.
Lemma nth_skip {A} (l : list A) n j : nth_error (skipn n l) j = nth_error l (n + j).
Proof. revert l; induction n as [|n IH]; intros l; [reflexivity|]. destruct l; [destruct j; reflexivity|]. cbn. apply IH. Qed.
Lemma nth_first {A} (l : list A) n j : (j < n)%nat -> nth_error (firstn n l) j = nth_error l j.
Proof.
  revert l j; induction n as [|n IH]; intros l j H; [lia|]. destruct l; [destruct j; reflexivity|]. destruct j; [reflexivity|]. cbn. apply IH. lia.
Qed.
Lemma put_other l k c c0 j : nth_error l k = Some c0 -> j <> k -> nth_error (put_conn l k c) j = nth_error l j.
Proof.
  intros H Hj. unfold put_conn. assert (Hk : (k < length l)%nat) by (apply nth_error_Some; congruence).
  destruct (Nat.lt_ge_cases j k) as [L|L].
  - rewrite nth_error_app1 by (rewrite firstn_length_le; lia). now apply nth_first.
  - rewrite nth_error_app2; rewrite firstn_length_le by lia; [|lia]. destruct (j - k)%nat as [|m] eqn:E; [lia|]. cbn [nth_error].
    rewrite nth_skip. f_equal. lia.
Qed.

Definition made_at (c : tconn) (p : Z) : Prop := exists o rest i, q_ops c = o :: rest /\ page_of o = p /\ q_pc c = AtMade i.
Definition pc_ok (b : blocks) (s : store) (c : tconn) : Prop :=
  q_acc c = [] /\ Forall in_page (q_ops c) /\
  match q_ops c with
  | [] => True
  | o :: _ =>
      match q_pc c with
      | AtStart => True
      | AtMissing => d_dir b (page_of o) = None /\ (forall p, o <> TTrim p)
      | AtMade i => d_dir b (page_of o) = Some i /\ fsize (d_ino b i) = 0 /\ (forall j, 0 <= j < 4096 -> s (page_of o) j = 0) /\ (forall p, o <> TTrim p)
      | AtOpened i => d_dir b (page_of o) = Some i /\ (forall p, o <> TTrim p)
      end
  end.
Definition page_ok (b : blocks) (cs : list tconn) (s : store) (p : Z) : Prop :=
  (d_dir b p <> None /\ (forall j c, nth_error cs j = Some c -> ~ In (TTrim p) (q_ops c)) /\ holds_page b s p) \/
  (exists k, (forall j c o, nth_error cs j = Some c -> In o (q_ops c) -> page_of o = p -> j = k) /\
     (holds_page b s p \/ exists c, nth_error cs k = Some c /\ made_at c p)).
Definition inv (b : blocks) (cs : list tconn) (s : store) : Prop :=
  sane b /\ (forall p, page_ok b cs s p) /\ (forall j c, nth_error cs j = Some c -> pc_ok b s c).

Lemma holds_same b b' s s' q : d_dir b' q = d_dir b q -> (forall i, d_dir b q = Some i -> d_ino b' i = d_ino b i) ->
  (forall i, s' q i = s q i) -> holds_page b s q -> holds_page b' s' q.
Proof.
  intros H1 H2 H3. unfold holds_page. rewrite H1. destruct (d_dir b q) as [i|].
  - rewrite (H2 i eq_refl). intros [A B]. split; [exact A|]. intros j Hj. rewrite H3. auto.
  - intros A j Hj. rewrite H3. auto.
Qed.
Lemma inv_step b cs s k c o rest b' c' s' :
  inv b cs s -> nth_error cs k = Some c -> q_ops c = o :: rest ->
  (forall q, q <> page_of o -> d_dir b' q = d_dir b q) ->
  (forall q i, q <> page_of o -> d_dir b q = Some i -> d_ino b' i = d_ino b i) ->
  (forall q i, q <> page_of o -> s' q i = s q i) ->
  sane b' -> incl (q_ops c') (q_ops c) -> pc_ok b' s' c' ->
  (holds_page b' s' (page_of o) \/ made_at c' (page_of o)) ->
  ((forall p, o <> TTrim p) -> d_dir b (page_of o) <> None -> holds_page b s (page_of o) ->
     d_dir b' (page_of o) = d_dir b (page_of o) /\ holds_page b' s' (page_of o)) ->
  inv b' (put_conn cs k c') s'.
Proof.
  intros (I1 & I2 & I3) Hk Ho D1 D2 D3 S' Hinc Hpc Hpg Hset. remember (page_of o) as p eqn:Hpo.
  assert (Hget : forall j x, nth_error (put_conn cs k c') j = Some x -> (j = k /\ x = c') \/ (j <> k /\ nth_error cs j = Some x)).
  { intros j x Hx. destruct (Nat.eq_dec j k) as [->|N]; [left; split; [reflexivity|]; rewrite (put_same _ _ _ _ Hk) in Hx; congruence|].
    right. split; [exact N|]. now rewrite (put_other _ _ _ _ _ Hk N) in Hx. }
  assert (Hops : forall j x y, nth_error (put_conn cs k c') j = Some x -> In y (q_ops x) -> exists x0, nth_error cs j = Some x0 /\ In y (q_ops x0)).
  { intros j x y Hx Hy. destruct (Hget j x Hx) as [[-> ->]|[N Hx']]; [exists c; auto|exists x; auto]. }
  split; [exact S'|]. split.
  - intros q. destruct (Z.eq_dec q p) as [->|Nq].
    + destruct (I2 p) as [(A1 & A2 & A3)|(k0 & A1 & A2)].
      * left. assert (Hnt : forall r, o <> TTrim r).
        { intros r ->. apply (A2 k c Hk). rewrite Ho. cbn [page_of] in Hpo. subst p. now left. }
        destruct (Hset Hnt A1 A3) as [E1 E2]. split; [now rewrite E1|]. split; [|exact E2].
        intros j x Hx Hin. destruct (Hops _ _ _ Hx Hin) as (x0 & Hx0 & Hi). exact (A2 j x0 Hx0 Hi).
      * right. assert (k0 = k) as -> by (symmetry; apply (A1 k c o Hk); [rewrite Ho; now left|now symmetry]). exists k. split.
        { intros j x y Hx Hy Hp. destruct (Hops _ _ _ Hx Hy) as (x0 & Hx0 & Hi). exact (A1 j x0 y Hx0 Hi Hp). }
        destruct Hpg as [Hh|Hm]; [now left|right]. exists c'. split; [exact (put_same _ _ _ _ Hk)|exact Hm].
    + assert (Hsame : holds_page b s q -> holds_page b' s' q).
      { apply holds_same; [now apply D1|intros i Hi; now apply (D2 q)|intros i; now apply D3]. }
      destruct (I2 q) as [(A1 & A2 & A3)|(k0 & A1 & A2)].
      * left. rewrite D1 by exact Nq. split; [exact A1|]. split; [|auto].
        intros j x Hx Hin. destruct (Hops _ _ _ Hx Hin) as (x0 & Hx0 & Hi). exact (A2 j x0 Hx0 Hi).
      * right. exists k0. split.
        { intros j x y Hx Hy Hp. destruct (Hops _ _ _ Hx Hy) as (x0 & Hx0 & Hi). exact (A1 j x0 y Hx0 Hi Hp). }
        destruct A2 as [A2|(x & Hx & Hm)]; [left; auto|right]. exists x. split; [|exact Hm].
        destruct (Nat.eq_dec k0 k) as [->|N]; [|now rewrite (put_other _ _ _ _ _ Hk N)].
        exfalso. rewrite Hk in Hx. injection Hx as <-. destruct Hm as (o2 & r2 & i2 & E2 & P2 & _). rewrite Ho in E2. injection E2 as <- _. apply Nq. congruence.
  - intros j x Hx. destruct (Hget j x Hx) as [[-> ->]|[N Hx']]; [exact Hpc|].
    destruct (I3 j x Hx') as (B1 & B2 & B3). split; [exact B1|]. split; [exact B2|].
    destruct (q_ops x) as [|y t] eqn:Ey; [exact I|]. destruct (Z.eq_dec (page_of y) p) as [Ep|Np].
    + (* two processes on the page: it is settled *)
      destruct (I2 p) as [(A1 & A2 & A3)|(k0 & A1 & A2)].
      2:{ exfalso. assert (k = k0) by (apply (A1 k c o Hk); [rewrite Ho; now left|now symmetry]).
          assert (j = k0) by (apply (A1 j x y Hx'); [rewrite Ey; now left|exact Ep]). congruence. }
      assert (Hnt : forall r, o <> TTrim r).
      { intros r ->. apply (A2 k c Hk). rewrite Ho. cbn [page_of] in Hpo. subst p. now left. }
      destruct (Hset Hnt A1 A3) as [E1 E2]. destruct (q_pc x) as [| |i|i]; [exact I|..]; rewrite Ep in *.
      * destruct B3 as [B3 _]. congruence.
      * exfalso. destruct B3 as (B3 & B4 & _). unfold holds_page in A3. rewrite B3 in A3. destruct A3. lia.
      * rewrite E1. exact B3.
    + destruct (q_pc x) as [| |i|i]; [exact I|..]; rewrite D1 by exact Np.
      * exact B3.
      * destruct B3 as (B3 & B4 & B5 & B6). split; [exact B3|]. rewrite (D2 _ _ Np B3). split; [exact B4|]. split; [|exact B6].
        intros i0 Hi0. rewrite D3 by exact Np. auto.
      * exact B3.
Qed.

Lemma sane_ino b i f : sane b -> sane (set_ino i f b).
Proof. intros [A B]. split; assumption. Qed.
Lemma ino_same i f b : d_ino (set_ino i f b) i = f.
Proof. unfold set_ino. cbn. now rewrite Nat.eqb_refl. Qed.
Lemma ino_other i j f b : j <> i -> d_ino (set_ino i f b) j = d_ino b j.
Proof. intros H. unfold set_ino. cbn. destruct (Nat.eqb_spec j i); [congruence|reflexivity]. Qed.
Lemma frd_fwrite f off n d i : 0 <= off -> 0 <= i -> 0 <= n -> i < Z.max (fsize f) (off + n) ->
  frd (fwrite f off n d) i = if (off <=? i) && (i <? off + n) then d (i - off) else frd f i.
Proof.
  intros H1 H2 H3 H4. unfold frd at 1, fwrite. cbn [fsize fdata].
  destruct (Z.leb_spec 0 i); [|lia]. destruct (Z.ltb_spec i (Z.max (fsize f) (off + n))); [|lia]. reflexivity.
Qed.

Lemma explains_app s l e : explains s (l ++ [e]) <-> explains s l /\ right_answer (final s l) (snd (fst e)) (snd e).
Proof.
  revert s. induction l as [|[[k o] r] l IH]; intros s; cbn [app explains].
  - destruct e as [[k o] r]. unfold final. cbn. tauto.
  - rewrite IH. unfold final. cbn [fold_left fst snd]. tauto.
Qed.
Lemma final_app s l e : final s (l ++ [e]) = effect (snd (fst e)) (final s l).
Proof. unfold final. now rewrite fold_left_app. Qed.

Definition sim (s0 : store) (t : tsys) : Prop :=
  explains s0 (t_log t) /\ inv (t_blk t) (t_conns t) (final s0 (t_log t)).

Lemma page_holds b cs s k c o rest i : inv b cs s -> nth_error cs k = Some c -> q_ops c = o :: rest -> q_pc c = AtOpened i ->
  holds_page b s (page_of o).
Proof.
  intros (I1 & I2 & I3) Hk Ho Hpc. destruct (I2 (page_of o)) as [(_ & _ & A)|(k0 & A1 & [A|(x & Hx & Hm)])]; [exact A|exact A|].
  exfalso. assert (k = k0) as <- by (apply (A1 k c o Hk); [rewrite Ho; now left|reflexivity]). rewrite Hk in Hx. injection Hx as <-.
  destruct Hm as (o2 & r2 & i2 & _ & _ & E). congruence.
Qed.

Lemma page_at_start b cs s k c o rest : inv b cs s -> nth_error cs k = Some c -> q_ops c = o :: rest -> (forall i, q_pc c <> AtMade i) ->
  holds_page b s (page_of o).
Proof.
  intros (I1 & I2 & I3) Hk Ho Hpc. destruct (I2 (page_of o)) as [(_ & _ & A)|(k0 & A1 & [A|(x & Hx & Hm)])]; [exact A|exact A|].
  exfalso. assert (k = k0) as <- by (apply (A1 k c o Hk); [rewrite Ho; now left|reflexivity]). rewrite Hk in Hx. injection Hx as <-.
  destruct Hm as (o2 & r2 & i2 & _ & _ & E). exact (Hpc _ E).
Qed.

Ltac inj := repeat match goal with H : Some _ = Some _ |- _ => injection H as H; try subst end.

Lemma t_step_sim s0 k t : sim s0 t -> sim s0 (t_step k t).
Proof.
  intros [HE HI]. unfold t_step. destruct (nth_error (t_conns t) k) as [c|] eqn:Hk; [|split; assumption].
  destruct (q_ops c) as [|o rest] eqn:Ho; [split; assumption|]. cbv zeta.
  set (b := t_blk t) in *. set (s := final s0 (t_log t)) in *. set (p := page_of o) in *.
  pose proof HI as (I1 & I2 & I3). destruct (I3 k c Hk) as (Ha & Hin & Hp). rewrite Ho in Hp, Hin. fold p in Hp.
  pose proof I1 as [N1 N2].
  assert (Hrest : Forall in_page rest) by (inversion Hin; assumption).
  assert (Hop : in_page o) by (inversion Hin; assumption).
  (* the step goes on *)
  assert (Hgo : forall b' c', inv b' (put_conn (t_conns t) k c') s -> sim s0 (mkTs b' (put_conn (t_conns t) k c') (t_log t))).
  { intros b' c' H. split; [exact HE|exact H]. }
  (* the step finishes the piece *)
  assert (Hfin : forall b' r, right_answer s o r -> inv b' (put_conn (t_conns t) k (mkTc rest AtStart [])) (effect o s) ->
     sim s0 (mkTs b' (put_conn (t_conns t) k (mkTc rest AtStart [])) (t_log t ++ [(k, o, r)]))).
  { intros b' r H1 H2. split; cbn [t_log t_blk t_conns].
    - apply explains_app. split; [exact HE|exact H1].
    - rewrite final_app. exact H2. }
  assert (Hpcr : forall b' s', pc_ok b' s' (mkTc rest AtStart [])).
  { intros b' s'. unfold pc_ok. cbn [q_acc q_ops q_pc]. split; [reflexivity|]. split; [exact Hrest|]. destruct rest; exact I. }
  assert (Hincr : forall pc a, incl (q_ops (mkTc rest pc a)) (q_ops c)) by (intros pc a x Hx; rewrite Ho; now right).
  assert (Hother : forall q i j, q <> p -> d_dir b q = Some j -> d_dir b p = Some i -> j <> i).
  { intros q i j Hq H1 H2 ->. apply Hq. exact (N2 _ _ _ H1 H2). }
  (* the first step of READ and WRITE *)
  assert (Hstart : (forall r, o <> TTrim r) -> q_pc c = AtStart ->
    sim s0 (mkTs b (put_conn (t_conns t) k (mkTc (o :: rest) (match d_dir b p with Some i => AtOpened i | None => AtMissing end) (q_acc c))) (t_log t))).
  { intros Hnt Hpc. apply Hgo. pose proof (page_at_start b _ s k c o rest HI Hk Ho ltac:(intros i; rewrite Hpc; discriminate)) as Hh.
    eapply (inv_step b _ s k c o rest b); try eassumption; try reflexivity.
    - cbn [q_ops]. rewrite Ho. apply incl_refl.
    - unfold pc_ok. cbn [q_acc q_ops q_pc]. fold p. split; [exact Ha|]. split; [exact Hin|]. destruct (d_dir b p) eqn:Ed; auto.
    - left; exact Hh.
    - intros _ _ H. auto. }
  assert (Hmiss : (forall r, o <> TTrim r) -> q_pc c = AtMissing ->
    sim s0 (match d_dir b p with
            | Some i => mkTs b (put_conn (t_conns t) k (mkTc (o :: rest) (AtMade i) (q_acc c))) (t_log t)
            | None => mkTs (mkBlk (fun q => if q =? p then Some (d_next b) else d_dir b q)
                            (fun j => if Nat.eqb j (d_next b) then mkFile 0 (fun _ => 0) else d_ino b j) (S (d_next b)))
                     (put_conn (t_conns t) k (mkTc (o :: rest) (AtMade (d_next b)) (q_acc c))) (t_log t)
            end)).
  { intros Hnt Hpc. rewrite Hpc in Hp. destruct Hp as [Hd _]. rewrite Hd. apply Hgo.
    pose proof (page_at_start b _ s k c o rest HI Hk Ho ltac:(intros i; rewrite Hpc; discriminate)) as Hh. unfold holds_page in Hh. fold p in Hh. rewrite Hd in Hh.
    eapply (inv_step b _ s k c o rest); try eassumption; fold p.
    - intros q Hq. cbn. destruct (Z.eqb_spec q p); [congruence|reflexivity].
    - intros q i Hq Hi. cbn. destruct (Nat.eqb_spec i (d_next b)) as [->|]; [|reflexivity]. specialize (N1 _ _ Hi). lia.
    - reflexivity.
    - split; cbn.
      + intros q n. destruct (Z.eqb_spec q p) as [->|]; [intros [= <-]; lia|]. intros Hq. specialize (N1 _ _ Hq). lia.
      + intros q q' n. destruct (Z.eqb_spec q p) as [->|], (Z.eqb_spec q' p) as [->|].
        * reflexivity.
        * intros [= <-] Hq. specialize (N1 _ _ Hq). lia.
        * intros Hq [= <-]. specialize (N1 _ _ Hq). lia.
        * apply N2.
    - cbn [q_ops]. rewrite Ho. apply incl_refl.
    - unfold pc_ok. cbn [q_acc q_ops q_pc]. fold p. split; [exact Ha|]. split; [exact Hin|]. cbn. rewrite Z.eqb_refl, Nat.eqb_refl. auto.
    - right. exists o, rest, (d_next b). cbn [q_ops q_pc]. auto.
    - intros _ H. congruence. }
  assert (Hmade : forall i, (forall r, o <> TTrim r) -> q_pc c = AtMade i ->
    sim s0 (mkTs (set_ino i (fwrite (d_ino b i) (TREEPAGESIZE - 1) 1 (fun _ => 0)) b) (put_conn (t_conns t) k (mkTc (o :: rest) (AtOpened i) (q_acc c))) (t_log t))).
  { intros i Hnt Hpc. rewrite Hpc in Hp. destruct Hp as (Hd & Hf & Hz & _). apply Hgo.
    assert (Hh' : holds_page (set_ino i (fwrite (d_ino b i) (TREEPAGESIZE - 1) 1 (fun _ => 0)) b) s p).
    { unfold holds_page. change (d_dir (set_ino i (fwrite (d_ino b i) (TREEPAGESIZE - 1) 1 (fun _ => 0)) b) p) with (d_dir b p). rewrite Hd, ino_same.
      change TREEPAGESIZE with 4096. split; [cbn; lia|]. intros j Hj. rewrite frd_fwrite by (cbn; lia). rewrite Hz by lia.
      destruct (_ && _); [reflexivity|]. unfold frd. rewrite Hf. destruct (Z.leb_spec 0 j), (Z.ltb_spec j 0); try lia; reflexivity. }
    eapply (inv_step b _ s k c o rest); try eassumption; fold p.
    - reflexivity.
    - intros q j Hq Hj. apply ino_other. exact (Hother q i j Hq Hj Hd).
    - reflexivity.
    - cbn [q_ops]. rewrite Ho. apply incl_refl.
    - unfold pc_ok. cbn [q_acc q_ops q_pc]. fold p. split; [exact Ha|]. split; [exact Hin|]. cbn. auto.
    - left. exact Hh'.
    - intros _ _ _. split; [reflexivity|exact Hh']. }
  destruct o as [pg off d|pg off n|pg]; cbn [page_of] in p.
  - (* WRITE *)
    assert (Hnt : forall r, TWrite pg off d <> TTrim r) by discriminate.
    destruct (q_pc c) as [| |i|i] eqn:Hpc; [now apply Hstart|now apply Hmiss|now apply Hmade|].
    destruct Hp as [Hd _]. apply Hfin; [reflexivity|].
    pose proof (page_holds b _ s k c _ rest i HI Hk Ho Hpc) as Hh. cbn [page_of] in Hh. fold p in Hh.
    cbn [in_page] in Hop. pose proof (Zle_0_nat (length d)) as Hl. fold (zlen d) in Hl.
    assert (Hh' : holds_page (set_ino i (fwrite (d_ino b i) off (zlen d) (fun j => znth 0 d j)) b) (effect (TWrite pg off d) s) p).
    { unfold holds_page in *. change (d_dir (set_ino i (fwrite (d_ino b i) off (zlen d) (fun j => znth 0 d j)) b) p) with (d_dir b p).
      rewrite Hd in *. destruct Hh as [Hs Hb]. rewrite ino_same. split; [cbn; lia|]. intros j Hj. rewrite frd_fwrite by lia. rewrite Hb by exact Hj.
      cbn [effect]. unfold p. rewrite Z.eqb_refl. reflexivity. }
    eapply (inv_step b _ s k c); try eassumption; cbn [page_of]; fold p.
    + reflexivity.
    + intros q j Hq Hj. apply ino_other. exact (Hother q i j Hq Hj Hd).
    + intros q j Hq. cbn [effect]. fold p. destruct (Z.eqb_spec q p); [congruence|reflexivity].
    + apply Hincr.
    + apply Hpcr.
    + left. exact Hh'.
    + intros _ _ _. split; [reflexivity|exact Hh'].
  - (* READ *)
    assert (Hnt : forall r, TRead pg off n <> TTrim r) by discriminate.
    destruct (q_pc c) as [| |i|i] eqn:Hpc; [now apply Hstart|now apply Hmiss|now apply Hmade|].
    destruct Hp as [Hd _]. pose proof (page_holds b _ s k c _ rest i HI Hk Ho Hpc) as Hh. cbn [page_of] in Hh. fold p in Hh.
    cbn [in_page] in Hop. rewrite Ha. change (zlen (@nil Z)) with 0. rewrite Z.sub_0_r, Z.add_0_r. cbn [app].
    pose proof Hh as Hh0. unfold holds_page in Hh0. rewrite Hd in Hh0. destruct Hh0 as [Hs Hb].
    assert (Z.max 0 (Z.min n (fsize (d_ino b i) - off)) = n) as -> by lia.
    destruct (Z.leb_spec n 0); [lia|]. rewrite Z.eqb_refl. apply Hfin.
    + cbn [right_answer]. f_equal. apply slice_ext. intros j Hj. apply Hb. lia.
    + eapply (inv_step b _ s k c); try eassumption; cbn [page_of effect]; try reflexivity.
      * apply Hincr.
      * apply Hpcr.
      * left. exact Hh.
      * intros _ _ HH. auto.
  - (* TRIM *)
    assert (Hpc : q_pc c = AtStart).
    { destruct (q_pc c) as [| |i|i]; [reflexivity|exfalso..].
      - destruct Hp as [_ Hp]. exact (Hp _ eq_refl).
      - destruct Hp as (_ & _ & _ & Hp). exact (Hp _ eq_refl).
      - destruct Hp as [_ Hp]. exact (Hp _ eq_refl). }
    assert (Hh' : holds_page (set_dir pg None b) (effect (TTrim pg) s) pg).
    { unfold holds_page. cbn. rewrite Z.eqb_refl. reflexivity. }
    apply Hfin; [reflexivity|]. eapply (inv_step b _ s k c); try eassumption; cbn [page_of]; fold p.
    + intros q Hq. cbn. destruct (Z.eqb_spec q p); [congruence|reflexivity].
    + reflexivity.
    + intros q j Hq. cbn [effect]. destruct (Z.eqb_spec q p); [congruence|reflexivity].
    + split; cbn.
      * intros q m. destruct (q =? p); [discriminate|apply N1].
      * intros q q' m. destruct (q =? p); [discriminate|]. destruct (q' =? p); [discriminate|apply N2].
    + apply Hincr.
    + apply Hpcr.
    + left. exact Hh'.
    + intros Hnt. exfalso. exact (Hnt _ eq_refl).
Qed.

Lemma t_run_sim s0 l : forall t, sim s0 t -> sim s0 (t_run l t).
Proof. induction l as [|k l IH]; intros t H; [exact H|]. unfold t_run. cbn [fold_left]. apply IH. now apply t_step_sim. Qed.

Lemma t_init_sim b qs s0 : sane b -> holds b s0 -> Forall (Forall in_page) qs ->
  (forall p, (exists k, only_by p k qs) \/ settled b p qs) -> sim s0 (t_init b qs).
Proof.
  intros Hs Hh Hq Hp. split; [exact I|]. cbn [t_init t_blk t_conns t_log final fold_left].
  assert (Hget : forall j c, nth_error (map (fun q => mkTc q AtStart []) qs) j = Some c -> exists q, nth_error qs j = Some q /\ c = mkTc q AtStart []).
  { intros j c H. rewrite nth_error_map in H. destruct (nth_error qs j) as [q|]; [|discriminate]. injection H as <-. eauto. }
  split; [exact Hs|]. split.
  - intros p. destruct (Hp p) as [[k Hk]|[Hd Ht]].
    + right. exists k. split; [|left; apply Hh]. intros j c o Hj Ho Hpg. destruct (Hget j c Hj) as (q & Hq' & ->). exact (Hk j q o Hq' Ho Hpg).
    + left. split; [exact Hd|]. split; [|apply Hh]. intros j c Hj. destruct (Hget j c Hj) as (q & Hq' & ->). apply Ht. eapply nth_error_In; eassumption.
  - intros j c Hj. destruct (Hget j c Hj) as (q & Hq' & ->). split; [reflexivity|]. cbn [q_ops q_pc].
    split; [rewrite Forall_forall in Hq; apply Hq; eapply nth_error_In; eassumption|]. destruct q; exact I.
Qed.

Lemma done_holds s0 t : sim s0 t -> (forall c, In c (t_conns t) -> q_ops c = []) -> holds (t_blk t) (final s0 (t_log t)).
Proof.
  intros [_ (I1 & I2 & I3)] Hd p. destruct (I2 p) as [(_ & _ & A)|(k0 & A1 & [A|(x & Hx & Hm)])]; [exact A|exact A|].
  destruct Hm as (o & r & i & E & _). rewrite (Hd x) in E by (eapply nth_error_In; eassumption). discriminate.
Qed.

(** every connection's own order *)
Lemma of_conn_app k l e : of_conn k (l ++ [e]) = of_conn k l ++ (if Nat.eqb (fst (fst e)) k then [(snd (fst e), snd e)] else []).
Proof. unfold of_conn. rewrite filter_app, map_app. cbn [filter]. destruct (Nat.eqb _ k); reflexivity. Qed.
Definition ordered (qs : list (list top)) (t : tsys) : Prop :=
  (forall k q, nth_error qs k = Some q -> exists c, nth_error (t_conns t) k = Some c /\ map fst (of_conn k (t_log t)) ++ q_ops c = q) /\
  (forall k, nth_error qs k = None -> nth_error (t_conns t) k = None /\ of_conn k (t_log t) = []).
Lemma t_step_shape k t : t_step k t = t \/
  exists c o rest, nth_error (t_conns t) k = Some c /\ q_ops c = o :: rest /\
    ((exists b pc a, t_step k t = mkTs b (put_conn (t_conns t) k (mkTc (o :: rest) pc a)) (t_log t)) \/
     (exists b r, t_step k t = mkTs b (put_conn (t_conns t) k (mkTc rest AtStart [])) (t_log t ++ [(k, o, r)]))).
Proof.
  unfold t_step. destruct (nth_error (t_conns t) k) as [c|] eqn:Hk; [|now left].
  destruct (q_ops c) as [|o rest] eqn:Ho; [now left|]. right. exists c, o, rest. split; [reflexivity|]. split; [exact Ho|]. cbv zeta.
  destruct o as [p off d|p off n|p].
  - destruct (q_pc c); [left; eauto 6| |left; eauto 6|right; eauto]. destruct (d_dir _ _); left; eauto 6.
  - destruct (q_pc c); [left; eauto 6| |left; eauto 6|].
    + destruct (d_dir _ _); left; eauto 6.
    + destruct (_ <=? 0); [right; eauto|]. destruct (_ <=? 0); [right; eauto|]. destruct (_ =? _); [right; eauto|left; eauto 6].
  - right. eauto.
Qed.
Lemma t_step_ordered qs k t : ordered qs t -> ordered qs (t_step k t).
Proof.
  intros [H1 H2]. destruct (t_step_shape k t) as [->|(c & o & rest & Hk & Ho & [(b & pc & a & ->)|(b & r & ->)])]; [split; assumption|..]; split; cbn [t_conns t_log].
  - intros j q Hj. destruct (H1 j q Hj) as (x & Hx & Hq). destruct (Nat.eq_dec j k) as [->|N].
    + exists (mkTc (o :: rest) pc a). split; [exact (put_same _ _ _ _ Hk)|]. rewrite Hk in Hx. injection Hx as <-. cbn [q_ops]. now rewrite <- Ho.
    + exists x. split; [now rewrite (put_other _ _ _ _ _ Hk N)|exact Hq].
  - intros j Hj. destruct (H2 j Hj) as [A B]. split; [|exact B]. destruct (Nat.eq_dec j k) as [->|N]; [congruence|now rewrite (put_other _ _ _ _ _ Hk N)].
  - intros j q Hj. destruct (H1 j q Hj) as (x & Hx & Hq). rewrite of_conn_app. cbn [fst snd]. destruct (Nat.eqb_spec k j) as [->|N].
    + exists (mkTc rest AtStart []). split; [exact (put_same _ _ _ _ Hk)|]. rewrite Hk in Hx. injection Hx as <-. cbn [q_ops].
      rewrite map_app, <- app_assoc. cbn [map fst app]. now rewrite <- Ho.
    + exists x. split; [rewrite (put_other _ _ _ _ _ Hk) by congruence; exact Hx|]. now rewrite app_nil_r.
  - intros j Hj. destruct (H2 j Hj) as [A B]. rewrite of_conn_app. cbn [fst snd]. destruct (Nat.eqb_spec k j) as [->|N]; [congruence|].
    rewrite app_nil_r. split; [|exact B]. rewrite (put_other _ _ _ _ _ Hk) by congruence. exact A.
Qed.
Lemma t_run_ordered qs l : forall t, ordered qs t -> ordered qs (t_run l t).
Proof. induction l as [|k l IH]; intros t H; [exact H|]. unfold t_run. cbn [fold_left]. apply IH. now apply t_step_ordered. Qed.
Lemma t_init_ordered b qs : ordered qs (t_init b qs).
Proof.
  split; cbn [t_init t_conns t_log].
  - intros k q H. exists (mkTc q AtStart []). split; [now rewrite nth_error_map, H|reflexivity].
  - intros k H. split; [now rewrite nth_error_map, H|reflexivity].
Qed.

(** everything gets done *)
Definition rank (c : tconn) : nat := match q_pc c with AtStart => 0 | AtMissing => 1 | AtMade _ => 2 | AtOpened _ => 3 end.
Definition left_to (c : tconn) : nat := match q_ops c with [] => 0 | _ => 4 * length (q_ops c) - rank c end.
Definition left_at (k : nat) (t : tsys) : nat := match nth_error (t_conns t) k with Some c => left_to c | None => 0 end.
Lemma t_step_left s0 k t : sim s0 t -> (left_at k (t_step k t) <= left_at k t - 1)%nat.
Proof.
  intros [HE HI]. unfold t_step. destruct (nth_error (t_conns t) k) as [c|] eqn:Hk; [|unfold left_at; rewrite Hk; lia].
  destruct (q_ops c) as [|o rest] eqn:Ho; [unfold left_at, left_to; rewrite Hk, Ho; lia|]. cbv zeta.
  assert (Hfin : forall b g, (left_at k (mkTs b (put_conn (t_conns t) k (mkTc rest AtStart [])) g) <= left_at k t - 1)%nat).
  { intros b g. unfold left_at, left_to. cbn [t_conns]. rewrite (put_same _ _ _ _ Hk), Hk, Ho. cbn [q_ops q_pc rank length].
    destruct rest; unfold rank; cbn [q_pc length]; destruct (q_pc c); lia. }
  assert (Hgo : forall b pc a g, (rank c < rank (mkTc (o :: rest) pc a))%nat ->
     (left_at k (mkTs b (put_conn (t_conns t) k (mkTc (o :: rest) pc a)) g) <= left_at k t - 1)%nat).
  { intros b pc a g H. unfold left_at, left_to. cbn [t_conns]. rewrite (put_same _ _ _ _ Hk), Hk, Ho. cbn [q_ops length].
    unfold rank in *. cbn [q_pc] in *. destruct (q_pc c), pc; lia. }
  destruct o as [p off d|p off n|p]; [..|apply Hfin].
  - destruct (q_pc c) as [| |i|i] eqn:Hpc; [apply Hgo| |apply Hgo|apply Hfin]; unfold rank; rewrite ?Hpc; cbn [q_pc]; [destruct (d_dir _ _); lia|..|lia].
    destruct (d_dir _ _); apply Hgo; unfold rank; rewrite Hpc; cbn [q_pc]; lia.
  - destruct (q_pc c) as [| |i|i] eqn:Hpc; [apply Hgo| |apply Hgo|]; unfold rank; rewrite ?Hpc; cbn [q_pc]; [destruct (d_dir _ _); lia|..|lia|].
    { destruct (d_dir _ _); apply Hgo; unfold rank; rewrite Hpc; cbn [q_pc]; lia. }
    destruct (_ <=? 0); [apply Hfin|]. destruct (_ <=? 0); [apply Hfin|]. destruct (Z.eqb_spec (Z.max 0 (Z.min (n - zlen (q_acc c)) (fsize (d_ino (t_blk t) i) - (off + zlen (q_acc c))))) (n - zlen (q_acc c))) as [|X]; [apply Hfin|].
    exfalso. apply X. pose proof HI as (I1 & I2 & I3). destruct (I3 k c Hk) as (Ha & Hin & Hp). rewrite Ho in Hp, Hin. rewrite Hpc in Hp. destruct Hp as [Hd _].
    pose proof (page_holds _ _ _ k c _ rest i HI Hk Ho Hpc) as Hh. unfold holds_page in Hh. rewrite Hd in Hh. destruct Hh as [Hh _].
    rewrite Ha. change (zlen (@nil Z)) with 0. inversion Hin as [|? ? Hi _]; subst. cbn [in_page] in Hi. lia.
Qed.
Lemma t_step_else j k t : j <> k -> left_at j (t_step k t) = left_at j t.
Proof.
  intros N. destruct (t_step_shape k t) as [->|(c & o & rest & Hk & Ho & [(b & pc & a & ->)|(b & r & ->)])]; [reflexivity|..];
    unfold left_at; cbn [t_conns]; now rewrite (put_other _ _ _ _ _ Hk N).
Qed.
Lemma t_run_left s0 k l : forall t, sim s0 t -> (left_at k (t_run l t) <= left_at k t - turns k l)%nat.
Proof.
  induction l as [|j l IH]; intros t H; [cbn; lia|]. unfold t_run, turns. cbn [fold_left count_occ].
  specialize (IH _ (t_step_sim _ j _ H)). unfold t_run, turns in IH. destruct (Nat.eq_dec j k) as [->|N].
  - pose proof (t_step_left s0 k t H). lia.
  - rewrite (t_step_else k j t) in IH by congruence. lia.
Qed.
Lemma left_to_done c : left_to c = 0%nat -> q_ops c = [].
Proof. unfold left_to, rank. destruct (q_ops c); [reflexivity|]. cbn [length]. destruct (q_pc c); lia. Qed.

Lemma shared_tree b qs s0 l :
  sane b -> holds b s0 -> Forall (Forall in_page) qs -> (forall p, (exists k, only_by p k qs) \/ settled b p qs) ->
  let t := t_run l (t_init b qs) in
  explains s0 (t_log t) /\
  ((forall k q, nth_error qs k = Some q -> (4 * length q <= turns k l)%nat) ->
     (forall k q, nth_error qs k = Some q -> map fst (of_conn k (t_log t)) = q) /\ holds (t_blk t) (final s0 (t_log t))).
Proof.
  intros H1 H2 H3 H4 t. pose proof (t_run_sim s0 l _ (t_init_sim b qs s0 H1 H2 H3 H4)) as Hs. fold t in Hs. split; [exact (proj1 Hs)|]. intros Ht.
  pose proof (t_run_ordered qs l _ (t_init_ordered b qs)) as [O1 O2]. fold t in O1, O2.
  assert (Hd : forall k c, nth_error (t_conns t) k = Some c -> q_ops c = []).
  { intros k c Hc. destruct (nth_error qs k) as [q|] eqn:Hq; [|destruct (O2 k Hq); congruence].
    apply left_to_done. pose proof (t_run_left s0 k l _ (t_init_sim b qs s0 H1 H2 H3 H4)) as L. fold t in L. unfold left_at in L. rewrite Hc in L.
    cbn [t_init t_conns] in L. rewrite nth_error_map, Hq in L. cbn [option_map] in L. unfold left_to at 2 in L. cbn [q_ops rank q_pc] in L.
    specialize (Ht k q Hq). unfold rank in L. cbn [q_pc] in L. destruct q; lia. }
  split.
  - intros k q Hq. destruct (O1 k q Hq) as (c & Hc & E). rewrite (Hd k c Hc), app_nil_r in E. exact E.
  - apply done_holds; [exact Hs|]. intros c Hc. destruct (In_nth_error _ _ Hc) as [k Hk]. exact (Hd k c Hk).
Qed.

(** the schedule that loses a byte *)
Definition lost_log (l : list (nat * top * tres)) : Prop :=
  of_conn 0 l = [(TWrite 0 4095 [7], TDone); (TRead 0 4095 1, TData [0])] /\ of_conn 1 l = [(TRead 0 0 1, TData [0])] /\
  forall k, (2 <= k)%nat -> of_conn k l = [].
Lemma of_conn_cons k e l : of_conn k (e :: l) = (if Nat.eqb (fst (fst e)) k then [(snd (fst e), snd e)] else []) ++ of_conn k l.
Proof. unfold of_conn. cbn [filter]. destruct (Nat.eqb _ k); reflexivity. Qed.
Lemma lost_step s l : 
  (of_conn 0 l = [(TRead 0 4095 1, TData [0])]) -> (of_conn 1 l = [(TRead 0 0 1, TData [0])] \/ of_conn 1 l = []) ->
  (forall k, (2 <= k)%nat -> of_conn k l = []) -> s 0 4095 = 7 -> ~ explains s l.
Proof.
  revert s. induction l as [|[[k o] r] l IH]; intros s A B C D E; [discriminate A|]. destruct E as [E1 E2].
  rewrite of_conn_cons in A, B. cbn [fst snd] in A, B. destruct k as [|[|k]]; cbn [Nat.eqb app] in A, B.
  - injection A as -> -> A. unfold right_answer in E1. change (slice (s 0) 4095 1) with [s 0 4095] in E1. rewrite D in E1. discriminate E1.
  - destruct B as [B|B]; [|discriminate B]. injection B as -> -> B. apply (IH s); auto.
    intros k Hk. specialize (C k Hk). rewrite of_conn_cons in C. cbn [fst] in C. destruct (Nat.eqb_spec 1 k); [lia|exact C].
  - specialize (C (S (S k)) ltac:(lia)). rewrite of_conn_cons in C. cbn [fst] in C. rewrite Nat.eqb_refl in C. discriminate C.
Qed.
Lemma lost_first s l : lost_log l -> ~ explains s l.
Proof.
  intros (A & B & C) E. assert (B' : of_conn 1 l = [(TRead 0 0 1, TData [0])] \/ of_conn 1 l = []) by (now left). clear B.
  revert s A B' C E. induction l as [|[[k o] r] l IH]; intros s A B C E; [discriminate A|]. destruct E as [E1 E2].
  rewrite of_conn_cons in A, B. cbn [fst snd] in A, B.
  assert (C' : forall j, (2 <= j)%nat -> of_conn j l = []).
  { intros j Hj. specialize (C j Hj). rewrite of_conn_cons in C. now apply app_eq_nil in C. }
  destruct k as [|[|k]]; cbn [Nat.eqb app] in A, B.
  - injection A as -> -> A. refine (lost_step _ _ A B C' _ E2). reflexivity.
  - destruct B as [B|B]; [|discriminate B]. injection B as -> -> B. apply (IH s); auto.
  - specialize (C (S (S k)) ltac:(lia)). rewrite of_conn_cons in C. cbn [fst] in C. rewrite Nat.eqb_refl in C. discriminate C.
Qed.
