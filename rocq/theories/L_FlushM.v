(** FLUSH on one of several connections. *)
From Verif Require Import Base M_Const M_Disk M_Tree M_Raw M_Setup M_Par M_Multi L_Wp L_Raw S_Wire S_Disk S_Crash L_Wire L_Req L_Plain L_Session L_Setup L_PlainS L_Gen L_Frame L_Props L_Crash L_Dur L_DurS S_Par S_Byte L_Msg L_LogMsg L_Sched L_SchedC L_SchedL S_Run L_Sent L_Byte L_Fin L_ByteS L_ParP S_Multi L_Got L_Tab L_Multi L_FlushC L_One.

(** ** Crashes *)
(** the event leaves the byte alone or gives it the value [v] *)
Definition calm_at (h : fref) (i v : Z) (e : event) : Prop := leaves h i e \/ makes h i v e.
Lemma covers_iff off n i : covers off n i = true <-> off <= i < off + n.
Proof. unfold covers. lia. Qed.
Lemma now_cons init e t h i : (leaves h i e /\ now init (e :: t) h i = now init t h i) \/ makes h i (now init (e :: t) h i) e.
Proof.
  destruct e as [h' off n d|h'| |h' off n|p|p|m]; cbn [now leaves makes]; try (left; split; [exact I|reflexivity]).
  - destruct (fref_eq_dec h h') as [->|Hne]; [|left; auto]. destruct (covers off n i) eqn:E; [right|left; auto].
    apply covers_iff in E. auto.
  - destruct (fref_eq_dec h h') as [->|Hne]; [|left; auto]. destruct (covers off n i) eqn:E; [right|left; auto].
    apply covers_iff in E. auto.
  - destruct (fref_eq_dec h (FTree p)) as [->|Hne]; [right; auto|left; auto].
  - destruct (fref_eq_dec h (FTree p)) as [->|Hne]; [right; auto|left; auto].
Qed.
Lemma after_cons init e t h i x : In x (after_crash init (e :: t) h i) ->
  makes h i x e \/ (syncs e h /\ x = now init t h i) \/ In x (after_crash init t h i).
Proof.
  destruct e as [h' off n d|h'| |h' off n|p|p|m]; cbn [after_crash makes].
  - destruct (fref_eq_dec h h') as [->|Hne]; [|auto]. destruct (covers off n i) eqn:E; [|auto].
    apply covers_iff in E. intros [<-|H]; auto.
  - destruct (fref_eq_dec h h') as [->|Hne]; [|auto]. intros [<-|[]]. right. left. split; [left|]; reflexivity.
  - intros [<-|[]]. right. left. split; [right|]; reflexivity.
  - destruct (fref_eq_dec h h') as [->|Hne]; [|auto]. destruct (covers off n i) eqn:E; [|auto].
    apply covers_iff in E. intros [<-|H]; auto.
  - destruct (fref_eq_dec h (FTree p)) as [->|Hne]; [|auto]. intros [<-|H]; auto.
  - destruct (fref_eq_dec h (FTree p)) as [->|Hne]; [|auto]. intros [<-|H]; auto.
  - auto.
Qed.
Lemma now_since init ext t h i : now init (ext ++ t) h i = now init t h i \/ Exists (makes h i (now init (ext ++ t) h i)) ext.
Proof.
  induction ext as [|e l IH]; [left; reflexivity|]. cbn [app]. destruct (now_cons init e (l ++ t) h i) as [[_ E]|H].
  - rewrite E. destruct IH as [IH|IH]; [left; exact IH|right; apply Exists_cons_tl, IH].
  - right. apply Exists_cons_hd, H.
Qed.
Lemma crash_synced init a e b t h i x : syncs e h -> In x (after_crash init (a ++ e :: b ++ t) h i) ->
  x = now init t h i \/ Exists (makes h i x) (a ++ e :: b).
Proof.
  intros He. induction a as [|f a IH]; cbn [app].
  - assert (E : after_crash init (e :: b ++ t) h i = [now init (b ++ t) h i]).
    { destruct He as [-> | ->]; cbn [after_crash]; [|reflexivity]. destruct (fref_eq_dec h h); [reflexivity|congruence]. }
    rewrite E. intros [<-|[]]. destruct (now_since init b t h i) as [H|H]; [left; exact H|right; apply Exists_cons_tl, H].
  - intros H. destruct (after_cons _ _ _ _ _ _ H) as [H1|[[_ ->]|H1]].
    + right. apply Exists_cons_hd, H1.
    + replace (a ++ e :: b ++ t) with ((a ++ e :: b) ++ t) by (rewrite <- app_assoc; reflexivity).
      destruct (now_since init (a ++ e :: b) t h i) as [H2|H2]; [left; exact H2|right; apply Exists_cons_tl, H2].
    + destruct (IH H1) as [H2|H2]; [left; exact H2|right; apply Exists_cons_tl, H2].
Qed.
Lemma crash_since init tr h i t x : synced t h tr -> forall ext, tr = ext ++ t -> In x (after_crash init tr h i) ->
  x = now init t h i \/ Exists (makes h i x) ext.
Proof.
  intros (a & e & b & -> & He) ext E H. replace (a ++ e :: b ++ t) with ((a ++ e :: b) ++ t) in E by (rewrite <- app_assoc; reflexivity).
  apply app_inv_tail in E. subst ext. eapply crash_synced; eauto.
Qed.
Lemma calm_makes h i v e x : calm_at h i v e -> makes h i x e -> x = v.
Proof.
  intros [H|H] Hx; destruct e; cbn [leaves makes] in *; try contradiction;
    repeat match goal with H : _ /\ _ |- _ => destruct H end; subst; auto; try congruence.
  - destruct H as [H|H]; [congruence|]. unfold covers in H. lia.
  - destruct H as [H|H]; [congruence|]. unfold covers in H. lia.
Qed.

Section Group.
  Variable init : fref -> Z -> Z.
  Variables (su : setup) (fis : list finfo) (w0 : world) (ts : list talk).
  Notation cl := (client_for su).
  Hypothesis Hhandles : forall n fi, nth_error fis n = Some fi -> exists m, fi_h fi = FExp m.
  Hypothesis Hplain : forall t, In t ts -> plain (cl t) fis.
  Hypothesis Hfits : forall t, In t ts -> L_Plain.fits (cl t) fis w0.
  Hypothesis Hready : forall t, In t ts -> ready (cl t).
  Hypothesis Hok : Forall (talk_ok su w0) ts.
  Hypothesis Htmp : forall t, In t ts -> cflag (cl t) F_TEMPORARY && negb (cflag (cl t) F_MULTIFILE) = false.
  Variable j : Z.
  Notation at_ := (at_ fis j).
  Notation winv := (winv su fis w0 ts j).

  Definition finv (T : list event) (tgt : nat -> nat -> bool) (g : group) : Prop :=
    traced init (g_w g) /\ later T (w_tr (g_w g)) /\
    forall b t p, nth_error ts b = Some t -> nth_error (g_procs g) b = Some p ->
      flush_inv init fis (tk_qs t) T (tgt b) (y_setw (g_w g) (pr_sys p)) /\ sys_oe (pr_sys p).

  Lemma traced_enter t gw own : In t ts -> kept fis w0 gw ->
    w_file own FDiff = w_file w0 FDiff -> w_file own FDummy = w_file w0 FDummy ->
    traced init gw -> traced init (enter (cl t) gw own).
  Proof.
    intros Hin Kg O1 O2 Ht. destruct (enter_file su fis w0 ts Hhandles Htmp t gw own Hin Kg O1 O2) as (_ & _ & Hf).
    intros h i Hd. specialize (Ht h i Hd). unfold S_Crash.held in *. destruct h; rewrite ?Hf; exact Ht.
  Qed.

  Lemma f_g_step T tgt b x g g' :
    (forall b t i q, tgt b i = true -> nth_error ts b = Some t -> nth_error (tk_qs t) i = Some q -> q_cmd q = 3) ->
    winv g -> finv T tgt g -> g_step b x g = GGo g' -> finv T tgt g' /\ step1 (w_tr (g_w g)) (w_tr (g_w g')).
  Proof.
    intros Htgt (Kg & Hlen & Hw) (Ft & Fl & Fp) E. unfold g_step in E.
    destruct (nth_error (g_procs g) b) as [p|] eqn:Eb; [|discriminate]. destruct (pr_gone p); [discriminate|].
    destruct (nth_error ts b) as [t|] eqn:Et.
    2: { apply nth_error_None in Et. pose proof (nth_lt _ _ _ Eb). lia. }
    pose proof (nth_error_In _ _ Et) as Hin.
    destruct (Hw b t p Et Eb) as (Hc & Hl & G & _ & (O1 & O2) & _). rewrite Hc, Hl in E.
    destruct (Fp b t p Et Eb) as [FI Oe].
    pose proof (traced_enter t (g_w g) (y_w (pr_sys p)) Hin Kg O1 O2 Ft) as Te.
    set (w1 := enter (cl t) (g_w g) (y_w (pr_sys p))) in *.
    set (s0 := y_setw w1 (pr_sys p)) in *.
    assert (G0 : good true (tk_lg t) (cl t) (tk_qs t) (tk_tail t) (tk_end t) s0) by (apply good_w, G).
    assert (F0 : flush_inv init fis (tk_qs t) T (tgt b) s0).
    { apply (flush_env init fis (tk_qs t) T (tgt b) (y_setw (g_w g) (pr_sys p)) FI w1 Te). apply later_refl. }
    pose proof (flush_step init true (tk_lg t) (cl t) fis (Hplain t Hin) (tk_qs t) (tk_tail t) (tk_end t) T (tgt b)
       (fun i q H => Htgt b t i q H Et) s0 G0 F0 x) as HF.
    pose proof (oe_step (tk_lg t) (cl t) fis (Hplain t Hin) x s0 Oe) as HO.
    assert (Next : forall s' gone, flush_inv init fis (tk_qs t) T (tgt b) s' -> traced init (y_w s') -> later (w_tr (g_w g)) (w_tr (y_w s')) ->
      sys_oe s' -> finv T tgt (mkG (y_w s') (set_proc (g_procs g) b (mkProc (cl t) (tk_lg t) s' gone)))).
    { intros s' gone F' T' L' O'. split; [exact T'|]. split; [cbn [g_w]; eapply later_trans; eauto|]. cbn [g_w g_procs].
      intros b' t' p' Et' Ep'. destruct (Nat.eq_dec b' b) as [->|Hb].
      - rewrite (set_proc_same _ _ _ _ Eb) in Ep'. injection Ep' as <-. assert (t' = t) by congruence. subst t'.
        cbn [pr_sys]. rewrite y_setw_id. auto.
      - rewrite (set_proc_other _ _ _ _ _ Eb Hb) in Ep'. destruct (Fp b' t' p' Et' Ep') as [F1 O1'].
        split; [|exact O1']. exact (flush_env init fis (tk_qs t') T (tgt b') (y_setw (g_w g) (pr_sys p')) F1 (y_w s') T' L'). }
    destruct (sys_step (tk_lg t) (cl t) x s0) as [s'| | |s'] eqn:Es; try discriminate; injection E as <-; cbn [g_w].
    - destruct HF as (F1 & F2 & F3). destruct HO as [O1' O2']. split; [apply Next; auto|exact O2'].
    - destruct (Hready t Hin) as (R1 & _). pose proof (exit_same _ _ _ _ _ _ _ _ G0 R1 Es) as ->.
      split; [apply Next; auto; apply later_refl|left; reflexivity].
  Qed.

  Lemma winv_step b x g g' : winv g -> g_step b x g = GGo g' -> winv g' /\ farther g g'.
  Proof.
    intros Hw E. pose proof (g_step_inv su fis w0 ts Hhandles Hplain Hfits Hready Hok Htmp j 0 (fun _ _ => true) (fun _ _ => false) (no_sole ts j) b x g Hw) as H.
    rewrite E in H. destruct H as [H1 H2]. split; [apply H2; reflexivity|exact H1].
  Qed.

  Lemma f_g_run T tgt g2 l :
    (forall b t i q, tgt b i = true -> nth_error ts b = Some t -> nth_error (tk_qs t) i = Some q -> q_cmd q = 3) ->
    forall g, winv g -> finv T tgt g -> g_run l g = GGo g2 -> finv T tgt g2 /\ later (w_tr (g_w g)) (w_tr (g_w g2)).
  Proof.
    intros Htgt. induction l as [|[b x] l IH]; intros g Hw Hf E; cbn [g_run] in E; [injection E as <-; split; [exact Hf|apply later_refl]|].
    destruct (g_step b x g) as [g'| |] eqn:Eg; [|apply IH; auto|discriminate].
    destruct (f_g_step T tgt b x g g' Htgt Hw Hf Eg) as [F1 S1]. destruct (winv_step _ _ _ _ Hw Eg) as [W1 _].
    destruct (IH g' W1 F1 E) as [F2 L2]. split; [exact F2|]. eapply later_trans; [|exact L2].
    destruct S1 as [-> |[e ->]]; [apply later_refl|apply later_cons, later_refl].
  Qed.

  Lemma finv_init : traced init w0 -> finv (w_tr w0) (fun _ _ => false) (g_init (map (conn_for su) ts) w0).
  Proof.
    clear Hhandles Hplain Hfits Hready Htmp Hok. intros Ht. split; [exact Ht|]. split; [apply later_refl|]. intros b t p Et Ep.
    cbn [g_init g_procs] in Ep. rewrite map_map, nth_error_map, Et in Ep. cbn [option_map] in Ep. injection Ep as <-. split.
    - constructor; cbn [g_init g_w pr_sys conn_for cn_client cn_lg cn_threads cn_in cn_own sys_init y_setw y_w y_th y_msgs].
      + exact Ht.
      + apply later_refl.
      + intros n x i p q Ex Hi. apply nth_error_In, repeat_spec in Ex. subst x. discriminate.
      + intros n x i p Ex Hi. apply nth_error_In, repeat_spec in Ex. subst x. discriminate.
      + intros i q Hi. unfold taken in Hi. cbn in Hi. lia.
      + intros n x i q Ex Hi. apply nth_error_In, repeat_spec in Ex. subst x. discriminate.
    - intros n x p Ex Hp. cbn [pr_sys conn_for cn_threads sys_init y_th] in Ex. apply nth_error_In, repeat_spec in Ex. subst x. discriminate.
  Qed.

  Lemma unread_le g b i p : unread_by g b i -> nth_error (g_procs g) b = Some p -> (taken (pr_sys p) <= i)%nat.
  Proof. clear. intros (p' & E & H) E'. assert (p' = p) by congruence. subst p'. unfold taken. lia. Qed.

  Lemma finv_restart T0 tgt0 g b0 i0 : winv g -> finv T0 tgt0 g -> unread_by g b0 i0 ->
    finv (w_tr (g_w g)) (fun b i => (b =? b0)%nat && (i =? i0)%nat) g.
  Proof.
    clear Hhandles Hplain Hfits Hready Htmp Hok. intros (_ & _ & Hw) (Ft & _ & Fp) Hu. split; [exact Ft|]. split; [apply later_refl|]. intros b t p Et Ep.
    destruct (Fp b t p Et Ep) as [[F1 F2 F3 F4 F5 F6] Oe]. split; [|exact Oe].
    destruct (Hw b t p Et Ep) as (_ & _ & G & _). pose proof (g_core _ _ _ _ _ _ _ G) as K.
    assert (Hno : forall i, (i < taken (pr_sys p))%nat -> ((b =? b0)%nat && (i =? i0)%nat) = false).
    { intros i Hi. destruct ((b =? b0)%nat && (i =? i0)%nat) eqn:E; [|reflexivity]. apply andb_prop in E. destruct E as [E1 E2].
      apply Nat.eqb_eq in E1, E2. subst b i. pose proof (unread_le _ _ _ _ Hu Ep). lia. }
    constructor.
    - exact F1.
    - apply later_refl.
    - intros n x i p' q E1 E2 E3 E4. pose proof (k_th _ _ _ _ K _ _ _ E1 E2) as Hi.
      eapply fs_mono; [exact (F3 n x i p' q E1 E2 E3 E4)|]. intros a u m _ Hq. rewrite (Hno i Hi) in Hq. discriminate.
    - exact F4.
    - intros i q Hi _ _ Hq. rewrite (Hno i Hi) in Hq. discriminate.
    - intros n x i q E1 E2 _ _ _ Hq. pose proof (k_th _ _ _ _ K _ _ _ E1 E2) as Hi. rewrite (Hno i Hi) in Hq. discriminate.
  Qed.

  (** an answered FLUSH has synced every file *)
  Lemma flush_answered T g b i t p q : winv g -> finv T (fun b' i' => (b' =? b)%nat && (i' =? i)%nat) g ->
    nth_error ts b = Some t -> nth_error (g_procs g) b = Some p -> nth_error (tk_qs t) i = Some q ->
    has_got (tk_qs t) (y_out (pr_sys p)) q [VSimple 0 []] -> forall fi, In fi fis -> synced T (fi_h fi) (w_tr (g_w g)).
  Proof.
    clear Hhandles Hplain Hfits Hready Htmp. intros (_ & _ & Hw) (_ & _ & Fp) Et Ep Eq Hg. destruct (Hw b t p Et Ep) as (_ & _ & G & Sa & _).
    destruct (Fp b t p Et Ep) as [[F1 F2 F3 F4 F5 F6] _].
    pose proof Hok as Hok'. rewrite Forall_forall in Hok'. destruct (Hok' t (nth_error_In _ _ Et)) as (_ & T2 & _ & T4 & _).
    destruct (got_whole _ _ _ _ _ _ T2 T4 (pr_sys p) G Sa i q [VSimple 0 []] Eq Hg ltac:(left; eauto)) as [Hms Hfin].
    change (y_w (y_setw (g_w g) (pr_sys p))) with (g_w g) in *.
    change (y_th (y_setw (g_w g) (pr_sys p))) with (y_th (pr_sys p)) in *.
    change (y_msgs (y_setw (g_w g) (pr_sys p))) with (y_msgs (pr_sys p)) in *.
    change (taken (y_setw (g_w g) (pr_sys p))) with (taken (pr_sys p)) in *.
    assert (Hpost : tgt_post fis T (fun i' => (b =? b)%nat && (i' =? i)%nat) i q tt (w_tr (g_w g)) (of_id i (y_msgs (pr_sys p)))).
    { destruct (Nat.lt_ge_cases i (taken (pr_sys p))) as [Hi|Hi].
      2: { destruct (k_new _ _ _ _ (g_core _ _ _ _ _ _ _ G) i Hi) as [E _]. rewrite E in Hfin. discriminate. }
      destruct (existsb (fun x => match wid x with Some k => Nat.eqb k i | None => false end) (y_th (pr_sys p))) eqn:Ex.
      - apply existsb_exists in Ex. destruct Ex as (x & Hx & Hk). destruct (wid x) as [k|] eqn:Ek; [|discriminate].
        apply Nat.eqb_eq in Hk. subst k. apply In_nth_error in Hx. destruct Hx as [n Hn].
        destruct (wcode x) as [p'|] eqn:Ec.
        + eapply fw_fs; [|eapply F3; eauto]. rewrite <- Hfin. eapply F4; eauto.
        + eapply F6; eauto.
      - apply F5; [exact Hi|exact Eq|]. intros n x Hn Hk. assert (X : existsb (fun x => match wid x with Some k => Nat.eqb k i | None => false end) (y_th (pr_sys p)) = true); [|congruence].
        apply existsb_exists. exists x. split; [eapply nth_error_In; eauto|]. rewrite Hk. apply Nat.eqb_refl. }
    destruct (Hpost ltac:(rewrite !Nat.eqb_refl; reflexivity)) as (e & H1 & H2 & H3).
    rewrite Hms in H1. cbn [map enc_view] in H1. apply (f_equal (hd [])) in H1. cbn [hd] in H1. rewrite app_nil_r in H1. apply H3.
    apply (reply_inj (q_cookie q)); [exact H2|]. symmetry. exact H1.
  Qed.

  (** a byte nobody works on: all events leave it or give it the same value *)
  Section Calm.
    Variables (v0 : Z) (live sole : nat -> nat -> bool).
    Hypothesis Hsole : forall b i, sole b i = true -> forall b' t i' q, live b' i' = true ->
      nth_error ts b' = Some t -> nth_error (tk_qs t) i' = Some q -> (b', i') <> (b, i) -> touches q j = false.
    Variables (g2 : group) (b0 i0 : nat) (t0 : talk) (p2 : proc) (h : fref) (o : Z).
    Hypothesis Ht0 : nth_error ts b0 = Some t0.
    Hypothesis Hp2 : nth_error (g_procs g2) b0 = Some p2.
    Hypothesis Hi0 : (taken (pr_sys p2) <= i0)%nat.
    Hypothesis Hs0 : sole b0 i0 = true.
    Hypothesis Hd : h <> FDummy.
    Hypothesis Hat : forall g, winv g -> S_Crash.held (g_w g) h o = at_ (g_w g).

    Lemma calm_value g : winv g -> ginv su fis w0 ts j v0 live sole g -> farther g g2 -> at_ (g_w g) = v0.
    Proof.
      intros W (_ & Hlen & Hp) [L F]. destruct (nth_error (g_procs g) b0) as [p|] eqn:Ep.
      2: { apply nth_error_None in Ep. pose proof (nth_lt _ _ _ Hp2). lia. }
      destruct (Hp b0 t0 p Ht0 Ep) as (_ & _ & _ & _ & _ & B). apply (b_new _ _ _ _ _ _ _ _ B i0); [|exact Hs0].
      specialize (F b0 p p2 Ep Hp2). change (taken (y_setw (g_w g) (pr_sys p))) with (taken (pr_sys p)). lia.
    Qed.

    Lemma calm_run T tgt l (Htgt : forall b t i q, tgt b i = true -> nth_error ts b = Some t -> nth_error (tk_qs t) i = Some q -> q_cmd q = 3) :
      forall g, winv g -> ginv su fis w0 ts j v0 live sole g -> finv T tgt g -> g_run l g = GGo g2 ->
      (forall b p p2 k, nth_error (g_procs g) b = Some p -> nth_error (g_procs g2) b = Some p2 ->
         (taken (pr_sys p) <= k < taken (pr_sys p2))%nat -> live b k = true) ->
      exists ext, w_tr (g_w g2) = ext ++ w_tr (g_w g) /\ Forall (calm_at h o v0) ext.
    Proof.
      induction l as [|[b x] l IH]; intros g Hw Hg Hf E Hl; cbn [g_run] in E.
      { injection E as <-. exists []. split; [reflexivity|constructor]. }
      destruct (g_step b x g) as [g'| |] eqn:Eg; [|apply IH; auto|discriminate].
      destruct (winv_step _ _ _ _ Hw Eg) as [W1 Fa]. destruct (f_g_step T tgt b x g g' Htgt Hw Hf Eg) as [F1 S1].
      pose proof (g_run_weak su fis w0 ts Hhandles Hplain Hfits Hready Hok Htmp j l g' W1) as HR. rewrite E in HR. destruct HR as [W2 HR].
      assert (G1 : ginv su fis w0 ts j v0 live sole g').
      { pose proof (g_step_inv su fis w0 ts Hhandles Hplain Hfits Hready Hok Htmp j v0 live sole Hsole b x g Hg) as H.
        rewrite Eg in H. destruct H as [_ H]. apply H. intros b' p p' k E1 E2 Hk. destruct HR as [L2 HR].
        destruct (nth_error (g_procs g2) b') as [p3|] eqn:E3.
        + apply (Hl b' p p3); auto. specialize (HR _ _ _ E2 E3). lia.
        + apply nth_error_None in E3. pose proof (nth_lt _ _ _ E2). lia. }
      destruct (IH g' W1 G1 F1 E) as (ext & Ex & Hext).
      { intros b' p p3 k E1 E2 Hk. destruct (nth_error (g_procs g) b') as [p1|] eqn:E3.
        + apply (Hl b' p1 p3); auto. destruct Fa as [_ Fa]. specialize (Fa _ _ _ E3 E1). lia.
        + apply nth_error_None in E3. destruct Fa as [Fa _]. pose proof (nth_lt _ _ _ E1). lia. }
      pose proof (calm_value g' W1 G1 HR) as V'.
      destruct S1 as [S1|[e S1]]; rewrite S1 in Ex; [exists ext; auto|].
      exists (ext ++ [e]). rewrite <- app_assoc. split; [exact Ex|]. apply Forall_app. split; [exact Hext|]. constructor; [|constructor].
      destruct F1 as (Tr & _). specialize (Tr h o Hd). rewrite S1, (Hat g' W1), V' in Tr.
      destruct (now_cons init e (w_tr (g_w g)) h o) as [[H _]|H]; [left; exact H|right]. rewrite Tr in H. exact H.
    Qed.
  End Calm.
End Group.

Section Opened.
  Variables (flags expected : Z) (ms : list member) (su : setup) (w : world) (ts : list talk) (init : fref -> Z -> Z).
  Hypothesis O : opened flags expected ms su w.
  Hypothesis Htmp : flag flags F_TEMPORARY && negb (flag flags F_MULTIFILE) = false.
  Hypothesis Hok : Forall (talk_ok su w) ts.
  Hypothesis Htr : traced init w.
  Variables (l1 l2 l3 : list (nat * choice)) (g1 g2 g3 : group).
  Hypothesis E1 : g_run l1 (g_init (map (conn_for su) ts) w) = GGo g1.
  Hypothesis E2 : g_run l2 g1 = GGo g2.
  Hypothesis E3 : g_run l3 g2 = GGo g3.
  Variables (b i : nat) (t : talk) (p2 : proc) (q : wreq).
  Hypothesis Et : nth_error ts b = Some t.
  Hypothesis Eq : nth_error (tk_qs t) i = Some q.
  Hypothesis Hc : q_cmd q = 3.
  Hypothesis Hu : unread_by g1 b i.
  Hypothesis Ep : nth_error (g_procs g2) b = Some p2.
  Hypothesis Hg : has_got (tk_qs t) (y_out (pr_sys p2)) q [VSimple 0 []].
  Variable j : Z.
  Hypothesis Hj : 0 <= j < su_size su.

  Lemma g_run_app a l : forall g, g_run (a ++ l) g = match g_run a g with GGo g' => g_run l g' | r => r end.
  Proof.
    clear. induction a as [|[b x] a IH]; intros g; cbn [app g_run]; [reflexivity|].
    destruct (g_step b x g); [apply IH|apply IH|reflexivity].
  Qed.

  Theorem flush_crash : exists n o ext, place (sizes_of (nfiles su) w) j = Some (n, o) /\
    w_tr (g_w g3) = ext ++ w_tr (g_w g1) /\
    (forall x, In x (after_crash init (w_tr (g_w g3)) (FExp n) o) ->
       x = disk_of su (g_w g1) j \/ Exists (makes (FExp n) o x) ext) /\
    (others_idle ts g1 g3 None j -> durable init (w_tr (g_w g3)) (FExp n) o (disk_of su (g_w g1) j)).
  Proof.
    destruct (opened_group flags expected ms su w ts O Htmp) as (fis & H1 & H2 & H3 & H4 & H5 & H6 & H7).
    pose proof O as (Hs & Hexp & Hfl & Hne & Hb & Hkk).
    destruct (place_offset flags expected ms su w 0 false false Hs Hexp Hfl Hne Hb Hkk j Hj) as (n & o & mb & _ & Hp & Hn & _).
    destruct (H7 n Hn) as (fi & Hfi & Hh).
    pose proof (g_run_weak su fis w ts H1 H2 H3 H4 Hok H5 j l1 _ (g_init_inv su fis w ts Hok j)) as R1. rewrite E1 in R1. destruct R1 as [W1 _].
    pose proof (g_run_weak su fis w ts H1 H2 H3 H4 Hok H5 j l2 _ W1) as R2. rewrite E2 in R2. destruct R2 as [W2 _].
    pose proof (g_run_weak su fis w ts H1 H2 H3 H4 Hok H5 j l3 _ W2) as R3. rewrite E3 in R3. destruct R3 as [W3 _].
    destruct (f_g_run init su fis w ts H1 H2 H3 H4 Hok H5 j (w_tr w) (fun _ _ => false) g1 l1 ltac:(discriminate) _
      (g_init_inv su fis w ts Hok j) (finv_init init su fis w ts Htr) E1) as [F1 _].
    set (tgt := fun b' i' => (b' =? b)%nat && (i' =? i)%nat).
    assert (Htgt : forall b' t' i' q', tgt b' i' = true -> nth_error ts b' = Some t' -> nth_error (tk_qs t') i' = Some q' -> q_cmd q' = 3).
    { unfold tgt. intros b' t' i' q' Hb' Et' Eq'. apply andb_prop in Hb'. destruct Hb' as [X1 X2]. apply Nat.eqb_eq in X1, X2. subst b' i'.
      congruence. }
    pose proof (finv_restart init su fis w ts j _ _ g1 b i W1 F1 Hu) as F1'.
    destruct (f_g_run init su fis w ts H1 H2 H3 H4 Hok H5 j _ tgt g2 l2 Htgt g1 W1 F1' E2) as [F2 L2].
    destruct (f_g_run init su fis w ts H1 H2 H3 H4 Hok H5 j _ tgt g3 l3 Htgt g2 W2 F2 E3) as [F3 L3].
    pose proof (flush_answered init su fis w ts Hok j _ g2 b i t p2 q W2 F2 Et Ep Eq Hg fi Hfi) as Sy. rewrite Hh in Sy.
    pose proof (synced_later _ _ _ _ Sy L3) as Sy3.
    assert (Hat : forall g, winv su fis w ts j g -> S_Crash.held (g_w g) (FExp n) o = at_ fis j (g_w g)).
    { intros g (Kg & _). unfold at_. rewrite (H6 _ Kg). unfold disk_of.
      assert (Hz : sizes_of (nfiles su) (g_w g) = sizes_of (nfiles su) w).
      { unfold sizes_from. apply map_ext. intros k. apply (proj1 Kg). }
      rewrite <- Hz in Hp. rewrite (joined_place (g_w g) (nfiles su) 0 j n o Hp). reflexivity. }
    assert (V1 : now init (w_tr (g_w g1)) (FExp n) o = disk_of su (g_w g1) j).
    { destruct F1 as (Tr & _). rewrite (Tr (FExp n) o ltac:(discriminate)), (Hat g1 W1). unfold at_. apply H6, W1. }
    destruct (later_trans _ _ _ L2 L3) as [ext Ex].
    assert (Gen : forall x, In x (after_crash init (w_tr (g_w g3)) (FExp n) o) -> x = disk_of su (g_w g1) j \/ Exists (makes (FExp n) o x) ext).
    { intros x Hx. rewrite <- V1. eapply crash_since; eauto. }
    exists n, o, ext. split; [exact Hp|]. split; [exact Ex|]. split; [exact Gen|].
    intros Hidle x Hx. destruct (Gen x Hx) as [Hv|Hv]; [exact Hv|].
    assert (E23 : g_run (l2 ++ l3) g1 = GGo g3) by (rewrite g_run_app, E2; exact E3).
    destruct Hu as (p1 & Ep1 & Hn1).
    destruct (nth_error (g_procs g3) b) as [p3|] eqn:Ep3.
    2: { apply nth_error_None in Ep3. destruct W3 as (_ & L & _). pose proof (nth_lt _ _ _ Et). lia. }
    set (i0 := (y_next (pr_sys p1) + taken (pr_sys p3))%nat).
    assert (Hid : others_idle ts g1 g3 (Some (b, i0)) j).
    { intros b' t' i' q' Et' Eq' _ Ht. apply (Hidle b' t' i' q' Et' Eq'); [discriminate|exact Ht]. }
    assert (Hu0 : unread_by g1 b i0) by (exists p1; split; [exact Ep1|unfold i0; lia]).
    pose proof (restart su fis w ts H1 H2 H3 H4 Hok H5 j g1 g3 (l2 ++ l3) b i0 W1 E23 Hu0) as RS.
    pose proof (sole_live su fis w ts H1 H2 H3 H4 Hok H5 j g1 g3 b i0 W1 Hid) as SL.
    destruct (calm_run init su fis w ts H1 H2 H3 H4 Hok H5 j _ _ _ SL g3 b i0 t p3 (FExp n) o Et Ep3 ltac:(unfold i0; lia)
      ltac:(unfold sole'; rewrite !Nat.eqb_refl; reflexivity) ltac:(discriminate) Hat _ tgt (l2 ++ l3) Htgt g1 W1 RS F1' E23) as (ext' & Ex' & Hcalm).
    { intros b' p p' k X1 X2 Hk. unfold live'. rewrite X1, X2. destruct W1 as (_ & Hlen & Hpp).
      destruct (nth_error ts b') as [t'|] eqn:Et'.
      - destruct (Hpp b' t' p Et' X1) as (_ & _ & G & _).
        destruct (k_new _ _ _ _ (g_core _ _ _ _ _ _ _ G) k ltac:(lia)) as [-> _].
        cbn [existsb negb andb]. apply Nat.ltb_lt. lia.
      - apply nth_error_None in Et'. pose proof (nth_lt _ _ _ X1). lia. }
    rewrite Ex in Ex'. apply app_inv_tail in Ex'. subst ext'.
    apply Exists_exists in Hv. destruct Hv as (ev & Hin & Hm). rewrite Forall_forall in Hcalm.
    rewrite (calm_makes _ _ _ _ _ (Hcalm ev Hin) Hm). unfold at_. apply H6, W1.
  Qed.
End Opened.
