(** Several connections to one plain export, byte by byte. *)
From Verif Require Import Base M_Const M_Disk M_Tree M_Raw M_Setup M_Par M_Multi L_Wp L_Raw S_Wire S_Disk L_Wire L_Req L_Plain L_Session L_Setup L_PlainS L_Gen L_Props S_Par S_Byte L_Msg L_LogMsg L_Sched L_SchedC L_SchedL S_Run L_Sent L_Byte L_Fin L_ByteS L_ParP S_Multi L_Got L_Tab.

Lemma set_proc_same l b x p : nth_error l b = Some p -> nth_error (set_proc l b x) b = Some x.
Proof.
  intros H. pose proof (nth_lt _ _ _ H). unfold set_proc. rewrite nth_error_app2; rewrite firstn_length, Nat.min_l by lia; [|lia].
  rewrite Nat.sub_diag. reflexivity.
Qed.
Lemma set_proc_other l b b' x p : nth_error l b = Some p -> b' <> b -> nth_error (set_proc l b x) b' = nth_error l b'.
Proof.
  intros H Hne. pose proof (nth_lt _ _ _ H). unfold set_proc. destruct (Nat.lt_ge_cases b' b) as [Hl|Hl].
  - rewrite nth_error_app1 by (rewrite firstn_length; lia). rewrite <- (firstn_skipn b l) at 2.
    rewrite nth_error_app1 by (rewrite firstn_length; lia). reflexivity.
  - rewrite nth_error_app2; rewrite firstn_length, Nat.min_l by lia; [|lia].
    destruct (b' - b)%nat as [|d] eqn:Ed; [lia|]. cbn [nth_error].
    rewrite <- (firstn_skipn (S b) l) at 2. rewrite nth_error_app2; rewrite firstn_length, Nat.min_l by lia; [|lia].
    f_equal. lia.
Qed.
Lemma set_proc_length l b x p : nth_error l b = Some p -> length (set_proc l b x) = length l.
Proof.
  intros H. pose proof (nth_lt _ _ _ H). unfold set_proc. rewrite app_length, firstn_length, Nat.min_l by lia. cbn [length].
  rewrite skipn_length. lia.
Qed.

Lemma y_setw_id s : y_setw (y_w s) s = s.
Proof. destruct s; reflexivity. Qed.

(** a process of a plain export that exits has not changed anything in that step *)
Lemma exit_same lg c qs tail e s s' x : good true lg c qs tail e s ->
  (forall a, 0 <= a < c_size c -> forall w, exists h o mb, get_filepos c a w = Ret (Some (h, o, mb)) w /\ 0 <= mb) ->
  sys_step lg c x s = SExit s' -> s' = s.
Proof.
  intros G Hpos. destruct x as [|t n|t|t]; cbn [sys_step].
  - unfold reader_step. destruct (y_rd s) as [|hdr|hdr held|rq held|rq p data held|rq p|d h|d].
    + destruct (length (y_in s) <? 28)%nat; discriminate.
    + destruct lg; [destruct (sem_free s)|]; discriminate.
    + destruct (decode_request hdr) as [mg rq]. destruct (negb (mg =? NBD_REQUEST_MAGIC)); [congruence|].
      destruct (cmd_of rq =? NBD_CMD_WRITE); [|destruct (rq_type rq =? NBD_CMD_DISC)]; discriminate.
    + destruct (zlen (y_in s) <? rq_len rq); [discriminate|]. cbn zeta.
      destruct (receive_payload c rq _ (y_w s)); congruence.
    + cbn zeta. destruct held; discriminate.
    + discriminate.
    + destruct (_ && _); discriminate.
    + discriminate.
  - unfold worker_step. destruct (nth_error (y_th s) t) as [x|] eqn:Hx; [|discriminate].
    destruct x as [|i er p|i er rest p|i er rest p|i].
    + destruct (y_q s) as [|[[i rq] p] q]; discriminate.
    + destruct p as [a|X m k|m k|m k]; [discriminate| | |].
      * pose proof (g_core _ _ _ _ _ _ _ G) as K.
        destruct (th_wid true lg c (fun _ => Hpos) qs s t _ i K Hx eq_refl) as [q Hq].
        destruct (k_code _ _ _ _ K _ _ _ _ _ Hx eq_refl eq_refl Hq) as [U _]. cbn [pspec] in U.
        specialize (U (set_errno er (y_w s))). destruct (m (set_errno er (y_w s))) as [a w'| |w'|]; congruence.
      * destruct (lock_free s); discriminate.
      * destruct (sem_free s); discriminate.
    + destruct rest; discriminate.
    + destruct rest; discriminate.
    + discriminate.
  - destruct (nth_error (y_th s) t) as [[| |? ? [|]| |]|]; discriminate.
  - destruct (nth_error (y_th s) t) as [[| |? ? [|]| |]|]; congruence.
Qed.


Lemma init_said qs n inp w : said_all qs (sys_init n inp w).
Proof. intros i q Hi. left. apply begun_nil. Qed.

(** requests are taken in order *)
Lemma taken_mono st lg c qs tail e s x : good st lg c qs tail e s ->
  match sys_step lg c x s with SGo s' => (taken s <= taken s')%nat | _ => True end.
Proof.
  intros G. pose proof (k_qlen _ _ _ _ (g_core _ _ _ _ _ _ _ G)) as Kl. destruct x as [|t n|t|t]; cbn [sys_step].
  - unfold reader_step. destruct (y_rd s) as [|hdr|hdr held|rq held|rq p data held|rq p|d h|d].
    + destruct (length (y_in s) <? 28)%nat; reflexivity.
    + destruct lg; [destruct (sem_free s); [|exact I]|]; reflexivity.
    + destruct (decode_request hdr) as [mg rq]. destruct (negb (mg =? NBD_REQUEST_MAGIC)); [exact I|].
      destruct (cmd_of rq =? NBD_CMD_WRITE); [|destruct (rq_type rq =? NBD_CMD_DISC)]; reflexivity.
    + destruct (zlen (y_in s) <? rq_len rq); [reflexivity|]. cbn zeta.
      destruct (receive_payload c rq _ (y_w s)); try exact I. reflexivity.
    + cbn zeta. destruct held; reflexivity.
    + unfold taken. cbn [y_setrd y_push y_next y_q]. rewrite app_length. cbn [length]. lia.
    + destruct (_ && _); [|exact I]. reflexivity.
    + exact I.
  - unfold worker_step. destruct (nth_error (y_th s) t) as [x|]; [|exact I]. destruct x as [|i er p|i er rest p|i er rest p|i].
    + destruct (y_q s) as [|[[i rq] p] q] eqn:Eq; [exact I|]. unfold taken. cbn [y_setth y_setq y_next y_q]. rewrite Eq in *. cbn [length] in *. lia.
    + destruct p as [a|X m k|m k|m k]; [reflexivity| | |].
      * destruct (m (set_errno er (y_w s))); try exact I. reflexivity.
      * destruct (lock_free s); [|exact I]. reflexivity.
      * destruct (sem_free s); [|exact I]. reflexivity.
    + destruct rest; reflexivity.
    + destruct rest; reflexivity.
    + exact I.
  - destruct (nth_error (y_th s) t) as [[| |? ? [|]| |]|]; try exact I. reflexivity.
  - destruct (nth_error (y_th s) t) as [[| |? ? [|]| |]|]; exact I.
Qed.

(** every process has taken in at least as much *)
Definition farther (g g' : group) : Prop :=
  length (g_procs g') = length (g_procs g) /\
  forall b p p', nth_error (g_procs g) b = Some p -> nth_error (g_procs g') b = Some p' -> (taken (pr_sys p) <= taken (pr_sys p'))%nat.
Lemma farther_refl g : farther g g.
Proof. split; [reflexivity|]. intros b p p' E1 E2. assert (p' = p) by congruence. subst p'. lia. Qed.
Lemma farther_trans g g' g'' : farther g g' -> farther g' g'' -> farther g g''.
Proof.
  intros [L1 H1] [L2 H2]. split; [congruence|]. intros b p p' E1 E2.
  destruct (nth_error (g_procs g') b) as [p1|] eqn:E; [specialize (H1 _ _ _ E1 E); specialize (H2 _ _ _ E E2); lia|].
  apply nth_error_None in E. pose proof (nth_lt _ _ _ E1). lia.
Qed.

Section Group.
  Variables (su : setup) (fis : list finfo) (w0 : world) (ts : list talk).
  Notation cl := (client_for su).
  Hypothesis Hhandles : forall n fi, nth_error fis n = Some fi -> exists m, fi_h fi = FExp m.
  Hypothesis Hplain : forall t, In t ts -> plain (cl t) fis.
  Hypothesis Hfits : forall t, In t ts -> L_Plain.fits (cl t) fis w0.
  Hypothesis Hready : forall t, In t ts -> ready (cl t).
  Hypothesis Hok : Forall (talk_ok su w0) ts.
  Hypothesis Htmp : forall t, In t ts -> cflag (cl t) F_TEMPORARY && negb (cflag (cl t) F_MULTIFILE) = false.
  Variable j : Z.
  Notation at_ := (at_ fis j).

  Lemma enter_file t gw own : In t ts -> kept fis w0 gw ->
    w_file own FDiff = w_file w0 FDiff -> w_file own FDummy = w_file w0 FDummy ->
    kept fis w0 (enter (cl t) gw own) /\ (forall i, flat fis (enter (cl t) gw own) i = flat fis gw i) /\
    forall h, w_file (enter (cl t) gw own) h = w_file gw h.
  Proof.
    intros Hin (K1 & K2 & K3) H1 H2. pose proof (Htmp t Hin) as Ht.
    assert (Hf : forall h, ~ In h (map fi_h fis) \/ private (cl t) h = false -> w_file (enter (cl t) gw own) h = w_file gw h).
    { intros h Hh. unfold enter. cbn [w_file]. destruct (private (cl t) h) eqn:Ep; [|reflexivity].
      destruct Hh as [Hh|Hh]; [|discriminate].
      destruct h; cbn [private] in Ep; try discriminate; try congruence; rewrite (K2 _ Hh); assumption. }
    assert (Hh : forall h, w_file (enter (cl t) gw own) h = w_file gw h).
    { intros h. apply Hf. destruct (in_dec fref_eq_dec h (map fi_h fis)) as [Hi|Hi]; [right|left; exact Hi].
      apply in_map_iff in Hi. destruct Hi as (fi & <- & Hi). apply In_nth_error in Hi. destruct Hi as [n Hn].
      destruct (Hhandles n fi Hn) as [m ->]. exact Ht. }
    split; [split; [|split]|split; [|exact Hh]].
    - intros h. rewrite Hh. apply K1.
    - intros h Hn. rewrite Hh. apply K2, Hn.
    - exact K3.
    - intros i. unfold flat. destruct (locate fis i) as [[h o]|]; [rewrite Hh|]; reflexivity.
  Qed.


  Section Inv.
  (** as in L_ByteS.v, for every connection *)
  Variable v0 : Z.
  Variables live sole : nat -> nat -> bool.
  Hypothesis Hsole : forall b i, sole b i = true -> forall b' t i' q, live b' i' = true ->
    nth_error ts b' = Some t -> nth_error (tk_qs t) i' = Some q -> (b', i') <> (b, i) -> touches q j = false.

  Definition ginv (g : group) : Prop :=
    kept fis w0 (g_w g) /\ length (g_procs g) = length ts /\
    forall b t p, nth_error ts b = Some t -> nth_error (g_procs g) b = Some p ->
      pr_client p = cl t /\ pr_lg p = tk_lg t /\ good true (tk_lg t) (cl t) (tk_qs t) (tk_tail t) (tk_end t) (pr_sys p) /\
      said_all (tk_qs t) (pr_sys p) /\
      (w_file (y_w (pr_sys p)) FDiff = w_file w0 FDiff /\ w_file (y_w (pr_sys p)) FDummy = w_file w0 FDummy) /\
      bytes_inv fis w0 (tk_qs t) j v0 (live b) (sole b) (y_setw (g_w g) (pr_sys p)).

  Lemma sole_own b t : nth_error ts b = Some t ->
    forall i, sole b i = true -> forall k q, live b k = true -> nth_error (tk_qs t) k = Some q -> k <> i -> touches q j = false.
  Proof. clear Hhandles Hplain Hfits Hready Hok Htmp. intros Et i Hi k q Hl Hk Hne. apply (Hsole b i Hi b t k q Hl Et Hk). congruence. Qed.

  Lemma g_step_inv b x g : ginv g ->
    match g_step b x g with
    | GGo g' => farther g g' /\
        ((forall b p p' k, nth_error (g_procs g) b = Some p -> nth_error (g_procs g') b = Some p' ->
            (taken (pr_sys p) <= k < taken (pr_sys p'))%nat -> live b k = true) -> ginv g')
    | GNot => True | GUb => False end.
  Proof.
    intros (Kg & Hlen & Hp). unfold g_step. destruct (nth_error (g_procs g) b) as [p|] eqn:Eb; [|exact I].
    destruct (pr_gone p); [exact I|].
    destruct (nth_error ts b) as [t|] eqn:Et.
    2: { apply nth_error_None in Et. pose proof (nth_lt _ _ _ Eb). lia. }
    pose proof (nth_error_In _ _ Et) as Hin.
    destruct (Hp b t p Et Eb) as (Hc & Hl & G & Sa & (O1 & O2) & B). rewrite Hc, Hl.
    destruct (enter_file t (g_w g) (y_w (pr_sys p)) Hin Kg O1 O2) as (Ke & Fe & _).
    set (w1 := enter (cl t) (g_w g) (y_w (pr_sys p))) in *.
    set (s0 := y_setw w1 (pr_sys p)).
    assert (G0 : good true (tk_lg t) (cl t) (tk_qs t) (tk_tail t) (tk_end t) s0) by (apply good_w, G).
    assert (S0 : said_all (tk_qs t) s0) by exact Sa.
    pose proof (sole_own b t Et) as HS.
    assert (B0 : bytes_inv fis w0 (tk_qs t) j v0 (live b) (sole b) s0).
    { apply (inv_env fis w0 (tk_qs t) j v0 (live b) (sole b) HS (y_setw (g_w g) (pr_sys p)) B w1 Ke). intros _ _. apply Fe. }
    pose proof Hok as Hok'. rewrite Forall_forall in Hok'. destruct (Hok' t Hin) as (T1 & T2 & T3 & T4 & T5 & T6).
    destruct (Hready t Hin) as (R1 & R2 & R3 & R4).
    pose proof (step_good true (tk_lg t) (cl t) (fun _ => R1) (fun _ => R2) (fun _ => R3) (fun _ => T1) R4 (tk_qs t) (tk_tail t) (tk_end t) T2 T3 T5 x s0 G0) as HG.
    pose proof (step_said true (tk_lg t) (cl t) (tk_qs t) (tk_tail t) (tk_end t) s0 G0 S0 x) as HSA.
    pose proof (taken_mono true (tk_lg t) (cl t) (tk_qs t) (tk_tail t) (tk_end t) s0 x G0) as HT.
    pose proof (step_inv true (tk_lg t) (cl t) fis w0 (Hplain t Hin) (Hfits t Hin) (tk_qs t) (tk_tail t) (tk_end t) T2 j v0 (live b) (sole b) HS s0 G0 B0 x) as HB.
    pose proof (step_quiet true (tk_lg t) (cl t) fis w0 (tk_qs t) (tk_tail t) (tk_end t) j v0 (live b) (sole b) HS s0 G0 B0 x) as HQ.
    assert (Far : forall s' gone, (taken s0 <= taken s')%nat ->
       farther g (mkG (y_w s') (set_proc (g_procs g) b (mkProc (cl t) (tk_lg t) s' gone)))).
    { intros s' gone Ht. split; cbn [g_procs]; [eapply set_proc_length; eauto|]. intros b' p1 p2 E1 E2. destruct (Nat.eq_dec b' b) as [->|Hb].
      - rewrite (set_proc_same _ _ _ _ Eb) in E2. injection E2 as <-. assert (p1 = p) by congruence. subst p1. exact Ht.
      - rewrite (set_proc_other _ _ _ _ _ Eb Hb) in E2. assert (p2 = p1) by congruence. subst p2. lia. }
    assert (Next : forall s' gone, good true (tk_lg t) (cl t) (tk_qs t) (tk_tail t) (tk_end t) s' -> said_all (tk_qs t) s' ->
       bytes_inv fis w0 (tk_qs t) j v0 (live b) (sole b) s' ->
       ((forall i q, live b i = true -> nth_error (tk_qs t) i = Some q -> touches q j = false) -> at_ (y_w s') = at_ (y_w s0)) ->
       ginv (mkG (y_w s') (set_proc (g_procs g) b (mkProc (cl t) (tk_lg t) s' gone)))).
    { intros s' gone G' S' B' Q'. pose proof (b_kept _ _ _ _ _ _ _ _ B') as Kn. split; [exact Kn|]. cbn [g_procs g_w].
      split; [rewrite (set_proc_length _ _ _ _ Eb); exact Hlen|]. intros b' t' p' Et' Ep'.
      destruct (Nat.eq_dec b' b) as [->|Hb].
      - rewrite (set_proc_same _ _ _ _ Eb) in Ep'. injection Ep' as <-. assert (t' = t) by congruence. subst t'.
        cbn [pr_client pr_lg pr_sys]. rewrite y_setw_id. destruct Kn as (_ & Kn & _).
        assert (Hno : forall h, (forall n, h <> FExp n) -> ~ In h (map fi_h fis)).
        { intros h Hne Hi. apply in_map_iff in Hi. destruct Hi as (fi & <- & Hi). apply In_nth_error in Hi. destruct Hi as [n Hn].
          destruct (Hhandles n fi Hn) as [m E]. exact (Hne _ E). }
        split; [reflexivity|]. split; [reflexivity|]. split; [exact G'|]. split; [exact S'|]. split; [|exact B'].
        split; apply Kn, Hno; discriminate.
      - rewrite (set_proc_other _ _ _ _ _ Eb Hb) in Ep'. destruct (Hp b' t' p' Et' Ep') as (P1 & P2 & P3 & P4 & P5 & P6).
        split; [exact P1|]. split; [exact P2|]. split; [exact P3|]. split; [exact P4|]. split; [exact P5|].
        apply (inv_env fis w0 (tk_qs t') j v0 (live b') (sole b') (sole_own _ _ Et') (y_setw (g_w g) (pr_sys p')) P6 (y_w s') Kn).
        intros i Hi. rewrite Q'; [apply Fe|]. intros k q Hlk Hk.
        apply (Hsole _ _ Hi b t k q Hlk Et Hk). congruence. }
    destruct (sys_step (tk_lg t) (cl t) x s0) as [s'| | |s'] eqn:Es; cbn [after] in HG.
    - split; [apply Far, HT|]. intros Hnew. apply Next; auto. apply HB. intros k Hk.
      eapply Hnew; [exact Eb|cbn [g_procs]; eapply set_proc_same; exact Eb|exact Hk].
    - exact I.
    - discriminate.
    - pose proof (exit_same _ _ _ _ _ _ _ _ G0 R1 Es) as ->. split; [apply Far; lia|]. intros _. apply Next; auto.
  Qed.
  End Inv.

  (** the invariant as far as it does not depend on what the clients ask for *)
  Definition winv (g : group) : Prop := ginv 0 (fun _ _ => true) (fun _ _ => false) g.
  Lemma no_sole (b i : nat) : (fun _ _ : nat => false) b i = true -> forall b' t i' q, (fun _ _ : nat => true) b' i' = true ->
    nth_error ts b' = Some t -> nth_error (tk_qs t) i' = Some q -> (b', i') <> (b, i) -> touches q j = false.
  Proof. discriminate. Qed.

  Lemma g_run_weak l : forall g, winv g -> match g_run l g with GGo g' => winv g' /\ farther g g' | GNot => True | GUb => False end.
  Proof.
    induction l as [|[b x] l IH]; intros g Hg; cbn [g_run]; [split; [exact Hg|apply farther_refl]|].
    pose proof (g_step_inv 0 (fun _ _ => true) (fun _ _ => false) no_sole b x g Hg) as H.
    destruct (g_step b x g) as [g'| |]; [|apply IH, Hg|exact H]. destruct H as [Hf Hi]. specialize (Hi ltac:(reflexivity)).
    specialize (IH g' Hi). destruct (g_run l g') as [g''| |]; [|exact I|exact IH]. destruct IH as [IH1 IH2].
    split; [exact IH1|]. eapply farther_trans; eauto.
  Qed.

  Lemma g_run_inv v0 live sole (Hsole : forall b i, sole b i = true -> forall b' t i' q, live b' i' = true ->
      nth_error ts b' = Some t -> nth_error (tk_qs t) i' = Some q -> (b', i') <> (b, i) -> touches q j = false) g2 l :
    forall g, winv g -> ginv v0 live sole g -> g_run l g = GGo g2 ->
    (forall b p p2 k, nth_error (g_procs g) b = Some p -> nth_error (g_procs g2) b = Some p2 ->
       (taken (pr_sys p) <= k < taken (pr_sys p2))%nat -> live b k = true) -> ginv v0 live sole g2.
  Proof.
    induction l as [|[b x] l IH]; intros g Hw Hg E Hl; cbn [g_run] in E; [injection E as <-; exact Hg|].
    pose proof (g_step_inv 0 (fun _ _ => true) (fun _ _ => false) no_sole b x g Hw) as HW.
    pose proof (g_step_inv v0 live sole Hsole b x g Hg) as H.
    destruct (g_step b x g) as [g'| |]; [|eapply IH; eauto|discriminate]. destruct H as [Hf Hi]. destruct HW as [_ HW].
    specialize (HW ltac:(reflexivity)). pose proof (g_run_weak l g' HW) as HR. rewrite E in HR. destruct HR as [_ HR].
    apply (IH g'); [exact HW| |exact E|].
    - apply Hi. intros b' p p' k E1 E2 Hk. destruct HR as [L2 HR].
      destruct (nth_error (g_procs g2) b') as [p2|] eqn:E3.
      + apply (Hl b' p p2); auto. specialize (HR _ _ _ E2 E3). lia.
      + apply nth_error_None in E3. pose proof (nth_lt _ _ _ E2). lia.
    - intros b' p p2 k E1 E2 Hk. destruct (nth_error (g_procs g) b') as [p1|] eqn:E3.
      + apply (Hl b' p1 p2); auto. destruct Hf as [_ Hf]. specialize (Hf _ _ _ E3 E1). lia.
      + apply nth_error_None in E3. destruct Hf as [Hf _]. pose proof (nth_lt _ _ _ E1). lia.
  Qed.

  Lemma g_init_inv : winv (g_init (map (conn_for su) ts) w0).
  Proof.
    clear Hhandles Hplain Hfits Hready Htmp.
    unfold winv, ginv, g_init. cbn [g_w g_procs]. split; [repeat split; auto|]. split; [rewrite !map_length; reflexivity|].
    intros b t p Et Ep. rewrite map_map, nth_error_map, Et in Ep. cbn [option_map] in Ep. injection Ep as <-.
    cbn [pr_client pr_lg pr_sys conn_for cn_client cn_lg cn_threads cn_in cn_own].
    pose proof Hok as Hok'. rewrite Forall_forall in Hok'. destruct (Hok' t (nth_error_In _ _ Et)) as (T1 & T2 & T3 & T4 & T5 & T6).
    split; [reflexivity|]. split; [reflexivity|]. split; [apply init_good|]. split; [apply init_said|]. split; [exact T6|].
    constructor; cbn [sys_init y_setw y_w y_th y_msgs].
    - repeat split; auto.
    - discriminate.
    - intros n x i p q Ex Hi. apply nth_error_In, repeat_spec in Ex. subst x. discriminate.
    - intros i q Hi. unfold taken in Hi. cbn in Hi. lia.
    - intros n x i p Ex Hi. apply nth_error_In, repeat_spec in Ex. subst x. discriminate.
    - intros n x i Ex Hi. apply nth_error_In, repeat_spec in Ex. subst x. discriminate.
    - intros n x i q Ex Hi. apply nth_error_In, repeat_spec in Ex. subst x. discriminate.
  Qed.

  (** ** From one moment to a later one *)
  Section Between.
    Variables (g1 g2 : group) (l : list (nat * choice)) (b0 i0 : nat).
    Hypothesis W1 : winv g1.
    Hypothesis Hrun : g_run l g1 = GGo g2.
    Hypothesis Hidle : others_idle ts g1 g2 (Some (b0, i0)) j.
    Hypothesis Hnew : unread_by g1 b0 i0.

    Definition live' (b i : nat) : bool :=
      match nth_error (g_procs g1) b, nth_error (g_procs g2) b with
      | Some p1, Some p2 => negb (existsb final (of_id i (y_msgs (pr_sys p1)))) && (i <? taken (pr_sys p2))%nat
      | _, _ => false
      end.
    Definition sole' (b i : nat) : bool := (b =? b0)%nat && (i =? i0)%nat.

    Lemma unread_taken g b i p : unread_by g b i -> nth_error (g_procs g) b = Some p -> (taken (pr_sys p) <= i)%nat.
    Proof. intros (p' & E & H) E'. assert (p' = p) by congruence. subst p'. unfold taken. lia. Qed.

    Lemma sole_live b i : sole' b i = true -> forall b' t i' q, live' b' i' = true ->
      nth_error ts b' = Some t -> nth_error (tk_qs t) i' = Some q -> (b', i') <> (b, i) -> touches q j = false.
    Proof.
      intros Hs b' t i' q Hl Et Eq Hne. unfold sole' in Hs. apply andb_prop in Hs. destruct Hs as [Hs1 Hs2].
      apply Nat.eqb_eq in Hs1, Hs2. subst b i. destruct (touches q j) eqn:Ht; [exfalso|reflexivity].
      unfold live' in Hl. destruct (nth_error (g_procs g1) b') as [p1|] eqn:E1; [|discriminate].
      destruct (nth_error (g_procs g2) b') as [p2|] eqn:E2; [|discriminate]. apply andb_prop in Hl. destruct Hl as [H1 H2].
      apply Nat.ltb_lt in H2. apply negb_true_iff in H1.
      destruct (Hidle b' t i' q Et Eq ltac:(congruence) Ht) as [(t' & p' & q' & vs & Et' & Ep' & Eq' & Hg & Hw)|Hu].
      - assert (t' = t) by congruence. assert (p' = p1) by congruence. subst t' p'. assert (q' = q) by congruence. subst q'.
        destruct W1 as (_ & _ & Hp). destruct (Hp b' t p1 Et E1) as (_ & _ & G & Sa & _).
        pose proof Hok as Hok'. rewrite Forall_forall in Hok'. destruct (Hok' t (nth_error_In _ _ Et)) as (_ & T2 & _ & T4 & _).
        destruct (got_whole _ _ _ _ _ _ T2 T4 (pr_sys p1) G Sa i' q vs Eq Hg Hw) as [_ Hfin]. congruence.
      - pose proof (unread_taken _ _ _ _ Hu E2). lia.
    Qed.

    Lemma restart : ginv (at_ (g_w g1)) live' sole' g1.
    Proof.
      pose proof (g_run_weak l g1 W1) as HR. rewrite Hrun in HR. destruct HR as [_ [L2 HR]].
      destruct W1 as (Kg & Hlen & Hp). split; [exact Kg|]. split; [exact Hlen|]. intros b t p Et Ep.
      destruct (Hp b t p Et Ep) as (P1 & P2 & P3 & P4 & P5 & P6). split; [exact P1|]. split; [exact P2|]. split; [exact P3|].
      split; [exact P4|]. split; [exact P5|]. destruct P6 as [B1 B2 B3 B4 B5 B6 B7].
      pose proof (g_core _ _ _ _ _ _ _ P3) as K.
      assert (Hno : forall i, (i < taken (pr_sys p))%nat -> sole' b i = false).
      { intros i Hi. destruct (sole' b i) eqn:E; [|reflexivity]. apply andb_prop in E. destruct E as [E1 E2].
        apply Nat.eqb_eq in E1, E2. subst b i. pose proof (unread_taken _ _ _ _ Hnew Ep). lia. }
      assert (Hpost : forall i q v ms, (i < taken (pr_sys p))%nat -> code_post j 0 (fun _ => false) i q tt v ms -> code_post j (at_ (g_w g1)) (sole' b) i q tt v ms).
      { intros i q v ms Hi (vs & H1 & H2 & H3). exists vs. split; [exact H1|]. split; [exact H2|]. rewrite (Hno i Hi). discriminate. }
      constructor.
      - exact B1.
      - reflexivity.
      - intros n x i p' q E1 E2 E3 E4. pose proof (k_th _ _ _ _ K _ _ _ E1 E2) as Hi. rewrite (Hno i Hi).
        eapply bs_mono; [exact (B3 n x i p' q E1 E2 E3 E4)|]. cbn beta. intros [] v ms. apply Hpost, Hi.
      - intros i q Hi E1 E2. apply Hpost; [exact Hi|]. apply B4; auto.
      - exact B5.
      - intros n x i E1 E2. pose proof (k_th _ _ _ _ K _ _ _ E1 E2) as Hi. change (y_msgs (y_setw (g_w g1) (pr_sys p))) with (y_msgs (pr_sys p)).
        destruct (existsb final (of_id i (y_msgs (pr_sys p)))) eqn:Ef; [right; reflexivity|left].
        unfold live'. rewrite Ep. destruct (nth_error (g_procs g2) b) as [p2|] eqn:E3.
        + rewrite Ef. cbn [negb andb]. apply Nat.ltb_lt. specialize (HR _ _ _ Ep E3). lia.
        + apply nth_error_None in E3. pose proof (nth_lt _ _ _ Ep). lia.
      - intros n x i q E1 E2 E3 E4 E5. apply Hpost; [exact (k_th _ _ _ _ K _ _ _ E1 E2)|]. eapply B7; eauto.
    Qed.

    Lemma between_inv : ginv (at_ (g_w g1)) live' sole' g2.
    Proof.
      apply (g_run_inv _ _ _ sole_live g2 l g1 W1 restart Hrun).
      intros b p p2 k E1 E2 Hk. unfold live'. rewrite E1, E2. destruct W1 as (_ & Hlen & Hp).
      destruct (nth_error ts b) as [t|] eqn:Et.
      - destruct (Hp b t p Et E1) as (_ & _ & G & _).
        destruct (k_new _ _ _ _ (g_core _ _ _ _ _ _ _ G) k ltac:(lia)) as [-> _].
        cbn [existsb negb andb]. apply Nat.ltb_lt. lia.
      - apply nth_error_None in Et. pose proof (nth_lt _ _ _ E1). lia.
    Qed.

    (** [i0] has not been taken: nobody has changed the byte *)
    Lemma between_new p2 : nth_error (g_procs g2) b0 = Some p2 -> (b0 < length ts)%nat -> (taken (pr_sys p2) <= i0)%nat -> at_ (g_w g2) = at_ (g_w g1).
    Proof.
      intros E2 Hb Hi. destruct between_inv as (_ & _ & Hp). destruct (nth_error ts b0) as [t|] eqn:Et.
      - destruct (Hp b0 t p2 Et E2) as (_ & _ & _ & _ & _ & B).
        apply (b_new _ _ _ _ _ _ _ _ B i0); [exact Hi|]. unfold sole'. rewrite !Nat.eqb_refl. reflexivity.
      - apply nth_error_None in Et. lia.
    Qed.

    (** [i0] has been answered *)
    Lemma between_got t p2 q vs : nth_error ts b0 = Some t -> nth_error (g_procs g2) b0 = Some p2 -> nth_error (tk_qs t) i0 = Some q ->
      has_got (tk_qs t) (y_out (pr_sys p2)) q vs -> whole_answer vs ->
      byte_outcome q j (at_ (g_w g1)) vs (at_ (g_w g2)).
    Proof.
      intros Et E2 Eq Hg Hw. destruct between_inv as (_ & _ & Hp). destruct (Hp b0 t p2 Et E2) as (_ & _ & G & Sa & _ & B).
      pose proof Hok as Hok'. rewrite Forall_forall in Hok'. destruct (Hok' t (nth_error_In _ _ Et)) as (_ & T2 & _ & T4 & _).
      destruct (got_msgs _ _ _ _ _ _ T2 T4 (pr_sys p2) G Sa i0 q vs Eq Hg) as (more & _ & Hwf & Hsf).
      pose proof (so_far_whole vs more Hsf Hw) as ->. rewrite app_nil_r in Hwf.
      destruct (got_whole _ _ _ _ _ _ T2 T4 (pr_sys p2) G Sa i0 q vs Eq Hg Hw) as [Hms Hfin].
      assert (Hck : length (q_cookie q) = 8%nat).
      { rewrite Forall_forall in T2. destruct (T2 q (nth_error_In _ _ Eq)) as (_ & Hck & _). exact Hck. }
      assert (Hpost : code_post j (at_ (g_w g1)) (sole' b0) i0 q tt (at_ (g_w g2)) (of_id i0 (y_msgs (pr_sys p2)))).
      { destruct B as [B1 B2 B3 B4 B5 B6 B7].
        change (y_w (y_setw (g_w g2) (pr_sys p2))) with (g_w g2) in *.
        change (y_th (y_setw (g_w g2) (pr_sys p2))) with (y_th (pr_sys p2)) in *.
        change (y_msgs (y_setw (g_w g2) (pr_sys p2))) with (y_msgs (pr_sys p2)) in *.
        destruct (Nat.lt_ge_cases i0 (taken (pr_sys p2))) as [Hi|Hi].
        2: { destruct (k_new _ _ _ _ (g_core _ _ _ _ _ _ _ G) i0 Hi) as [E _]. rewrite E in Hfin. discriminate. }
        destruct (existsb (fun x => match wid x with Some k => Nat.eqb k i0 | None => false end) (y_th (pr_sys p2))) eqn:Ex.
        - apply existsb_exists in Ex. destruct Ex as (x & Hx & Hk). destruct (wid x) as [k|] eqn:Ek; [|discriminate].
          apply Nat.eqb_eq in Hk. subst k. apply In_nth_error in Hx. destruct Hx as [n Hn].
          destruct (wcode x) as [p|] eqn:Ec.
          + eapply fw_bs; [|eapply B3; eauto]. rewrite <- Hfin. eapply B5; eauto.
          + eapply B7; eauto.
        - apply B4; [exact Hi|exact Eq|]. intros n x Hn Hk. rewrite <- Ex in *. assert (T : existsb (fun x => match wid x with Some k => Nat.eqb k i0 | None => false end) (y_th (pr_sys p2)) = true); [|congruence].
          apply existsb_exists. exists x. split; [eapply nth_error_In; eauto|]. rewrite Hk. apply Nat.eqb_refl. }
      destruct Hpost as (vs' & H1 & H2 & H3). rewrite Hms in H1. apply enc_inj with (d := dlen_of q) in H1; auto. subst vs'.
      apply H3. unfold sole'. rewrite !Nat.eqb_refl. reflexivity.
    Qed.
  End Between.
End Group.

Section Opened.
  Variables (flags expected : Z) (ms : list member) (su : setup) (w : world) (ts : list talk).
  Hypothesis O : opened flags expected ms su w.
  Hypothesis Htmp : flag flags F_TEMPORARY && negb (flag flags F_MULTIFILE) = false.
  Hypothesis Hok : Forall (talk_ok su w) ts.
  Variables (l1 : list (nat * choice)) (g1 : group).
  Hypothesis E1 : g_run l1 (g_init (map (conn_for su) ts) w) = GGo g1.

  Lemma opened_group : exists fis,
    (forall n fi, nth_error fis n = Some fi -> exists m, fi_h fi = FExp m) /\
    (forall t, In t ts -> plain (client_for su t) fis) /\
    (forall t, In t ts -> L_Plain.fits (client_for su t) fis w) /\
    (forall t, In t ts -> ready (client_for su t)) /\
    (forall t, In t ts -> cflag (client_for su t) F_TEMPORARY && negb (cflag (client_for su t) F_MULTIFILE) = false) /\
    (forall w', kept fis w w' -> forall j, flat fis w' j = disk_of su w' j) /\
    (forall n, (n < nfiles su)%nat -> exists fi, In fi fis /\ fi_h fi = FExp n).
  Proof.
    destruct (opened_plain _ _ _ _ _ 0 false false O) as (fis & He & _ & _ & Hu & Hm & _ & _ & Hdk).
    assert (Hpl : forall t, plain (client_for su t) fis /\ L_Plain.fits (client_for su t) fis w).
    { intros t. destruct (opened_plain _ _ _ _ _ (tk_namelen t) (tk_structured t) (tk_tls t) O) as (fis' & He' & Hp' & Hf' & _).
      assert (fis' = fis) by congruence. subst fis'. auto. }
    exists fis. conj.
    - intros n fi Hn. assert (Hi : In (fi_h fi) (map FExp (seq 0 (length fis)))).
      { rewrite <- Hm. apply in_map. eapply nth_error_In; eauto. }
      apply in_map_iff in Hi. destruct Hi as (m & <- & _). eauto.
    - intros t _. apply Hpl.
    - intros t _. apply Hpl.
    - intros t _. eapply opened_ready; eauto.
    - intros t _. destruct O as (Hs & _). unfold cflag, client_for, client_of. cbn [c_flags].
      rewrite !(setup_flags flags expected ms su) by (auto; reflexivity). exact Htmp.
    - intros w' (K & _) j. apply Hdk. intros n. apply K.
    - intros n Hn. assert (Hi : In (FExp n) (map fi_h fis)).
      { rewrite Hm. apply in_map, in_seq. unfold nfiles in Hn. rewrite He in Hn. lia. }
      apply in_map_iff in Hi. destruct Hi as (fi & E & Hi). eauto.
  Qed.

  Theorem group_no_ub l : g_run l (g_init (map (conn_for su) ts) w) <> GUb.
  Proof.
    clear E1. intros E. destruct opened_group as (fis & H1 & H2 & H3 & H4 & H5 & H6 & _).
    pose proof (g_run_weak su fis w ts H1 H2 H3 H4 Hok H5 0 l _ (g_init_inv su fis w ts Hok 0)) as H. rewrite E in H. exact H.
  Qed.

  Lemma empty_run l : forall g, g_procs g = [] -> g_run l g = GGo g.
  Proof.
    clear E1. induction l as [|[b x] l IH]; intros g E; cbn [g_run]; [reflexivity|]. unfold g_step. rewrite E. destruct b; apply IH, E.
  Qed.

  Variables (l2 : list (nat * choice)) (g2 : group).
  Hypothesis E2 : g_run l2 g1 = GGo g2.
  Variable j : Z.

  (** while nobody is at work on a byte it stays as it is *)
  Theorem between_idle : others_idle ts g1 g2 None j -> disk_of su (g_w g2) j = disk_of su (g_w g1) j.
  Proof.
    intros Hidle. destruct opened_group as (fis & H1 & H2 & H3 & H4 & H5 & H6 & _).
    pose proof (g_run_weak su fis w ts H1 H2 H3 H4 Hok H5 j l1 _ (g_init_inv su fis w ts Hok j)) as R1. rewrite E1 in R1. destruct R1 as [W1 _].
    pose proof (g_run_weak su fis w ts H1 H2 H3 H4 Hok H5 j l2 _ W1) as R2. rewrite E2 in R2. destruct R2 as [W2 _].
    rewrite <- (H6 _ (proj1 W1)), <- (H6 _ (proj1 W2)).
    pose proof (proj1 (proj2 W1)) as L1. pose proof (proj1 (proj2 W2)) as L2.
    destruct (g_procs g1) as [|p1 ps1] eqn:Ep1.
    { rewrite (empty_run l2 g1 Ep1) in E2. injection E2 as <-. reflexivity. }
    destruct (g_procs g2) as [|p2 ps2] eqn:Ep2; [cbn in *; lia|].
    set (i0 := (y_next (pr_sys p1) + taken (pr_sys p2))%nat).
    apply (between_new su fis w ts H1 H2 H3 H4 Hok H5 j g1 g2 l2 0 i0 W1 E2) with (p2 := p2).
    - intros b t i q Et Eq _ Ht. apply (Hidle b t i q Et Eq); [discriminate|exact Ht].
    - exists p1. rewrite Ep1. split; [reflexivity|unfold i0; lia].
    - rewrite Ep2. reflexivity.
    - cbn in *. lia.
    - unfold i0. lia.
  Qed.

  (** a request that is the only one at work on a byte *)
  Theorem between_answer b t p2 i q vs : nth_error ts b = Some t -> nth_error (tk_qs t) i = Some q ->
    unread_by g1 b i -> others_idle ts g1 g2 (Some (b, i)) j ->
    nth_error (g_procs g2) b = Some p2 -> has_got (tk_qs t) (y_out (pr_sys p2)) q vs -> whole_answer vs ->
    byte_outcome q j (disk_of su (g_w g1) j) vs (disk_of su (g_w g2) j).
  Proof.
    intros Et Eq Hn Hidle Ep Hg Hw. destruct opened_group as (fis & H1 & H2 & H3 & H4 & H5 & H6 & _).
    pose proof (g_run_weak su fis w ts H1 H2 H3 H4 Hok H5 j l1 _ (g_init_inv su fis w ts Hok j)) as R1. rewrite E1 in R1. destruct R1 as [W1 _].
    pose proof (g_run_weak su fis w ts H1 H2 H3 H4 Hok H5 j l2 _ W1) as R2. rewrite E2 in R2. destruct R2 as [W2 _].
    rewrite <- (H6 _ (proj1 W1)), <- (H6 _ (proj1 W2)).
    eapply (between_got su fis w ts H1 H2 H3 H4 Hok H5 j g1 g2 l2 b i W1 E2); eauto.
  Qed.
End Opened.
