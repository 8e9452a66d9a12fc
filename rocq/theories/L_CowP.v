(** Copy-on-write over plain files. *)
From Verif Require Import Base M_Const M_Disk M_Tree M_Raw M_Setup L_Wp L_Raw S_Wire S_Disk L_Wire L_Req L_Plain L_Session L_Setup L_PlainS L_Gen L_Frame L_Props S_Cow L_Cow L_CowS.

(** nothing but the diff file has changed *)
Definition base_kept (w0 w : world) : Prop :=
  (forall h, h <> FDiff -> w_file w h = w_file w0 h) /\ (forall p, w_exists w p = w_exists w0 p).

Lemma wp_pread_pos h off n w : no_eof (w_orc w) -> 0 < n -> 0 <= off -> off < fsize (w_file w h) ->
  wp (sys_pread h off n) (fun kd _ => fst kd <> 0) (fun _ => True) w.
Proof.
  intros Hne Hn Ho Hs. unfold sys_pread. apply wp_bind, wp_pull.
  assert (Hf : forall e, wp (modify (set_errno e);;; ret (-1, fun _ : Z => 0)) (fun kd _ => fst kd <> 0) (fun _ => True) (tick w)).
  { intros e. apply wp_bind, wp_modify, wp_ret. cbn. lia. }
  assert (Hok : forall r, (forall e, r <> RErr e) -> (forall k, r = RShort k -> 0 < k) ->
    wp (if off <? 0 then modify (set_errno EINVAL);;; ret (-1, fun _ : Z => 0)
          else f <- get (fun w => w_file w h) ;;
               let avail := Z.max 0 (Z.min n (fsize f - off)) in
               ret (moved r avail, fun i => fdata f (off + i))) (fun kd _ => fst kd <> 0) (fun _ => True) (tick w)).
  { intros r Hr Hk. replace (off <? 0) with false by lia. apply wp_bind, wp_get. cbv zeta. apply wp_ret.
    cbn [fst tick w_file]. destruct r as [|k|e]; cbn [moved]; unfold MAX_RW; [lia|specialize (Hk k eq_refl); lia|congruence]. }
  specialize (Hne (w_tick w)).
  destruct h, (w_orc w (w_tick w)) as [|k|e]; try apply Hf; apply Hok; try congruence; intros k' E; injection E as <-; auto.
Qed.

Section P.
  Variable c : client.
  Variable fis : list finfo.
  Variable w0 : world.
  Hypothesis Ht : cflag c F_TREEFILES = false.
  Hypothesis He : c_export c = Some fis.
  Hypothesis Hwf : wf_export fis.
  Hypothesis Hsize : 0 <= c_size c <= 9223372036854775807.
  Hypothesis Hst : forall fi, In fi fis -> fi_start fi < 9223372036854775808.
  Hypothesis Hfits : fits c fis w0.

  Lemma flat_diff w f i : flat fis (set_file FDiff f w) i = flat fis w i.
  Proof.
    unfold flat. destruct (locate fis i) as [[h o]|] eqn:El; [|reflexivity].
    destruct (locate_inv _ _ _ _ El) as (m & fj & Em & <- & Ho & Hle).
    cbn [set_file w_file]. unfold upd_file. destruct (fref_eq_dec (fi_h fj) FDiff) as [E|_]; [|reflexivity].
    exfalso. pose proof (wf_handle fis m fj Hwf Em). tauto.
  Qed.

  Lemma base_stable w w' : w_file w' = w_file w -> w_exists w' = w_exists w ->
    base_kept w0 w -> same (base_kept w0) (flat fis) w w'.
  Proof.
    intros H H' [K1 K2]. split; [unfold base_kept; rewrite H, H'; auto|].
    intros i. unfold flat. rewrite H. reflexivity.
  Qed.

  Lemma base_diff w f : base_kept w0 w -> same (base_kept w0) (flat fis) w (set_file FDiff f w).
  Proof.
    intros [K1 K2]. split; [|intros i; apply flat_diff]. split; [|exact K2].
    intros h Hh. cbn [set_file w_file]. unfold upd_file. destruct (fref_eq_dec h FDiff) as [E|_]; [congruence|auto].
  Qed.

  Lemma base_pos a w : 0 <= a < c_size c -> base_kept w0 w ->
    wp (get_filepos c a)
       (fun r w1 => same (base_kept w0) (flat fis) w w1 /\ quiet w w1 /\
          exists h o mb, r = Some (h, o, mb) /\ 0 <= o /\ 0 <= mb /\
            (h <> FBad ->
               (forall j, 0 <= j -> (mb = 0 \/ j < mb) ->
                  flat fis w1 (a + j) = frd (w_file w1 h) (o + j)) /\
               (false = true -> h <> FDiff /\
                  forall k d w2, w_file w2 = w_file w1 -> w_exists w2 = w_exists w1 ->
                    0 < k -> (mb = 0 \/ k <= mb) -> a + k <= c_size c ->
                    let w3 := set_file h (fwrite (w_file w2 h) o k d) w2 in
                    base_kept w0 w3 /\
                    forall i, flat fis w3 i = if (a <=? i) && (i <? a + k) then d (i - a) else flat fis w1 i)))
       (fun w1 => False /\ same (base_kept w0) (flat fis) w w1 /\ quiet w w1) w.
  Proof.
    intros Ha HI. eapply wp_mono; [apply wp_get_filepos_plain; try eassumption; lia| |tauto].
    intros r w1 (-> & n & fi & Hs & ->). pose proof Hs as (E & Hle & Hn).
    split; [apply same_refl; exact HI|]. split; [apply quiet_refl|].
    eexists _, _, _. split; [reflexivity|]. split; [lia|].
    split. { destruct (nth_error fis (S n)) as [fj|] eqn:Ej; [specialize (Hn fj eq_refl); lia|lia]. }
    intros _. split; [|discriminate].
    intros j Hj Hjm. eapply flat_read; eauto. intros fj Ej. rewrite Ej in Hjm.
    specialize (Hn fj Ej). lia.
  Qed.

  Lemma base_full a len w : 0 <= a -> 0 < len -> a + len <= c_size c -> base_kept w0 w -> no_eof (w_orc w) ->
    wp (rawexpread c a len) (fun kd _ => fst kd <> 0) (fun _ => True) w.
  Proof.
    intros Ha Hl Hin HI Hne. unfold rawexpread. apply wp_bind.
    eapply wp_mono; [apply (wp_get_filepos_plain c fis a w); try eassumption; lia| |auto].
    intros r w1 (-> & n & fi & Hs & ->). destruct Hs as (E & Hle & Hn).
    specialize (Hfits n fi E). destruct HI as [K1 K2].
    assert (Hh : fi_h fi <> FDiff) by (eapply wf_handle; eauto).
    assert (Hsz : a - fi_start fi < fsize (w_file w (fi_h fi))).
    { rewrite K1 by exact Hh. destruct (nth_error fis (S n)) as [fj|] eqn:Ej; [specialize (Hn fj eq_refl)|]; lia. }
    apply wp_pread_pos; [exact Hne| |lia|exact Hsz].
    unfold clamp. destruct (nth_error fis (S n)) as [fj|] eqn:Ej.
    - specialize (Hn fj eq_refl). destruct (negb (fi_start fj - a =? 0) && (fi_start fj - a <? len)); lia.
    - change (0 =? 0) with true. cbn [negb andb]. lia.
  Qed.
End P.

(** a copy-on-write export that setupexport opened *)
Definition cow_flags (flags : Z) : Prop :=
  flag flags F_TREEFILES = false /\ flag flags F_WAIT = false /\ flag flags F_COPYONWRITE = true /\
  flag flags F_SPARSE = false /\ flag flags F_SPLICE = false.

Lemma wp_prepare c w : 0 <= c_size c ->
  wp (copyonwrite_prepare c)
     (fun r w1 => base_kept w w1 /\ sent w1 = sent w /\ w_orc w1 = w_orc w /\
        (r = true -> w_mapsz w1 = c_size c / 4096 /\ w_dlen w1 = 0 /\ w_dpos w1 = 0 /\
           fsize (w_file w1 FDiff) = 0 /\ forall p, w_map w1 p = NP))
     (fun _ => True) w.
Proof.
  intros Hs. unfold copyonwrite_prepare. apply wp_bind, wp_pull.
  assert (Hb : forall f, base_kept w (set_file FDiff f w)).
  { intros f. split; [|reflexivity]. intros h Hh. cbn [set_file w_file]. unfold upd_file.
    destruct (fref_eq_dec h FDiff); [congruence|reflexivity]. }
  destruct (w_orc w (w_tick w)).
  3:{ apply wp_bind, wp_modify, wp_die. exact Logic.I. }
  all: apply wp_bind, wp_modify, wp_bind, wp_modify, wp_bind, wp_pull.
  all: match goal with |- context [match ?x with _ => _ end] => destruct x end.
  all: try (apply wp_bind, wp_modify, wp_bind, wp_modify, wp_ret; split; [apply Hb|]; cbn; repeat split; reflexivity).
  all: apply wp_bind, wp_modify, wp_die; exact Logic.I.
Qed.

Lemma cow_plain_session flags expected ms s w namelen structured tls qs tail e w1 :
  setupexport flags expected ms = SetupOk s -> 0 <= expected -> cow_flags flags ->
  no_empty_member flags ms -> backed flags ms s w -> sizes_ok w ->
  no_eof (w_orc w) -> su_size s <= 4294967296 ->
  let c := client_of s namelen structured tls in
  copyonwrite_prepare c w = Ret true w1 ->
  Forall wreq_ok qs -> Forall (fun q => q_type q <> 2) qs -> stops tail e ->
  cow_fine_all (su_size s) (bad_write c) structured qs ->
  (exists w2 msgs h d,
     run c (concat (map encode qs) ++ tail) w1 = Ret (model_end e) w2 /\
     sent w2 = sent w ++ msgs /\
     (forall z, answers qs (concat msgs ++ z) = Some (h, z)) /\
     history (su_size s) (bad_write c) (disk_of s w) h d /\ base_kept w w2) \/
  (exists qs1 q qs2 w2 w3 msgs h d err,
     qs = qs1 ++ q :: qs2 /\ (q_cmd q = 1 \/ q_cmd q = 6) /\ wire_error err /\
     run c (concat (map encode qs1)) w1 = Ret EndClosed w2 /\
     run c (concat (map encode (qs1 ++ [q]))) w1 = Ret EndClosed w3 /\
     sent w2 = sent w ++ msgs /\
     (forall z, answers qs1 (concat msgs ++ z) = Some (h, z)) /\
     history (su_size s) (bad_write c) (disk_of s w) h d /\ base_kept w w2 /\
     sent w3 = sent w2 ++ [simple_reply (q_cookie q) err []]).
Proof.
  intros Hset Hexp (Ft & Fw & Fc & Fs & Fp) Hne Hb Hok Heof Hsmall c Hprep Hq Hnd Hstop Hfine.
  destruct (setup_plain flags expected ms s w Hset Hexp Ft Fw Hne Hb Hok) as (fis & Hs & _ & _).
  destruct Hs as (He & Hn & Hwf & Hmap & Hft & Hsz & Htot & Hst' & Hjo & Hld).
  assert (Cf : forall f, flag F_AUTOREADONLY f = false -> flag F_READONLY f = false -> cflag c f = flag flags f).
  { intros f F1 F2. unfold cflag, c, client_of. cbn [c_flags]. apply (setup_flags flags expected ms s); auto. }
  assert (Hsize : 0 <= c_size c <= 9223372036854775807) by (cbn; lia).
  assert (Hft' : fits c fis w) by (apply Hft; reflexivity).
  pose proof (wp_prepare c w ltac:(lia)) as Hp. unfold wp in Hp. rewrite Hprep in Hp.
  destruct Hp as (HB1 & Hse1 & Ho1 & Hm1). destruct (Hm1 eq_refl) as (M1 & M2 & M3 & M4 & M5). clear Hm1.
  assert (HC1 : CInv c (base_kept w) w1).
  { exists []. unfold cow_pages. change (zlen (@nil Z)) with 0.
    split; [exact HB1|]. split; [exact M1|]. split; [exact M2|]. split; [exact M3|]. split; [exact M4|].
    rewrite M1. assert (0 <= c_size c / 4096) by (apply Z.div_pos; lia).
    split; [lia|]. split; [cbn; apply Z.div_le_upper_bound; lia|].
    split; [constructor|]. split; [intros p []|]. split; [intros [|k] p; discriminate|]. intros p _ _. apply M5. }
  assert (Hview : forall i, cview c (flat fis) w1 i = disk_of s w i).
  { intros i. unfold cview. rewrite M5, Z.eqb_refl.
    replace (if (0 <=? i) && (i <? 4096 * (c_size c / 4096)) then flat fis w1 i else flat fis w1 i) with (flat fis w1 i)
      by (destruct ((0 <=? i) && (i <? 4096 * (c_size c / 4096))); reflexivity).
    transitivity (flat fis w i).
    - unfold flat. destruct (locate fis i) as [[h o]|] eqn:El; [|reflexivity].
      destruct (locate_inv _ _ _ _ El) as (m & fj & Em & <- & _). rewrite (proj1 HB1); [reflexivity|].
      eapply wf_handle; eauto.
    - unfold disk_of, nfiles. rewrite He. apply Hjo. reflexivity. }
  destruct (cow_session c (base_kept w) (flat fis) False (base_stable fis w) (base_diff c fis w Hwf Hsize)
     (base_pos c fis w ltac:(rewrite Cf by reflexivity; exact Ft) He Hwf Hsize Hst')
     (base_full c fis w ltac:(rewrite Cf by reflexivity; exact Ft) He Hwf Hsize Hst' Hft') Hsize
     ltac:(rewrite Cf by reflexivity; exact Fc) ltac:(rewrite Cf by reflexivity; exact Fw)
     ltac:(rewrite Cf by reflexivity; exact Fs) ltac:(rewrite Cf by reflexivity; exact Fp)
     qs [] w1 Hq Hfine) as [(w2 & E2 & (I2 & msgs & h & S2 & A2 & H2) & _)
       |(qs1 & q & qs2 & w2 & w3 & Eq & E2 & (I2 & msgs & h & S2 & A2 & H2) & E3 & [Hcmd (err & Herr & S3)])];
    [intros p _ _; apply M5|exact HC1|rewrite Ho1; exact Heof|tauto| |].
  - left. exists w2, msgs, h, (cview c (flat fis) w2). split.
    { rewrite (run_execute c qs tail e) by auto. unfold bind. rewrite E2. reflexivity. }
    split; [rewrite S2, Hse1; reflexivity|]. split; [exact A2|].
    split; [|eapply cinv_base; eauto].
    eapply history_ext; [exact H2|exact Hview|reflexivity].
  - right. subst qs. exists qs1, q, qs2, w2, w3, msgs, h, (cview c (flat fis) w2), err.
    assert (Q1 : Forall wreq_ok qs1 /\ Forall (fun q => q_type q <> 2) qs1 /\ wreq_ok q /\ q_type q <> 2).
    { apply Forall_app in Hq. apply Forall_app in Hnd. destruct Hq as [X1 X2], Hnd as [X3 X4].
      inversion X2; inversion X4; auto. }
    destruct Q1 as (Q1 & Q2 & Q3 & Q4).
    split; [reflexivity|]. split; [exact Hcmd|]. split; [exact Herr|]. split.
    { rewrite <- (app_nil_r (concat (map encode qs1))).
      rewrite (run_execute c qs1 [] StopCut) by (auto; apply stop_short; reflexivity). unfold bind. rewrite E2. reflexivity. }
    split.
    { rewrite <- (app_nil_r (concat (map encode (qs1 ++ [q])))).
      rewrite (run_execute c (qs1 ++ [q]) [] StopCut);
        [|apply Forall_app; auto|apply Forall_app; auto|apply stop_short; reflexivity].
      assert (HX : execute c (qs1 ++ [q]) w1 = Ret tt w3).
      { clear - E2 E3. revert w1 E2. induction qs1 as [|x l IH]; intros w1 E2.
        - cbn in E2. injection E2 as <-. exact E3.
        - cbn [app execute] in E2 |- *. unfold bind in E2 |- *.
          destruct ((if q_cmd x =? 1 then receive_payload c (mreq x) (q_data x) else ret PNone) w1) as [pl wa| |wa|]; try discriminate.
          destruct (handle_request c (mreq x) pl wa); try discriminate. apply IH. exact E2. }
      unfold bind. rewrite HX. reflexivity. }
    split; [rewrite S2, Hse1; reflexivity|]. split; [exact A2|].
    split; [eapply history_ext; [exact H2|exact Hview|reflexivity]|].
    split; [eapply cinv_base; eauto|]. exact S3.
Qed.
