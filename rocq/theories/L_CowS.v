(** Requests and sessions on copy-on-write exports. *)
From Verif Require Import Base M_Const M_Disk M_Tree M_Raw L_Wp L_Raw S_Wire S_Disk L_Wire L_Req L_Plain L_Session L_Gen L_Cow S_Cow.

Lemma refusal_step size ro q e d :
  refusal size ro q = Some e -> flat_step size ro d q d (Err e).
Proof.
  intros H. unfold refusal in H. unfold flat_step, known_flags, inside, unchanged.
  destruct (4 <=? q_flags q) eqn:Ef.
  { injection H as <-. split; [auto|]. intros; lia. }
  split; [intros; lia|]. intros _.
  destruct (q_cmd q =? 0) eqn:E0.
  { destruct (size <? q_from q + q_len q) eqn:Es; [|discriminate]. injection H as <-.
    split; [intros _; split; [auto|split; [auto|intros; lia]]|]. repeat (split; [intros; lia|]). intros; lia. }
  split; [intros; lia|].
  destruct (q_cmd q =? 1) eqn:E1.
  { split.
    - intros _. destruct ro; [injection H as <-; split; [auto|split; intros; discriminate]|].
      destruct (size <? q_from q + q_len q) eqn:Es; [|discriminate]. injection H as <-.
      split; [intros; discriminate|]. split; [auto|]. intros; lia.
    - repeat (split; [intros; lia|]). intros; lia. }
  split; [intros; lia|].
  destruct (q_cmd q =? 3) eqn:E3; [discriminate|].
  split; [intros; lia|].
  destruct (q_cmd q =? 4) eqn:E4.
  { split.
    - intros _. destruct ro; [injection H as <-; split; [auto|split; intros; discriminate]|].
      destruct (size <? q_from q + q_len q) eqn:Es; [|discriminate]. injection H as <-.
      split; [intros; discriminate|]. split; [auto|]. intros; lia.
    - repeat (split; [intros; lia|]). intros; lia. }
  split; [intros; lia|].
  destruct (q_cmd q =? 6) eqn:E6.
  { split.
    - intros _. destruct ro; [injection H as <-; split; [auto|split; intros; discriminate]|].
      destruct (size <? q_from q + q_len q) eqn:Es; [|discriminate]. injection H as <-.
      split; [intros; discriminate|]. split; [auto|]. intros; lia.
    - intros; lia. }
  split; [intros; lia|]. injection H as <-. intros; auto.
Qed.

Lemma refusal_wire size ro q e : refusal size ro q = Some e -> wire_error e.
Proof.
  unfold refusal, wire_error.
  repeat match goal with |- context [if ?b then _ else _] => destruct b end; intros H; inversion H; subst; cbn; auto 10.
Qed.

Section CowReq.
  Variable c : client.
  Variable BInv : world -> Prop.
  Variable bview : world -> Z -> Z.
  Variable dies : Prop.
  Notation bsame := (same BInv bview).
  Hypothesis Hstable : forall w w', w_file w' = w_file w -> w_exists w' = w_exists w ->
    BInv w -> bsame w w'.
  Hypothesis Hdiff : forall w f, BInv w -> bsame w (set_file FDiff f w).
  Hypothesis Hpos : forall a w, 0 <= a < c_size c -> BInv w ->
    wp (get_filepos c a)
       (fun r w1 => bsame w w1 /\ quiet w w1 /\
          exists h o mb, r = Some (h, o, mb) /\ 0 <= o /\ 0 <= mb /\
            (h <> FBad ->
               (forall j, 0 <= j -> (mb = 0 \/ j < mb) ->
                  bview w1 (a + j) = frd (w_file w1 h) (o + j)) /\
               (false = true -> h <> FDiff /\
                  forall k d w2, w_file w2 = w_file w1 -> w_exists w2 = w_exists w1 ->
                    0 < k -> (mb = 0 \/ k <= mb) -> a + k <= c_size c ->
                    let w3 := set_file h (fwrite (w_file w2 h) o k d) w2 in
                    BInv w3 /\
                    forall i, bview w3 i = if (a <=? i) && (i <? a + k) then d (i - a) else bview w1 i)))
       (fun w1 => dies /\ bsame w w1 /\ quiet w w1) w.
  Hypothesis Hfull : forall a len w, 0 <= a -> 0 < len -> a + len <= c_size c -> BInv w ->
    no_eof (w_orc w) -> wp (rawexpread c a len) (fun kd _ => fst kd <> 0) (fun _ => True) w.
  Hypothesis Hsize : 0 <= c_size c <= 9223372036854775807.
  Hypothesis Hcow : cflag c F_COPYONWRITE = true.
  Hypothesis Hwait : cflag c F_WAIT = false.
  Hypothesis Hsparse : cflag c F_SPARSE = false.
  Hypothesis Hnosplice : cflag c F_SPLICE = false.

  Notation CI := (CInv c BInv).
  Notation cv := (cview c bview).
  Notation csame := (same CI cv).
  Notation answered := (answered c CI cv).

  (** which requests the statement covers, in the given state *)
  Definition covered (w : world) (q : wreq) : Prop :=
    refusal (c_size c) (bad_write c) q = None ->
    (q_cmd q = 0 -> readable c w q) /\
    (q_cmd q = 1 -> 0 < q_len q) /\
    (q_cmd q = 1 \/ q_cmd q = 6 -> q_from q + q_len q <= 4096 * (c_size c / 4096)).

  (** a modification that failed: an error reply, nothing else known *)
  Definition write_failed (q : wreq) (w w1 : world) : Prop :=
    (q_cmd q = 1 \/ q_cmd q = 6) /\
    exists e, wire_error e /\ sent w1 = sent w ++ [simple_reply (q_cookie q) e []].

  Definition cpost (q : wreq) (w w1 : world) : Prop :=
    (answered q w w1 /\ w_orc w1 = w_orc w /\ forall p, ~ writes_page q p -> w_map w1 p = w_map w p) \/
    write_failed q w w1.

  Lemma csend w m : CI w -> csame w (emit (ESend m) w).
  Proof. apply cow_send; assumption. Qed.

  Lemma answered_ok q w w0 :
    wreq_ok q -> q_cmd q <> 0 -> CI w0 -> sent w0 = sent w ->
    flat_step (c_size c) (bad_write c) (cv w) q (cv w0) (Ok []) ->
    answered q w (emit (ESend (simple_reply (q_cookie q) 0 [])) w0).
  Proof.
    intros (_ & Hc & _) Hcmd HI Hs Hf.
    destruct (csend w0 (simple_reply (q_cookie q) 0 []) HI) as [I1 V1].
    split; [exact I1|]. exists [simple_reply (q_cookie q) 0 []], (Ok []).
    split; [rewrite sent_emit_send, Hs; reflexivity|]. split.
    - intros s. cbn [concat]. rewrite app_nil_r. replace (q_cmd q =? 0) with false by lia.
      apply read_answer_simple_ok; [exact Hc|reflexivity].
    - eapply step_view_eq; [exact V1|exact Hf].
  Qed.

  Lemma answered_err q w w0 e :
    wreq_ok q -> CI w0 -> sent w0 = sent w -> wire_error e ->
    flat_step (c_size c) (bad_write c) (cv w) q (cv w0) (Err e) ->
    answered q w (emit (ESend (simple_reply (q_cookie q) e [])) w0).
  Proof.
    intros (_ & Hc & _) HI Hs He Hf.
    destruct (csend w0 (simple_reply (q_cookie q) e []) HI) as [I1 V1].
    split; [exact I1|]. exists [simple_reply (q_cookie q) e []], (Err e).
    split; [rewrite sent_emit_send, Hs; reflexivity|]. split.
    - intros s. cbn [concat]. rewrite app_nil_r. apply read_answer_simple_err; [exact Hc|exact He].
    - eapply step_view_eq; [exact V1|exact Hf].
  Qed.

  Lemma same_step0 a d w w1 : (forall i, cv w1 i = L_Raw.over (cv w) a 0 d i) -> forall i, cv w1 i = cv w i.
  Proof. intros H i. rewrite H. unfold L_Raw.over. replace ((a <=? i) && (i <? a + 0)) with false by lia. reflexivity. Qed.

  Lemma over_zero_twice f g h a n l : 0 <= l -> (forall i, f i = L_Raw.over h a n (fun _ => 0) i) ->
    (forall i, g i = L_Raw.over f a l (fun _ => 0) i) ->
    forall i, g i = L_Raw.over h a (Z.max n l) (fun _ => 0) i.
  Proof.
    intros Hl Hf Hg i. rewrite Hg. unfold L_Raw.over at 1. rewrite Hf. unfold L_Raw.over.
    destruct ((a <=? i) && (i <? a + l)) eqn:E1, ((a <=? i) && (i <? a + n)) eqn:E2,
      ((a <=? i) && (i <? a + Z.max n l)) eqn:E3; try reflexivity; lia.
  Qed.

  Lemma wp_zeroes_cow q fua w :
    wreq_ok q -> q_from q + q_len q <= 4096 * (c_size c / 4096) -> CI w -> no_eof (w_orc w) ->
    wp (expwrite_zeroes c (mreq q) fua)
       (fun fl w1 => sent w1 = sent w /\ w_orc w1 = w_orc w /\
          (forall p, ~ (q_from q / 4096 <= p <= (q_from q + q_len q - 1) / 4096) -> w_map w1 p = w_map w p) /\
          (fl = false -> CI w1 /\
             forall i, cv w1 i = L_Raw.over (cv w) (q_from q) (Z.min (q_len q) ZMAX) (fun _ => 0) i))
       (fun w1 => dies /\ sent w1 = sent w /\ w_orc w1 = w_orc w) w.
  Proof.
    intros Hq Hr HI Hne.
    pose proof Hq as (Ht & Hc & Hf & Hl & Hd). unfold is_u64, is_u32 in *.
    assert (Hc4 : 4096 * (c_size c / 4096) <= c_size c) by lia.
    assert (Hi : i64 (q_from q) = q_from q) by (apply i64_small; lia).
    unfold expwrite_zeroes. cbn [mreq rq_from rq_len]. rewrite Hi.
    apply wp_mloop with
      (I := fun l w1 => 0 <= l <= q_len q /\ CI w1 /\ sent w1 = sent w /\ w_orc w1 = w_orc w /\
             (forall p, ~ (q_from q / 4096 <= p <= (q_from q + q_len q - 1) / 4096) -> w_map w1 p = w_map w p) /\
             exists n, (n = 0 /\ l = q_len q \/ n = Z.min (q_len q) ZMAX) /\
             forall i, cv w1 i = L_Raw.over (cv w) (q_from q) n (fun _ => 0) i)
      (m := fun l => l).
    - intros l w1 H. lia.
    - intros l w1 (Hl1 & I1 & S1 & O1 & MP1 & n & Hn & V1). unfold expwrite_zeroes_body.
      destruct (0 <? l) eqn:E.
      + apply wp_bind.
        set (l0 := if ZMAX <? l then ZMAX else l).
        assert (Hl0 : 0 < l0 <= l /\ l0 = Z.min l ZMAX) by (unfold l0; destruct (ZMAX <? l) eqn:?; unfold ZMAX in *; lia).
        eapply wp_mono; [eapply (wp_expwrite_cow c BInv bview dies) with (a := q_from q) (len := l0); try eassumption; try lia;
                         rewrite O1; exact Hne| |].
        * intros fl w2 (_ & _ & S2 & O2 & MP2 & R2).
          assert (MP3 : forall p, ~ (q_from q / 4096 <= p <= (q_from q + q_len q - 1) / 4096) -> w_map w2 p = w_map w p).
          { intros p Hp. rewrite MP2; [apply MP1; exact Hp|].
            pose proof (Z.div_le_mono (q_from q + l0 - 1) (q_from q + q_len q - 1) 4096 ltac:(lia) ltac:(lia)). lia. }
          destruct fl; apply wp_ret.
          -- split; [congruence|]. split; [congruence|]. split; [exact MP3|discriminate].
          -- destruct (R2 eq_refl) as [I2 V2]. split; [|lia]. split; [lia|]. split; [exact I2|].
             split; [congruence|]. split; [congruence|]. split; [exact MP3|]. exists (Z.max n l0). split.
             ++ right. unfold ZMAX in *. lia.
             ++ apply over_zero_twice with (f := cv w1); try lia; assumption.
        * intros w2 (Hdie & S2 & O2). split; [exact Hdie|]. split; congruence.
      + apply wp_ret. split; [exact S1|]. split; [exact O1|]. split; [exact MP1|]. intros _. split; [exact I1|].
        assert (Hz : n = Z.min (q_len q) ZMAX) by (unfold ZMAX in *; lia).
        rewrite <- Hz. exact V1.
    - split; [lia|]. split; [exact HI|]. split; [reflexivity|]. split; [reflexivity|]. split; [reflexivity|].
      exists 0. split; [left; lia|]. intros i. unfold L_Raw.over.
      replace ((q_from q <=? i) && (i <? q_from q + 0)) with false by lia. reflexivity.
    - lia.
  Qed.

  Theorem wp_cow_request q p w :
    wreq_ok q -> (q_cmd q = 1 -> p = PBuf (bytefn (q_data q))) -> covered w q -> CI w -> no_eof (w_orc w) ->
    wp (handle_request c (mreq q) p) (fun _ w1 => cpost q w w1)
       (fun w1 => dies /\ exists msgs, sent w1 = sent w ++ msgs) w.
  Proof.
    intros Hq Hp Hcov HI Hne.
    pose proof Hq as (Ht & Hc & Hf & Hl & Hd).
    destruct (refusal (c_size c) (bad_write c) q) as [e|] eqn:Er.
    { unfold wp. rewrite (refused_request c q p w e Hq Hsize Er). left. split; [|split; [reflexivity|reflexivity]].
      unfold error_reply.
      replace (be 4 0x67446698 ++ be 4 e ++ q_cookie q) with (simple_reply (q_cookie q) e [])
        by (unfold simple_reply; rewrite app_nil_r; reflexivity).
      apply answered_err; auto; [eapply refusal_wire; eauto|]. apply refusal_step. exact Er. }
    destruct (Hcov Er) as (Hrd & Hwl & Hrange). clear Hcov.
    unfold refusal in Er.
    pose proof (bad_flags_spec q Ht) as Hfl.
    pose proof (bad_range_spec c q Hf Hl Hsize) as Hra.
    destruct (4 <=? q_flags q) eqn:Ef; [discriminate|].
    assert (Hk : known_flags q) by (unfold known_flags; lia).
    assert (Hbf : bad_flags (mreq q) = false) by (apply Hfl; exact Hk).
    unfold handle_request. rewrite Hbf.
    change (cmd_of (mreq q)) with (q_cmd q).
    unfold NBD_CMD_READ, NBD_CMD_WRITE, NBD_CMD_FLUSH, NBD_CMD_TRIM, NBD_CMD_WRITE_ZEROES.
    assert (Hin : (c_size c <? q_from q + q_len q) = false -> inside (c_size c) q /\ bad_range c (mreq q) = false).
    { intros E. assert (inside (c_size c) q) by (unfold inside; lia). split; [assumption|]. apply Hra. assumption. }
    destruct (q_cmd q =? 0) eqn:E0.
    { destruct (c_size c <? q_from q + q_len q) eqn:Eo; [discriminate|].
      destruct (Hin eq_refl) as [Hi ->]. assert (Hcmd : q_cmd q = 0) by lia. specialize (Hrd Hcmd).
      unfold handle_read. rewrite Hnosplice. apply wp_bind, wp_ret.
      assert (Horc : wp (handle_normal_read c (mreq q)) (fun _ w1 => w_orc w1 = w_orc w /\ w_map w1 = w_map w) (fun _ => True) w).
      { unfold handle_normal_read.
        destruct (c_structured c && flag (rq_type (mreq q)) NBD_CMD_FLAG_DF && (1048576 <? rq_len (mreq q))).
        { apply wp_send. split; reflexivity. }
        apply wp_bind, wp_get, wp_bind.
        assert (Hdf : flag (q_type q) NBD_CMD_FLAG_DF = false).
        { destruct (flag (q_type q) NBD_CMD_FLAG_DF) eqn:E; [|reflexivity]. exfalso.
          apply Hfl in Hk. revert Hk E. unfold bad_flags, flag. cbn [mreq rq_type].
          intros H1 H2. apply negb_true_iff, Z.eqb_neq in H2. apply H2.
          apply negb_false_iff, Z.eqb_eq in H1.
          change NBD_CMD_FLAG_DF with (Z.land (4294901760 - NBD_CMD_FLAG_FUA - NBD_CMD_FLAG_NO_HOLE) NBD_CMD_FLAG_DF).
          rewrite Z.land_assoc, H1. reflexivity. }
        cbn [mreq rq_type rq_len]. rewrite Hdf. cbn [orb].
        assert (Hfin : forall x1 (fl : bool) w1, w_orc w1 = w_orc w /\ w_map w1 = w_map w ->
           wp (if fl then e <- get w_errno ;; complete_read (mreq q) x1 (nbd_errno e) read_failed
               else complete_read (mreq q) x1 0 []) (fun _ w2 => w_orc w2 = w_orc w /\ w_map w2 = w_map w) (fun _ => True) w1).
        { intros x1 fl w1 Ho. assert (Hcr : forall e msg, wp (complete_read (mreq q) x1 e msg) (fun _ w2 => w_orc w2 = w_orc w /\ w_map w2 = w_map w) (fun _ => True) w1).
          { intros e msg. unfold complete_read. destruct (x_structured x1).
            - apply wp_bind. destruct (x_df x1 && (e =? 0)); [apply wp_send|apply wp_ret];
                (destruct (negb (e =? 0)); apply wp_send; exact Ho).
            - apply wp_send. exact Ho. }
          destruct fl; [apply wp_bind, wp_get; apply Hcr|apply Hcr]. }
        destruct (c_structured c) eqn:Est; cbn [negb].
        - eapply wp_mono; [eapply wp_expread_struct; eauto| |auto].
          intros [x1 fl] w1 (_ & HQ & _). apply Hfin. split; apply HQ.
        - eapply wp_mono; [eapply wp_expread_buf; eauto| |auto].
          intros [x1 fl] w1 (_ & HQ & _). apply Hfin. split; apply HQ. }
      eapply wp_mono.
      - apply wp_and; [|exact Horc].
        apply (wp_normal_read_of c CI cv dies csend q w Hq Hk Hcmd Hi Hsize).
        + intros g Est. eapply wp_mono; [eapply wp_expread_struct; eauto| |].
          * intros [x1 fl] w1 (HS & HQ & X1 & X2 & ps & e & T1 & L1 & M1 & F1).
            split; [exact HS|]. split; [exact X1|]. split; [exact X2|]. exists ps, e. auto.
          * intros w1 (Hdie & HS & HQ & Hms). auto.
        + intros g Est. eapply wp_mono; [eapply wp_expread_buf; eauto| |].
          * intros [x1 fl] w1 (HS & [HQ HM] & X1 & X2 & F1).
            split; [exact HS|]. split; [exact HM|]. split; [exact X1|]. split; [exact X2|exact F1].
          * intros w1 (Hdie & HS & HQ & HM). split; [exact Hdie|]. split; [exact HS|].
            exists []. rewrite app_nil_r. exact HM.
      - intros _ w1 [[Ha _] [Ho Hm]]. left. split; [exact Ha|]. split; [exact Ho|]. intros; rewrite Hm; reflexivity.
      - intros w1 [(Hdie & _ & Hms) _]. auto. }
    destruct (q_cmd q =? 1) eqn:E1.
    { destruct (bad_write c) eqn:Eb; [discriminate|].
      destruct (c_size c <? q_from q + q_len q) eqn:Eo; [discriminate|].
      destruct (Hin eq_refl) as [Hi ->]. assert (Hcmd : q_cmd q = 1) by lia.
      specialize (Hwl Hcmd). specialize (Hrange (or_introl Hcmd)). rewrite (Hp Hcmd).
      unfold handle_write. apply wp_bind. cbn [mreq rq_from rq_len rq_type rq_cookie].
      unfold is_u64, is_u32, inside in *. rewrite i64_small by lia.
      eapply wp_mono; [eapply (wp_expwrite_cow c BInv bview dies); try eassumption; lia| |].
      - intros fl w1 (_ & _ & S1 & O1 & MP1 & R1). apply wp_bind, wp_get, wp_send. destruct fl.
        + right. split; [auto|]. exists (nbd_errno (w_errno w1)). split; [apply nbd_errno_wire|].
          rewrite sent_emit_send, S1. reflexivity.
        + left. split; [|split; [exact O1|]].
          * destruct (R1 eq_refl) as [I1 V1]. apply answered_ok; auto; try lia. apply step_write; auto.
          * intros pp Hpp. apply MP1. intros Hx. apply Hpp. split; auto.
      - intros w1 (Hdie & S1 & _). split; [exact Hdie|]. exists []. rewrite app_nil_r. exact S1. }
    destruct (q_cmd q =? 3) eqn:E3.
    { unfold handle_flush, expflush. rewrite Hcow.
      assert (Hfs : wp (sys_fsync FDiff) (fun _ w1 => csame w w1 /\ sent w1 = sent w /\ w_orc w1 = w_orc w /\ w_map w1 = w_map w) (fun _ => False) w).
      { assert (HB : BInv w) by (apply (cinv_base c BInv); exact HI).
        assert (Hq0 : forall w1, w_file w1 = w_file w -> w_exists w1 = w_exists w -> fields w w1 -> csame w w1).
        { intros w1 HF HE HFi. apply cow_stable; auto. rewrite HF. reflexivity. }
        unfold sys_fsync. apply wp_bind, wp_pull.
        destruct (w_orc w (w_tick w)); apply wp_bind, wp_modify, wp_ret;
          (split; [apply Hq0; [reflexivity|reflexivity|repeat split]|split; [reflexivity|split; reflexivity]]). }
      apply wp_bind, wp_bind. eapply wp_mono; [exact Hfs| |intros w1 []].
      intros r w1 (HS & S1 & O1 & MP1). apply wp_ret, wp_bind, wp_get, wp_send. left.
      split; [|split; [exact O1|intros; cbn [emit w_map]; rewrite MP1; reflexivity]].
      cbn [mreq rq_cookie]. destruct (negb (r =? 0)).
      - apply answered_err; auto; [apply HS|apply nbd_errno_wire|]. apply step_flush; auto; try lia.
        + intros i. apply HS.
        + right. eexists. split; [apply nbd_errno_wire|reflexivity].
      - apply answered_ok; auto; try lia; [apply HS|]. apply step_flush; auto; try lia.
        intros i. apply HS. }
    destruct (q_cmd q =? 4) eqn:E4.
    { destruct (bad_write c) eqn:Eb; [discriminate|].
      destruct (c_size c <? q_from q + q_len q) eqn:Eo; [discriminate|].
      destruct (Hin eq_refl) as [Hi ->]. unfold handle_trim. apply wp_bind.
      unfold exptrim. cbn [mreq rq_from rq_len rq_cookie].
      unfold bad_write in Eb. apply orb_false_iff in Eb. destruct Eb as [Eb1 Eb2]. rewrite Eb1, Hcow.
      apply wp_bind, wp_assert; [intros _|discriminate].
      unfold is_u64, is_u32, inside in *. rewrite u64_small by (unfold is_u64; lia).
      apply wp_bind, wp_assert; [intros _|intros Hx; exfalso; lia].
      apply wp_ret, wp_send. left. split; [|split; [reflexivity|reflexivity]]. apply answered_ok; auto; try lia.
      apply step_trim; auto; try lia; [unfold bad_write; rewrite Eb1, Eb2; reflexivity|].
      intros i. auto. }
    destruct (q_cmd q =? 6) eqn:E6; [|discriminate].
    destruct (bad_write c) eqn:Eb; [discriminate|].
    destruct (c_size c <? q_from q + q_len q) eqn:Eo; [discriminate|].
    destruct (Hin eq_refl) as [Hi ->]. assert (Hcmd : q_cmd q = 6) by lia.
    specialize (Hrange (or_intror Hcmd)).
    unfold handle_write_zeroes. apply wp_bind.
    eapply wp_mono; [apply wp_zeroes_cow; auto| |].
    - intros fl w1 (S1 & O1 & MP1 & R1). apply wp_bind, wp_get, wp_send. cbn [mreq rq_cookie]. destruct fl.
      + right. split; [auto|]. exists (nbd_errno (w_errno w1)). split; [apply nbd_errno_wire|].
        rewrite sent_emit_send, S1. reflexivity.
      + left. split; [|split; [exact O1|intros pp Hpp; apply MP1; intros Hx; apply Hpp; split; auto]].
        destruct (R1 eq_refl) as [I1 V1]. apply answered_ok; auto; try lia.
        apply step_zeroes; auto. left. split; [reflexivity|]. split.
        * intros i. rewrite V1. unfold L_Raw.over, zeroes, ZMAX.
          destruct ((q_from q <=? i) && (i <? q_from q + Z.min (q_len q) 67108864)) eqn:Ei; split; auto; lia.
        * intros Hz i. rewrite V1. unfold L_Raw.over, zeroes, ZMAX.
          replace (Z.min (q_len q) 67108864) with (q_len q) by lia. reflexivity.
    - intros w1 (Hdie & S1 & _). split; [exact Hdie|]. exists []. rewrite app_nil_r. exact S1.
  Qed.

  (** ** Sessions *)
  (** pages not written before are still only in the base *)
  Definition fresh_pages (before : list wreq) (w : world) : Prop :=
    forall p, 0 <= p < c_size c / 4096 -> never_written before p -> w_map w p = NP.

  Lemma fine_covered before w q : wreq_ok q -> fresh_pages before w ->
    cow_fine (c_size c) (bad_write c) (c_structured c) before q -> covered w q.
  Proof.
    intros Hq Hfr H Hr. destruct (H Hr) as (H1 & H2 & H3). split; [|split; [exact H2|]].
    - intros Hc. destruct (H1 Hc) as (Hl & Hm & Hs). specialize (H3 (or_introl Hc)).
      pose proof Hq as (_ & _ & Hf & _). unfold is_u64 in Hf.
      assert (Hlast : 0 <= (q_from q + q_len q - 1) / 4096 < c_size c / 4096).
      { split; [apply Z.div_pos; lia|]. apply Z.div_lt_upper_bound; lia. }
      split; [exact Hl|]. split; [exact H3|]. split.
      + intros p Hp. apply Hfr; [|apply Hm; exact Hp].
        split; [|lia]. assert (0 <= q_from q / 4096) by (apply Z.div_pos; lia). lia.
      + intros Hst. destruct (Hs Hst) as [He|He]; [left; exact He|right]. apply Hfr; auto.
    - intros Hc. apply H3. destruct Hc; auto.
  Qed.

  Notation served := (served c CI cv).

  Theorem cow_session qs : forall before w,
    Forall wreq_ok qs ->
    (forall b q a, qs = b ++ q :: a -> cow_fine (c_size c) (bad_write c) (c_structured c) (before ++ b) q) ->
    fresh_pages before w -> CI w -> no_eof (w_orc w) -> ~ dies ->
    (exists w1, execute c qs w = Ret tt w1 /\ served qs w w1 /\ w_orc w1 = w_orc w) \/
    (exists qs1 q qs2 w1 w2, qs = qs1 ++ q :: qs2 /\
       execute c qs1 w = Ret tt w1 /\ served qs1 w w1 /\
       execute c [q] w1 = Ret tt w2 /\ write_failed q w1 w2).
  Proof.
    induction qs as [|q qs IH]; intros before w Hok Hpr Hfr HI Hne Hnd.
    - left. exists w. split; [reflexivity|]. split; [|reflexivity]. split; [exact HI|].
      exists [], []. split; [rewrite app_nil_r; reflexivity|]. split; [reflexivity|].
      constructor. intros i; reflexivity.
    - inversion Hok as [|? ? Hq Hok']; subst.
      pose proof (Hpr [] q qs eq_refl) as Hpq. rewrite app_nil_r in Hpq.
      set (p := if q_cmd q =? 1 then PBuf (bytefn (q_data q)) else PNone).
      assert (Hrec : forall w', (if q_cmd q =? 1 then receive_payload c (mreq q) (q_data q) else ret PNone) w' = Ret p w').
      { intros w'. unfold p. destruct (q_cmd q =? 1); [|reflexivity].
        unfold receive_payload. rewrite Hnosplice. reflexivity. }
      assert (H1 : forall l w', execute c (q :: l) w' =
                   match handle_request c (mreq q) p w' with
                   | Ret _ w2 => execute c l w2 | Ub => Ub | Die w2 => Die w2 | Stuck => Stuck end).
      { intros l w'. cbn [execute]. unfold bind. rewrite Hrec. destruct (handle_request c (mreq q) p w'); reflexivity. }
      assert (Hwp := wp_cow_request q p w Hq ltac:(intros E; unfold p; rewrite E; reflexivity)
                       (fine_covered before w q Hq Hfr Hpq) HI Hne).
      unfold wp in Hwp. destruct (handle_request c (mreq q) p w) as [[] w1| |w1|] eqn:Eh; try tauto.
      destruct Hwp as [(Ha & Ho & Hm)|Hf].
      + destruct (IH (before ++ [q]) w1 Hok') as [(w2 & E2 & S2 & O2)|(qs1 & q' & qs2 & w2 & w3 & -> & E2 & S2 & E3 & F3)];
          [| |apply Ha|rewrite Ho; exact Hne|exact Hnd| |].
        * intros b q' a ->. rewrite <- app_assoc. apply (Hpr (q :: b) q' a). reflexivity.
        * intros pp Hpp Hnw. rewrite Hm.
          -- apply Hfr; [exact Hpp|]. intros b Hb. apply Hnw. apply in_or_app. auto.
          -- apply Hnw. apply in_or_app. right. left. reflexivity.
        * left. exists w2. split; [rewrite H1, Eh; exact E2|]. split; [|congruence].
          eapply served_cons; eauto.
        * right. exists (q :: qs1), q', qs2, w2, w3. split; [reflexivity|].
          split; [rewrite H1, Eh; exact E2|]. split; [eapply served_cons; eauto|]. auto.
      + right. exists [], q, qs, w, w1. split; [reflexivity|]. split; [reflexivity|]. split.
        * split; [exact HI|]. exists [], []. split; [rewrite app_nil_r; reflexivity|]. split; [reflexivity|].
          constructor. intros i; reflexivity.
        * split; [rewrite H1, Eh; reflexivity|exact Hf].
  Qed.
End CowReq.
