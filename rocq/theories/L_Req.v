(** One request on an export without copy-on-write, over an arbitrary
    placement of bytes: refinement of the flat disk. *)
From Verif Require Import Base M_Const M_Disk M_Tree M_Raw L_Wp L_Raw S_Wire S_Disk L_Wire.

Definition mreq (q : wreq) : request := mkReq (q_type q) (q_cookie q) (q_from q) (q_len q).

Definition payload_ok (q : wreq) (p : payload) : Prop :=
  q_cmd q = 1 -> p = PBuf (bytefn (q_data q)) \/ p = PPipe (bytefn (q_data q)).

Lemma bad_range_spec c q :
  is_u64 (q_from q) -> is_u32 (q_len q) -> 0 <= c_size c <= 9223372036854775807 ->
  bad_range c (mreq q) = false <-> inside (c_size c) q.
Proof.
  unfold is_u64, is_u32, bad_range, inside, mreq; cbn [rq_from rq_len]. intros Hf Hl Hs.
  destruct (c_size c <? q_from q) eqn:E.
  - cbn [orb]. split; [discriminate|lia].
  - cbn [orb]. rewrite u64_small by (unfold is_u64; lia). lia.
Qed.

Lemma land_high t k n : 0 <= t < 2 ^ (k + n) -> 0 <= k -> 0 <= n ->
  Z.land t (2 ^ (k + n) - 2 ^ k) = (t / 2 ^ k) * 2 ^ k.
Proof.
  intros Ht Hk Hn.
  replace (2 ^ (k + n) - 2 ^ k) with (Z.shiftl (Z.ones n) k).
  2:{ rewrite Z.shiftl_mul_pow2 by lia. rewrite Z.ones_equiv.
      rewrite Z.pow_add_r by lia. unfold Z.pred. ring. }
  rewrite <- Z.shiftl_mul_pow2 by lia. rewrite <- Z.shiftr_div_pow2 by lia.
  apply Z.bits_inj'. intros m Hm. rewrite Z.land_spec, !Z.shiftl_spec by lia.
  destruct (Z.ltb_spec m k).
  - rewrite !(Z.testbit_neg_r _ (m - k)) by lia. apply andb_false_r.
  - rewrite Z.shiftr_spec by lia. replace (m - k + k) with m by lia.
    destruct (Z.ltb_spec (m - k) n).
    + rewrite Z.ones_spec_low by lia. apply andb_true_r.
    + rewrite Z.ones_spec_high by lia. rewrite andb_false_r.
      symmetry. destruct (Z.eq_dec t 0) as [->|]; [apply Z.bits_0|].
      apply Z.bits_above_log2; [lia|].
      apply Z.lt_le_trans with (k + n); [|lia]. apply Z.log2_lt_pow2; lia.
Qed.

Lemma bad_flags_spec q : is_u32 (q_type q) -> bad_flags (mreq q) = false <-> known_flags q.
Proof.
  unfold is_u32, bad_flags, known_flags, q_flags, mreq; cbn [rq_type]. intros Ht.
  change (4294901760 - NBD_CMD_FLAG_FUA - NBD_CMD_FLAG_NO_HOLE) with (2 ^ (18 + 14) - 2 ^ 18).
  rewrite land_high by (try lia; change (2 ^ (18 + 14)) with 4294967296; lia).
  change (2 ^ 18) with 262144. lia.
Qed.

Lemma slice_bytes_at d o n : bytes_at d o n = slice d o n.
Proof. reflexivity. Qed.

Lemma step_read size ro d q d' ans :
  known_flags q -> q_cmd q = 0 -> inside size q -> unchanged d d' ->
  (ans = Ok (bytes_at d (q_from q) (q_len q)) \/ failed ans) -> flat_step size ro d q d' ans.
Proof.
  intros Hk Hc Hin Hu Ha. unfold flat_step. split; [tauto|]. intros _.
  split; [intros _; split; [exact Hu|split; [tauto|intros _; exact Ha]]|].
  repeat (split; [intros; lia|]). intros; lia.
Qed.
Lemma step_write size ro d q d' ans :
  known_flags q -> q_cmd q = 1 -> inside size q -> ro = false ->
  (ans = Ok [] /\ replaced d d' (q_from q) (q_len q) (content (q_data q))) \/
  (failed ans /\ touched d d' (q_from q) (q_len q) (content (q_data q))) -> flat_step size ro d q d' ans.
Proof.
  intros Hk Hc Hin Hr Ha. unfold flat_step. split; [tauto|]. intros _.
  split; [intros; lia|]. split; [intros _; split; [congruence|split; [tauto|intros _ _; exact Ha]]|].
  repeat (split; [intros; lia|]). intros; lia.
Qed.
Lemma step_flush size ro d q d' ans :
  known_flags q -> q_cmd q = 3 -> unchanged d d' -> (ans = Ok [] \/ failed ans) -> flat_step size ro d q d' ans.
Proof.
  intros Hk Hc Hu Ha. unfold flat_step. split; [tauto|]. intros _.
  split; [intros; lia|]. split; [intros; lia|]. split; [intros _; auto|].
  repeat (split; [intros; lia|]). intros; lia.
Qed.
Lemma step_trim size ro d q d' :
  known_flags q -> q_cmd q = 4 -> inside size q -> ro = false ->
  touched d d' (q_from q) (q_len q) zeroes -> flat_step size ro d q d' (Ok []).
Proof.
  intros Hk Hc Hin Hr Ha. unfold flat_step. split; [tauto|]. intros _.
  split; [intros; lia|]. split; [intros; lia|]. split; [intros; lia|].
  split; [intros _; split; [congruence|split; [tauto|intros _ _; auto]]|].
  repeat (split; [intros; lia|]). intros; lia.
Qed.
Lemma step_zeroes size ro d q d' ans :
  known_flags q -> q_cmd q = 6 -> inside size q -> ro = false ->
  (ans = Ok [] /\ touched d d' (q_from q) (q_len q) zeroes /\
    (q_len q <= 67108864 -> replaced d d' (q_from q) (q_len q) zeroes)) \/
  (failed ans /\ touched d d' (q_from q) (q_len q) zeroes) -> flat_step size ro d q d' ans.
Proof.
  intros Hk Hc Hin Hr Ha. unfold flat_step. split; [tauto|]. intros _.
  split; [intros; lia|]. split; [intros; lia|]. split; [intros; lia|]. split; [intros; lia|].
  split; [intros _; split; [congruence|split; [tauto|intros _ _; exact Ha]]|]. intros; lia.
Qed.

Lemma flat_step_left size ro d0 d q d' ans :
  (forall i, d0 i = d i) -> flat_step size ro d0 q d' ans -> flat_step size ro d q d' ans.
Proof.
  intros HE (Hn & Hk).
  assert (U : unchanged d0 d' -> unchanged d d') by (intros H i; rewrite H; apply HE).
  assert (R : forall a n new, replaced d0 d' a n new -> replaced d d' a n new)
    by (intros a n new H i; rewrite H, HE; reflexivity).
  assert (T : forall a n new, touched d0 d' a n new -> touched d d' a n new)
    by (intros a n new H i; rewrite <- HE; apply H).
  assert (B : forall a n, bytes_at d0 a n = bytes_at d a n)
    by (intros a n; apply slice_ext; intros; apply HE).
  split; [intros k; destruct (Hn k); auto|]. intros k.
  destruct (Hk k) as (H0 & H1 & H3 & H4 & H6 & Hx). clear Hk Hn.
  split; [intros e; destruct (H0 e) as (u & a & b); rewrite B in b; auto|].
  split.
  { intros e; destruct (H1 e) as (a1 & a2 & a3). split; [intros r; destruct (a1 r); auto|].
    split; [intros r i; destruct (a2 r i); auto|]. intros r i; destruct (a3 r i) as [[]|[]]; auto. }
  split; [intros e; destruct (H3 e); auto|].
  split.
  { intros e; destruct (H4 e) as (a1 & a2 & a3). split; [intros r; destruct (a1 r); auto|].
    split; [intros r i; destruct (a2 r i); auto|]. intros r i; destruct (a3 r i); auto. }
  split.
  { intros e; destruct (H6 e) as (a1 & a2 & a3). split; [intros r; destruct (a1 r); auto|].
    split; [intros r i; destruct (a2 r i); auto|]. intros r i.
    destruct (a3 r i) as [(x & y & z)|[]]; [left|right]; auto. }
  intros. destruct Hx; auto.
Qed.

Lemma step_view_eq size ro d q d1 d2 ans :
  (forall i, d2 i = d1 i) -> flat_step size ro d q d1 ans -> flat_step size ro d q d2 ans.
Proof. intros H. unfold flat_step, unchanged, replaced, touched. setoid_rewrite H. auto. Qed.

(** ** READ, given what the transfer functions do *)
Section Reader.
  Variable c : client.
  Variable Inv : world -> Prop.
  Variable view : world -> Z -> Z.
  Variable dies : Prop.
  Hypothesis same_send : forall w m, Inv w -> same Inv view w (emit (ESend m) w).
  Notation same := (same Inv view).

  (** the post-condition of every request *)
  Definition answered (q : wreq) (w w1 : world) : Prop :=
    Inv w1 /\ exists msgs ans, sent w1 = sent w ++ msgs /\
      (forall s, read_answer (q_cookie q) (q_from q) (if q_cmd q =? 0 then q_len q else 0)
                   (concat msgs ++ s) = Some (ans, s)) /\
      flat_step (c_size c) (bad_write c) (view w) q (view w1) ans.

  Lemma read_step q w ans :
    known_flags q -> q_cmd q = 0 -> inside (c_size c) q ->
    (ans = Ok (slice (view w) (q_from q) (q_len q)) \/ failed ans) ->
    forall d', (forall i, d' i = view w i) ->
    flat_step (c_size c) (bad_write c) (view w) q d' ans.
  Proof.
    intros Hk Hc Hin Ha d' Hd. apply step_read; auto.
  Qed.

  Lemma wp_normal_read_of q w :
    wreq_ok q -> known_flags q -> q_cmd q = 0 -> inside (c_size c) q ->
    0 <= c_size c <= 9223372036854775807 ->
    (forall g, c_structured c = true ->
       wp (expread (mreq q) c (mkCtx g 0 0 0 (q_len q) true false))
       (fun xr w1 => let '(x1, fl) := xr in
          same w w1 /\ x_structured x1 = true /\ x_df x1 = false /\
          exists ps e, tiles 0 ps e /\ e <= q_len q /\
            sent w1 = sent w ++ map (piece_msg (q_cookie q) (q_from q) (view w)) ps /\
            (fl = false -> e = q_len q))
       (fun w1 => dies /\ same w w1 /\ exists msgs, sent w1 = sent w ++ msgs) w) ->
    (forall g, c_structured c = false ->
       wp (expread (mreq q) c (mkCtx g (q_len q) (q_len q) 0 (q_len q) false false))
       (fun xr w1 => let '(x1, fl) := xr in
          same w w1 /\ sent w1 = sent w /\ x_buflen x1 = q_len q /\ x_structured x1 = false /\
          (fl = false -> forall j, 0 <= j < q_len q -> x_buf x1 j = view w (q_from q + j)))
       (fun w1 => dies /\ same w w1 /\ exists msgs, sent w1 = sent w ++ msgs) w) ->
    wp (handle_normal_read c (mreq q))
       (fun _ w1 => answered q w w1 /\
          (c_structured c = true -> exists ps fl ty n pl,
             sent w1 = sent w ++ map (piece_msg (q_cookie q) (q_from q) (view w)) ps
                          ++ [chunk (q_cookie q) fl ty n pl]))
       (fun w1 => dies /\ same w w1 /\ exists msgs, sent w1 = sent w ++ msgs) w.
  Proof.
    intros Hq Hk Hcmd Hin Hsize Hstr Hbuf0.
    pose proof Hq as (Ht & Hc & Hf & Hl & Hd). unfold is_u64, is_u32, inside in *.
    assert (Hdf : flag (q_type q) NBD_CMD_FLAG_DF = false).
    { unfold flag. unfold known_flags, q_flags in Hk.
      replace (Z.land (q_type q) NBD_CMD_FLAG_DF) with 0; [reflexivity|].
      symmetry. apply Z.bits_inj'. intros m Hm. rewrite Z.land_spec, Z.bits_0.
      destruct (Z.eq_dec m 18) as [->|Hm18].
      - replace (Z.testbit (q_type q) 18) with false; [reflexivity|]. symmetry.
        destruct (Z.eq_dec (q_type q) 0) as [->|]; [apply Z.bits_0|].
        apply Z.bits_above_log2; [lia|].
        apply Z.log2_lt_pow2; [lia|]. change (2 ^ 18) with 262144. lia.
      - change NBD_CMD_FLAG_DF with (2 ^ 18). rewrite Z.pow2_bits_false by lia. apply andb_false_r. }
    unfold handle_normal_read. cbn [mreq rq_type rq_len rq_cookie]. rewrite Hdf.
    rewrite andb_false_r. cbn [andb orb]. apply wp_bind, wp_get.
    destruct (c_structured c) eqn:Est; cbn [negb].
    - (* structured *)
      apply wp_bind.
      eapply wp_mono.
      + apply Hstr. reflexivity.
      + intros [x1 fl] w1 (Hs1 & S1 & D1 & ps & e & T1 & E1 & M1 & F1).
        cbn [mreq rq_from rq_cookie x_off x_len] in *.
        destruct fl.
        * apply wp_bind, wp_get. unfold complete_read. rewrite S1, D1.
          destruct (wire_error_u32 _ (nbd_errno_wire (w_errno w1))) as [H32 H0].
          rewrite H0. cbn [andb negb]. apply wp_bind, wp_ret, wp_send.
          set (last := chunk _ _ _ _ _).
          destruct (same_send w1 last (same_inv _ _ _ _ Hs1)) as [I2 V2].
          split.
          -- split; [exact I2|].
             exists (map (piece_msg (q_cookie q) (q_from q) (view w)) ps ++ [last]), (Err (nbd_errno (w_errno w1))).
             split; [rewrite sent_emit_send, M1, <- app_assoc; reflexivity|]. split.
             ++ intros s. rewrite Hcmd. cbn [Z.eqb].
                change (0 =? 0) with true. cbv iota.
                eapply read_answer_struct with (e := e); try eassumption; try lia.
                ** unfold last, chunk. rewrite !app_length, !be_length. lia.
                ** intros stop acc fuel -> ->. unfold last. cbn [mreq rq_cookie].
                   apply collect_err; [exact Hc|exact H32|]. change (zlen read_failed) with 12. lia.
                ** unfold last. cbn [mreq rq_cookie]. eauto.
             ++ apply read_step; auto.
                ** right. eexists; split; [apply nbd_errno_wire|reflexivity].
                ** intros i. rewrite V2. apply Hs1.
          -- intros _. exists ps. unfold last. do 4 eexists.
             rewrite sent_emit_send, M1, <- app_assoc. reflexivity.
        * unfold complete_read. rewrite S1, D1. cbn [andb negb]. 
          change (0 =? 0) with true. cbn [negb]. apply wp_bind, wp_ret, wp_send.
          set (last := chunk _ _ _ _ _).
          destruct (same_send w1 last (same_inv _ _ _ _ Hs1)) as [I2 V2].
          pose proof (F1 eq_refl) as He.
          split.
          -- split; [exact I2|].
             exists (map (piece_msg (q_cookie q) (q_from q) (view w)) ps ++ [last]), (Ok (slice (view w) (q_from q) (q_len q))).
             split; [rewrite sent_emit_send, M1, <- app_assoc; reflexivity|]. split.
             ++ intros s. rewrite Hcmd.
                change (0 =? 0) with true. cbv iota.
                eapply read_answer_struct with (e := e); try eassumption; try lia.
                ** unfold last, chunk. rewrite !app_length, !be_length. lia.
                ** intros stop acc fuel -> ->. unfold last. cbn [mreq rq_cookie].
                   replace e with (q_len q) by lia. apply collect_done; exact Hc.
                ** unfold last. cbn [mreq rq_cookie]. eauto.
             ++ apply read_step; auto. intros i. rewrite V2. apply Hs1.
          -- intros _. exists ps. unfold last. do 4 eexists.
             rewrite sent_emit_send, M1, <- app_assoc. reflexivity.
      + intros w1 H. exact H.
    - (* simple *)
      apply wp_bind.
      eapply wp_mono.
      + apply Hbuf0. reflexivity.
      + intros [x1 fl] w1 (Hs1 & M1 & B1 & S1 & F1).
        cbn [mreq rq_from rq_cookie x_off x_len x_alloc x_buflen x_structured x_df x_buf] in *.
        destruct fl.
        * apply wp_bind, wp_get. unfold complete_read. rewrite S1.
          destruct (wire_error_u32 _ (nbd_errno_wire (w_errno w1))) as [H32 H0].
          rewrite H0. apply wp_send. split; [|discriminate].
          match goal with |- answered q w (emit (ESend ?m) w1) => set (last := m) end.
          destruct (same_send w1 last (same_inv _ _ _ _ Hs1)) as [I2 V2].
          split; [exact I2|]. exists [last], (Err (nbd_errno (w_errno w1))).
          split; [rewrite sent_emit_send, M1; reflexivity|]. split.
          -- intros s. cbn [concat]. rewrite app_nil_r. unfold last. cbn [mreq rq_cookie].
             apply read_answer_simple_err; [exact Hc|apply nbd_errno_wire].
          -- apply read_step; auto.
             ** right. eexists; split; [apply nbd_errno_wire|reflexivity].
             ** intros i. rewrite V2. apply Hs1.
        * unfold complete_read. rewrite S1. change (0 =? 0) with true. apply wp_send.
          split; [|discriminate].
          match goal with |- answered q w (emit (ESend ?m) w1) => set (last := m) end.
          destruct (same_send w1 last (same_inv _ _ _ _ Hs1)) as [I2 V2].
          pose proof (F1 eq_refl) as Hbuf.
          assert (Hsl : slice (x_buf x1) 0 (x_buflen x1) = slice (view w) (q_from q) (q_len q)).
          { rewrite B1.
            transitivity (slice (fun j => view w (j + q_from q)) 0 (q_len q)).
            - apply slice_ext. intros j Hj. rewrite Hbuf by lia. f_equal; lia.
            - rewrite slice_shift. f_equal. }
          split; [exact I2|]. exists [last], (Ok (slice (view w) (q_from q) (q_len q))).
          split; [rewrite sent_emit_send, M1; reflexivity|]. split.
          -- intros s. cbn [concat]. rewrite app_nil_r. unfold last. cbn [mreq rq_cookie].
             rewrite Hsl. apply read_answer_simple_ok; [exact Hc|].
             rewrite Hcmd. change (0 =? 0) with true. cbv iota. apply slice_zlen; lia.
          -- apply read_step; auto. intros i. rewrite V2. apply Hs1.
      + intros w1 H. exact H.
  Qed.
End Reader.

Section Req.
  Variable c : client.
  Variable Inv : world -> Prop.
  Variable view : world -> Z -> Z.
  Variable dies : Prop.

  Hypothesis Hstable : forall w w', w_file w' = w_file w -> w_exists w' = w_exists w ->
    Inv w -> same Inv view w w'.

  Hypothesis Hpos : forall a w, 0 <= a < c_size c -> Inv w ->
    wp (get_filepos c a)
       (fun r w1 => same Inv view w w1 /\ quiet w w1 /\
          exists h o mb, r = Some (h, o, mb) /\ 0 <= o /\ 0 <= mb /\
            (h <> FBad ->
               (forall j, 0 <= j -> (mb = 0 \/ j < mb) ->
                  view w1 (a + j) = frd (w_file w1 h) (o + j)) /\
               (negb (bad_write c) = true -> h <> FDiff /\
                  forall k d w2, w_file w2 = w_file w1 -> w_exists w2 = w_exists w1 ->
                    0 < k -> (mb = 0 \/ k <= mb) -> a + k <= c_size c ->
                    let w3 := set_file h (fwrite (w_file w2 h) o k d) w2 in
                    Inv w3 /\
                    forall i, view w3 i = if (a <=? i) && (i <? a + k) then d (i - a) else view w1 i)))
       (fun w1 => dies /\ same Inv view w w1 /\ quiet w w1) w.

  Hypothesis Hsize : 0 <= c_size c <= 9223372036854775807.
  Hypothesis Hcow : cflag c F_COPYONWRITE = false.
  Hypothesis Hwait : cflag c F_WAIT = false.

  Hypothesis Htrim : forall q w, wreq_ok q -> inside (c_size c) q -> bad_write c = false -> Inv w ->
    wp (exptrim c (mreq q))
       (fun _ w1 => Inv w1 /\ quiet w w1 /\ touched (view w) (view w1) (q_from q) (q_len q) zeroes)
       (fun w1 => dies /\ Inv w1 /\ quiet w w1 /\ touched (view w) (view w1) (q_from q) (q_len q) zeroes) w.

  Hypothesis Hflush : forall w, Inv w ->
    wp (expflush c) (fun _ w1 => same Inv view w w1 /\ quiet w w1) (fun _ => False) w.

  Notation same := (same Inv view).
  Notation answered := (answered c Inv view).
  Notation read_step := (read_step c view).

  Lemma waiting_false : waiting c = false.
  Proof. unfold waiting. rewrite Hwait. reflexivity. Qed.

  Lemma expwrite_raw a d len fua : expwrite c a d len fua = rawexpwrite_fully c a d len fua.
  Proof. unfold expwrite. rewrite Hcow, waiting_false. reflexivity. Qed.

  Lemma same_send w m : Inv w -> same w (emit (ESend m) w).
  Proof. intros HI. apply Hstable; auto. Qed.

  Definition died (q : wreq) (w w1 : world) : Prop :=
    dies /\ Inv w1 /\ died_step (c_size c) (bad_write c) (view w) q (view w1) /\
    exists msgs, sent w1 = sent w ++ msgs.

  (** a reply consisting of one simple message *)
  Lemma answered_simple q w w0 e :
    wreq_ok q -> q_cmd q <> 0 -> Inv w0 -> sent w0 = sent w ->
    (e = 0 \/ wire_error e) ->
    flat_step (c_size c) (bad_write c) (view w) q (view w0) (if e =? 0 then Ok [] else Err e) ->
    answered q w (emit (ESend (simple_reply (q_cookie q) e [])) w0).
  Proof.
    intros (_ & Hc & _) Hcmd HI Hs He Hf.
    destruct (same_send w0 (simple_reply (q_cookie q) e []) HI) as [I1 V1].
    split; [exact I1|]. exists [simple_reply (q_cookie q) e []], (if e =? 0 then Ok [] else Err e).
    split; [rewrite sent_emit_send, Hs; reflexivity|]. split.
    - intros s. cbn [concat]. rewrite app_nil_r.
      replace (q_cmd q =? 0) with false by lia.
      destruct He as [->|He].
      + change (0 =? 0) with true. cbv iota. apply read_answer_simple_ok; [exact Hc|reflexivity].
      + destruct (wire_error_u32 e He) as [_ ->]. apply read_answer_simple_err; assumption.
    - clear He. revert Hf. unfold flat_step, unchanged, replaced, touched. cbn in V1 |- *.
      intros Hf. setoid_rewrite V1. exact Hf.
  Qed.

  Lemma unchanged_same w w1 : same w w1 -> unchanged (view w) (view w1).
  Proof. intros [_ H] i. apply H. Qed.

  Lemma wp_error q e w :
    wreq_ok q -> Inv w ->
    flat_step (c_size c) (bad_write c) (view w) q (view w) (Err (nbd_errno e)) ->
    wp (reply_error (mreq q) e) (fun _ w1 => answered q w w1) (died q w) w.
  Proof.
    intros Hq HI Hf. unfold reply_error. apply wp_send. cbn [mreq rq_cookie].
    destruct (Z.eq_dec (q_cmd q) 0) as [H0|H0].
    - destruct (same_send w (simple_reply (q_cookie q) (nbd_errno e) []) HI) as [I1 V1].
      split; [exact I1|]. exists [simple_reply (q_cookie q) (nbd_errno e) []], (Err (nbd_errno e)).
      split; [reflexivity|]. split.
      + intros s. cbn [concat]. rewrite app_nil_r.
        apply read_answer_simple_err; [apply Hq|apply nbd_errno_wire].
      + eapply step_view_eq; [exact V1|exact Hf].
    - apply answered_simple; auto using nbd_errno_wire.
      destruct (wire_error_u32 _ (nbd_errno_wire e)) as [_ ->]. exact Hf.
  Qed.

  (** ** WRITE *)
  Lemma wp_write_any q p w :
    wreq_ok q -> known_flags q -> q_cmd q = 1 -> bad_write c = false -> inside (c_size c) q ->
    payload_ok q p -> Inv w ->
    wp (handle_write c (mreq q) p) (fun _ w1 => answered q w w1) (died q w) w.
  Proof.
    intros Hq Hk Hcmd Hbw Hin Hp HI.
    pose proof Hq as (Ht & Hc & Hf & Hl & Hd). unfold is_u64, is_u32, inside in *.
    unfold handle_write. apply wp_bind. cbn [mreq rq_from rq_len rq_type rq_cookie].
    assert (Hi : i64 (q_from q) = q_from q) by (apply i64_small; lia).
    set (fua := flag (q_type q) NBD_CMD_FLAG_FUA).
    assert (Hw : wp (rawexpwrite_fully c (i64 (q_from q)) (bytefn (q_data q)) (q_len q) fua)
       (fun failed w1 => Inv w1 /\ quiet w w1 /\ mixed (view w) (view w1) (q_from q) (q_len q) (bytefn (q_data q)) /\
          (failed = false -> forall i, view w1 i = over (view w) (q_from q) (q_len q) (bytefn (q_data q)) i))
       (fun w1 => dies /\ Inv w1 /\ quiet w w1 /\ mixed (view w) (view w1) (q_from q) (q_len q) (bytefn (q_data q))) w).
    { rewrite Hi. eapply wp_rawexpwrite_fully with (rw := negb (bad_write c)) (lim := c_size c);
        try eassumption; try lia. rewrite Hbw. reflexivity. }
    assert (Hm : match p with
                 | PBuf d => expwrite c (i64 (q_from q)) d (q_len q) fua
                 | PPipe d => expsplice_out c (i64 (q_from q)) d (q_len q) fua
                 | PNone => ub
                 end = rawexpwrite_fully c (i64 (q_from q)) (bytefn (q_data q)) (q_len q) fua).
    { destruct (Hp Hcmd) as [-> | ->]; [apply expwrite_raw|reflexivity]. }
    rewrite Hm. eapply wp_mono; [exact Hw| |].
    - intros fl w1 (I1 & [Hq1 Hs1] & M1 & O1). apply wp_bind, wp_get, wp_send.
      apply answered_simple; auto; try lia.
      + destruct fl; [right; apply nbd_errno_wire|left; reflexivity].
      + apply step_write; auto. destruct fl.
        * right. destruct (wire_error_u32 _ (nbd_errno_wire (w_errno w1))) as [_ ->].
          split; [eexists; split; [apply nbd_errno_wire|reflexivity]|]. exact M1.
        * left. change (0 =? 0) with true. split; [reflexivity|]. intros i. apply (O1 eq_refl i).
    - intros w1 (Hdie & I1 & [Hq1 Hs1] & M1). split; [exact Hdie|]. split; [exact I1|].
      split; [|exists []; rewrite app_nil_r; exact Hs1].
      right. split; [exact Hk|]. split; [exact Hbw|]. split; [exact Hin|].
      left. split; [exact Hcmd|]. exact M1.
  Qed.

  (** ** WRITE_ZEROES *)
  Lemma touched_trans d1 d2 d3 a n new :
    touched d1 d2 a n new -> touched d2 d3 a n new -> touched d1 d3 a n new.
  Proof.
    intros H1 H2 i. destruct (H1 i) as [A1 B1]. destruct (H2 i) as [A2 B2]. split; intros Hi.
    - destruct (A2 Hi) as [-> | ->]; auto.
    - rewrite B2, B1; auto.
  Qed.

  Lemma wp_zeroes q fua w :
    wreq_ok q -> bad_write c = false -> inside (c_size c) q -> Inv w ->
    wp (expwrite_zeroes c (mreq q) fua)
       (fun failed w1 => Inv w1 /\ quiet w w1 /\ touched (view w) (view w1) (q_from q) (q_len q) zeroes /\
          (failed = false -> q_len q <= ZMAX -> replaced (view w) (view w1) (q_from q) (q_len q) zeroes))
       (fun w1 => dies /\ Inv w1 /\ quiet w w1 /\ touched (view w) (view w1) (q_from q) (q_len q) zeroes) w.
  Proof.
    intros Hq Hbw Hin HI.
    pose proof Hq as (Ht & Hc & Hf & Hl & Hd). unfold is_u64, is_u32, inside in *.
    assert (Hi : i64 (q_from q) = q_from q) by (apply i64_small; lia).
    unfold expwrite_zeroes. cbn [mreq rq_from rq_len]. rewrite Hi.
    apply wp_mloop with
      (I := fun l w1 => 0 <= l <= q_len q /\ Inv w1 /\ quiet w w1 /\
             touched (view w) (view w1) (q_from q) (q_len q) zeroes /\
             (q_len q <= ZMAX -> (l = q_len q \/ l = 0 /\ replaced (view w) (view w1) (q_from q) (q_len q) zeroes)))
      (m := fun l => l).
    - intros l w1 H. lia.
    - intros l w1 (Hl1 & I1 & Hq1 & T1 & R1). unfold expwrite_zeroes_body.
      destruct (0 <? l) eqn:E.
      + set (n := if ZMAX <? l then ZMAX else l).
        assert (Hn : 0 < n <= l) by (unfold n; destruct (ZMAX <? l) eqn:?; unfold ZMAX in *; lia).
        rewrite expwrite_raw. apply wp_bind.
        assert (Hsub : forall g, mixed (view w1) g (q_from q) n (fun _ => 0) ->
                  touched (view w1) g (q_from q) (q_len q) zeroes).
        { intros g H i. destruct (H i) as [A B]. split; intros Hr.
          - destruct (Z_lt_dec i (q_from q + n)); [apply A; lia|left; apply B; lia].
          - apply B. lia. }
        eapply wp_mono.
        * eapply wp_rawexpwrite_fully with (rw := negb (bad_write c)) (lim := c_size c);
            try eassumption; try lia. rewrite Hbw. reflexivity.
        * intros fl w2 (I2 & Hq2 & M2 & O2).
          assert (T2 : touched (view w) (view w2) (q_from q) (q_len q) zeroes)
            by (eapply touched_trans; [exact T1|apply Hsub; exact M2]).
          destruct fl; apply wp_ret.
          -- split; [exact I2|]. split; [eapply quiet_trans; eauto|]. split; [exact T2|discriminate].
          -- split; [|lia]. split; [lia|]. split; [exact I2|]. split; [eapply quiet_trans; eauto|].
             split; [exact T2|]. intros Hz. right.
             destruct (R1 Hz) as [Hl2|[Hl2 _]]; [|lia].
             assert (n = q_len q) by (unfold n; destruct (ZMAX <? l) eqn:?; unfold ZMAX in *; lia).
             split; [lia|]. specialize (O2 eq_refl).
             intros i. rewrite O2. unfold over. rewrite H.
             destruct ((q_from q <=? i) && (i <? q_from q + q_len q)) eqn:Er; [reflexivity|].
             apply (T1 i). lia.
        * intros w2 (Hdie & I2 & Hq2 & M2). split; [exact Hdie|]. split; [exact I2|].
          split; [eapply quiet_trans; eauto|]. eapply touched_trans; [exact T1|apply Hsub; exact M2].
      + apply wp_ret. split; [exact I1|]. split; [exact Hq1|]. split; [exact T1|].
        intros _ Hz. destruct (R1 Hz) as [Hl2|[_ Hr]]; [|exact Hr].
        intros i. replace ((q_from q <=? i) && (i <? q_from q + q_len q)) with false by lia.
        apply (T1 i). lia.
    - split; [lia|]. split; [exact HI|]. split; [apply quiet_refl|].
      split; [intros i; split; auto|]. intros _. left. reflexivity.
    - lia.
  Qed.

  Lemma wp_zeroes_any q w :
    wreq_ok q -> known_flags q -> q_cmd q = 6 -> bad_write c = false -> inside (c_size c) q -> Inv w ->
    wp (handle_write_zeroes c (mreq q)) (fun _ w1 => answered q w w1) (died q w) w.
  Proof.
    intros Hq Hk Hcmd Hbw Hin HI. unfold handle_write_zeroes. apply wp_bind.
    eapply wp_mono; [apply wp_zeroes; assumption| |].
    - intros fl w1 (I1 & [Hq1 Hs1] & T1 & R1). apply wp_bind, wp_get, wp_send.
      cbn [mreq rq_cookie]. apply answered_simple; auto; try lia.
      + destruct fl; [right; apply nbd_errno_wire|left; reflexivity].
      + apply step_zeroes; auto. destruct fl.
        * right. destruct (wire_error_u32 _ (nbd_errno_wire (w_errno w1))) as [_ ->].
          split; [eexists; split; [apply nbd_errno_wire|reflexivity]|]. exact T1.
        * left. change (0 =? 0) with true. split; [reflexivity|]. split; [exact T1|].
          intros Hz. apply R1; [reflexivity|exact Hz].
    - intros w1 (Hdie & I1 & [Hq1 Hs1] & M1). split; [exact Hdie|]. split; [exact I1|].
      split; [|exists []; rewrite app_nil_r; exact Hs1].
      right. split; [exact Hk|]. split; [exact Hbw|]. split; [exact Hin|].
      right. split; [right; exact Hcmd|]. exact M1.
  Qed.

  (** ** READ *)
  Lemma died_same q w w1 msgs : dies -> same w w1 -> sent w1 = sent w ++ msgs -> died q w w1.
  Proof.
    intros Hd [HI HV] Hs. split; [exact Hd|]. split; [exact HI|].
    split; [left; exact HV|eauto].
  Qed.

  Lemma wp_normal_read q w :
    wreq_ok q -> known_flags q -> q_cmd q = 0 -> inside (c_size c) q -> Inv w ->
    wp (handle_normal_read c (mreq q))
       (fun _ w1 => answered q w w1 /\
          (c_structured c = true -> exists ps fl ty n pl,
             sent w1 = sent w ++ map (piece_msg (q_cookie q) (q_from q) (view w)) ps
                          ++ [chunk (q_cookie q) fl ty n pl]))
       (fun w1 => dies /\ same w w1 /\ exists msgs, sent w1 = sent w ++ msgs) w.
  Proof.
    intros Hq Hk Hcmd Hin HI.
    pose proof Hq as (Ht & Hc & Hf & Hl & Hd). unfold is_u64, is_u32, inside in *.
    assert (Hexp : forall x, expread (mreq q) c x = rawexpread_fully (mreq q) c x).
    { intros x. unfold expread. rewrite Hcow, waiting_false. reflexivity. }
    apply wp_normal_read_of; auto using same_send; intros g Hst; rewrite Hexp.
    - eapply wp_mono.
      + eapply wp_rawexpread_fully_struct with (lim := c_size c); try eassumption;
          cbn [x_structured x_df x_off x_len mreq rq_from]; try reflexivity; try lia.
      + intros [x1 fl] w1 (Hs1 & Hq1 & S1 & D1 & ps & e & T1 & E1 & M1 & F1).
        cbn [mreq rq_from rq_cookie x_off x_len] in *.
        split; [exact Hs1|]. split; [exact S1|]. split; [exact D1|]. exists ps, e.
        split; [exact T1|]. split; [lia|]. split; [exact M1|]. intros E. destruct (F1 E). lia.
      + intros w1 (Hdie & Hs1 & Hq1 & Hms). auto.
    - eapply wp_mono.
      + eapply wp_rawexpread_fully_buf with (lim := c_size c); try eassumption;
          cbn [x_structured x_df x_off x_len x_alloc mreq rq_from]; try reflexivity; try lia.
      + intros [x1 fl] w1 (Hs1 & [Hq1 M1] & A1 & B1 & S1 & D1 & F1).
        cbn [mreq rq_from rq_cookie x_off x_len x_alloc x_buflen x_structured x_df x_buf] in *.
        split; [exact Hs1|]. split; [exact M1|]. split; [exact B1|]. split; [exact S1|].
        intros E j Hj. destruct (F1 E) as (_ & _ & Hbuf). rewrite Hbuf.
        replace ((0 <=? j) && (j <? 0 + q_len q)) with true by lia. reflexivity.
      + intros w1 (Hdie & Hs1 & [Hq1 Hs]). split; [exact Hdie|]. split; [exact Hs1|].
        exists []. rewrite app_nil_r. exact Hs.
  Qed.

  Lemma wp_splice_in a len w :
    0 <= a -> 0 <= len -> a + len <= c_size c -> Inv w ->
    wp (expsplice_in c a len)
       (fun r w1 => same w w1 /\ quiet w w1 /\
          match r with Some l => l = slice (view w) a len | None => True end)
       (fun w1 => dies /\ same w w1 /\ quiet w w1) w.
  Proof.
    intros Ha Hl Hlim HI. unfold expsplice_in.
    apply wp_mloop with
      (I := fun s w1 => let '(a1, l, acc) := s in
              0 <= l <= len /\ a1 = a + (len - l) /\ acc = slice (view w) a (len - l) /\
              same w w1 /\ quiet w w1)
      (m := fun s => let '(_, l, _) := s in l).
    - intros [[a1 l] acc] w1 H. lia.
    - intros [[a1 l] acc] w1 (H1 & -> & -> & Hs1 & Hq1). unfold expsplice_in_body.
      destruct (0 <? l) eqn:E.
      + apply wp_bind. unfold rawexpsplice_in. eapply wp_mono.
        * eapply wp_rawexpread with (lim := c_size c); try eassumption; try lia.
          eapply same_inv; eauto.
        * intros [k d] w2 (Hs2 & Hq2 & Hk & Hcap & Hdata). cbn [fst snd] in *.
          destruct (0 <? k) eqn:Ek; apply wp_ret.
          -- split; [|lia]. split; [lia|]. split; [lia|]. split.
             { replace (len - (l - k)) with ((len - l) + k) by lia.
               rewrite slice_split by lia. f_equal.
               transitivity (slice (fun j => view w (j + (a + (len - l)))) 0 k).
               - apply slice_ext. intros j Hj. rewrite Hdata by lia.
                 destruct Hs1 as [_ ->]. f_equal; lia.
               - rewrite slice_shift. f_equal. }
             split; [eapply same_trans; eauto|eapply quiet_trans; eauto].
          -- split; [eapply same_trans; eauto|]. split; [eapply quiet_trans; eauto|exact I].
        * intros w2 (Hdie & Hs2 & Hq2). split; [exact Hdie|].
          split; [eapply same_trans; eauto|eapply quiet_trans; eauto].
      + apply wp_ret. split; [exact Hs1|]. split; [exact Hq1|].
        f_equal; lia.
    - split; [lia|]. split; [lia|]. split; [rewrite Z.sub_diag; reflexivity|].
      split; [apply same_refl; exact HI|apply quiet_refl].
    - lia.
  Qed.

  Lemma answered_after q w w0 w1 : same w w0 -> sent w0 = sent w ->
    answered q w0 w1 -> answered q w w1.
  Proof.
    intros [_ HV] Hs (I1 & msgs & ans & M1 & R1 & F1). split; [exact I1|].
    exists msgs, ans. rewrite M1, Hs. split; [reflexivity|]. split; [exact R1|].
    eapply flat_step_left; eauto.
  Qed.

  Lemma wp_read_any q w :
    wreq_ok q -> known_flags q -> q_cmd q = 0 -> inside (c_size c) q -> Inv w ->
    wp (handle_read c (mreq q)) (fun _ w1 => answered q w w1) (died q w) w.
  Proof.
    intros Hq Hk Hcmd Hin HI. pose proof Hq as (Ht & Hc & Hf & Hl & Hd).
    unfold is_u64, is_u32, inside in *.
    unfold handle_read. apply wp_bind.
    assert (Hnormal : forall w0, same w w0 -> sent w0 = sent w ->
      wp (handle_normal_read c (mreq q)) (fun _ w1 => answered q w w1) (died q w) w0).
    { intros w0 Hs0 Hse. eapply wp_mono; [apply wp_normal_read; auto; eapply same_inv; eauto| |].
      - intros _ w1 [Ha _]. eapply answered_after; eauto.
      - intros w1 (Hdie & Hs1 & msgs & M1). eapply died_same with (msgs := msgs); auto.
        + eapply same_trans; eauto.
        + rewrite M1, Hse. reflexivity. }
    destruct (cflag c F_SPLICE).
    - unfold handle_splice_read. destruct (c_tls c).
      + apply wp_ret. apply Hnormal; [apply same_refl; exact HI|reflexivity].
      + apply wp_bind. unfold mkpipe.
        set (R := fun ok w' => wp (if negb ok then ret false else _) _ _ w').
        assert (HR : forall w0 ok, same w w0 -> sent w0 = sent w -> R ok w0).
        { intros w0 ok Hs0 Hse. unfold R. destruct ok; cbn [negb].
          - apply wp_bind. cbn [mreq rq_from rq_len].
            replace (i64 (q_from q)) with (q_from q) by (symmetry; apply i64_small; lia).
            eapply wp_mono; [apply wp_splice_in; try lia; eapply same_inv; eauto| |].
            + intros [l|] w1 (Hs1 & [Hq1 M1] & Hr).
              * apply wp_bind, wp_send, wp_ret, wp_ret. cbn [mreq rq_cookie].
                destruct (same_send w1 (simple_reply (q_cookie q) 0 l) (same_inv _ _ _ _ Hs1)) as [I2 V2].
                split; [exact I2|]. exists [simple_reply (q_cookie q) 0 l], (Ok l).
                split; [rewrite sent_emit_send, M1, Hse; reflexivity|]. split.
                -- intros s. cbn [concat]. rewrite app_nil_r. apply read_answer_simple_ok; [exact Hc|].
                   rewrite Hcmd. change (0 =? 0) with true. cbv iota. rewrite Hr. apply slice_zlen; lia.
                -- apply read_step; auto.
                   ++ left. rewrite Hr. f_equal. apply slice_ext. intros; apply Hs0.
                   ++ intros i. rewrite V2. destruct Hs1 as [_ ->]. apply Hs0.
              * apply wp_ret. apply Hnormal; [eapply same_trans; eauto|rewrite M1; exact Hse].
            + intros w1 (Hdie & Hs1 & [Hq1 M1]). eapply died_same with (msgs := []); auto.
              * eapply same_trans; eauto.
              * rewrite M1, Hse, app_nil_r. reflexivity.
          - apply wp_ret. apply Hnormal; auto. }
        destruct (MAX_PIPE_SIZE <? rq_len (mreq q)).
        * apply wp_ret. apply HR; [apply same_refl; exact HI|reflexivity].
        * apply wp_bind, wp_pull, wp_ret. apply HR; [apply Hstable; auto|reflexivity].
    - apply wp_ret. apply Hnormal; [apply same_refl; exact HI|reflexivity].
  Qed.

  Lemma wp_flush_any q w :
    wreq_ok q -> known_flags q -> q_cmd q = 3 -> Inv w ->
    wp (handle_flush c (mreq q)) (fun _ w1 => answered q w w1) (died q w) w.
  Proof.
    intros Hq Hk Hcmd HI. unfold handle_flush. apply wp_bind.
    eapply wp_mono; [apply Hflush; exact HI| |tauto].
    intros fl w1 ([I1 V1] & [Hq1 M1]). apply wp_bind, wp_get, wp_send. cbn [mreq rq_cookie].
    apply answered_simple; auto; try lia.
    - destruct fl; [right; apply nbd_errno_wire|left; reflexivity].
    - apply step_flush; auto. destruct fl.
      + right. destruct (wire_error_u32 _ (nbd_errno_wire (w_errno w1))) as [_ ->].
        eexists; split; [apply nbd_errno_wire|reflexivity].
      + left. reflexivity.
  Qed.

  Lemma wp_trim_any q w :
    wreq_ok q -> known_flags q -> q_cmd q = 4 -> bad_write c = false -> inside (c_size c) q -> Inv w ->
    wp (handle_trim c (mreq q)) (fun _ w1 => answered q w w1) (died q w) w.
  Proof.
    intros Hq Hk Hcmd Hbw Hin HI. unfold handle_trim. apply wp_bind.
    eapply wp_mono; [apply Htrim; assumption| |].
    - intros _ w1 (I1 & [Hq1 M1] & T1). apply wp_send. cbn [mreq rq_cookie].
      apply answered_simple; auto; try lia.
      apply step_trim; auto.
    - intros w1 (Hdie & I1 & [Hq1 M1] & T1). split; [exact Hdie|]. split; [exact I1|].
      split; [|exists []; rewrite app_nil_r; exact M1].
      right. split; [exact Hk|]. split; [exact Hbw|]. split; [exact Hin|].
      right. split; [left; exact Hcmd|exact T1].
  Qed.

  Theorem wp_handle_request q p w :
    wreq_ok q -> payload_ok q p -> Inv w ->
    wp (handle_request c (mreq q) p) (fun _ w1 => answered q w w1) (died q w) w.
  Proof.
    intros Hq Hp HI. pose proof Hq as (Ht & Hc & Hf & Hl & Hd).
    pose proof (bad_flags_spec q Ht) as Hfl.
    pose proof (bad_range_spec c q Hf Hl Hsize) as Hra.
    assert (Hin : bad_range c (mreq q) = true -> ~ inside (c_size c) q).
    { intros E H. apply Hra in H. congruence. }
    unfold handle_request.
    change (cmd_of (mreq q)) with (q_cmd q).
    unfold NBD_CMD_READ, NBD_CMD_WRITE, NBD_CMD_FLUSH, NBD_CMD_TRIM, NBD_CMD_WRITE_ZEROES.
    destruct (bad_flags (mreq q)) eqn:Ef.
    { apply wp_error; auto. unfold flat_step. split.
      - intros _. split; [reflexivity|intros i; reflexivity].
      - intros Hk. apply Hfl in Hk. discriminate. }
    assert (Hk : known_flags q) by (apply Hfl; reflexivity).
    assert (Herr : forall e, nbd_errno e = e ->
       (q_cmd q = 0 -> e = 22 /\ ~ inside (c_size c) q) ->
       (q_cmd q = 1 -> (bad_write c = true /\ e = 1) \/ (bad_write c = false /\ ~ inside (c_size c) q /\ e = 28)) ->
       (q_cmd q <> 3) ->
       (q_cmd q = 4 -> (bad_write c = true /\ e = 1) \/ (bad_write c = false /\ ~ inside (c_size c) q /\ e = 22)) ->
       (q_cmd q = 6 -> (bad_write c = true /\ e = 1) \/ (bad_write c = false /\ ~ inside (c_size c) q /\ e = 28)) ->
       (q_cmd q <> 0 -> q_cmd q <> 1 -> q_cmd q <> 3 -> q_cmd q <> 4 -> q_cmd q <> 6 -> e = 22) ->
       flat_step (c_size c) (bad_write c) (view w) q (view w) (Err (nbd_errno e))).
    { intros e He H0 H1 H3 H4 H6 Hx. rewrite He. unfold flat_step.
      split; [intros Hn; tauto|]. intros _. unfold unchanged.
      split; [intros E0; destruct (H0 E0); subst; split; auto; split; auto; tauto|].
      split.
      { intros E1. destruct (H1 E1) as [(Hb & ->)|(Hb & Hni & ->)]; rewrite Hb;
          (split; [|split]); intros; try discriminate; auto; tauto. }
      split; [intros; contradiction|].
      split.
      { intros E1. destruct (H4 E1) as [(Hb & ->)|(Hb & Hni & ->)]; rewrite Hb;
          (split; [|split]); intros; try discriminate; auto; tauto. }
      split.
      { intros E1. destruct (H6 E1) as [(Hb & ->)|(Hb & Hni & ->)]; rewrite Hb;
          (split; [|split]); intros; try discriminate; auto; tauto. }
      intros. rewrite Hx by assumption. auto. }
    destruct (q_cmd q =? 0) eqn:E0.
    { destruct (bad_range c (mreq q)) eqn:Er.
      - apply wp_error; auto. apply Herr; try reflexivity; intros; try lia. auto.
      - apply wp_read_any; auto; try lia. apply Hra; reflexivity. }
    destruct (q_cmd q =? 1) eqn:E1.
    { destruct (Bool.bool_dec (bad_write c) true) as [Eb|Eb]; [|apply not_true_is_false in Eb]; rewrite Eb.
      { apply wp_error; auto. apply Herr; try reflexivity; intros; try lia; auto. }
      destruct (bad_range c (mreq q)) eqn:Er.
      - apply wp_error; auto. apply Herr; try reflexivity; intros; try lia. right; auto.
      - apply wp_write_any; auto; try lia. apply Hra; reflexivity. }
    destruct (q_cmd q =? 3) eqn:E3.
    { apply wp_flush_any; auto; lia. }
    destruct (q_cmd q =? 4) eqn:E4.
    { destruct (Bool.bool_dec (bad_write c) true) as [Eb|Eb]; [|apply not_true_is_false in Eb]; rewrite Eb.
      { apply wp_error; auto. apply Herr; try reflexivity; intros; try lia; auto. }
      destruct (bad_range c (mreq q)) eqn:Er.
      - apply wp_error; auto. apply Herr; try reflexivity; intros; try lia. right; auto.
      - apply wp_trim_any; auto; try lia. apply Hra; reflexivity. }
    destruct (q_cmd q =? 6) eqn:E6.
    { destruct (Bool.bool_dec (bad_write c) true) as [Eb|Eb]; [|apply not_true_is_false in Eb]; rewrite Eb.
      { apply wp_error; auto. apply Herr; try reflexivity; intros; try lia; auto. }
      destruct (bad_range c (mreq q)) eqn:Er.
      - apply wp_error; auto. apply Herr; try reflexivity; intros; try lia. right; auto.
      - apply wp_zeroes_any; auto; try lia. apply Hra; reflexivity. }
    apply wp_error; auto. apply Herr; try reflexivity; intros; lia.
  Qed.
End Req.
