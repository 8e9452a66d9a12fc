(** Lemmas about the ring buffer and the TLS proxy loop. *)
From Verif Require Import Base M_Io M_Ring S_Ring L_Io.

Lemma loop_inr {S R} (step : S -> S + R) s r : step s = inr r -> forall p, loopP step p s = inr r.
Proof.
  intros H. induction p as [p IH|p IH|]; cbn [loopP]; [rewrite H|rewrite IH|exact H]; reflexivity.
Qed.

Lemma loop_two {S R} (step : S -> S + R) s s1 r :
  step s = inl s1 -> step s1 = inr r -> forall p, 2 <= Z.pos p -> loopP step p s = inr r.
Proof.
  intros H1 H2. pose proof (loop_inr step s1 r H2) as L1.
  assert (G : forall p, loopP step p s = inr r \/ (p = 1%positive /\ loopP step p s = inl s1)).
  { induction p as [p IH|p IH|]; cbn [loopP].
    - rewrite H1, L1. auto.
    - destruct IH as [->|[-> ->]]; [auto|]. rewrite L1. auto.
    - right. auto. }
  intros p Hp. destruct (G p) as [E|[-> _]]; [exact E|lia].
Qed.

Lemma slice_mod m s o c : 0 < s -> slice (fun i => m (i mod s)) (o + s) c = slice (fun i => m (i mod s)) o c :> list Z.
Proof.
  intros Hs. rewrite <- slice_shift. apply slice_ext. intros i _. f_equal.
  replace (i + s) with (i + 1 * s) by lia. apply Z.mod_add. lia.
Qed.

Lemma skipn_skipn' {A} : forall n m (l : list A), skipn m (skipn n l) = skipn (n + m) l.
Proof. induction n as [|n IH]; intros m l; [reflexivity|]. destruct l; [rewrite !skipn_nil; reflexivity|]. cbn. apply IH. Qed.

Lemma skipn_slice f o c n : 0 <= n <= c -> skipn (Z.to_nat n) (slice f o c) = slice f (o + n) (c - n).
Proof.
  intros H. replace c with (n + (c - n)) at 1 by lia. rewrite slice_split by lia.
  apply skipn_app_len. rewrite slice_length. reflexivity.
Qed.
Lemma firstn_slice f o c n : 0 <= n <= c -> firstn (Z.to_nat n) (slice f o c) = slice f o n.
Proof.
  intros H. replace c with (n + (c - n)) at 1 by lia. rewrite slice_split by lia.
  apply firstn_app_len. rewrite slice_length. reflexivity.
Qed.

Lemma count_range b : ring_ok b -> 0 <= bufGetCount b <= rb_size b /\ (rb_empty b = false -> 0 < bufGetCount b).
Proof.
  intros (H1 & H2 & H3 & H4). unfold bufGetCount. destruct (rb_empty b); [split; [lia|discriminate]|].
  destruct (rb_ridx b <? rb_widx b) eqn:E; lia.
Qed.

Lemma queued_zlen b : ring_ok b -> zlen (queued b) = bufGetCount b.
Proof. intros H. unfold queued. apply slice_zlen. apply count_range. exact H. Qed.

Lemma read_span b : ring_ok b ->
  match bufGetReadSpan b with
  | (Some a, len) => 0 < len <= bufGetCount b /\ 0 <= a /\ a + len <= rb_size b /\
      forall n, 0 <= n <= len -> slice (rb_mem b) a n = firstn (Z.to_nat n) (queued b)
  | (None, len) => len = 0 /\ queued b = []
  end.
Proof.
  intros H. pose proof (count_range b H) as [C1 C2]. destruct H as (H1 & H2 & H3 & H4).
  unfold bufGetReadSpan. destruct (rb_empty b) eqn:E.
  - split; [reflexivity|]. unfold queued, bufGetCount. rewrite E. apply slice_nil.
  - assert (L : 0 < span (rb_size b) (rb_widx b) (rb_ridx b) <= bufGetCount b /\
               rb_ridx b + span (rb_size b) (rb_widx b) (rb_ridx b) <= rb_size b).
    { unfold span, bufGetCount in *. rewrite E in *.
      destruct (rb_widx b - rb_ridx b <=? 0) eqn:E1; destruct (rb_ridx b <? rb_widx b) eqn:E2; lia. }
    split; [lia|]. split; [lia|]. split; [lia|]. intros n Hn. unfold queued. rewrite firstn_slice by lia.
    apply slice_ext. intros i Hi. rewrite Z.mod_small by lia. reflexivity.
Qed.

Definition same_frame (b b' : ring) : Prop :=
  rb_mem b' = rb_mem b /\ rb_size b' = rb_size b /\ rb_hwm b' = rb_hwm b.

Lemma doneread_step b size : ring_ok b -> rb_empty b = false -> 0 < size ->
  exists b' n, doneread_body (b, size) = inl (b', size - n) /\ 0 < n <= size /\ n <= bufGetCount b /\
    ring_ok b' /\ queued b' = skipn (Z.to_nat n) (queued b) /\ same_frame b b' /\
    (rb_empty b' = true -> n = bufGetCount b).
Proof.
  intros H E Hs. pose proof (count_range b H) as [C1 C2].
  pose proof (read_span b H) as R. unfold bufGetReadSpan in R. rewrite E in R. destruct R as (R1 & R2 & R3 & _).
  destruct H as (H1 & H2 & H3 & H4).
  unfold doneread_body. rewrite E. replace (0 <? size) with true by lia. cbn [negb andb].
  set (len := span (rb_size b) (rb_widx b) (rb_ridx b)) in *.
  set (n := if size <? len then size else len).
  assert (Hn : 0 < n <= size /\ n <= len) by (unfold n; destruct (size <? len) eqn:?; lia).
  set (r := if rb_size b <=? rb_ridx b + n then 0 else rb_ridx b + n).
  assert (Hr : 0 <= r < rb_size b /\ (r = rb_ridx b + n \/ r + rb_size b = rb_ridx b + n))
    by (unfold r; destruct (rb_size b <=? rb_ridx b + n) eqn:?; lia).
  assert (Q : skipn (Z.to_nat n) (queued b) = slice (fun i => rb_mem b (i mod rb_size b)) r (bufGetCount b - n)).
  { unfold queued. rewrite skipn_slice by lia. destruct Hr as [_ [-> | Hr]]; [reflexivity|].
    rewrite <- Hr. apply slice_mod. lia. }
  assert (EQ : r = rb_widx b -> n = bufGetCount b).
  { unfold bufGetCount in *. rewrite E in *. unfold len, span in *.
    destruct (rb_ridx b <? rb_widx b) eqn:E2; destruct (rb_widx b - rb_ridx b <=? 0) eqn:E1; lia. }
  destruct (r =? rb_widx b) eqn:E3.
  - exists (mkRing (rb_mem b) (rb_size b) (rb_hwm b) 0 0 true), n.
    split; [reflexivity|]. split; [lia|]. split; [lia|].
    split; [unfold ring_ok; cbn; repeat split; lia|].
    split; [|split; [repeat split|intros _; apply EQ; lia]].
    rewrite Q, EQ by lia. unfold queued, bufGetCount at 1. cbn [rb_empty rb_size rb_ridx rb_mem].
    rewrite Z.sub_diag. reflexivity.
  - exists (mkRing (rb_mem b) (rb_size b) (rb_hwm b) r (rb_widx b) false), n.
    split; [reflexivity|]. split; [lia|]. split; [lia|].
    split; [unfold ring_ok; cbn [rb_size rb_ridx rb_widx rb_empty]; repeat split; try lia; discriminate|].
    split; [|split; [repeat split|cbn; discriminate]].
    rewrite Q. unfold queued. cbn [rb_empty rb_size rb_ridx rb_mem]. f_equal.
    unfold bufGetCount in *. cbn [rb_empty rb_size rb_ridx rb_widx]. rewrite E in *. unfold len, span in *.
    destruct (rb_ridx b <? rb_widx b) eqn:E2; destruct (rb_widx b - rb_ridx b <=? 0) eqn:E1;
      destruct (r <? rb_widx b) eqn:E4; lia.
Qed.

Lemma done_read b n : ring_ok b -> 0 <= n ->
  exists b', bufDoneRead b n = Some b' /\ ring_ok b' /\ queued b' = skipn (Z.to_nat n) (queued b) /\ same_frame b b'.
Proof.
  intros H Hn. unfold bufDoneRead.
  destruct (loopP_total doneread_body
    (fun st => 0 <= snd st <= n /\ ring_ok (fst st) /\ same_frame b (fst st) /\
               queued (fst st) = skipn (Z.to_nat (n - snd st)) (queued b))
    (fun b' => ring_ok b' /\ queued b' = skipn (Z.to_nat n) (queued b) /\ same_frame b b') snd)
    with (p := Z.to_pos (n + 1)) (s := (b, n)) as (b' & E & Q).
  - intros st Hst. lia.
  - intros [b1 l] (I1 & I2 & I3 & I4). cbn [fst snd] in *.
    destruct (rb_empty b1) eqn:Ee; [|destruct (0 <? l) eqn:El].
    + unfold doneread_body. rewrite Ee. cbn [negb andb]. split; [exact I2|]. split; [|exact I3].
      assert (queued b1 = []) as Hq by (unfold queued, bufGetCount; rewrite Ee; apply slice_nil).
      rewrite Hq in *. symmetry. apply skipn_all2. 
      assert (length (skipn (Z.to_nat (n - l)) (queued b)) = 0%nat) as L by (rewrite <- I4; reflexivity).
      rewrite skipn_length in L. lia.
    + destruct (doneread_step b1 l I2 Ee) as (b2 & k & E & K1 & K2 & K3 & K4 & K5 & _); [lia|].
      rewrite E. cbn [fst snd]. split; [|lia]. split; [lia|]. split; [exact K3|].
      split; [unfold same_frame in *; destruct K5 as (-> & -> & ->); exact I3|].
      rewrite K4, I4. rewrite skipn_skipn'. f_equal. lia.
    + unfold doneread_body. rewrite Ee. replace (0 <? l) with false by lia. cbn [negb andb].
      split; [exact I2|]. split; [|exact I3]. rewrite I4. do 2 f_equal. lia.
  - cbn [fst snd]. split; [lia|]. split; [exact H|]. split; [repeat split|]. rewrite Z.sub_diag. reflexivity.
  - cbn [snd]. lia.
  - rewrite E. exists b'. split; [reflexivity|exact Q].
Qed.

(** offering space to write *)
Lemma write_span b : ring_ok b ->
  match bufGetWriteSpan b with
  | (Some a, len, b') => 0 < len /\ 0 <= a /\ a + len <= rb_size b /\ bufGetCount b + len <= rb_size b /\
      ring_ok b' /\ queued b' = queued b /\ same_frame b b' /\
      (forall bs, zlen bs <= len ->
         exists b'', bufDoneWrite (fill b' a bs) (zlen bs) = Some b'' /\ ring_ok b'' /\
           queued b'' = queued b ++ bs /\ rb_size b'' = rb_size b /\ rb_hwm b'' = rb_hwm b)
  | (None, len, b') => len = 0 /\ b' = b /\ bufGetCount b = rb_size b
  end.
Proof.
  intros H. pose proof (count_range b H) as [C1 C2]. destruct H as (H1 & H2 & H3 & H4).
  unfold bufGetWriteSpan.
  (* one lemma for the two cases: writing at [widx] with room for [len] *)
  assert (W : forall b' len, ring_ok b' -> same_frame b b' -> rb_ridx b' = rb_ridx b -> rb_widx b' = rb_widx b ->
            rb_empty b' = rb_empty b ->
            len = span (rb_size b) (rb_ridx b) (rb_widx b) -> 0 < len -> rb_widx b + len <= rb_size b ->
            bufGetCount b + len <= rb_size b -> (rb_empty b = true \/ rb_ridx b <> rb_widx b) ->
            forall bs, zlen bs <= len ->
         exists b'', bufDoneWrite (fill b' (rb_widx b) bs) (zlen bs) = Some b'' /\ ring_ok b'' /\
           queued b'' = queued b ++ bs /\ rb_size b'' = rb_size b /\ rb_hwm b'' = rb_hwm b).
  { intros b' len Hok (F1 & F2 & F3) F4 F5 F6 Hlen Hpos Hfit Hcnt Hcase bs Hbs.
    assert (OldQ : forall i, rb_ridx b <= i < rb_ridx b + bufGetCount b -> 
                   store (rb_mem b) (rb_widx b) bs (i mod rb_size b) = rb_mem b (i mod rb_size b)).
    { intros i Hi. apply store_other. pose proof (zlen_nonneg bs).
      unfold bufGetCount in Hi, Hcnt. unfold span in Hlen. destruct (rb_empty b) eqn:Ee; [lia|].
      destruct (rb_ridx b <? rb_widx b) eqn:E1.
      - rewrite Z.mod_small by lia. lia.
      - destruct (Z.ltb i (rb_size b)) eqn:Ei.
        + rewrite Z.mod_small by lia. destruct (rb_ridx b - rb_widx b <=? 0) eqn:E2; lia.
        + replace i with (i - rb_size b + 1 * rb_size b) by lia. rewrite Z.mod_add by lia.
          rewrite Z.mod_small by lia. lia. }
    destruct (Z.eq_dec (zlen bs) 0) as [E0|E0].
    - apply zlen_zero in E0. subst bs. rewrite zlen_nil.
      exists (fill b' (rb_widx b) []). split.
      { unfold bufDoneWrite. rewrite (loop_inr donewrite_body _ (fill b' (rb_widx b) [])); [reflexivity|].
        unfold donewrite_body. change (0 <? 0) with false. rewrite andb_false_r. reflexivity. }
      unfold fill. rewrite F1, F2, F3, F4, F5, F6. cbn [rb_size rb_hwm].
      split; [unfold ring_ok; cbn [rb_size rb_ridx rb_widx rb_empty]; auto|].
      split; [|auto]. rewrite app_nil_r. unfold queued, bufGetCount. cbn [rb_mem rb_size rb_ridx rb_widx rb_empty].
      apply slice_ext. intros i Hi. apply store_nil.
    - pose proof (zlen_nonneg bs).
      set (w := if rb_size b <=? rb_widx b + zlen bs then 0 else rb_widx b + zlen bs).
      exists (mkRing (store (rb_mem b) (rb_widx b) bs) (rb_size b) (rb_hwm b) (rb_ridx b) w false).
      assert (Hw : 0 <= w < rb_size b /\ (w = rb_widx b + zlen bs \/ w + rb_size b = rb_widx b + zlen bs))
        by (unfold w; destruct (rb_size b <=? rb_widx b + zlen bs) eqn:?; lia).
      split; [|split; [|split; [|split; reflexivity]]].
      + unfold bufDoneWrite, fill. rewrite F1, F2, F3, F4, F5, F6.
        erewrite (loop_two donewrite_body); [reflexivity| | |lia].
        * unfold donewrite_body. cbn [rb_mem rb_size rb_hwm rb_ridx rb_widx rb_empty].
          assert (rb_empty b || negb (rb_ridx b =? rb_widx b) = true) as ->
            by (destruct Hcase as [-> | Hc]; [reflexivity|]; replace (rb_ridx b =? rb_widx b) with false by lia; apply orb_true_r).
          replace (0 <? zlen bs) with true by lia. cbn [andb]. rewrite <- Hlen.
          replace (if zlen bs <? len then zlen bs else len) with (zlen bs) by (destruct (zlen bs <? len) eqn:?; lia).
          fold w. reflexivity.
        * unfold donewrite_body. rewrite Z.sub_diag. change (0 <? 0) with false. rewrite andb_false_r. reflexivity.
      + unfold ring_ok. cbn [rb_size rb_ridx rb_widx rb_empty]. repeat split; try lia; discriminate.
      + assert (Cnt : (w - rb_ridx b + (if rb_ridx b <? w then 0 else rb_size b)) = bufGetCount b + zlen bs).
        { unfold bufGetCount in *. unfold span in Hlen. destruct (rb_empty b) eqn:Ee.
          - destruct (H4 eq_refl). destruct (rb_ridx b <? w) eqn:?; lia.
          - destruct Hcase as [?|Hc]; [discriminate|].
            destruct (rb_ridx b <? rb_widx b) eqn:E1; destruct (rb_ridx b - rb_widx b <=? 0) eqn:E2;
              destruct (rb_ridx b <? w) eqn:E3; lia. }
        unfold queued at 1. unfold bufGetCount at 1. cbn [rb_mem rb_size rb_ridx rb_widx rb_empty].
        rewrite Cnt, slice_split by lia. f_equal.
        * unfold queued. apply slice_ext. exact OldQ.
        * assert (Pos : rb_ridx b + bufGetCount b = rb_widx b \/ rb_ridx b + bufGetCount b = rb_widx b + rb_size b).
          { unfold bufGetCount. destruct (rb_empty b) eqn:Ee; [destruct (H4 eq_refl); lia|].
            destruct (rb_ridx b <? rb_widx b) eqn:E1; lia. }
          transitivity (slice (fun i => store (rb_mem b) (rb_widx b) bs (i mod rb_size b)) (rb_widx b) (zlen bs)).
          { destruct Pos as [-> | ->]; [reflexivity|]. apply slice_mod. lia. }
          transitivity (slice (store (rb_mem b) (rb_widx b) bs) (rb_widx b) (zlen bs)); [|apply store_slice].
          apply slice_ext. intros i Hi. rewrite Z.mod_small by lia. reflexivity. }
  destruct (rb_empty b) eqn:Ee.
  - destruct (H4 eq_refl) as [Z1 Z2]. 
    assert (Hc : bufGetCount b = 0) by (unfold bufGetCount; rewrite Ee; reflexivity).
    assert (Hsp : rb_size b = span (rb_size b) (rb_ridx b) (rb_widx b)) by (unfold span; rewrite Z1, Z2; cbv zeta; change (0 - 0 <=? 0) with true; cbv iota; lia).
    set (b' := mkRing (rb_mem b) (rb_size b) (rb_hwm b) 0 0 true).
    assert (Hok : ring_ok b') by (unfold ring_ok; cbn; repeat split; lia).
    split; [lia|]. split; [lia|]. split; [lia|]. split; [lia|]. split; [exact Hok|].
    split; [unfold queued, bufGetCount; rewrite Ee; reflexivity|].
    split; [repeat split|]. intros bs Hbs.
    assert (X := W b' (rb_size b) Hok ltac:(repeat split) ltac:(cbn; lia) ltac:(cbn; lia) eq_refl Hsp ltac:(lia) ltac:(lia) ltac:(lia) (or_introl eq_refl) bs Hbs).
    rewrite Z2 in X. exact X.
  - destruct (rb_ridx b =? rb_widx b) eqn:E1.
    + split; [reflexivity|]. split; [reflexivity|]. unfold bufGetCount. rewrite Ee.
      replace (rb_ridx b <? rb_widx b) with false by lia. lia.
    + assert (Hsp : 0 < span (rb_size b) (rb_ridx b) (rb_widx b) /\
                    rb_widx b + span (rb_size b) (rb_ridx b) (rb_widx b) <= rb_size b /\
                    bufGetCount b + span (rb_size b) (rb_ridx b) (rb_widx b) <= rb_size b).
      { unfold span, bufGetCount. rewrite Ee.
        destruct (rb_ridx b - rb_widx b <=? 0) eqn:E2; destruct (rb_ridx b <? rb_widx b) eqn:E3; lia. }
      assert (Hok : ring_ok b) by (unfold ring_ok; rewrite Ee; repeat split; try lia; discriminate).
      split; [lia|]. split; [lia|]. split; [lia|]. split; [lia|]. split; [exact Hok|].
      split; [reflexivity|]. split; [repeat split|].
      intros bs Hbs. apply (W b (span (rb_size b) (rb_ridx b) (rb_widx b))); auto; try lia; [repeat split].
Qed.

Lemma ring_new size hwm : 0 < size -> ring_ok (bufNew size hwm) /\ queued (bufNew size hwm) = [].
Proof. intros H. split; [unfold ring_ok; cbn; repeat split; lia|reflexivity]. Qed.

Lemma ring_do_spec op b : ring_ok b ->
  exists p g b', ring_do op b = Some (p, g, b') /\ ring_ok b' /\ rb_size b' = rb_size b /\ rb_hwm b' = rb_hwm b /\
    queued b ++ p = g ++ queued b' /\
    match op with Put bs => exists n, p = firstn n bs | Take n => p = [] /\ zlen g <= Z.max 0 n end.
Proof.
  intros H. destruct op as [bs|n]; cbn [ring_do].
  - pose proof (write_span b H) as W. destruct (bufGetWriteSpan b) as [[[a|] len] b'].
    + destruct W as (W1 & W2 & W3 & W4 & W5 & W6 & W7 & W8). destruct W7 as (_ & W7 & _).
      replace ((0 <=? a) && (0 <=? len) && (a + len <=? rb_size b')) with true by lia.
      destruct (W8 (firstn (Z.to_nat len) bs)) as (b'' & E & E1 & E2 & E3 & E4).
      { unfold zlen. rewrite firstn_length. lia. }
      rewrite E. exists (firstn (Z.to_nat len) bs), [], b''.
      split; [reflexivity|]. split; [exact E1|]. split; [exact E3|]. split; [exact E4|].
      split; [symmetry; exact E2|]. eexists. reflexivity.
    + destruct W as (-> & -> & _). exists [], [], b. split; [reflexivity|]. split; [exact H|].
      split; [reflexivity|]. split; [reflexivity|]. split; [apply app_nil_r|]. exists 0%nat. reflexivity.
  - pose proof (read_span b H) as W. destruct (bufGetReadSpan b) as [[a|] len].
    + destruct W as (W1 & W2 & W3 & W4).
      replace ((0 <=? a) && (0 <=? len) && (a + len <=? rb_size b)) with true by lia.
      set (k := Z.min (Z.max 0 n) len). destruct (done_read b k H) as (b'' & E & E1 & E2 & E3 & E4 & E5); [lia|].
      rewrite E. exists [], (slice (rb_mem b) a k), b''. split; [reflexivity|]. split; [exact E1|].
      split; [exact E4|]. split; [exact E5|]. split; [|split; [reflexivity|]].
      * rewrite E2, W4, app_nil_r, firstn_skipn by lia. reflexivity.
      * rewrite slice_zlen by lia. lia.
    + destruct W as (-> & Q). exists [], [], b. split; [reflexivity|]. split; [exact H|].
      split; [reflexivity|]. split; [reflexivity|]. split; [apply app_nil_r|]. split; [reflexivity|]. rewrite zlen_nil. lia.
Qed.

Lemma ring_run_spec : forall ops b, ring_ok b ->
  exists p g b', ring_run ops b = Some (p, g, b') /\ ring_ok b' /\ rb_size b' = rb_size b /\
    queued b ++ p = g ++ queued b' /\ zlen (queued b') <= rb_size b'.
Proof.
  induction ops as [|op ops IH]; intros b H; cbn [ring_run].
  - exists [], [], b. split; [reflexivity|]. split; [exact H|]. split; [reflexivity|]. split; [apply app_nil_r|].
    rewrite queued_zlen by exact H. apply count_range. exact H.
  - destruct (ring_do_spec op b H) as (p & g & b1 & E & H1 & S1 & _ & Q1 & _). rewrite E.
    destruct (IH b1 H1) as (p' & g' & b2 & E2 & H2 & S2 & Q2 & L2). rewrite E2.
    exists (p ++ p'), (g ++ g'), b2. split; [reflexivity|]. split; [exact H2|]. split; [lia|].
    split; [|exact L2].
    rewrite app_assoc, Q1, <- !app_assoc. f_equal. exact Q2.
Qed.
