(** Copy-on-write exports: which sessions are free of undefined behaviour,
    whatever fails and whatever the files hold. *)
From Verif Require Import Base M_Const M_Disk M_Tree M_Raw M_Setup L_Wp L_Raw S_Wire S_Disk L_Wire L_Req L_Plain L_Session L_Setup L_PlainS L_Gen L_Frame L_Props S_Cow L_Cow L_CowS L_CowP.

Definition kept_map (w w1 : world) : Prop := w_mapsz w1 = w_mapsz w /\ w_map w1 = w_map w.
Lemma kept_refl w : kept_map w w.
Proof. split; reflexivity. Qed.
Lemma kept_trans w1 w2 w3 : kept_map w1 w2 -> kept_map w2 w3 -> kept_map w1 w3.
Proof. unfold kept_map. intuition congruence. Qed.

Lemma pread_any h off n w : 0 <= n ->
  wp (sys_pread h off n) (fun kd w1 => fst kd <= n /\ kept_map w w1) (fun _ => False) w.
Proof.
  intros Hn. unfold sys_pread. apply wp_bind, wp_pull.
  assert (Hok : forall r, wp (if off <? 0 then modify (set_errno EINVAL) ;;; ret (-1, fun _ : Z => 0)
      else f <- get (fun w => w_file w h) ;;
           let avail := Z.max 0 (Z.min n (fsize f - off)) in
           ret (moved r avail, fun i => fdata f (off + i)))
      (fun kd w1 => fst kd <= n /\ kept_map w w1) (fun _ => False) (tick w)).
  { intros r. destruct (off <? 0).
    - apply wp_bind, wp_modify, wp_ret. split; [cbn; lia|split; reflexivity].
    - apply wp_bind, wp_get. cbv zeta. apply wp_ret. split; [|split; reflexivity]. cbn [fst].
      pose proof (moved_le r (Z.max 0 (Z.min n (fsize (w_file (tick w) h) - off))) ltac:(lia)). lia. }
  destruct h, (w_orc w (w_tick w)); try apply Hok;
    apply wp_bind, wp_modify, wp_ret; (split; [cbn; lia|split; reflexivity]).
Qed.

Lemma pwrite_any h off n d w :
  wp (sys_pwrite h off n d) (fun _ w1 => kept_map w w1) (fun _ => False) w.
Proof.
  unfold sys_pwrite. apply wp_bind, wp_pull.
  assert (Hok : forall r, wp (if off <? 0 then modify (set_errno EINVAL) ;;; ret (-1)
      else let k := moved r n in
           if k <=? 0 then ret k
           else f <- get (fun w => w_file w h) ;;
                modify (set_file h (fwrite f off k d)) ;;;
                modify (emit (EWrite h off k d)) ;;; ret k)
      (fun _ w1 => kept_map w w1) (fun _ => False) (tick w)).
  { intros r. destruct (off <? 0); [apply wp_bind, wp_modify, wp_ret; split; reflexivity|].
    cbv zeta. destruct (moved r n <=? 0); [apply wp_ret; split; reflexivity|].
    apply wp_bind, wp_get, wp_bind, wp_modify, wp_bind, wp_modify, wp_ret. split; reflexivity. }
  destruct h, (w_orc w (w_tick w)); try apply Hok; apply wp_bind, wp_modify, wp_ret; split; reflexivity.
Qed.

Lemma fsync_any h w : wp (sys_fsync h) (fun _ w1 => kept_map w w1) (fun _ => False) w.
Proof.
  unfold sys_fsync. apply wp_bind, wp_pull.
  destruct h, (w_orc w (w_tick w)); apply wp_bind, wp_modify, wp_ret; split; reflexivity.
Qed.

Section U.
  Variable c : client.
  Variable f0 : finfo.
  Variable fis : list finfo.
  Hypothesis Ht : cflag c F_TREEFILES = false.
  Hypothesis Hw : cflag c F_WAIT = false.
  Hypothesis Hc : cflag c F_COPYONWRITE = true.
  Hypothesis Hsp : cflag c F_SPLICE = false.
  Hypothesis He : c_export c = Some (f0 :: fis).
  Hypothesis H0 : fi_start f0 <= 0.
  Hypothesis Hsize : 0 <= c_size c <= 9223372036854775807.

  Lemma search_any a w : 0 <= a ->
    wp (mloop (zlen (f0 :: fis) + 1) (search_body (f0 :: fis) a) (0, zlen (f0 :: fis) - 1))
       (fun e w1 => w1 = w /\ 0 <= e < zlen (f0 :: fis)) (fun _ => False) w.
  Proof.
    intros Ha. set (l := f0 :: fis). assert (Hl : 0 < zlen l) by (unfold l, zlen; cbn [length]; lia).
    apply wp_mloop with
      (I := fun se w1 => w1 = w /\ 0 <= fst se <= snd se + 1 /\ 0 <= snd se < zlen l)
      (m := fun se => snd se - fst se + 1).
    - intros [s e] w1 (_ & H1 & H2). cbn [fst snd] in *. lia.
    - intros [s e] w1 (-> & H1 & H2). cbn [fst snd] in *. unfold search_body.
      destruct (s <=? e) eqn:E.
      + assert (Hm : s <= (s + e) / 2 <= e) by (split; [apply Z.div_le_lower_bound; lia|apply Z.div_le_upper_bound; lia]).
        set (mid := (s + e) / 2) in *.
        destruct (nth_error l (Z.to_nat mid)) as [fi|] eqn:En.
        2:{ exfalso. apply nth_error_None in En. unfold zlen in H2. lia. }
        destruct (fi_start fi <? a) eqn:E1; [apply wp_ret; cbn [fst snd]; split; [split; [reflexivity|lia]|lia]|].
        destruct (a <? fi_start fi) eqn:E2.
        * apply wp_ret. cbn [fst snd]. split; [split; [reflexivity|]|lia].
          assert (mid <> 0).
          { intros Z0. rewrite Z0 in En. cbn in En. injection En as <-. lia. }
          lia.
        * apply wp_ret. split; [reflexivity|lia].
      + apply wp_ret. split; [reflexivity|lia].
    - cbn [fst snd]. split; [reflexivity|lia].
    - cbn [fst snd]. lia.
  Qed.

  Lemma filepos_any a w : 0 <= a ->
    wp (get_filepos c a) (fun r w1 => w1 = w /\ exists h o mb, r = Some (h, o, mb) /\ 0 <= mb) (fun _ => False) w.
  Proof.
    intros Ha. unfold get_filepos. replace (a <? 0) with false by lia. rewrite Ht, He.
    apply wp_bind. eapply wp_mono; [apply search_any; exact Ha| |auto].
    intros e w1 (-> & H1). apply wp_bind, wp_assert; [intros _|lia].
    destruct (nth_error (f0 :: fis) (Z.to_nat e)) as [fi|] eqn:En.
    2:{ exfalso. apply nth_error_None in En. unfold zlen in H1. lia. }
    apply wp_ret. split; [reflexivity|]. eexists _, _, _. split; [reflexivity|].
    destruct (nth_error (f0 :: fis) (Z.to_nat (e + 1))); [|lia].
    unfold u64. apply Z.mod_pos_bound. reflexivity.
  Qed.

  Lemma clamp_any mb len : 0 <= mb -> 0 <= len -> 0 <= clamp mb len <= len.
  Proof. intros H1 H2. unfold clamp. destruct (negb (mb =? 0) && (mb <? len)) eqn:E; lia. Qed.

  Lemma rawread_any a len w : 0 <= a -> 0 <= len ->
    wp (rawexpread c a len) (fun kd w1 => fst kd <= len /\ kept_map w w1) (fun _ => False) w.
  Proof.
    intros Ha Hl. unfold rawexpread. apply wp_bind. eapply wp_mono; [apply filepos_any; exact Ha| |auto].
    intros r w1 (-> & h & o & mb & -> & Hmb). pose proof (clamp_any mb len Hmb Hl).
    eapply wp_mono; [apply pread_any; lia| |auto]. intros kd w2 [H1 H2]. split; [lia|exact H2].
  Qed.

  (** a read context as expread and rawexpread_fully need it *)
  Definition roomy (x : readctx) (n : Z) : Prop :=
    x_df x = false /\ 0 <= x_off x /\ (x_structured x = false -> x_off x + n <= x_alloc x).
  Definition like (x x1 : readctx) : Prop :=
    x_df x1 = x_df x /\ x_structured x1 = x_structured x /\ (x_structured x = false -> x_alloc x1 = x_alloc x).

  Lemma find_any x w : x_df x = false ->
    wp (find_read_buf x) (fun xi w1 => w1 = w /\ like x (fst xi) /\ x_off (fst xi) = x_off x /\ x_len (fst xi) = x_len x /\
          (x_structured x = false -> snd xi = x_off x) /\
          (x_structured x = true -> snd xi = 0 /\ x_alloc (fst xi) = x_len x)) (fun _ => False) w.
  Proof.
    intros Hdf. unfold find_read_buf, like. destruct (x_structured x) eqn:Es; rewrite Hdf; cbn [negb orb].
    - apply wp_bind, wp_get, wp_ret. cbn. repeat split; try discriminate; congruence.
    - apply wp_ret. cbn [fst snd]. repeat split; try discriminate; congruence.
  Qed.

  Lemma store_any x i n d w : n <= 0 \/ 0 <= i /\ i + n <= x_alloc x ->
    wp (buf_store x i n d) (fun x1 w1 => w1 = w /\ x_df x1 = x_df x /\ x_structured x1 = x_structured x /\
       x_alloc x1 = x_alloc x /\ x_off x1 = x_off x /\ x_len x1 = x_len x) (fun _ => False) w.
  Proof.
    intros H. unfold buf_store. destruct (n <=? 0) eqn:E; [apply wp_ret; repeat split|].
    replace ((0 <=? i) && (i + n <=? x_alloc x)) with true by lia. apply wp_ret. repeat split.
  Qed.

  Lemma confirm_any rq x n w : wp (confirm_read rq x n) (fun _ w1 => kept_map w w1) (fun _ => False) w.
  Proof.
    unfold confirm_read. destruct (x_structured x && negb (x_df x)); [apply wp_send|apply wp_ret]; split; reflexivity.
  Qed.

  Lemma rawfully_any rq x w : roomy x (x_len x) -> 0 <= x_len x -> 0 <= i64 (rq_from rq) + x_off x ->
    wp (rawexpread_fully rq c x)
       (fun xr w1 => kept_map w w1 /\ like x (fst xr) /\
          (snd xr = false -> x_off (fst xr) = x_off x + x_len x)) (fun _ => False) w.
  Proof.
    intros Hr Hl Hp. unfold rawexpread_fully.
    apply wp_mloop with
      (I := fun y w1 => kept_map w w1 /\ like x y /\ roomy y (x_len y) /\ 0 <= x_len y /\
              x_off x <= x_off y /\ x_off y + x_len y = x_off x + x_len x)
      (m := fun y => x_len y).
    - intros y w1 H. lia.
    - intros y w1 (K & Lk & (R1 & R2 & R3) & Y1 & Y2 & Y3). unfold rawexpread_fully_body.
      destruct (0 <? x_len y) eqn:E.
      + apply wp_bind. eapply wp_mono; [apply find_any; exact R1| |auto].
        intros [y1 i] w2 (-> & Ly & O1 & Ln1 & I1 & I2). cbn [fst snd] in *.
        apply wp_bind. eapply wp_mono; [apply (rawread_any (i64 (rq_from rq) + x_off y) (x_len y)); lia| |auto].
        intros [k d] w2 [Hk K2]. cbn [fst] in Hk.
        assert (Lxy : like x y1).
        { destruct Lk as (A1 & A2 & A3), Ly as (B1 & B2 & B3). split; [congruence|]. split; [congruence|].
          intros Q. rewrite B3 by congruence. auto. }
        destruct (k <=? 0) eqn:Ek.
        * apply wp_ret. cbn [fst snd]. split; [eapply kept_trans; eauto|]. split; [exact Lxy|discriminate].
        * apply wp_bind. eapply wp_mono; [apply store_any| |auto].
          { right. destruct (x_structured y) eqn:Es.
            - destruct (I2 eq_refl) as [-> ->]. lia.
            - rewrite I1 by reflexivity. destruct Ly as (_ & _ & B3). rewrite (B3 Es). specialize (R3 eq_refl). lia. }
          intros y2 w3 (-> & S1 & S2 & S3 & S4 & S5). apply wp_bind.
          eapply wp_mono; [apply confirm_any| |auto]. intros [] w3 K3. apply wp_ret.
          cbn [ctx_set x_off x_len x_df x_structured x_alloc].
          split; [|lia].
          assert (L2 : like x (ctx_set y2 (x_off y + k) (x_len y - k))).
          { destruct Lxy as (A1 & A2 & A3). split; [cbn; congruence|]. split; [cbn; congruence|].
            intros Q. cbn. rewrite S3. auto. }
          split; [eapply kept_trans; [|exact K3]; eapply kept_trans; eauto|].
          split; [exact L2|]. split; [|cbn; lia]. split; [cbn; destruct Ly as (Ly1 & _); congruence|].
          split; [cbn; lia|]. cbn. intros Q. rewrite S3. destruct Ly as (Ly1 & Ly2 & Ly3).
          rewrite Ly3 by congruence. specialize (R3 ltac:(congruence)). lia.
      + apply wp_ret. cbn [fst snd]. split; [exact K|]. split; [exact Lk|]. intros _. lia.
    - split; [apply kept_refl|]. split; [repeat split|]. split; [exact Hr|]. lia.
    - lia.
  Qed.

  Lemma part_any offset len : 0 <= offset < 4096 -> 0 <= len < 4294967296 -> page_part offset len = Z.min len (4096 - offset).
  Proof.
    intros H1 H2. unfold page_part. change DIFFPAGESIZE with 4096.
    rewrite (u64_small (4096 - offset)) by (unfold is_u64; lia). rewrite (i64_small (4096 - offset)) by lia.
    destruct ((0 <? 4096 - offset) && (len <? 4096 - offset)) eqn:E; lia.
  Qed.

  (** position in the range [a0, a0+len0) after the pages before [mapcnt] *)
  Definition walk (a0 len0 maph mapcnt a len : Z) : Prop :=
    0 <= len /\ a + len = a0 + len0 /\ a0 <= a /\
    (mapcnt <= maph -> 4096 * mapcnt <= a < 4096 * mapcnt + 4096).

  Lemma walk_next a0 len0 mapcnt a len : 0 < a0 + len0 ->
    let maph := (a0 + len0 - 1) / 4096 in
    walk a0 len0 maph mapcnt a len -> mapcnt <= maph ->
    let n := Z.min len (4096 - (a - mapcnt * 4096)) in
    0 <= n <= len /\ walk a0 len0 maph (mapcnt + 1) (a + n) (len - n).
  Proof.
    intros Hp maph (W1 & W2 & W3 & W4) Hm n. specialize (W4 Hm).
    assert (Hn : 0 <= n <= len) by lia. split; [exact Hn|].
    split; [lia|]. split; [lia|]. split; [lia|]. intros Hm2.
    assert (4096 * (mapcnt + 1) <= a0 + len0 - 1).
    { pose proof (Z.mul_div_le (a0 + len0 - 1) 4096 ltac:(lia)). fold maph in H. lia. }
    lia.
  Qed.

  Lemma readmap_any i w : 0 <= i < w_mapsz w ->
    wp (read_map i) (fun v w1 => w1 = w /\ v = w_map w i) (fun _ => False) w.
  Proof. intros H. unfold wp, read_map. replace ((0 <=? i) && (i <? w_mapsz w)) with true by lia. auto. Qed.

  (** no byte of the range lies in an incomplete last page, and an empty range
      does not start at 0 *)
  Definition whole (a0 len0 : Z) : Prop := 0 < a0 + len0 /\ a0 + len0 <= 4096 * (c_size c / 4096).

  Lemma high_any a0 len0 : whole a0 len0 -> 0 <= a0 -> 0 <= len0 < 4294967296 ->
    map_high a0 len0 = (a0 + len0 - 1) / 4096 /\ 0 <= (a0 + len0 - 1) / 4096 < c_size c / 4096 /\
    a0 / 4096 <= (a0 + len0 - 1) / 4096 + 1.
  Proof.
    intros [W1 W2] Ha Hl. pose proof (Z.mul_div_le (c_size c) 4096 ltac:(lia)) as Hd. unfold map_high.
    rewrite u64_small by (unfold is_u64; lia). split; [reflexivity|]. split.
    - split; [apply Z.div_pos; lia|]. apply Z.div_lt_upper_bound; lia.
    - pose proof (Z.div_le_mono a0 (a0 + len0 - 1 + 1 * 4096) 4096 ltac:(lia) ltac:(lia)) as H.
      rewrite Z.div_add in H by lia. lia.
  Qed.

  Lemma expread_any q x w :
    wreq_ok q -> whole (q_from q) (q_len q) -> x_off x = 0 -> x_len x = q_len q -> roomy x (q_len q) ->
    w_mapsz w = c_size c / 4096 ->
    (x_structured x = true -> forall p, q_from q / 4096 < p <= (q_from q + q_len q - 1) / 4096 -> w_map w p = NP) ->
    wp (expread (mreq q) c x) (fun _ w1 => kept_map w w1) (fun _ => False) w.
  Proof.
    intros Hq Hwh X0 XL Hr Hm Hst. pose proof Hq as (_ & _ & Hf & Hl & _). unfold is_u64, is_u32 in *.
    pose proof Hwh as [_ W2]. assert (c_size c / 4096 * 4096 <= c_size c) by lia.
    unfold expread. rewrite Hc. cbn [negb andb mreq rq_from rq_len]. rewrite X0, i64_small by lia.
    change (0 + q_from q) with (q_from q). change DIFFPAGESIZE with 4096.
    destruct (high_any (q_from q) (q_len q) Hwh ltac:(lia) ltac:(lia)) as (Hh & Hhr & Hhl). rewrite Hh.
    set (maph := (q_from q + q_len q - 1) / 4096) in *.
    apply wp_mloop with
      (I := fun st w1 => let '(mc, a, len, y) := st in
              kept_map w w1 /\ q_from q / 4096 <= mc <= maph + 1 /\ walk (q_from q) (q_len q) maph mc a len /\
              like x y /\ roomy y len /\ (mc = q_from q / 4096 -> x_len y = q_len q))
      (m := fun st => let '(mc, a, len, y) := st in maph + 1 - mc).
    - intros [[[mc a] len] y] w1 H1. lia.
    - intros [[[mc a] len] y] w1 (K & Hmc & Hwk & Lk & (R1 & R2 & R3) & HL). unfold expread_body.
      destruct (mc <=? maph) eqn:E; [|apply wp_ret; exact K].
      change DIFFPAGESIZE with 4096.
      pose proof Hwk as (V1 & V2 & V3 & V4). specialize (V4 ltac:(lia)).
      rewrite part_any by lia.
      destruct (walk_next (q_from q) (q_len q) mc a len ltac:(apply Hwh) Hwk ltac:(lia)) as [Hn Hwk2].
      set (n := Z.min len (4096 - (a - mc * 4096))) in *.
      rewrite (u64_small (len - n)) by (unfold is_u64; lia).
      destruct K as [K1 K2].
      assert (Hmc0 : 0 <= q_from q / 4096) by (apply Z.div_pos; lia).
      apply wp_bind. eapply wp_mono; [apply readmap_any; rewrite K1, Hm; lia| |auto].
      intros v w2 (-> & ->). rewrite K2.
      destruct (negb (w_map w mc =? NOPAGE)) eqn:Ev.
      + apply wp_bind. eapply wp_mono; [apply find_any; exact R1| |auto].
        intros [y1 i] w2 (-> & Ly & O1 & Ln1 & I1 & I2). cbn [fst snd] in *.
        apply wp_bind. eapply wp_mono; [apply pread_any; lia| |auto]. intros [k d] w2 [Hk K3]. cbn [fst] in Hk.
        apply wp_bind. eapply wp_mono; [apply store_any| |auto].
        { right. destruct (x_structured y) eqn:Es.
          - destruct (I2 eq_refl) as [-> ->].
            assert (Hfirst : mc = q_from q / 4096).
            { destruct (Z.eq_dec mc (q_from q / 4096)) as [Q|Q]; [exact Q|exfalso].
              destruct Lk as (_ & Lk & _). rewrite (Hst ltac:(congruence) mc ltac:(lia)) in Ev. discriminate. }
            rewrite (HL Hfirst). lia.
          - rewrite I1 by reflexivity. destruct Ly as (_ & _ & B3). rewrite (B3 Es). specialize (R3 eq_refl). lia. }
        intros y2 w3 (-> & S1 & S2 & S3 & S4 & S5).
        destruct (negb (k =? n)); [apply wp_ret; split; [destruct K3; congruence|destruct K3; congruence]|].
        apply wp_bind. eapply wp_mono; [apply confirm_any| |auto]. intros [] w3 K4. apply wp_ret.
        split; [|lia]. split; [eapply kept_trans; [split; eassumption|eapply kept_trans; eauto]|].
        split; [lia|]. split; [exact Hwk2|].
        destruct Lk as (A1 & A2 & A3), Ly as (B1 & B2 & B3).
        split; [split; [congruence|split; [congruence|intros Q; rewrite S3, B3 by congruence; auto]]|].
        split; [|intros Q; lia]. split; [congruence|]. split; [lia|].
        intros Q. rewrite S3, B3 by congruence. specialize (R3 ltac:(congruence)). lia.
      + unfold waiting. rewrite Hw. cbn [andb].
        apply wp_bind. rewrite (u32_small n) by (unfold is_u32; lia).
        eapply wp_mono; [apply rawfully_any| |auto].
        * split; [exact R1|]. split; [exact R2|]. cbn. intros Q. specialize (R3 Q). lia.
        * cbn. lia.
        * cbn [mreq rq_from ctx_set x_off]. rewrite i64_small by lia. lia.
        * intros [y2 fl] w2 (K3 & L3 & O3). cbn [fst snd ctx_set x_off x_len] in *.
          destruct fl; apply wp_ret.
          -- eapply kept_trans; [split; eassumption|exact K3].
          -- split; [|lia]. split; [eapply kept_trans; [split; eassumption|exact K3]|].
             split; [lia|]. split; [exact Hwk2|].
             destruct Lk as (A1 & A2 & A3), L3 as (B1 & B2 & B3). cbn in B1, B2, B3.
             split; [split; [congruence|split; [congruence|intros Q; rewrite B3 by congruence; auto]]|].
             split; [|intros Q; lia]. split; [congruence|]. split; [lia|].
             intros Q. rewrite (O3 eq_refl), B3 by congruence. specialize (R3 ltac:(congruence)). lia.
    - split; [apply kept_refl|]. split; [lia|]. split.
      + split; [lia|]. split; [lia|]. split; [lia|]. intros Hle.
        pose proof (Z.div_mod (q_from q) 4096 ltac:(lia)). pose proof (Z.mod_pos_bound (q_from q) 4096 ltac:(lia)). lia.
      + split; [repeat split|]. split; [exact Hr|]. intros _. exact XL.
    - lia.
  Qed.

  (** the map changes at most for the pages of [a0, a0+len0) *)
  Definition only_pages (a0 len0 : Z) (w w1 : world) : Prop :=
    w_mapsz w1 = w_mapsz w /\
    forall p, ~ (a0 / 4096 <= p <= (a0 + len0 - 1) / 4096) -> w_map w1 p = w_map w p.

  Lemma copyin_any a w pb : 0 <= a ->
    wp (mloop (DIFFPAGESIZE + 1) (copyin_body c) (a, 0, DIFFPAGESIZE, pb)) (fun _ w1 => kept_map w w1) (fun _ => False) w.
  Proof.
    intros Ha. apply wp_mloop with
      (I := fun st w1 => let '(s, p, n, b) := st in kept_map w w1 /\ 0 <= s /\ 0 <= n)
      (m := fun st => let '(s, p, n, b) := st in n).
    - intros [[[s p] n] b] w1 H. lia.
    - intros [[[s p] n] b] w1 (K & Hs & Hn). unfold copyin_body.
      destruct (0 <? n) eqn:E; [|apply wp_ret; exact K].
      apply wp_bind. eapply wp_mono; [apply (rawread_any s n); lia| |auto].
      intros [k d] w2 [Hk K2]. cbn [fst] in Hk. destruct (0 <? k) eqn:Ek; apply wp_ret.
      + split; [|lia]. split; [eapply kept_trans; eauto|lia].
      + eapply kept_trans; eauto.
    - split; [apply kept_refl|]. change DIFFPAGESIZE with 4096. lia.
    - change DIFFPAGESIZE with 4096. lia.
  Qed.

  Lemma fill_any a o n pb w : 0 <= a -> wp (fill_page c a o n pb) (fun _ w1 => kept_map w w1) (fun _ => False) w.
  Proof.
    intros Ha. unfold fill_page. destruct (negb (o =? 0) || negb (n =? DIFFPAGESIZE)); [|apply wp_ret, kept_refl].
    unfold waiting. rewrite Hw. cbn [andb]. apply wp_bind. eapply wp_mono; [apply copyin_any; exact Ha| |auto].
    intros [k b] w1 K. destruct (k <? 0); apply wp_ret; exact K.
  Qed.

  Lemma write_diff_any n d w : wp (sys_write_diff n d) (fun _ w1 => kept_map w w1) (fun _ => False) w.
  Proof.
    unfold sys_write_diff. apply wp_bind, wp_get, wp_bind. eapply wp_mono; [apply pwrite_any| |auto].
    intros k w1 K. apply wp_bind. destruct (k <=? 0); [apply wp_ret, wp_ret; exact K|].
    apply wp_modify, wp_ret. exact K.
  Qed.

  Lemma sync_any h fua w : wp (sync_after c h fua) (fun _ w1 => kept_map w w1) (fun _ => False) w.
  Proof.
    unfold sync_after. destruct (cflag c F_SYNC); [|destruct fua; [|apply wp_ret, kept_refl]];
      (apply wp_bind; eapply wp_mono; [apply fsync_any| |auto]; intros r w1 K; apply wp_ret; exact K).
  Qed.

  Lemma expwrite_any a0 len0 d fua w :
    whole a0 len0 -> 0 <= a0 -> 0 <= len0 < 4294967296 -> w_mapsz w = c_size c / 4096 ->
    wp (expwrite c a0 d len0 fua) (fun _ w1 => only_pages a0 len0 w w1) (fun _ => False) w.
  Proof.
    intros Hwh Ha Hl Hm. unfold expwrite. rewrite Hc. cbn [negb andb]. change DIFFPAGESIZE with 4096.
    destruct (high_any a0 len0 Hwh Ha Hl) as (Hh & Hhr & Hhl). rewrite Hh.
    set (maph := (a0 + len0 - 1) / 4096) in *.
    apply wp_bind, wp_get, wp_bind.
    apply wp_mono with (Q := fun (_ : bool) w1 => only_pages a0 len0 w w1) (D := fun _ => False);
      [|intros fl w1 [O1 O2]; destruct fl; [apply wp_ret; split; assumption|];
        apply wp_bind; eapply wp_mono; [apply sync_any| |auto]; intros [] w2 [K1 K2]; apply wp_ret;
        split; [congruence|intros p Hp; rewrite K2; auto]|auto].
    apply wp_mloop with
      (I := fun st w1 => let '(mc, a, b, len, pb) := st in
              only_pages a0 len0 w w1 /\ a0 / 4096 <= mc <= maph + 1 /\ walk a0 len0 maph mc a len)
      (m := fun st => let '(mc, a, b, len, pb) := st in maph + 1 - mc).
    - intros [[[[mc a] b] len] pb] w1 H1. lia.
    - intros [[[[mc a] b] len] pb] w1 ([O1 O2] & Hmc & Hwk). unfold expwrite_body.
      destruct (mc <=? maph) eqn:E; [|apply wp_ret; split; assumption].
      change DIFFPAGESIZE with 4096.
      pose proof Hwk as (V1 & V2 & V3 & V4). specialize (V4 ltac:(lia)).
      pose proof Hwh as [_ W2]. assert (c_size c / 4096 * 4096 <= c_size c) by lia.
      rewrite part_any by lia.
      destruct (walk_next a0 len0 mc a len ltac:(apply Hwh) Hwk ltac:(lia)) as [Hn Hwk2].
      set (n := Z.min len (4096 - (a - mc * 4096))) in *.
      rewrite (u64_small (len - n)) by (unfold is_u64; lia).
      assert (Hmc0 : 0 <= a0 / 4096) by (apply Z.div_pos; lia).
      apply wp_bind. eapply wp_mono; [apply readmap_any; rewrite O1, Hm; lia| |auto].
      intros v w2 (-> & ->).
      destruct (negb (w_map w1 mc =? NOPAGE)).
      + apply wp_bind. eapply wp_mono; [apply pwrite_any| |auto]. intros k w2 [K1 K2].
        assert (O3 : only_pages a0 len0 w w2) by (split; [congruence|intros p Hp; rewrite K2; auto]).
        destruct (negb (k =? n)); apply wp_ret; [exact O3|]. split; [|lia]. split; [exact O3|]. split; [lia|exact Hwk2].
      + apply wp_bind.
        apply wp_mono with (Q := fun (_ : unit) w2 => only_pages a0 len0 w w2) (D := fun _ => False); [| |auto].
        { assert (Hset : forall v w', only_pages a0 len0 w w' -> only_pages a0 len0 w (set_map mc v w')).
          { intros v w' [P1 P2]. split; [exact P1|]. intros p Hp. cbn [set_map w_map].
            replace (p =? mc) with false by (fold maph in Hp; lia). auto. }
          destruct (cflag c F_SPARSE).
          - apply wp_modify. apply Hset. split; assumption.
          - apply wp_bind, wp_get, wp_bind, wp_modify, wp_modify.
            destruct (Hset (w_dlen w1) w1 (conj O1 O2)) as [P1 P2]. split; [exact P1|exact P2]. }
        intros [] w2 [P1 P2]. apply wp_bind. eapply wp_mono; [apply fill_any; lia| |auto].
        intros pb1 w3 [K1 K2]. assert (O3 : only_pages a0 len0 w w3) by (split; [congruence|intros p Hp; rewrite K2; auto]).
        destruct pb1 as [pb1|]; [|apply wp_ret; exact O3].
        apply wp_bind. eapply wp_mono; [apply write_diff_any| |auto]. intros k w4 [K3 K4].
        destruct O3 as [O3 O4].
        assert (O5 : only_pages a0 len0 w w4) by (split; [congruence|intros p Hp; rewrite K4; auto]).
        destruct (negb (k =? 4096)); apply wp_ret; [exact O5|]. split; [|lia]. split; [exact O5|]. split; [lia|exact Hwk2].
    - split; [split; reflexivity|]. split; [lia|]. split; [lia|]. split; [lia|]. split; [lia|].
      intros _. pose proof (Z.div_mod a0 4096 ltac:(lia)). pose proof (Z.mod_pos_bound a0 4096 ltac:(lia)). lia.
    - lia.
  Qed.

  Lemma zeroes_any q fua w : wreq_ok q -> q_from q + q_len q <= 4096 * (c_size c / 4096) -> w_mapsz w = c_size c / 4096 ->
    wp (expwrite_zeroes c (mreq q) fua) (fun _ w1 => only_pages (q_from q) (q_len q) w w1) (fun _ => False) w.
  Proof.
    intros Hq Hr Hm. pose proof Hq as (_ & _ & Hf & Hl & _). unfold is_u64, is_u32 in *.
    assert (c_size c / 4096 * 4096 <= c_size c) by lia.
    unfold expwrite_zeroes. cbn [mreq rq_from rq_len]. rewrite i64_small by lia.
    apply wp_mloop with
      (I := fun n w1 => 0 <= n <= q_len q /\ only_pages (q_from q) (q_len q) w w1) (m := fun n => n).
    - intros n w1 H1. lia.
    - intros n w1 (Hn & O1 & O2). unfold expwrite_zeroes_body.
      destruct (0 <? n) eqn:E; [|apply wp_ret; split; assumption].
      set (l := if ZMAX <? n then ZMAX else n).
      assert (Hl2 : 0 < l <= n) by (unfold l, ZMAX; destruct (67108864 <? n) eqn:?; lia).
      apply wp_bind. eapply wp_mono; [apply (expwrite_any (q_from q) l); [split; lia|lia|lia|congruence]| |auto].
      intros fl w2 [P1 P2].
      assert (O3 : only_pages (q_from q) (q_len q) w w2).
      { split; [congruence|]. intros p Hp. rewrite P2; [auto|].
        pose proof (Z.div_le_mono (q_from q + l - 1) (q_from q + q_len q - 1) 4096 ltac:(lia) ltac:(lia)). lia. }
      destruct fl; apply wp_ret; [exact O3|]. split; [|lia]. split; [lia|exact O3].
    - split; [lia|split; reflexivity].
    - lia.
  Qed.

  Lemma complete_any rq x e msg w : wp (complete_read rq x e msg) (fun _ w1 => kept_map w w1) (fun _ => False) w.
  Proof.
    unfold complete_read. destruct (x_structured x).
    - apply wp_bind. destruct (x_df x && (e =? 0)); [apply wp_send|apply wp_ret];
        (destruct (negb (e =? 0)); apply wp_send; split; reflexivity).
    - apply wp_send. split; reflexivity.
  Qed.

  Lemma read_any q w :
    wreq_ok q -> bad_flags (mreq q) = false -> whole (q_from q) (q_len q) -> w_mapsz w = c_size c / 4096 ->
    (c_structured c = true -> forall p, q_from q / 4096 < p <= (q_from q + q_len q - 1) / 4096 -> w_map w p = NP) ->
    wp (handle_normal_read c (mreq q)) (fun _ w1 => kept_map w w1) (fun _ => False) w.
  Proof.
    intros Hq Hbf Hwh Hm Hst. unfold handle_normal_read.
    assert (Hdf : flag (rq_type (mreq q)) NBD_CMD_FLAG_DF = false).
    { destruct (flag (rq_type (mreq q)) NBD_CMD_FLAG_DF) eqn:E; [|reflexivity]. exfalso.
      revert Hbf E. unfold bad_flags, flag.
      intros H1 H2. apply negb_true_iff, Z.eqb_neq in H2. apply H2.
      apply negb_false_iff, Z.eqb_eq in H1.
      change NBD_CMD_FLAG_DF with (Z.land (4294901760 - NBD_CMD_FLAG_FUA - NBD_CMD_FLAG_NO_HOLE) NBD_CMD_FLAG_DF).
      rewrite Z.land_assoc, H1. reflexivity. }
    rewrite Hdf, andb_false_r. cbn [andb orb]. apply wp_bind, wp_get, wp_bind.
    assert (Hfin : forall x1 (fl : bool) w1, kept_map w w1 ->
       wp (if fl then e <- get w_errno ;; complete_read (mreq q) x1 (nbd_errno e) read_failed
           else complete_read (mreq q) x1 0 []) (fun _ w2 => kept_map w w2) (fun _ => False) w1).
    { intros x1 fl w1 K. destruct fl; [apply wp_bind, wp_get|];
        (eapply wp_mono; [apply complete_any| |auto]; intros [] w2 K2; eapply kept_trans; eauto). }
    eapply wp_mono; [apply expread_any; try assumption| |auto].
    - destruct (c_structured c); reflexivity.
    - destruct (c_structured c); reflexivity.
    - destruct (c_structured c) eqn:Es; cbn [negb orb]; (split; [reflexivity|]; split; [cbn; lia|]); cbn; intros Q; [discriminate|lia].
    - destruct (c_structured c); cbn [negb orb x_structured]; intros Q; [auto|discriminate].
    - intros [x1 fl] w1 K. apply Hfin. exact K.
  Qed.

  Definition map_ok (q : wreq) (w w1 : world) : Prop :=
    w_mapsz w1 = w_mapsz w /\ forall p, ~ writes_page q p -> w_map w1 p = w_map w p.

  Lemma request_any before q p w :
    wreq_ok q -> (q_cmd q = 1 -> p = PBuf (bytefn (q_data q))) ->
    cow_safe (c_size c) (bad_write c) (c_structured c) before q ->
    fresh_pages c before w -> w_mapsz w = c_size c / 4096 ->
    wp (handle_request c (mreq q) p) (fun _ w1 => map_ok q w w1) (fun _ => False) w.
  Proof.
    intros Hq Hp Hs Hfr Hm. pose proof Hq as (Ht' & Hc' & Hf & Hl & Hd).
    destruct (refusal (c_size c) (bad_write c) q) as [e|] eqn:Er.
    { unfold wp. rewrite (refused_request c q p w e Hq Hsize Er). split; reflexivity. }
    destruct (Hs Er) as (S1 & S2 & S3). clear Hs.
    pose proof (bad_flags_spec q Ht') as Hfl. unfold known_flags in Hfl.
    pose proof (bad_range_spec c q Hf Hl Hsize) as Hra. unfold inside in Hra.
    unfold refusal in Er. destruct (4 <=? q_flags q) eqn:Ef; [discriminate|].
    assert (Hbf : bad_flags (mreq q) = false) by (apply Hfl; lia).
    unfold is_u64, is_u32 in *. assert (c_size c / 4096 * 4096 <= c_size c) by lia.
    unfold handle_request. rewrite Hbf.
    change (cmd_of (mreq q)) with (q_cmd q).
    unfold NBD_CMD_READ, NBD_CMD_WRITE, NBD_CMD_FLUSH, NBD_CMD_TRIM, NBD_CMD_WRITE_ZEROES.
    assert (Hk : forall w1, kept_map w w1 -> map_ok q w w1).
    { intros w1 [K1 K2]. split; [exact K1|]. intros; rewrite K2; reflexivity. }
    assert (Ho : forall w1, q_cmd q = 1 \/ q_cmd q = 6 -> only_pages (q_from q) (q_len q) w w1 -> map_ok q w w1).
    { intros w1 Hcm [K1 K2]. split; [exact K1|]. intros pp Hpp. apply K2. intros Hx. apply Hpp. split; assumption. }
    destruct (q_cmd q =? 0) eqn:E0.
    { destruct (c_size c <? q_from q + q_len q) eqn:Eo; [discriminate|].
      replace (bad_range c (mreq q)) with false by (symmetry; apply Hra; lia).
      unfold handle_read. rewrite Hsp. apply wp_bind, wp_ret.
      assert (Hcm : q_cmd q = 0) by lia. specialize (S1 (or_introl Hcm)). specialize (S2 (or_introl Hcm)).
      eapply wp_mono; [apply read_any; auto; [split; lia|]| |auto].
      - intros Q pp Hpp. apply Hfr; [|apply (S3 Hcm Q); exact Hpp].
        assert (0 <= q_from q / 4096) by (apply Z.div_pos; lia).
        assert ((q_from q + q_len q - 1) / 4096 < c_size c / 4096) by (apply Z.div_lt_upper_bound; lia). lia.
      - intros [] w1 K. apply Hk. exact K. }
    destruct (q_cmd q =? 1) eqn:E1.
    { destruct (bad_write c) eqn:Eb; [discriminate|].
      destruct (c_size c <? q_from q + q_len q) eqn:Eo; [discriminate|].
      replace (bad_range c (mreq q)) with false by (symmetry; apply Hra; lia).
      assert (Hcm : q_cmd q = 1) by lia. specialize (S1 (or_intror Hcm)). specialize (S2 (or_intror (or_introl Hcm))).
      rewrite (Hp Hcm). unfold handle_write. apply wp_bind. cbn [mreq rq_from rq_len rq_type rq_cookie].
      rewrite i64_small by lia.
      eapply wp_mono; [apply expwrite_any; try assumption; try lia; split; lia| |auto].
      intros fl w1 O1. apply wp_bind, wp_get, wp_send. apply Ho; [auto|]. exact O1. }
    destruct (q_cmd q =? 3) eqn:E3.
    { unfold handle_flush, expflush. rewrite Hc. apply wp_bind, wp_bind.
      eapply wp_mono; [apply fsync_any| |auto]. intros r w1 K. apply wp_ret, wp_bind, wp_get, wp_send. apply Hk. exact K. }
    destruct (q_cmd q =? 4) eqn:E4.
    { destruct (bad_write c) eqn:Eb; [discriminate|].
      destruct (c_size c <? q_from q + q_len q) eqn:Eo; [discriminate|].
      replace (bad_range c (mreq q)) with false by (symmetry; apply Hra; lia).
      unfold handle_trim. apply wp_bind. unfold exptrim. cbn [mreq rq_from rq_len rq_cookie].
      unfold bad_write in Eb. apply orb_false_iff in Eb. destruct Eb as [Eb1 Eb2]. rewrite Eb1, Hc.
      apply wp_bind, wp_assert; [intros _|discriminate].
      rewrite u64_small by (unfold is_u64; lia).
      apply wp_bind, wp_assert; [intros _|intros Hx; exfalso; lia].
      apply wp_ret, wp_send. apply Hk. split; reflexivity. }
    destruct (q_cmd q =? 6) eqn:E6; [|discriminate].
    destruct (bad_write c) eqn:Eb; [discriminate|].
    destruct (c_size c <? q_from q + q_len q) eqn:Eo; [discriminate|].
    replace (bad_range c (mreq q)) with false by (symmetry; apply Hra; lia).
    assert (Hcm : q_cmd q = 6) by lia. specialize (S2 (or_intror (or_intror Hcm))).
    unfold handle_write_zeroes. apply wp_bind. eapply wp_mono; [apply zeroes_any; auto| |auto].
    intros fl w1 O1. apply wp_bind, wp_get, wp_send. apply Ho; [auto|]. exact O1.
  Qed.

  Theorem execute_any qs : forall before w,
    Forall wreq_ok qs ->
    (forall b q a, qs = b ++ q :: a -> cow_safe (c_size c) (bad_write c) (c_structured c) (before ++ b) q) ->
    fresh_pages c before w -> w_mapsz w = c_size c / 4096 ->
    exists w1, execute c qs w = Ret tt w1.
  Proof.
    induction qs as [|q qs IH]; intros before w Hok Hpr Hfr Hm; [exists w; reflexivity|].
    inversion Hok as [|? ? Hq Hok']; subst.
    pose proof (Hpr [] q qs eq_refl) as Hpq. rewrite app_nil_r in Hpq.
    set (p := if q_cmd q =? 1 then PBuf (bytefn (q_data q)) else PNone).
    assert (Hrec : (if q_cmd q =? 1 then receive_payload c (mreq q) (q_data q) else ret PNone) w = Ret p w).
    { unfold p. destruct (q_cmd q =? 1); [|reflexivity]. unfold receive_payload. rewrite Hsp. reflexivity. }
    assert (Hwp := request_any before q p w Hq ltac:(intros E; unfold p; rewrite E; reflexivity) Hpq Hfr Hm).
    cbn [execute]. unfold bind. rewrite Hrec. unfold wp in Hwp.
    destruct (handle_request c (mreq q) p w) as [[] w1| |w1|] eqn:Eh; try tauto.
    destruct Hwp as [M1 M2]. apply (IH (before ++ [q]) w1 Hok').
    - intros b q' a ->. rewrite <- app_assoc. apply (Hpr (q :: b) q' a). reflexivity.
    - intros pp Hpp Hnw. rewrite M2.
      + apply Hfr; [exact Hpp|]. intros b Hb. apply Hnw. apply in_or_app. auto.
      + apply Hnw. apply in_or_app. right. left. reflexivity.
    - congruence.
  Qed.
End U.

Lemma setup_multi_first ms flags i start fl fi fis rws tot :
  setup_multi flags ms i start = Some (fl, fi :: fis, rws, tot) -> fi_start fi = start.
Proof.
  destruct ms as [|m ms]; cbn; [discriminate|].
  destruct (open_member flags false m) as [[fl1 rw]|]; [|discriminate].
  destruct (off_add start (i64 (mb_size m))) as [nx|]; [|discriminate].
  destruct (setup_multi fl1 ms (S i) nx) as [[[[a b] d] e]|]; [|discriminate].
  intros E; injection E as <- <- <- <- <-; reflexivity.
Qed.

Lemma setup_first flags expected ms s : flag flags F_TREEFILES = false -> flag flags F_WAIT = false ->
  setupexport flags expected ms = SetupOk s ->
  exists f0 fis, su_export s = Some (f0 :: fis) /\ fi_start f0 <= 0.
Proof.
  intros Ht Hw. unfold setupexport. rewrite ?Ht, ?Hw.
  destruct (flag flags F_MULTIFILE).
  - destruct (setup_multi flags ms 0 0) as [[[[fl fis] rws] tot]|] eqn:E; [|discriminate].
    destruct fis as [|f0 fis]; [discriminate|]. apply setup_multi_first in E.
    destruct (setup_size expected tot); [|discriminate]. intros Q; injection Q as <-.
    exists f0, fis. split; [reflexivity|lia].
  - destruct (open_single flags expected ms) as [[[fl rw] sz]|]; [|discriminate].
    destruct ((sz =? 0) && negb (expected =? 0)).
    + destruct rw; [|discriminate]. intros Q; injection Q as <-. eexists _, []. split; [reflexivity|cbn; lia].
    + destruct (setup_size expected (i64 sz)); [|discriminate]. intros Q; injection Q as <-.
      eexists _, []. split; [reflexivity|cbn; lia].
Qed.

Lemma cow_no_ub flags expected ms s w namelen structured tls qs tail e w1 :
  setupexport flags expected ms = SetupOk s -> 0 <= su_size s < 9223372036854775808 ->
  flag flags F_TREEFILES = false -> flag flags F_WAIT = false -> flag flags F_COPYONWRITE = true ->
  flag flags F_SPLICE = false ->
  let c := client_of s namelen structured tls in
  copyonwrite_prepare c w = Ret true w1 ->
  Forall wreq_ok qs -> Forall (fun q => q_type q <> 2) qs -> stops tail e ->
  cow_safe_all (su_size s) (bad_write c) structured qs ->
  exists w2, run c (concat (map encode qs) ++ tail) w1 = Ret (model_end e) w2.
Proof.
  intros Hset Hsz Ft Fw Fc Fp c Hprep Hq Hnd Hstop Hsafe.
  destruct (setup_first flags expected ms s Ft Fw Hset) as (f0 & fis & He & H0).
  assert (Cf : forall f, flag F_AUTOREADONLY f = false -> flag F_READONLY f = false -> cflag c f = flag flags f).
  { intros f F1 F2. unfold cflag, c, client_of. cbn [c_flags]. apply (setup_flags flags expected ms s); auto. }
  assert (Hsize : 0 <= c_size c <= 9223372036854775807) by (cbn; lia).
  pose proof (wp_prepare c w ltac:(lia)) as Hp. unfold wp in Hp. rewrite Hprep in Hp.
  destruct Hp as (_ & _ & _ & Hm1). destruct (Hm1 eq_refl) as (M1 & _ & _ & _ & M5).
  destruct (execute_any c f0 fis ltac:(rewrite Cf by reflexivity; exact Ft) ltac:(rewrite Cf by reflexivity; exact Fw)
    ltac:(rewrite Cf by reflexivity; exact Fc) ltac:(rewrite Cf by reflexivity; exact Fp) He H0 Hsize qs [] w1 Hq Hsafe)
    as [w2 E2]; [intros p _ _; apply M5|exact M1|].
  exists w2. rewrite (run_execute c qs tail e) by auto. unfold bind. rewrite E2. reflexivity.
Qed.
