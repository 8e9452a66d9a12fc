(** Raw transfers over an arbitrary placement of the export's bytes: the common
    part of plain and tree exports. *)
From Verif Require Import Base M_Const M_Disk M_Tree M_Raw L_Wp.

(** Everything but backing data, oracle position, errno and trace unchanged. *)
Definition quiet0 (w w' : world) : Prop :=
  w_map w' = w_map w /\ w_mapsz w' = w_mapsz w /\ w_dlen w' = w_dlen w /\
  w_dpos w' = w_dpos w /\ w_heap w' = w_heap w /\ w_orc w' = w_orc w /\
  w_file w' FDiff = w_file w FDiff.
Definition quiet (w w' : world) : Prop := quiet0 w w' /\ sent w' = sent w.

Lemma quiet0_refl w : quiet0 w w.
Proof. unfold quiet0; auto 10. Qed.
Lemma quiet0_trans w1 w2 w3 : quiet0 w1 w2 -> quiet0 w2 w3 -> quiet0 w1 w3.
Proof. unfold quiet0; intuition congruence. Qed.
Lemma quiet_refl w : quiet w w.
Proof. split; auto using quiet0_refl. Qed.
Lemma quiet_trans w1 w2 w3 : quiet w1 w2 -> quiet w2 w3 -> quiet w1 w3.
Proof. unfold quiet; intuition (eauto using quiet0_trans || congruence). Qed.
Lemma quiet_tick w : quiet w (tick w).
Proof. split; [unfold quiet0; cbn; auto 10|reflexivity]. Qed.
Lemma quiet_errno e w : quiet w (set_errno e w).
Proof. split; [unfold quiet0; cbn; auto 10|reflexivity]. Qed.
Lemma quiet_sync h w : quiet w (emit (ESync h) w).
Proof. split; [unfold quiet0; cbn; auto 10|reflexivity]. Qed.

(** consecutive non-empty pieces from [p] to [e] *)
Fixpoint tiles (p : Z) (l : list (Z * Z)) (e : Z) : Prop :=
  match l with
  | [] => p = e
  | (o, n) :: t => o = p /\ 0 < n <= MAX_RW /\ tiles (p + n) t e
  end.

Lemma tiles_app p l1 e1 l2 e2 : tiles p l1 e1 -> tiles e1 l2 e2 -> tiles p (l1 ++ l2) e2.
Proof.
  revert p. induction l1 as [|[o n] l1 IH]; cbn [tiles app]; intros p H1 H2.
  - subst; exact H2.
  - intuition.
Qed.

(** the chunk carrying [bytes] of export offset [off] *)
Definition data_chunk (cookie : list Z) (off : Z) (bytes : list Z) : list Z :=
  chunk cookie 0 NBD_REPLY_TYPE_OFFSET_DATA (zlen bytes + 8) (be 8 off ++ bytes).

Section Backend.
  Variable c : client.
  Variable Inv : world -> Prop.
  Variable view : world -> Z -> Z.
  Variable lim : Z.
  Variable rw : bool.
  Variable dies : Prop.

  Definition same (w w' : world) : Prop := Inv w' /\ forall i, view w' i = view w i.

  Hypothesis Hstable : forall w w', w_file w' = w_file w -> w_exists w' = w_exists w ->
    Inv w -> same w w'.

  Hypothesis Hpos : forall a w, 0 <= a < lim -> Inv w ->
    wp (get_filepos c a)
       (fun r w1 => same w w1 /\ quiet w w1 /\
          exists h o mb, r = Some (h, o, mb) /\ 0 <= o /\ 0 <= mb /\
            (h <> FBad ->
               (forall j, 0 <= j -> (mb = 0 \/ j < mb) ->
                  view w1 (a + j) = frd (w_file w1 h) (o + j)) /\
               (rw = true -> h <> FDiff /\
                  forall k d w2, w_file w2 = w_file w1 -> w_exists w2 = w_exists w1 ->
                    0 < k -> (mb = 0 \/ k <= mb) -> a + k <= lim ->
                    let w3 := set_file h (fwrite (w_file w2 h) o k d) w2 in
                    Inv w3 /\
                    forall i, view w3 i = if (a <=? i) && (i <? a + k) then d (i - a) else view w1 i)))
       (fun w1 => dies /\ same w w1 /\ quiet w w1) w.

  Lemma same_refl w : Inv w -> same w w.
  Proof. split; auto. Qed.
  Lemma same_trans w1 w2 w3 : same w1 w2 -> same w2 w3 -> same w1 w3.
  Proof. intros [I2 V2] [I3 V3]; split; auto. intros i; rewrite V3; auto. Qed.
  Lemma same_inv w1 w2 : same w1 w2 -> Inv w2.
  Proof. intros []; auto. Qed.

  Lemma clamp_le mb len : 0 <= mb -> 0 <= len ->
    0 <= clamp mb len <= len /\ (mb = 0 \/ clamp mb len <= mb) /\ (0 < len -> 0 < clamp mb len).
  Proof. unfold clamp. intros. destruct (mb =? 0) eqn:E; cbn [negb andb]; destruct (mb <? len) eqn:F; lia. Qed.

  Lemma wp_pread h off n w :
    0 <= n -> Inv w ->
    wp (sys_pread h off n)
       (fun kd w1 => same w w1 /\ quiet w w1 /\ w_file w1 = w_file w /\
          -1 <= fst kd <= n /\ fst kd <= MAX_RW /\
          (0 < fst kd -> h <> FBad /\ 0 <= off /\
             forall j, 0 <= j < fst kd -> snd kd j = frd (w_file w h) (off + j)))
       (fun _ => False) w.
  Proof.
    intros Hn HI. unfold sys_pread. apply wp_bind, wp_pull.
    set (r := w_orc w (w_tick w)).
    assert (Hst : forall w1, w_file w1 = w_file w -> w_exists w1 = w_exists w ->
              same w w1) by (intros; apply Hstable; auto).
    assert (Hfail : forall e, wp (modify (set_errno e);;; ret (-1, fun _ : Z => 0))
       (fun kd w1 => same w w1 /\ quiet w w1 /\ w_file w1 = w_file w /\
          -1 <= fst kd <= n /\ fst kd <= MAX_RW /\
          (0 < fst kd -> h <> FBad /\ 0 <= off /\
             forall j, 0 <= j < fst kd -> snd kd j = frd (w_file w h) (off + j)))
       (fun _ => False) (tick w)).
    { intros e. apply wp_bind, wp_modify, wp_ret. cbn [fst snd].
      split; [apply Hst; reflexivity|]. split.
      - eapply quiet_trans; [apply quiet_tick|apply quiet_errno].
      - split; [reflexivity|]. split; [unfold MAX_RW; lia|]. split; [unfold MAX_RW; lia|]. lia. }
    assert (Hok : h <> FBad -> (forall e, r <> RErr e) ->
      wp (if off <? 0 then modify (set_errno EINVAL);;; ret (-1, fun _ : Z => 0)
          else f <- get (fun w => w_file w h) ;;
               let avail := Z.max 0 (Z.min n (fsize f - off)) in
               ret (moved r avail, fun i => fdata f (off + i)))
       (fun kd w1 => same w w1 /\ quiet w w1 /\ w_file w1 = w_file w /\
          -1 <= fst kd <= n /\ fst kd <= MAX_RW /\
          (0 < fst kd -> h <> FBad /\ 0 <= off /\
             forall j, 0 <= j < fst kd -> snd kd j = frd (w_file w h) (off + j)))
       (fun _ => False) (tick w)).
    { intros Hh Hr. destruct (off <? 0) eqn:Eo; [apply Hfail|].
      apply wp_bind, wp_get. cbv zeta. apply wp_ret. cbn [fst snd].
      set (f := w_file (tick w) h). assert (Hf : f = w_file w h) by reflexivity.
      split; [apply Hst; reflexivity|]. split; [apply quiet_tick|]. split; [reflexivity|].
      pose proof (moved_le r (Z.max 0 (Z.min n (fsize f - off)))).
      pose proof (moved_ge r (Z.max 0 (Z.min n (fsize f - off)))).
      pose proof (moved_cap r (Z.max 0 (Z.min n (fsize f - off)))).
      split; [lia|]. split; [lia|]. intros Hk. split; [exact Hh|]. split; [lia|].
      intros j Hj. rewrite <- Hf. unfold frd.
      replace ((0 <=? off + j) && (off + j <? fsize f)) with true by lia. reflexivity. }
    destruct h, r eqn:Er; try (apply Hfail); apply Hok; congruence.
  Qed.

  Lemma wp_rawexpread a len w :
    0 <= a -> 0 < len -> a + len <= lim -> Inv w ->
    wp (rawexpread c a len)
       (fun kd w1 => same w w1 /\ quiet w w1 /\ fst kd <= len /\ fst kd <= MAX_RW /\
          (0 < fst kd -> forall j, 0 <= j < fst kd -> snd kd j = view w (a + j)))
       (fun w1 => dies /\ same w w1 /\ quiet w w1) w.
  Proof.
    intros Ha Hl Hlim HI. unfold rawexpread. apply wp_bind.
    eapply wp_mono; [apply Hpos; [lia|exact HI]| |auto].
    intros r w1 (Hs & Hq & h & o & mb & -> & Ho & Hmb & Hh).
    pose proof (clamp_le mb len Hmb ltac:(lia)) as Hc.
    eapply wp_mono; [apply wp_pread; [lia|eapply same_inv; eauto]| |tauto].
    intros [k d] w2 (Hs2 & Hq2 & Hf2 & Hk & Hcap & Hdata). cbn [fst snd] in *.
    split; [eapply same_trans; eauto|]. split; [eapply quiet_trans; eauto|].
    split; [lia|]. split; [lia|]. intros Hkp j Hj.
    destruct (Hdata Hkp) as (Hbad & _ & Hd). rewrite Hd by lia.
    destruct (Hh Hbad) as [Hr _]. rewrite <- Hr by lia.
    destruct Hs as [_ Hv]. apply Hv.
  Qed.

  Lemma wp_sync_after h fua w : Inv w ->
    wp (sync_after c h fua) (fun _ w1 => same w w1 /\ quiet w w1) (fun _ => False) w.
  Proof.
    intros HI.
    assert (Hs : wp (sys_fsync h;;; ret tt) (fun _ w1 => same w w1 /\ quiet w w1) (fun _ => False) w).
    { apply wp_bind. unfold sys_fsync. apply wp_bind, wp_pull.
      assert (H1 : forall e, wp (modify (set_errno e);;; ret (-1))
         (fun _ w' => wp (ret tt) (fun _ w1 => same w w1 /\ quiet w w1) (fun _ => False) w')
         (fun _ => False) (tick w)).
      { intros e. apply wp_bind, wp_modify, wp_ret, wp_ret. split; [apply Hstable; auto|].
        eapply quiet_trans; [apply quiet_tick|apply quiet_errno]. }
      assert (H2 : wp (modify (emit (ESync h));;; ret 0)
         (fun _ w' => wp (ret tt) (fun _ w1 => same w w1 /\ quiet w w1) (fun _ => False) w')
         (fun _ => False) (tick w)).
      { apply wp_bind, wp_modify, wp_ret, wp_ret. split; [apply Hstable; auto|].
        eapply quiet_trans; [apply quiet_tick|apply quiet_sync]. }
      destruct h, (w_orc w (w_tick w)); auto. }
    unfold sync_after. destruct (cflag c F_SYNC); [exact Hs|].
    destruct fua; [exact Hs|]. apply wp_ret. split; [apply same_refl; auto|apply quiet_refl].
  Qed.

  (** contents after [k] bytes of [d] at [a] *)
  Definition over (f : Z -> Z) (a k : Z) (d : Z -> Z) (i : Z) : Z :=
    if (a <=? i) && (i <? a + k) then d (i - a) else f i.

  Lemma quiet_write h f e w : h <> FDiff -> (forall m, e <> ESend m) ->
    quiet w (emit e (set_file h f w)).
  Proof.
    intros Hh He. split.
    - unfold quiet0; cbn. unfold upd_file. destruct (fref_eq_dec FDiff h); [congruence|auto 10].
    - unfold sent. cbn. destruct e; cbn [sends]; try reflexivity. destruct (He m); reflexivity.
  Qed.

  Lemma wp_pwrite h off n d w (P : world -> Prop) :
    0 <= n ->
    (forall w1, w_file w1 = w_file w -> w_exists w1 = w_exists w -> quiet w w1 -> P w1) ->
    wp (sys_pwrite h off n d)
       (fun k w1 => k <= n /\ quiet w w1 /\
           ((k <= 0 /\ w_file w1 = w_file w /\ w_exists w1 = w_exists w) \/
            (0 < k /\ h <> FBad /\
             exists w2, w_file w2 = w_file w /\ w_exists w2 = w_exists w /\
               w1 = emit (EWrite h off k d) (set_file h (fwrite (w_file w2 h) off k d) w2))))
       (fun _ => False) w \/ h = FDiff.
  Proof.
    intros Hn _. destruct (fref_eq_dec h FDiff) as [|Hd]; [right; assumption|left].
    unfold sys_pwrite. apply wp_bind, wp_pull. set (r := w_orc w (w_tick w)).
    set (Q := fun (k : Z) (w1 : world) => _).
    assert (Hfail : forall e, wp (modify (set_errno e);;; ret (-1)) Q (fun _ => False) (tick w)).
    { intros e. apply wp_bind, wp_modify, wp_ret. unfold Q. split; [lia|]. split.
      - eapply quiet_trans; [apply quiet_tick|apply quiet_errno].
      - left. split; [lia|auto]. }
    assert (Hok : h <> FBad ->
      wp (if off <? 0 then modify (set_errno EINVAL);;; ret (-1)
          else let k := moved r n in
               if k <=? 0 then ret k
               else f <- get (fun w => w_file w h) ;;
                    modify (set_file h (fwrite f off k d)) ;;;
                    modify (emit (EWrite h off k d)) ;;; ret k) Q (fun _ => False) (tick w)).
    { intros Hb. destruct (off <? 0); [apply Hfail|]. cbv zeta.
      pose proof (moved_le r n Hn).
      destruct (moved r n <=? 0) eqn:Ek.
      - apply wp_ret. unfold Q. split; [lia|]. split; [apply quiet_tick|]. left. split; [lia|auto].
      - apply wp_bind, wp_get, wp_bind, wp_modify, wp_bind, wp_modify, wp_ret.
        unfold Q. split; [lia|]. split.
        + eapply quiet_trans; [apply quiet_tick|]. apply quiet_write; [exact Hd|congruence].
        + right. split; [lia|]. split; [exact Hb|]. exists (tick w). auto. }
    destruct h, r eqn:Er; try (apply Hfail); try (apply Hok; congruence).
  Qed.

  Lemma wp_rawexpwrite a d len fua w :
    rw = true ->
    0 <= a -> 0 < len -> a + len <= lim -> Inv w ->
    wp (rawexpwrite c a d len fua)
       (fun k w1 => k <= len /\ Inv w1 /\ quiet w w1 /\
          forall i, view w1 i = over (view w) a (Z.max 0 k) d i)
       (fun w1 => dies /\ same w w1 /\ quiet w w1) w.
  Proof.
    intros Hrw Ha Hl Hlim HI. unfold rawexpwrite. apply wp_bind.
    eapply wp_mono; [apply Hpos; [lia|exact HI]| |auto].
    intros r w1 (Hs & Hq & h & o & mb & -> & Ho & Hmb & Hh).
    pose proof (clamp_le mb len Hmb ltac:(lia)) as Hc.
    apply wp_bind.
    assert (Hnd : h <> FDiff).
    { destruct (fref_eq_dec h FBad) as [->|Hb]; [discriminate|]. apply Hh; auto. }
    destruct (wp_pwrite h o (clamp mb len) d w1 (fun _ => True) ltac:(lia)) as [Hw|]; [auto| |contradiction].
    eapply wp_mono; [exact Hw| |tauto].
    intros k w2 (Hk & Hq2 & Hcase).
    assert (H2 : Inv w2 /\ forall i, view w2 i = over (view w1) a (Z.max 0 k) d i).
    { destruct Hcase as [(Hk0 & Hf & He)|(Hk0 & Hb & w2' & Hf & He & Hw2)].
      - destruct (Hstable w1 w2 Hf He (same_inv _ _ Hs)) as [I2 V2]. split; [exact I2|].
        intros i. rewrite V2. unfold over. replace (Z.max 0 k) with 0 by lia.
        destruct ((a <=? i) && (i <? a + 0)) eqn:E; [lia|reflexivity].
      - destruct (Hh Hb) as [_ Hwr]. destruct (Hwr Hrw) as [_ Hwr'].
        destruct (Hwr' k d w2' Hf He Hk0 ltac:(lia) ltac:(lia)) as [I3 V3].
        set (w3 := set_file h (fwrite (w_file w2' h) o k d) w2') in *.
        destruct (Hstable w3 w2) as [I2 V2]; [subst w2; reflexivity|subst w2; reflexivity|exact I3|].
        split; [exact I2|]. intros i. rewrite V2, V3. unfold over.
        replace (Z.max 0 k) with k by lia. reflexivity. }
    destruct H2 as [I2 V2].
    apply wp_bind. eapply wp_mono; [apply wp_sync_after; exact I2| |tauto].
    intros _ w3 [[I3 V3] Hq3]. apply wp_ret.
    split; [lia|]. split; [exact I3|].
    split; [eapply quiet_trans; [exact Hq|eapply quiet_trans; eauto]|].
    intros i. rewrite V3, V2. unfold over. destruct Hs as [_ Hv]. rewrite Hv. reflexivity.
  Qed.

  (** inside the range old or new, outside unchanged *)
  Definition mixed (f g : Z -> Z) (a n : Z) (d : Z -> Z) : Prop :=
    forall i, (a <= i < a + n -> g i = f i \/ g i = d (i - a)) /\
              (~ (a <= i < a + n) -> g i = f i).

  Lemma over_mixed f g a k n d : k <= n -> (forall i, g i = over f a k d i) -> mixed f g a n d.
  Proof.
    intros Hk H i. rewrite H. unfold over.
    split; intros Hi; destruct ((a <=? i) && (i <? a + k)) eqn:E; auto; lia.
  Qed.

  Lemma wp_rawexpwrite_fully a d len fua w :
    rw = true ->
    0 <= a -> 0 <= len -> a + len <= lim -> Inv w ->
    wp (rawexpwrite_fully c a d len fua)
       (fun failed w1 => Inv w1 /\ quiet w w1 /\ mixed (view w) (view w1) a len d /\
          (failed = false -> forall i, view w1 i = over (view w) a len d i))
       (fun w1 => dies /\ Inv w1 /\ quiet w w1 /\ mixed (view w) (view w1) a len d) w.
  Proof.
    intros Hrw Ha Hl Hlim HI. unfold rawexpwrite_fully.
    apply wp_mloop with
      (I := fun s w1 => let '(a1, b, l) := s in
              a1 = a + b /\ l = len - b /\ 0 <= b <= len /\ Inv w1 /\ quiet w w1 /\
              forall i, view w1 i = over (view w) a b d i)
      (m := fun s => snd s).
    - intros [[a1 b] l] w1 H. cbn [snd]. lia.
    - intros [[a1 b] l] w1 (-> & -> & Hb & I1 & Hq1 & V1).
      unfold rawexpwrite_fully_body.
      destruct (0 <? len - b) eqn:E.
      + apply wp_bind. eapply wp_mono.
        * apply wp_rawexpwrite; [exact Hrw|lia|lia|lia|exact I1].
        * intros k w2 (Hk & I2 & Hq2 & V2).
          assert (V2' : forall i, view w2 i = over (view w) a (b + Z.max 0 k) d i).
          { intros i. rewrite V2. unfold over at 1. rewrite V1. unfold over.
            destruct ((a + b <=? i) && (i <? a + b + Z.max 0 k)) eqn:E1;
            destruct ((a <=? i) && (i <? a + b)) eqn:E2;
            destruct ((a <=? i) && (i <? a + (b + Z.max 0 k))) eqn:E3; try lia; try reflexivity.
            f_equal; lia. }
          destruct (0 <? k) eqn:Ek.
          -- apply wp_ret. cbn [snd]. split; [|lia].
             split; [lia|]. split; [lia|]. split; [lia|]. split; [exact I2|].
             split; [eapply quiet_trans; eauto|].
             intros i. rewrite V2'. f_equal; lia.
          -- apply wp_ret. split; [exact I2|]. split; [eapply quiet_trans; eauto|].
             split; [|discriminate].
             eapply over_mixed; [|exact V2']. lia.
        * intros w2 (Hd & [I2 V2] & Hq2). split; [exact Hd|]. split; [exact I2|].
          split; [eapply quiet_trans; eauto|].
          eapply over_mixed with (k := b); [lia|]. intros i. rewrite V2. apply V1.
      + apply wp_ret. assert (b = len) by lia. subst b.
        split; [exact I1|]. split; [exact Hq1|].
        split; [eapply over_mixed; [|exact V1]; lia|]. intros _ i. apply V1.
    - cbn. split; [lia|]. split; [lia|]. split; [lia|]. split; [exact HI|].
      split; [apply quiet_refl|]. intros i. unfold over.
      destruct ((a <=? i) && (i <? a + 0)) eqn:E; [lia|reflexivity].
    - cbn [snd]. lia.
  Qed.

  (** ** Reading *)
  Definition plainbuf (x : readctx) : bool := negb (x_structured x) || x_df x.

  Lemma wp_rawexpread_fully_buf rq x w :
    plainbuf x = true -> x_structured x && negb (x_df x) = false ->
    0 <= rq_from rq -> 0 <= x_off x -> 0 <= x_len x ->
    rq_from rq + x_off x + x_len x <= lim -> lim <= 9223372036854775807 ->
    x_off x + x_len x <= x_alloc x -> Inv w ->
    wp (rawexpread_fully rq c x)
       (fun xr w1 => let '(x1, failed) := xr in
          same w w1 /\ quiet w w1 /\
          x_alloc x1 = x_alloc x /\ x_buflen x1 = x_buflen x /\
          x_structured x1 = x_structured x /\ x_df x1 = x_df x /\
          (failed = false -> x_len x1 = 0 /\ x_off x1 = x_off x + x_len x /\
             forall j, x_buf x1 j = if (x_off x <=? j) && (j <? x_off x + x_len x)
                                    then view w (rq_from rq + j) else x_buf x j))
       (fun w1 => dies /\ same w w1 /\ quiet w w1) w.
  Proof.
    intros Hp Hns Hf Ho Hl Hlim Hmax Hal HI. unfold rawexpread_fully.
    apply wp_mloop with
      (I := fun x1 w1 => same w w1 /\ quiet w w1 /\
          x_alloc x1 = x_alloc x /\ x_buflen x1 = x_buflen x /\
          x_structured x1 = x_structured x /\ x_df x1 = x_df x /\
          0 <= x_len x1 /\ x_off x <= x_off x1 /\
          x_off x1 + x_len x1 = x_off x + x_len x /\
          forall j, x_buf x1 j = if (x_off x <=? j) && (j <? x_off x1)
                                    then view w (rq_from rq + j) else x_buf x j)
      (m := x_len).
    - intros s w1 H. tauto.
    - intros x1 w1 (Hs1 & Hq1 & A1 & B1 & S1 & D1 & L1 & O1 & E1 & V1).
      unfold rawexpread_fully_body. destruct (0 <? x_len x1) eqn:El.
      + apply wp_bind.
        unfold find_read_buf. rewrite S1, D1. unfold plainbuf in Hp. rewrite Hp.
        apply wp_ret. apply wp_bind.
        assert (Hi : i64 (rq_from rq) = rq_from rq) by (apply i64_small; lia). rewrite Hi.
        eapply wp_mono.
        * apply wp_rawexpread; [lia|lia|lia|eapply same_inv; eauto].
        * intros [k d] w2 (Hs2 & Hq2 & Hk & Hcap & Hd). cbn [fst snd] in *.
          destruct (k <=? 0) eqn:Ek.
          -- apply wp_ret. split; [eapply same_trans; eauto|]. split; [eapply quiet_trans; eauto|].
             repeat (split; [assumption|]). discriminate.
          -- apply wp_bind. unfold buf_store. replace (k <=? 0) with false by lia.
             replace ((0 <=? x_off x1) && (x_off x1 + k <=? x_alloc x1)) with true by lia.
             apply wp_ret. apply wp_bind. unfold confirm_read.
             cbn [x_structured x_df]. rewrite S1, D1, Hns. apply wp_ret, wp_ret.
             cbn [x_off x_len ctx_set x_alloc x_buflen x_structured x_df x_buf].
             split; [|lia].
             split; [eapply same_trans; eauto|]. split; [eapply quiet_trans; eauto|].
             repeat (split; [first [assumption|reflexivity|lia]|]).
             intros j. rewrite V1.
             destruct ((x_off x1 <=? j) && (j <? x_off x1 + k)) eqn:Ej.
             ++ replace ((x_off x <=? j) && (j <? x_off x1 + k)) with true by lia.
                rewrite Hd by lia. destruct Hs1 as [_ Hv1]. rewrite Hv1. f_equal; lia.
             ++ destruct ((x_off x <=? j) && (j <? x_off x1)) eqn:E2;
                destruct ((x_off x <=? j) && (j <? x_off x1 + k)) eqn:E3; try lia; reflexivity.
        * intros w2 (Hd & Hs2 & Hq2). split; [exact Hd|]. split; [eapply same_trans; eauto|].
          eapply quiet_trans; eauto.
      + apply wp_ret. split; [exact Hs1|]. split; [exact Hq1|].
        repeat (split; [assumption|]). intros _. split; [lia|]. split; [lia|].
        intros j. rewrite V1. replace (x_off x1) with (x_off x + x_len x) by lia. reflexivity.
    - split; [apply same_refl; exact HI|]. split; [apply quiet_refl|].
      repeat (split; [first [reflexivity|lia]|]).
      intros j. destruct ((x_off x <=? j) && (j <? x_off x)) eqn:E; [lia|reflexivity].
    - lia.
  Qed.

  Definition piece_msg (cookie : list Z) (from : Z) (f : Z -> Z) (p : Z * Z) : list Z :=
    data_chunk cookie (from + fst p) (slice f (from + fst p) (snd p)).

  Lemma wp_rawexpread_fully_struct rq x w :
    x_structured x = true -> x_df x = false ->
    0 <= rq_from rq -> 0 <= x_off x -> 0 <= x_len x ->
    rq_from rq + x_off x + x_len x <= lim -> lim <= 9223372036854775807 -> Inv w ->
    wp (rawexpread_fully rq c x)
       (fun xr w1 => let '(x1, failed) := xr in
          same w w1 /\ quiet0 w w1 /\
          x_structured x1 = true /\ x_df x1 = false /\
          exists ps e, tiles (x_off x) ps e /\ e <= x_off x + x_len x /\
            sent w1 = sent w ++ map (piece_msg (rq_cookie rq) (rq_from rq) (view w)) ps /\
            (failed = false -> e = x_off x + x_len x /\ x_len x1 = 0 /\ x_off x1 = e))
       (fun w1 => dies /\ same w w1 /\ quiet0 w w1 /\ exists msgs, sent w1 = sent w ++ msgs) w.
  Proof.
    intros Hst Hdf Hf Ho Hl Hlim Hmax HI. unfold rawexpread_fully.
    apply wp_mloop with
      (I := fun x1 w1 => same w w1 /\ quiet0 w w1 /\
          x_structured x1 = true /\ x_df x1 = false /\
          0 <= x_len x1 /\ x_off x <= x_off x1 /\
          x_off x1 + x_len x1 = x_off x + x_len x /\
          exists ps, tiles (x_off x) ps (x_off x1) /\
            sent w1 = sent w ++ map (piece_msg (rq_cookie rq) (rq_from rq) (view w)) ps)
      (m := x_len).
    - intros s w1 H. tauto.
    - intros x1 w1 (Hs1 & Hq1 & S1 & D1 & L1 & O1 & E1 & ps & T1 & M1).
      unfold rawexpread_fully_body. destruct (0 <? x_len x1) eqn:El.
      + apply wp_bind.
        unfold find_read_buf. rewrite S1, D1. cbn [negb orb].
        apply wp_bind, wp_get, wp_ret. apply wp_bind.
        assert (Hi : i64 (rq_from rq) = rq_from rq) by (apply i64_small; lia). rewrite Hi.
        eapply wp_mono.
        * apply wp_rawexpread; [lia|lia|lia|eapply same_inv; eauto].
        * intros [k d] w2 (Hs2 & Hq2 & Hk & Hcap & Hd). cbn [fst snd] in *.
          assert (Hq02 : quiet0 w w2) by (eapply quiet0_trans; [exact Hq1|apply Hq2]).
          destruct (k <=? 0) eqn:Ek.
          -- apply wp_ret. cbn [x_structured x_df]. split; [eapply same_trans; eauto|].
             split; [exact Hq02|]. split; [reflexivity|]. split; [reflexivity|].
             exists ps, (x_off x1). split; [exact T1|]. split; [lia|].
             split; [destruct Hq2 as [_ ->]; exact M1|discriminate].
          -- apply wp_bind. unfold buf_store. cbn [x_alloc x_buf x_buflen x_off x_len x_structured x_df].
             replace (k <=? 0) with false by lia.
             replace ((0 <=? 0) && (0 + k <=? x_len x1)) with true by lia.
             apply wp_ret. apply wp_bind. unfold confirm_read.
             cbn [x_structured x_df negb andb x_off x_buf]. apply wp_send, wp_ret.
             cbn [x_off x_len ctx_set x_structured x_df].
             split; [|lia].
             split.
             { eapply same_trans; [exact Hs1|]. eapply same_trans; [exact Hs2|].
               apply Hstable; try reflexivity. eapply same_inv; eauto. }
             split; [eapply quiet0_trans; [exact Hq02|]; unfold quiet0; cbn; auto 10|].
             repeat (split; [first [assumption|reflexivity|lia]|]).
             exists (ps ++ [(x_off x1, k)]). split.
             { eapply tiles_app; [exact T1|]. cbn [tiles]. split; [reflexivity|]. lia. }
             rewrite sent_emit_send. destruct Hq2 as [_ ->]. rewrite M1, map_app, <- app_assoc.
             f_equal. f_equal. cbn [map]. f_equal. unfold piece_msg, data_chunk. cbn [fst snd].
             rewrite slice_zlen by lia. unfold chunk.
             rewrite u64_small by (unfold is_u64; lia).
             do 6 f_equal.
             transitivity (slice (fun j => view w (j + (rq_from rq + x_off x1))) 0 k).
             ++ apply slice_ext. intros j Hj.
                replace ((0 <=? j) && (j <? 0 + k)) with true by lia.
                rewrite Hd by lia. destruct Hs1 as [_ Hv1]. rewrite Hv1. f_equal; lia.
             ++ rewrite slice_shift. f_equal; lia.
        * intros w2 (Hd & Hs2 & Hq2). split; [exact Hd|]. split; [eapply same_trans; eauto|].
          split; [eapply quiet0_trans; [exact Hq1|apply Hq2]|].
          destruct Hq2 as [_ ->]. eauto.
      + apply wp_ret. split; [exact Hs1|]. split; [exact Hq1|].
        repeat (split; [assumption|]). exists ps, (x_off x1). split; [exact T1|]. split; [lia|].
        split; [exact M1|]. intros _. lia.
    - split; [apply same_refl; exact HI|]. split; [apply quiet0_refl|].
      repeat (split; [first [assumption|reflexivity|lia]|]).
      exists []. split; [reflexivity|]. cbn [map]. rewrite app_nil_r. reflexivity.
    - lia.
  Qed.
End Backend.
