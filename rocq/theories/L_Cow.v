(** Copy-on-write exports: pages in the diff file over a base that is never
    written. *)
From Verif Require Import Base M_Const M_Disk M_Tree M_Raw L_Wp L_Raw S_Wire S_Disk L_Wire L_Req L_Plain L_Gen.

Lemma wp_and {A} (m : M A) (Q1 Q2 : A -> world -> Prop) (D1 D2 : world -> Prop) w :
  wp m Q1 D1 w -> wp m Q2 D2 w -> wp m (fun a w1 => Q1 a w1 /\ Q2 a w1) (fun w1 => D1 w1 /\ D2 w1) w.
Proof. unfold wp. destruct (m w); auto. Qed.

(** transfers are short or fail, but nobody truncates the files *)
Definition no_eof (orc : nat -> sysres) : Prop := forall n k, orc n = RShort k -> 0 < k.

Definition fields (w w1 : world) : Prop :=
  w_map w1 = w_map w /\ w_mapsz w1 = w_mapsz w /\ w_dlen w1 = w_dlen w /\
  w_dpos w1 = w_dpos w /\ w_orc w1 = w_orc w.
Lemma fields_refl w : fields w w.
Proof. repeat split. Qed.
Lemma fields_trans w1 w2 w3 : fields w1 w2 -> fields w2 w3 -> fields w1 w3.
Proof. unfold fields. intuition congruence. Qed.
Lemma quiet0_fields w w1 : quiet0 w w1 -> fields w w1.
Proof. unfold quiet0, fields. tauto. Qed.

Lemma wp_pwrite_diff off n d w : 0 <= off -> 0 <= n ->
  wp (sys_pwrite FDiff off n d)
     (fun k w1 => k <= n /\ sent w1 = sent w /\ fields w w1 /\ w_exists w1 = w_exists w /\
        ((k <= 0 /\ w_file w1 = w_file w) \/
         (0 < k /\ w_file w1 = upd_file (w_file w) FDiff (fwrite (w_file w FDiff) off k d))))
     (fun _ => False) w.
Proof.
  intros Ho Hn. unfold sys_pwrite. apply wp_bind, wp_pull. set (r := w_orc w (w_tick w)).
  pose proof (moved_le r n Hn) as Hm.
  assert (Hok : wp (if off <? 0 then modify (set_errno EINVAL);;; ret (-1)
        else let k := moved r n in
             if k <=? 0 then ret k
             else f <- get (fun w => w_file w FDiff) ;;
                  modify (set_file FDiff (fwrite f off k d)) ;;;
                  modify (emit (EWrite FDiff off k d)) ;;; ret k)
     (fun k w1 => k <= n /\ sent w1 = sent w /\ fields w w1 /\ w_exists w1 = w_exists w /\
        ((k <= 0 /\ w_file w1 = w_file w) \/
         (0 < k /\ w_file w1 = upd_file (w_file w) FDiff (fwrite (w_file w FDiff) off k d))))
     (fun _ => False) (tick w)).
  { replace (off <? 0) with false by lia. cbv zeta.
    destruct (moved r n <=? 0) eqn:Ek.
    - apply wp_ret. split; [exact Hm|]. split; [reflexivity|]. split; [repeat split|].
      split; [reflexivity|]. left. split; [lia|reflexivity].
    - apply wp_bind, wp_get, wp_bind, wp_modify, wp_bind, wp_modify, wp_ret.
      split; [exact Hm|]. split; [reflexivity|]. split; [repeat split|].
      split; [reflexivity|]. right. split; [lia|reflexivity]. }
  destruct r eqn:Er; try exact Hok.
  apply wp_bind, wp_modify, wp_ret. split; [lia|]. split; [reflexivity|].
  split; [repeat split|]. split; [reflexivity|]. left. split; [lia|reflexivity].
Qed.

Lemma page_part_spec offset len : 0 <= offset < 4096 -> 0 < len < 18446744073709551616 ->
  page_part offset len = Z.min len (4096 - offset).
Proof.
  intros Ho Hl. unfold page_part, DIFFPAGESIZE.
  rewrite (u64_small (4096 - offset)) by (unfold is_u64; lia).
  rewrite (i64_small (4096 - offset)) by lia.
  destruct (0 <? 4096 - offset) eqn:E1, (len <? 4096 - offset) eqn:E2; cbn [andb]; lia.
Qed.

Lemma map_high_spec a len : 0 <= a -> 0 < len -> a + len <= 9223372036854775807 ->
  map_high a len = (a + len - 1) / 4096.
Proof.
  intros. unfold map_high, DIFFPAGESIZE. rewrite u64_small by (unfold is_u64; lia). reflexivity.
Qed.

Definition NP := 4294967295.

Section Cow.
  Variable c : client.
  Variable BInv : world -> Prop.
  Variable bview : world -> Z -> Z.
  Variable dies : Prop.
  Notation bsame := (same BInv bview).

  Hypothesis Hstable : forall w w', w_file w' = w_file w -> w_exists w' = w_exists w ->
    BInv w -> bsame w w'.
  Hypothesis Hdiff : forall w f, BInv w -> bsame w (set_file FDiff f w).
  Hypothesis Hpos : forall a w, 0 <= a < c_size c -> BInv w ->
    wp (get_filepos c a)
       (fun r w1 => bsame w w1 /\ quiet w w1 /\
          exists h o mb, r = Some (h, o, mb) /\ 0 <= o /\ 0 <= mb /\
            (h <> FBad ->
               (forall j, 0 <= j -> (mb = 0 \/ j < mb) ->
                  bview w1 (a + j) = frd (w_file w1 h) (o + j)) /\
               (false = true -> h <> FDiff /\
                  forall k d w2, w_file w2 = w_file w1 -> w_exists w2 = w_exists w1 ->
                    0 < k -> (mb = 0 \/ k <= mb) -> a + k <= c_size c ->
                    let w3 := set_file h (fwrite (w_file w2 h) o k d) w2 in
                    BInv w3 /\
                    forall i, bview w3 i = if (a <=? i) && (i <? a + k) then d (i - a) else bview w1 i)))
       (fun w1 => dies /\ bsame w w1 /\ quiet w w1) w.
  Hypothesis Hfull : forall a len w, 0 <= a -> 0 < len -> a + len <= c_size c -> BInv w ->
    no_eof (w_orc w) -> wp (rawexpread c a len) (fun kd _ => fst kd <> 0) (fun _ => True) w.

  Hypothesis Hsize : 0 <= c_size c <= 9223372036854775807.
  Hypothesis Hcow : cflag c F_COPYONWRITE = true.
  Hypothesis Hwait : cflag c F_WAIT = false.

  (** [pg]: the pages in the diff file, in file order *)
  Definition cow_pages (pg : list Z) (w : world) : Prop :=
    BInv w /\ w_mapsz w = c_size c / 4096 /\
    w_dlen w = zlen pg /\ w_dpos w = 4096 * zlen pg /\ fsize (w_file w FDiff) = 4096 * zlen pg /\
    zlen pg <= w_mapsz w /\ w_mapsz w <= 1048576 /\
    NoDup pg /\ (forall p, In p pg -> 0 <= p < w_mapsz w) /\
    (forall k p, nth_error pg k = Some p -> w_map w p = Z.of_nat k) /\
    (forall p, 0 <= p < w_mapsz w -> ~ In p pg -> w_map w p = NP).
  Definition CInv (w : world) : Prop := exists pg, cow_pages pg w.

  Definition cview (w : world) (i : Z) : Z :=
    if (0 <=? i) && (i <? 4096 * (c_size c / 4096)) then
      if w_map w (i / 4096) =? NP then bview w i
      else frd (w_file w FDiff) (w_map w (i / 4096) * 4096 + i mod 4096)
    else bview w i.

  Notation csame := (same CInv cview).

  Lemma map_cases pg w p : cow_pages pg w -> 0 <= p < w_mapsz w ->
    (w_map w p = NP /\ ~ In p pg) \/
    (exists k, nth_error pg k = Some p /\ w_map w p = Z.of_nat k /\ 0 <= w_map w p < zlen pg).
  Proof.
    intros (HB & Hms & Hdl & Hdp & Hfs & Hle & Hmx & Hnd & Hin & Hmap & Hno) Hp.
    destruct (in_dec Z.eq_dec p pg) as [Hi|Hi].
    - right. destruct (In_nth_error _ _ Hi) as [k Ek]. exists k. split; [exact Ek|].
      rewrite (Hmap _ _ Ek). split; [reflexivity|].
      assert (k < length pg)%nat by (apply nth_error_Some; congruence). unfold zlen. lia.
    - left. auto.
  Qed.

  Lemma cow_stable w w1 : CInv w -> bsame w w1 -> fields w w1 -> w_file w1 FDiff = w_file w FDiff ->
    csame w w1.
  Proof.
    intros [pg (HB & Hms & Hdl & Hdp & Hfs & Hle & Hmx & Hnd & Hin & Hmap & Hno)] [HB1 HV1]
           (F1 & F2 & F3 & F4 & F5) HF.
    split.
    - exists pg. unfold cow_pages. rewrite F1, F2, F3, F4, HF. auto 20.
    - intros i. unfold cview. rewrite F1, HF, HV1. reflexivity.
  Qed.

  Lemma cow_quiet w w1 : CInv w -> bsame w w1 -> quiet0 w w1 -> csame w w1.
  Proof. intros HI HS HQ. apply cow_stable; auto using quiet0_fields. apply HQ. Qed.

  Lemma cow_send w m : CInv w -> csame w (emit (ESend m) w).
  Proof.
    intros HI. apply cow_stable; auto; [|repeat split].
    destruct HI as [pg HP]. apply Hstable; auto. apply HP.
  Qed.

  Lemma cinv_base w : CInv w -> BInv w.
  Proof. intros [pg HP]. apply HP. Qed.

  Lemma waiting_no : waiting c = false.
  Proof. unfold waiting. rewrite Hwait. reflexivity. Qed.

  Lemma wp_readmap p (Q : Z -> world -> Prop) D w : 0 <= p < w_mapsz w -> Q (w_map w p) w ->
    wp (read_map p) Q D w.
  Proof.
    intros Hp HQ. unfold wp, read_map. replace ((0 <=? p) && (p <? w_mapsz w)) with true by lia.
    exact HQ.
  Qed.

  (** ** Filling a page from the base *)
  Lemma wp_fill p offset wrlen pb w : 0 <= p -> 4096 * p + 4096 <= c_size c -> BInv w -> no_eof (w_orc w) ->
    wp (fill_page c (p * DIFFPAGESIZE) offset wrlen pb)
       (fun r w1 => bsame w w1 /\ quiet w w1 /\
          match r with
          | None => True
          | Some pb1 => ~ (offset = 0 /\ wrlen = 4096) ->
                        forall j, 0 <= j < 4096 -> pb1 j = bview w (4096 * p + j)
          end)
       (fun w1 => dies /\ bsame w w1 /\ quiet w w1) w.
  Proof.
    intros Hp Hlim HB Hne. unfold fill_page, DIFFPAGESIZE. rewrite waiting_no.
    destruct (negb (offset =? 0) || negb (wrlen =? 4096)) eqn:E.
    2:{ apply wp_ret. split; [apply same_refl; exact HB|]. split; [apply quiet_refl|]. lia. }
    apply wp_bind.
    eapply wp_mono with
      (Q := fun r w1 => bsame w w1 /\ quiet w w1 /\ (fst r < 0 \/ (forall j, 0 <= j < 4096 -> snd r j = bview w (4096 * p + j))))
      (D := fun w1 => dies /\ bsame w w1 /\ quiet w w1).
    - apply wp_mloop with
        (I := fun s w1 => let '(ps, q, rd, b) := s in
            bsame w w1 /\ quiet w w1 /\ 0 <= rd <= 4096 /\ q = 4096 - rd /\ ps = 4096 * p + q /\
            (forall j, 0 <= j < q -> b j = bview w (4096 * p + j)))
        (m := fun s => let '(_, _, rd, _) := s in rd).
      + intros [[[ps q] rd] b] w1 H. lia.
      + intros [[[ps q] rd] b] w1 (HS & HQ & Hrd & -> & -> & Hb). unfold copyin_body.
        destruct (0 <? rd) eqn:Er.
        * apply wp_bind.
          assert (HB1 : BInv w1) by (eapply same_inv; eauto).
          assert (Hne1 : no_eof (w_orc w1)).
          { destruct HQ as [(_ & _ & _ & _ & _ & Ho & _) _]. rewrite Ho. exact Hne. }
          eapply wp_mono.
          { apply wp_and.
            - eapply wp_rawexpread with (a := 4096 * p + (4096 - rd)) (len := rd) (lim := c_size c) (rw := false);
                try eassumption; lia.
            - apply Hfull; try eassumption; lia. }
          -- intros [k d] w2 [(HS2 & HQ2 & Hk & _ & Hd) Hk0]. cbn [fst snd] in *.
             destruct (0 <? k) eqn:Ek; apply wp_ret.
             ++ split; [|lia]. split; [eapply same_trans; eauto|]. split; [eapply quiet_trans; eauto|].
                split; [lia|]. split; [lia|]. split; [lia|].
                intros j Hj. destruct ((4096 - rd <=? j) && (j <? 4096 - rd + k)) eqn:Ej.
                ** rewrite Hd by lia. destruct HS as [_ HV]. rewrite HV. f_equal; lia.
                ** apply Hb. lia.
             ++ split; [eapply same_trans; eauto|]. split; [eapply quiet_trans; eauto|].
                cbn [fst]. left; lia.
          -- intros w2 [(Hd & HS2 & HQ2) _]. split; [exact Hd|]. split; [eapply same_trans; eauto|eapply quiet_trans; eauto].
        * apply wp_ret. split; [exact HS|]. split; [exact HQ|]. right. cbn [snd]. intros j Hj. apply Hb. lia.
      + split; [apply same_refl; exact HB|]. split; [apply quiet_refl|]. do 3 (split; [lia|]). intros; lia.
      + lia.
    - intros [k pb1] w1 (HS & HQ & Hr). cbn [fst snd] in Hr.
      destruct (k <? 0) eqn:Ek; apply wp_ret; (split; [exact HS|]); (split; [exact HQ|]); [exact I|].
      intros _. destruct Hr; [lia|assumption].
    - auto.
  Qed.

  (** ** Writing *)
  Notation over := L_Raw.over.

  Lemma nodup_bound (l : list Z) n : 0 <= n -> NoDup l -> (forall p, In p l -> 0 <= p < n) -> zlen l <= n.
  Proof.
    intros Hn Hnd Hin. unfold zlen.
    assert (H : (length l <= length (map Z.of_nat (seq 0 (Z.to_nat n))))%nat).
    { apply NoDup_incl_length; [exact Hnd|]. intros p Hp. apply in_map_iff.
      exists (Z.to_nat p). specialize (Hin p Hp). split; [lia|]. apply in_seq. lia. }
    rewrite map_length, seq_length in H. lia.
  Qed.

  (** a write into a page that already is in the diff file *)
  Lemma cow_mapped pg w w1 p offset n d :
    cow_pages pg w -> 0 <= p < w_mapsz w -> w_map w p <> NP -> 0 <= offset -> 0 < n -> offset + n <= 4096 ->
    bsame w w1 -> fields w w1 ->
    w_file w1 FDiff = fwrite (w_file w FDiff) (w_map w p * 4096 + offset) n d ->
    cow_pages pg w1 /\ forall i, cview w1 i = over (cview w) (4096 * p + offset) n d i.
  Proof.
    intros HP Hp Hm Ho Hn Hon [HB1 HV1] (F1 & F2 & F3 & F4 & F5) HF.
    destruct (map_cases pg w p HP Hp) as [[Hc _]|(k & Ek & Hk & Hkr)]; [congruence|].
    pose proof HP as (HB & Hms & Hdl & Hdp & Hfs & Hle & Hmx & Hnd & Hin & Hmap & Hno).
    split.
    - unfold cow_pages. rewrite F1, F2, F3, F4, HF. cbn [fwrite fsize].
      split; [exact HB1|]. split; [exact Hms|]. split; [exact Hdl|]. split; [exact Hdp|].
      split; [rewrite Hfs; lia|]. auto 10.
    - intros i. unfold cview, L_Raw.over. rewrite F1, HF, HV1.
      destruct ((0 <=? i) && (i <? 4096 * (c_size c / 4096))) eqn:Ei.
      2:{ replace ((4096 * p + offset <=? i) && (i <? 4096 * p + offset + n)) with false by lia. reflexivity. }
      assert (Hip : 0 <= i / 4096 < w_mapsz w) by lia.
      pose proof (Z.mod_pos_bound i 4096 ltac:(lia)) as Hmod.
      pose proof (Z.div_mod i 4096 ltac:(lia)) as Hdm.
      destruct (map_cases pg w (i / 4096) HP Hip) as [[Hc Hni]|(k2 & Ek2 & Hk2 & Hkr2)].
      + rewrite Hc. rewrite Z.eqb_refl.
        replace ((4096 * p + offset <=? i) && (i <? 4096 * p + offset + n)) with false; [reflexivity|].
        assert (i / 4096 <> p) by congruence. lia.
      + replace (w_map w (i / 4096) =? NP) with false by (unfold NP; lia).
        rewrite frd_fwrite by lia.
        destruct (Z.eq_dec (i / 4096) p) as [Ep|Ep].
        * rewrite Ep. 
          replace ((w_map w p * 4096 + offset <=? w_map w p * 4096 + i mod 4096) &&
                   (w_map w p * 4096 + i mod 4096 <? w_map w p * 4096 + offset + n))
            with ((4096 * p + offset <=? i) && (i <? 4096 * p + offset + n)) by lia.
          destruct ((4096 * p + offset <=? i) && (i <? 4096 * p + offset + n)); [|reflexivity].
          f_equal. lia.
        * assert (Hkk : k2 <> k) by (intros ->; congruence).
          replace ((4096 * p + offset <=? i) && (i <? 4096 * p + offset + n)) with false by lia.
          replace ((w_map w p * 4096 + offset <=? w_map w (i / 4096) * 4096 + i mod 4096) &&
                   (w_map w (i / 4096) * 4096 + i mod 4096 <? w_map w p * 4096 + offset + n))
            with false by lia.
          reflexivity.
  Qed.

  (** a write into a page that is not in the diff file yet *)
  Lemma cow_unmapped pg w w1 p offset n d pb :
    cow_pages pg w -> 0 <= p < w_mapsz w -> w_map w p = NP -> 0 <= offset -> 0 < n -> offset + n <= 4096 ->
    bsame w w1 ->
    w_map w1 = (fun j => if j =? p then w_dlen w else w_map w j) -> w_mapsz w1 = w_mapsz w ->
    w_dlen w1 = u32 (w_dlen w + 1) -> w_dpos w1 = w_dpos w + 4096 ->
    w_file w1 FDiff = fwrite (w_file w FDiff) (w_dpos w) 4096 pb ->
    (forall j, 0 <= j < 4096 -> pb j = if (offset <=? j) && (j <? offset + n) then d (j - offset)
                                       else bview w (4096 * p + j)) ->
    CInv w1 /\ forall i, cview w1 i = over (cview w) (4096 * p + offset) n d i.
  Proof.
    intros HP Hp Hm Ho Hn Hon [HB1 HV1] F1 F2 F3 F4 HF Hpb.
    pose proof HP as (HB & Hms & Hdl & Hdp & Hfs & Hle & Hmx & Hnd & Hin & Hmap & Hno).
    assert (Hnin : ~ In p pg).
    { destruct (map_cases pg w p HP Hp) as [[_ H]|(k & _ & _ & Hk)]; [exact H|]. unfold NP in *. lia. }
    pose proof (zlen_nonneg pg) as Hz.
    assert (Hnd1 : NoDup (pg ++ [p])).
    { apply NoDup_rev in Hnd. rewrite <- (rev_involutive (pg ++ [p])). apply NoDup_rev.
      rewrite rev_app_distr. cbn. constructor; [|exact Hnd]. rewrite <- in_rev. exact Hnin. }
    assert (Hin1 : forall q, In q (pg ++ [p]) -> 0 <= q < w_mapsz w).
    { intros q Hq. apply in_app_or in Hq. destruct Hq as [Hq|[<-|[]]]; auto. }
    assert (Hz1 : zlen (pg ++ [p]) = zlen pg + 1) by (rewrite zlen_app; reflexivity).
    pose proof (nodup_bound _ (w_mapsz w) ltac:(lia) Hnd1 Hin1) as Hb. rewrite Hz1 in Hb.
    split.
    - exists (pg ++ [p]). unfold cow_pages. rewrite F1, F2, F3, F4, HF, Hz1. cbn [fwrite fsize].
      split; [exact HB1|]. split; [exact Hms|].
      split; [rewrite u32_small by (unfold is_u32; lia); lia|]. split; [lia|].
      split; [rewrite Hfs, Hdp; lia|]. split; [exact Hb|]. split; [exact Hmx|]. split; [exact Hnd1|].
      split; [exact Hin1|]. split.
      + intros k q Ek. destruct (Nat.lt_ge_cases k (length pg)) as [Hk|Hk].
        * rewrite nth_error_app1 in Ek by exact Hk.
          assert (q <> p) by (intros ->; apply Hnin; eapply nth_error_In; eauto).
          replace (q =? p) with false by lia. auto.
        * rewrite nth_error_app2 in Ek by exact Hk.
          destruct (k - length pg)%nat as [|m] eqn:Em; cbn in Ek; [|destruct m; discriminate].
          injection Ek as <-. rewrite Z.eqb_refl, Hdl. unfold zlen. lia.
      + intros q Hq Hni. assert (q <> p) by (intros ->; apply Hni, in_or_app; cbn; auto).
        replace (q =? p) with false by lia. apply Hno; [exact Hq|]. intros H1. apply Hni, in_or_app; auto.
    - intros i. unfold cview, L_Raw.over. rewrite F1, HF, HV1.
      destruct ((0 <=? i) && (i <? 4096 * (c_size c / 4096))) eqn:Ei.
      2:{ replace ((4096 * p + offset <=? i) && (i <? 4096 * p + offset + n)) with false by lia. reflexivity. }
      assert (Hip : 0 <= i / 4096 < w_mapsz w) by lia.
      pose proof (Z.mod_pos_bound i 4096 ltac:(lia)) as Hmod.
      pose proof (Z.div_mod i 4096 ltac:(lia)) as Hdm.
      destruct (Z.eq_dec (i / 4096) p) as [Ep|Ep].
      + rewrite Ep, Z.eqb_refl, Hm, Z.eqb_refl.
        replace (w_dlen w =? NP) with false by (unfold NP; lia).
        rewrite frd_fwrite by lia.
        replace ((w_dpos w <=? w_dlen w * 4096 + i mod 4096) &&
                 (w_dlen w * 4096 + i mod 4096 <? w_dpos w + 4096)) with true by lia.
        rewrite Hpb by lia.
        replace (w_dlen w * 4096 + i mod 4096 - w_dpos w) with (i mod 4096) by lia.
        replace ((offset <=? i mod 4096) && (i mod 4096 <? offset + n))
          with ((4096 * p + offset <=? i) && (i <? 4096 * p + offset + n)) by lia.
        destruct ((4096 * p + offset <=? i) && (i <? 4096 * p + offset + n)); f_equal; lia.
      + replace (i / 4096 =? p) with false by lia.
        replace ((4096 * p + offset <=? i) && (i <? 4096 * p + offset + n)) with false by lia.
        destruct (map_cases pg w (i / 4096) HP Hip) as [[Hc Hni]|(k2 & Ek2 & Hk2 & Hkr2)].
        * rewrite Hc, Z.eqb_refl. reflexivity.
        * replace (w_map w (i / 4096) =? NP) with false by (unfold NP; lia).
          rewrite frd_fwrite by lia.
          replace ((w_dpos w <=? w_map w (i / 4096) * 4096 + i mod 4096) &&
                   (w_map w (i / 4096) * 4096 + i mod 4096 <? w_dpos w + 4096)) with false by lia.
          reflexivity.
  Qed.

  Hypothesis Hsparse : cflag c F_SPARSE = false.

  Definition wpost (w : world) (a len : Z) (d : Z -> Z) (fl : bool) (w1 : world) : Prop :=
    BInv w1 /\ (forall i, bview w1 i = bview w i) /\ sent w1 = sent w /\ w_orc w1 = w_orc w /\
    (forall p, ~ (a / 4096 <= p <= (a + len - 1) / 4096) -> w_map w1 p = w_map w p) /\
    (fl = false -> CInv w1 /\ forall i, cview w1 i = over (cview w) a len d i).

  Lemma over_join f a b n d g h :
    0 <= b -> 0 <= n ->
    (forall i, g i = over f a b d i) ->
    (forall i, h i = over g (a + b) n (fun j => d (b + j)) i) ->
    forall i, h i = over f a (b + n) d i.
  Proof.
    intros Hb Hn Hg Hh i. rewrite Hh. unfold L_Raw.over at 1. rewrite Hg. unfold L_Raw.over.
    destruct ((a + b <=? i) && (i <? a + b + n)) eqn:E1.
    - replace ((a <=? i) && (i <? a + (b + n))) with true by lia. f_equal; lia.
    - destruct ((a <=? i) && (i <? a + b)) eqn:E2, ((a <=? i) && (i <? a + (b + n))) eqn:E3; try reflexivity; lia.
  Qed.

  Lemma wp_expwrite_cow a d len fua w :
    0 <= a -> 0 < len < 18446744073709551616 -> a + len <= 4096 * (c_size c / 4096) -> CInv w -> no_eof (w_orc w) ->
    wp (expwrite c a d len fua) (wpost w a len d)
       (fun w1 => dies /\ sent w1 = sent w /\ w_orc w1 = w_orc w) w.
  Proof.
    intros Ha Hl Hlim HI Hne. unfold expwrite. rewrite Hcow. cbn [negb andb].
    apply wp_bind, wp_get, wp_bind.
    assert (Hc4 : 4096 * (c_size c / 4096) <= c_size c) by lia.
    rewrite map_high_spec by lia. unfold DIFFPAGESIZE.
    set (maph := (a + len - 1) / 4096).
    eapply wp_mono with (Q := wpost w a len d) (D := fun w1 => dies /\ sent w1 = sent w /\ w_orc w1 = w_orc w).
    - apply wp_mloop with
        (I := fun s w1 => let '(mc, a1, b, l, pb) := s in
            CInv w1 /\ (forall i, bview w1 i = bview w i) /\ sent w1 = sent w /\ w_orc w1 = w_orc w /\
            0 <= b <= len /\ a1 = a + b /\ l = len - b /\
            ((forall p, ~ (a / 4096 <= p <= maph) -> w_map w1 p = w_map w p) /\
             forall i, cview w1 i = over (cview w) a b d i) /\
            ((mc = a1 / 4096 /\ b < len) \/ (mc = maph + 1 /\ b = len)))
        (m := fun s => let '(mc, _, _, _, _) := s in maph - mc + 1).
      + intros [[[[mc a1] b] l] pb] w1 (_ & _ & _ & _ & Hb & -> & -> & _ & [[-> Hlt]|[-> ->]]).
        * unfold maph. pose proof (Z.div_le_mono (a + b) (a + len - 1) 4096 ltac:(lia) ltac:(lia)). lia.
        * lia.
      + intros [[[[mc a1] b] l] pb] w1 (HC & HBV & Hse & Hor & Hb & -> & -> & [HMP HV] & Hmc).
        unfold expwrite_body. destruct (mc <=? maph) eqn:Em.
        2:{ apply wp_ret. destruct Hmc as [[-> Hlt]|[-> ->]].
            - exfalso. unfold maph in Em. pose proof (Z.div_le_mono (a + b) (a + len - 1) 4096 ltac:(lia) ltac:(lia)). lia.
            - unfold wpost. split; [apply cinv_base; exact HC|]. auto 10. }
        destruct Hmc as [[Hmc Hlt]|[Hmc _]]; [|lia].
        unfold DIFFPAGESIZE.
        assert (Hmcm : a / 4096 <= mc <= maph).
        { split; [|lia]. rewrite Hmc. apply Z.div_le_mono; lia. }
        pose proof (Z.mod_pos_bound (a + b) 4096 ltac:(lia)) as Hmod.
        pose proof (Z.div_mod (a + b) 4096 ltac:(lia)) as Hdm. rewrite <- Hmc in Hdm.
        set (offset := a + b - mc * 4096).
        assert (Hoff : 0 <= offset < 4096) by (unfold offset; lia).
        rewrite page_part_spec by lia.
        set (n := Z.min (len - b) (4096 - offset)).
        assert (Hn : 0 < n /\ n <= len - b /\ offset + n <= 4096) by (unfold n; lia).
        destruct HC as [pg HP].
        pose proof HP as (HB & Hms & Hdl & Hdp & Hfs & Hle & Hmx & Hnd & Hin & Hmap & Hno).
        assert (Hmcr : 0 <= mc < w_mapsz w1) by lia.
        apply wp_bind, wp_readmap; [exact Hmcr|].
        assert (Hnext : (mc + 1 = (a + b + n) / 4096 /\ b + n < len) \/ (mc + 1 = maph + 1 /\ b + n = len)).
        { destruct (Z_lt_dec (b + n) len).
          - left. split; [|assumption]. apply Z.div_unique with 0; lia.
          - right. split; [|lia]. assert (b + n = len) by lia. f_equal. unfold maph.
            apply Z.div_unique with (offset + n - 1); lia. }
        destruct (map_cases pg w1 mc HP Hmcr) as [[Hnp Hnin]|(k & Ek & Hk & Hkr)].
        * (* not yet in the diff file *)
          rewrite Hnp. change (NP =? NOPAGE) with true. cbn [negb]. rewrite Hsparse.
          apply wp_bind, wp_bind, wp_get, wp_bind, wp_modify, wp_modify.
          set (w2 := set_dlen _ _).
          assert (HS2 : bsame w1 w2) by (apply Hstable; auto).
          assert (HMP2 : forall p, ~ (a / 4096 <= p <= maph) -> w_map w2 p = w_map w p).
          { intros p Hp. cbn [w2 set_dlen set_map w_map]. replace (p =? mc) with false by lia. apply HMP. exact Hp. }
          assert (Hne2 : no_eof (w_orc w2)) by (change (w_orc w2) with (w_orc w1); rewrite Hor; exact Hne).
          apply wp_bind. eapply wp_mono; [apply wp_fill with (p := mc); try lia; [apply HS2|exact Hne2]| |].
          -- intros [pb1|] w3 (HS3 & HQ3 & Hpb).
             2:{ apply wp_ret. unfold wpost. split; [apply HS3|]. split.
                 - intros i. destruct HS3 as [_ ->]. destruct HS2 as [_ ->]. apply HBV.
                 - split; [destruct HQ3 as [_ ->]; exact Hse|].
                   destruct HQ3 as [(Q1 & _ & _ & _ & _ & Q6 & _) _].
                   split; [rewrite Q6; exact Hor|]. split; [|discriminate].
                   rewrite Q1. apply HMP2. }
             apply wp_bind. unfold sys_write_diff. apply wp_bind, wp_get, wp_bind.
             destruct HQ3 as [(Q1 & Q2 & Q3 & Q4 & Q5 & Q6 & Q7) Q8].
             eapply wp_mono; [apply wp_pwrite_diff; [rewrite Q4; cbn [w2 set_dlen set_map w_dpos]; pose proof (zlen_nonneg pg); lia|lia]| |tauto].
             intros k w4 (Hk4 & Hs4 & Hf4 & He4 & Hfi4).
             assert (HS4 : bsame w3 w4).
             { destruct Hfi4 as [[_ E4]|[_ E4]]; [apply Hstable; auto; apply HS3|].
               assert (HD := Hdiff w3 (fwrite (w_file w3 FDiff) (w_dpos w3) k
                  (fun j => if (offset <=? j) && (j <? offset + n) then d (b + (j - offset)) else pb1 j)) (same_inv _ _ _ _ HS3)).
               eapply same_trans; [exact HD|]. apply Hstable; [exact E4|exact He4|apply HD]. }
             assert (HS : bsame w1 w4) by (eapply same_trans; [exact HS2|]; eapply same_trans; eauto).
             assert (Hse5 : sent w4 = sent w) by (rewrite Hs4, Q8; exact Hse).
             assert (Hor5 : w_orc w4 = w_orc w) by (destruct Hf4 as (_ & _ & _ & _ & ->); rewrite Q6; exact Hor).
             assert (HMP4 : forall p, ~ (a / 4096 <= p <= maph) -> w_map w4 p = w_map w p).
             { destruct Hf4 as (-> & _). rewrite Q1. apply HMP2. }
             assert (Hbv5 : forall i, bview w4 i = bview w i) by (intros i; destruct HS as [_ ->]; apply HBV).
             destruct (k <=? 0) eqn:Ek.
             { apply wp_bind, wp_ret, wp_ret. replace (k =? 4096) with false by lia. cbn [negb].
               apply wp_ret. unfold wpost. split; [apply HS|]. split; [exact Hbv5|]. split; [exact Hse5|]. split; [exact Hor5|]. split; [exact HMP4|discriminate]. }
             apply wp_bind, wp_modify, wp_ret.
             set (w5 := set_dpos _ w4).
             assert (HS5 : bsame w1 w5).
             { eapply same_trans; [exact HS|]. apply Hstable; auto. apply HS. }
             destruct (k =? 4096) eqn:Ek2; cbn [negb]; apply wp_ret.
             2:{ unfold wpost. split; [apply HS5|]. split; [intros i; destruct HS5 as [_ ->]; apply HBV|].
                 split; [exact Hse5|]. split; [exact Hor5|]. split; [exact HMP4|discriminate]. }
             split; [|lia].
             destruct Hfi4 as [[Hk0 _]|[_ Hfi4]]; [lia|]. assert (k = 4096) by lia. subst k.
             destruct Hf4 as (G1 & G2 & G3 & G4 & G5).
             destruct (cow_unmapped pg w1 w5 mc offset n (fun j => d (b + j))
               (fun j => if (offset <=? j) && (j <? offset + n) then d (b + (j - offset)) else pb1 j)) as [C5 V5];
               auto; try lia.
             ++ cbn [w5 set_dpos w_map]. rewrite G1, Q1. reflexivity.
             ++ cbn [w5 set_dpos w_mapsz]. rewrite G2, Q2. reflexivity.
             ++ cbn [w5 set_dpos w_dlen]. rewrite G3, Q3. reflexivity.
             ++ cbn [w5 set_dpos w_dpos]. rewrite Q4. reflexivity.
             ++ cbn [w5 set_dpos w_file]. rewrite Hfi4. unfold upd_file.
                destruct (fref_eq_dec FDiff FDiff) as [_|]; [|congruence].
                rewrite Q4, Q7. reflexivity.
             ++ intros j Hj. destruct ((offset <=? j) && (j <? offset + n)) eqn:Ej; [reflexivity|].
                rewrite Hpb by lia. destruct HS2 as [_ ->]. f_equal; lia.
             ++ split; [exact C5|]. split; [intros i; destruct HS5 as [_ ->]; apply HBV|].
                split; [exact Hse5|]. split; [exact Hor5|]. split; [lia|]. split; [lia|].
                split; [rewrite u64_small by (unfold is_u64; lia); lia|]. split; [split; [exact HMP4|]|].
                ** apply over_join with (g := cview w1); [lia|lia|exact HV|].
                   replace (a + b) with (4096 * mc + offset) by (unfold offset; lia). exact V5.
                ** replace (a + b + n) with (a + (b + n)) in * by lia. exact Hnext.
          -- intros w3 (Hd3 & HS3 & HQ3 & Hsn). split; [exact Hd3|].
             destruct HQ3 as (_ & _ & _ & _ & _ & -> & _). split; [rewrite Hsn; exact Hse|exact Hor].
        * (* already in the diff file *)
          replace (w_map w1 mc =? NOPAGE) with false by (unfold NOPAGE; lia). cbn [negb].
          unfold diff_off, DIFFPAGESIZE. rewrite u32_small by (unfold is_u32; lia).
          apply wp_bind. eapply wp_mono; [apply wp_pwrite_diff; lia| |tauto].
          intros k2 w2 (Hk2 & Hs2 & Hf2 & He2 & Hfi2).
          assert (HS2 : bsame w1 w2).
          { destruct Hfi2 as [[_ E4]|[_ E4]]; [apply Hstable; auto|].
            assert (HD := Hdiff w1 (fwrite (w_file w1 FDiff) (w_map w1 mc * 4096 + offset) k2 (fun i => d (b + i))) HB).
            eapply same_trans; [exact HD|]. apply Hstable; [exact E4|exact He2|apply HD]. }
          destruct (k2 =? n) eqn:Ek2; cbn [negb]; apply wp_ret.
          2:{ unfold wpost. split; [apply HS2|]. split; [intros i; destruct HS2 as [_ ->]; apply HBV|].
              split; [congruence|]. destruct Hf2 as (G1 & _ & _ & _ & G5).
              split; [rewrite G5; exact Hor|]. split; [rewrite G1; exact HMP|discriminate]. }
          split; [|lia]. assert (k2 = n) by lia. subst k2.
          destruct Hfi2 as [[Hk0 _]|[_ Hfi2]]; [lia|].
          destruct (cow_mapped pg w1 w2 mc offset n (fun i => d (b + i))) as [C2 V2]; auto; try lia.
          { unfold NP. lia. }
          { rewrite Hfi2. unfold upd_file. destruct (fref_eq_dec FDiff FDiff) as [_|]; [|congruence]. reflexivity. }
          split; [exists pg; exact C2|]. split; [intros i; destruct HS2 as [_ ->]; apply HBV|].
          split; [congruence|]. split; [destruct Hf2 as (_ & _ & _ & _ & ->); exact Hor|].
          split; [lia|]. split; [lia|].
          split; [rewrite u64_small by (unfold is_u64; lia); lia|].
          split; [split; [destruct Hf2 as (-> & _); exact HMP|]|].
          -- apply over_join with (g := cview w1); [lia|lia|exact HV|].
             replace (a + b) with (4096 * mc + offset) by (unfold offset; lia). exact V2.
          -- replace (a + b + n) with (a + (b + n)) in * by lia. exact Hnext.
      + split; [exact HI|]. split; [reflexivity|]. split; [reflexivity|]. split; [reflexivity|].
        split; [lia|]. split; [lia|]. split; [lia|]. split; [split; [reflexivity|]|].
        * intros i. unfold L_Raw.over. replace ((a <=? i) && (i <? a + 0)) with false by lia. reflexivity.
        * left. split; [f_equal; lia|lia].
      + lia.
    - intros fl w1 HW. destruct fl; [apply wp_ret; exact HW|].
      destruct HW as (HB1 & HV1 & Hs1 & Ho1 & HM1 & HC1). destruct (HC1 eq_refl) as [C1 V1].
      apply wp_bind. eapply wp_mono; [apply (wp_sync_after c BInv bview Hstable FDiff fua w1 HB1)| |tauto].
      intros _ w2 (HS2 & [HQ2 Hsn2]). apply wp_ret.
      destruct (cow_quiet w1 w2 C1 HS2 HQ2) as [C2 V2].
      unfold wpost. split; [apply HS2|]. split; [intros i; destruct HS2 as [_ ->]; apply HV1|].
      split; [congruence|]. split; [destruct HQ2 as (_ & _ & _ & _ & _ & -> & _); exact Ho1|].
      split; [destruct HQ2 as (-> & _); exact HM1|].
      intros _. split; [exact C2|]. intros i. rewrite V2. apply V1.
    - auto.
  Qed.

  (** ** Reading *)
  (** A read is served correctly if every page but the last is still only in the
      base, and (structured replies) the last one too unless it is the only
      one. *)
  Definition readable (w : world) (q : wreq) : Prop :=
    0 < q_len q /\ q_from q + q_len q <= 4096 * (c_size c / 4096) /\
    (forall p, q_from q / 4096 <= p < (q_from q + q_len q - 1) / 4096 -> w_map w p = NP) /\
    (c_structured c = true -> (q_from q + q_len q - 1) / 4096 = q_from q / 4096 \/
       w_map w ((q_from q + q_len q - 1) / 4096) = NP).

  Lemma page_in_range pg w p : cow_pages pg w -> 0 <= p -> 4096 * p < 4096 * (c_size c / 4096) ->
    0 <= p < w_mapsz w.
  Proof. intros (_ & -> & _) H1 H2. lia. Qed.

  Lemma cview_base w i : w_map w (i / 4096) = NP -> cview w i = bview w i.
  Proof.
    intros H. unfold cview. rewrite H, Z.eqb_refl.
    destruct ((0 <=? i) && (i <? 4096 * (c_size c / 4096))); reflexivity.
  Qed.

  Lemma cview_diff w p o : 0 <= p < c_size c / 4096 -> 0 <= o < 4096 -> w_map w p <> NP ->
    cview w (4096 * p + o) = frd (w_file w FDiff) (w_map w p * 4096 + o).
  Proof.
    intros Hp Ho Hm. unfold cview.
    replace ((4096 * p + o) / 4096) with p by (apply Z.div_unique with o; lia).
    replace ((4096 * p + o) mod 4096) with o by (apply Z.mod_unique with p; lia).
    replace ((0 <=? 4096 * p + o) && (4096 * p + o <? 4096 * (c_size c / 4096))) with true by lia.
    replace (w_map w p =? NP) with false by lia. reflexivity.
  Qed.

  Lemma tiles_in p ps e : tiles p ps e -> p <= e /\ forall o n, In (o, n) ps -> p <= o /\ 0 < n /\ o + n <= e.
  Proof.
    revert p. induction ps as [|[o n] ps IH]; cbn [tiles]; intros p H.
    - subst. split; [lia|]. intros o n [].
    - destruct H as (-> & Hn & H). destruct (IH _ H) as [H1 H2]. split; [lia|].
      intros o2 n2 [E|Hi]; [injection E as <- <-; lia|]. specialize (H2 _ _ Hi). lia.
  Qed.

  Lemma piece_msg_ext ck from f g ps e0 e :
    tiles e0 ps e -> (forall i, from + e0 <= i < from + e -> f i = g i) ->
    map (piece_msg ck from f) ps = map (piece_msg ck from g) ps.
  Proof.
    intros HT HE. apply map_ext_in. intros [o n] Hi. destruct (tiles_in _ _ _ HT) as [_ H].
    specialize (H _ _ Hi). unfold piece_msg. cbn [fst snd]. f_equal. apply slice_ext.
    intros i Hi2. apply HE. lia.
  Qed.

  Lemma wp_diff_read v offset n w : BInv w -> 0 <= v < 1048576 -> 0 <= offset -> 0 < n ->
    wp (sys_pread FDiff (diff_off v offset) n)
       (fun kd w1 => bsame w w1 /\ quiet w w1 /\ -1 <= fst kd <= n /\
          (0 < fst kd -> forall j, 0 <= j < fst kd -> snd kd j = frd (w_file w FDiff) (v * 4096 + offset + j)))
       (fun _ => False) w.
  Proof.
    intros HB Hv Ho Hn. unfold diff_off, DIFFPAGESIZE. rewrite u32_small by (unfold is_u32; lia).
    eapply wp_mono; [eapply wp_pread with (rw := false); try eassumption; lia| |tauto].
    intros [k d] w1 (HS & HQ & _ & Hk & _ & Hd). cbn [fst snd] in *.
    split; [exact HS|]. split; [exact HQ|]. split; [exact Hk|]. intros H. apply Hd. exact H.
  Qed.

  Lemma wp_expread_buf q g w :
    wreq_ok q -> c_structured c = false -> readable w q -> CInv w ->
    wp (expread (mreq q) c (mkCtx g (q_len q) (q_len q) 0 (q_len q) false false))
       (fun xr w1 => let '(x1, fl) := xr in
          csame w w1 /\ quiet w w1 /\ x_buflen x1 = q_len q /\ x_structured x1 = false /\
          (fl = false -> forall j, 0 <= j < q_len q -> x_buf x1 j = cview w (q_from q + j)))
       (fun w1 => dies /\ csame w w1 /\ quiet w w1) w.
  Proof.
    intros Hq Hst (Hl0 & Hlim & Hpages & _) HI.
    pose proof Hq as (_ & _ & Hf & Hl & _). unfold is_u64, is_u32 in *.
    unfold expread. rewrite Hcow. cbn [negb andb mreq rq_from rq_len x_off].
    assert (Hc4 : 4096 * (c_size c / 4096) <= c_size c) by lia.
    rewrite i64_small by lia. rewrite Z.add_0_l.
    rewrite map_high_spec by lia. unfold DIFFPAGESIZE.
    set (a := q_from q) in *. set (len := q_len q) in *. set (maph := (a + len - 1) / 4096) in *.
    apply wp_mloop with
      (I := fun s w1 => let '(mc, a1, l, x1) := s in
          csame w w1 /\ quiet w w1 /\
          x_buflen x1 = len /\ x_structured x1 = false /\ x_df x1 = false /\ x_alloc x1 = len /\
          exists b, 0 <= b <= len /\ a1 = a + b /\ l = len - b /\
            (forall j, 0 <= j < b -> x_buf x1 j = cview w (a + j)) /\
            ((mc = a1 / 4096 /\ b < len /\ x_off x1 = b) \/ (mc = maph + 1 /\ b = len)))
      (m := fun s => let '(mc, _, _, _) := s in maph - mc + 1).
    - intros [[[mc a1] l] x1] w1 (_ & _ & _ & _ & _ & _ & b & Hb & -> & -> & _ & [(-> & Hlt & _)|(-> & ->)]).
      + unfold maph. pose proof (Z.div_le_mono (a + b) (a + len - 1) 4096 ltac:(lia) ltac:(lia)). lia.
      + lia.
    - intros [[[mc a1] l] x1] w1 (HS & HQ & XB & XS & XD & XA & b & Hb & -> & -> & HV & Hmc).
      unfold expread_body. destruct (mc <=? maph) eqn:Em.
      2:{ apply wp_ret. split; [exact HS|]. split; [exact HQ|]. split; [exact XB|]. split; [exact XS|].
          intros _. destruct Hmc as [(-> & Hlt & _)|(-> & ->)]; [|exact HV].
          exfalso. unfold maph in Em. pose proof (Z.div_le_mono (a + b) (a + len - 1) 4096 ltac:(lia) ltac:(lia)). lia. }
      destruct Hmc as [(Hmc & Hlt & XO)|[Hmc _]]; [|lia].
      unfold DIFFPAGESIZE.
      pose proof (Z.mod_pos_bound (a + b) 4096 ltac:(lia)) as Hmod.
      pose proof (Z.div_mod (a + b) 4096 ltac:(lia)) as Hdm. rewrite <- Hmc in Hdm.
      set (offset := a + b - mc * 4096).
      assert (Hoff : 0 <= offset < 4096) by (unfold offset; lia).
      rewrite page_part_spec by lia.
      set (n := Z.min (len - b) (4096 - offset)).
      assert (Hn : 0 < n /\ n <= len - b /\ offset + n <= 4096) by (unfold n; lia).
      destruct HS as [[pg HP] HSV].
      pose proof HP as (HB & Hms & Hdl & Hdp & Hfs & Hle & Hmx & Hnd & Hin & Hmap & Hno).
      assert (Hmcr : 0 <= mc < w_mapsz w1) by lia.
      apply wp_bind, wp_readmap; [exact Hmcr|].
      assert (Hnext : (mc + 1 = (a + b + n) / 4096 /\ b + n < len) \/ (mc + 1 = maph + 1 /\ b + n = len)).
      { destruct (Z_lt_dec (b + n) len).
        - left. split; [|assumption]. apply Z.div_unique with 0; lia.
        - right. split; [|lia]. assert (b + n = len) by lia. f_equal. unfold maph.
          apply Z.div_unique with (offset + n - 1); lia. }
      assert (Hpage : forall j, 0 <= j < n -> (a + (b + j)) / 4096 = mc).
      { intros j Hj. symmetry. apply Z.div_unique with (offset + j); unfold offset; lia. }
      destruct (map_cases pg w1 mc HP Hmcr) as [[Hnp Hnin]|(k & Ek & Hk & Hkr)].
      + rewrite Hnp. change (NP =? NOPAGE) with true. cbn [negb]. rewrite waiting_no.
        rewrite u32_small by (unfold is_u32; lia). apply wp_bind.
        eapply wp_mono.
        * eapply wp_rawexpread_fully_buf with (lim := c_size c) (rw := false); try eassumption;
            unfold plainbuf; cbn [ctx_set x_structured x_df x_off x_len x_alloc mreq rq_from];
            rewrite ?XS, ?XD, ?XA; try reflexivity; fold a; lia.
        * intros [x2 fl] w2 (HS2 & HQ2 & A2 & B2 & S2 & D2 & F2).
          cbn [ctx_set x_structured x_df x_off x_len x_alloc x_buflen x_buf mreq rq_from] in *.
          assert (HC2 : csame w w2).
          { eapply same_trans; [split; [exists pg; exact HP|exact HSV]|].
            apply cow_quiet; [exists pg; exact HP|exact HS2|apply HQ2]. }
          assert (HQ3 : quiet w w2) by (eapply quiet_trans; eauto).
          destruct fl; apply wp_ret.
          -- split; [exact HC2|]. split; [exact HQ3|]. split; [congruence|]. split; [congruence|discriminate].
          -- split; [|lia]. split; [exact HC2|]. split; [exact HQ3|].
             split; [congruence|]. split; [congruence|]. split; [congruence|]. split; [congruence|].
             destruct (F2 eq_refl) as (_ & XO2 & Hbuf). exists (b + n).
             split; [lia|]. split; [lia|]. split; [rewrite u64_small by (unfold is_u64; lia); lia|].
             split.
             ++ intros j Hj. rewrite Hbuf, XO.
                destruct ((b <=? j) && (j <? b + n)) eqn:Ej.
                ** fold a. rewrite <- (HSV (a + j)). symmetry. apply cview_base.
                   replace (a + j) with (a + (b + (j - b))) by lia. rewrite Hpage by lia. exact Hnp.
                ** apply HV. lia.
             ++ replace (a + b + n) with (a + (b + n)) in * by lia.
                destruct Hnext as [[H1 H2]|[H1 H2]]; [left|right; auto]. split; [exact H1|]. split; [exact H2|].
                rewrite XO2, XO. reflexivity.
        * intros w2 (Hd & HS2 & HQ2). split; [exact Hd|]. split.
          -- eapply same_trans; [split; [exists pg; exact HP|exact HSV]|].
             apply cow_quiet; [exists pg; exact HP|exact HS2|apply HQ2].
          -- eapply quiet_trans; eauto.
      + replace (w_map w1 mc =? NOPAGE) with false by (unfold NOPAGE; lia). cbn [negb].
        unfold find_read_buf. rewrite XS, XD. cbn [negb orb]. apply wp_bind, wp_ret.
        apply wp_bind. eapply wp_mono; [apply wp_diff_read; try lia; exact HB| |tauto].
        intros [k2 d] w2 (HS2 & HQ2 & Hk2 & Hd). cbn [fst snd] in *.
        assert (HC2 : csame w w2).
        { eapply same_trans; [split; [exists pg; exact HP|exact HSV]|].
          apply cow_quiet; [exists pg; exact HP|exact HS2|apply HQ2]. }
        assert (HQ3 : quiet w w2) by (eapply quiet_trans; eauto).
        apply wp_bind. unfold buf_store.
        destruct (k2 <=? 0) eqn:Ek2.
        { apply wp_ret. replace (k2 =? n) with false by lia. cbn [negb]. apply wp_ret.
          split; [exact HC2|]. split; [exact HQ3|]. split; [exact XB|]. split; [first [exact XS|reflexivity]|discriminate]. }
        replace ((0 <=? x_off x1) && (x_off x1 + k2 <=? x_alloc x1)) with true by lia.
        apply wp_ret. destruct (k2 =? n) eqn:Ekn; cbn [negb].
        2:{ apply wp_ret. split; [exact HC2|]. split; [exact HQ3|]. split; [exact XB|]. split; [first [exact XS|reflexivity]|discriminate]. }
        unfold confirm_read. cbn [x_structured x_df]. rewrite XS. cbn [andb]. apply wp_bind, wp_ret, wp_ret.
        split; [|lia]. split; [exact HC2|]. split; [exact HQ3|]. cbn [x_buflen x_structured x_df x_alloc x_buf x_off].
        split; [exact XB|]. split; [congruence|]. split; [congruence|]. split; [exact XA|].
        (* a page of the diff file can only be the last one *)
        assert (Hlast : mc = maph).
        { destruct (Z.eq_dec mc maph); [assumption|exfalso].
          assert (Hmp : w_map w mc = NP).
          { apply Hpages. split; [|lia]. pose proof (Z.div_le_mono a (a + b) 4096 ltac:(lia) ltac:(lia)). lia. }
          destruct HQ as [(Q1 & _) _]. rewrite <- Q1 in Hmp. unfold NP in *. lia. }
        exists (b + n). split; [lia|]. split; [lia|]. split; [rewrite u64_small by (unfold is_u64; lia); lia|].
        split.
        * intros j Hj. rewrite XO. destruct ((b <=? j) && (j <? b + k2)) eqn:Ej.
          -- rewrite Hd by lia. rewrite <- (HSV (a + j)).
             replace (a + j) with (4096 * mc + (offset + (j - b))) by (unfold offset; lia).
             rewrite cview_diff by (unfold NP; lia). f_equal. lia.
          -- apply HV. lia.
        * right. destruct Hnext as [[H1 H2]|[H1 H2]]; [|lia].
          exfalso. subst mc. unfold maph in H1.
          pose proof (Z.div_le_mono (a + b + n) (a + len - 1) 4096 ltac:(lia) ltac:(lia)). lia.
    - split; [apply same_refl; exact HI|]. split; [apply quiet_refl|]. cbn [x_buflen x_structured x_df x_alloc x_off x_buf].
      do 4 (split; [reflexivity|]). exists 0. split; [lia|]. split; [lia|]. split; [lia|].
      split; [intros; lia|]. left. split; [f_equal; lia|]. lia.
    - lia.
  Qed.

  Lemma wp_expread_struct q g w :
    wreq_ok q -> c_structured c = true -> readable w q -> CInv w ->
    wp (expread (mreq q) c (mkCtx g 0 0 0 (q_len q) true false))
       (fun xr w1 => let '(x1, fl) := xr in
          csame w w1 /\ quiet0 w w1 /\ x_structured x1 = true /\ x_df x1 = false /\
          exists ps e, tiles 0 ps e /\ e <= q_len q /\
            sent w1 = sent w ++ map (piece_msg (q_cookie q) (q_from q) (cview w)) ps /\
            (fl = false -> e = q_len q))
       (fun w1 => dies /\ csame w w1 /\ quiet0 w w1 /\ exists msgs, sent w1 = sent w ++ msgs) w.
  Proof.
    intros Hq Hst (Hl0 & Hlim & Hpages & Hlastp) HI. specialize (Hlastp Hst).
    pose proof Hq as (_ & _ & Hf & Hl & _). unfold is_u64, is_u32 in *.
    unfold expread. rewrite Hcow. cbn [negb andb mreq rq_from rq_len x_off].
    assert (Hc4 : 4096 * (c_size c / 4096) <= c_size c) by lia.
    rewrite i64_small by lia. rewrite Z.add_0_l.
    rewrite map_high_spec by lia. unfold DIFFPAGESIZE.
    set (a := q_from q) in *. set (len := q_len q) in *. set (maph := (a + len - 1) / 4096) in *.
    set (PM := map (piece_msg (q_cookie q) a (cview w))).
    apply wp_mloop with
      (I := fun s w1 => let '(mc, a1, l, x1) := s in
          csame w w1 /\ quiet0 w w1 /\ x_structured x1 = true /\ x_df x1 = false /\
          exists ps b, 0 <= b <= len /\ a1 = a + b /\ l = len - b /\
            tiles 0 ps b /\ sent w1 = sent w ++ PM ps /\
            ((mc = a1 / 4096 /\ b < len /\ x_off x1 = b /\ (mc = a / 4096 -> b = 0 /\ x_len x1 = len)) \/ (mc = maph + 1 /\ b = len)))
      (m := fun s => let '(mc, _, _, _) := s in maph - mc + 1).
    - intros [[[mc a1] l] x1] w1 (_ & _ & _ & _ & ps & b & Hb & -> & -> & _ & _ & [(-> & Hlt & _)|(-> & ->)]).
      + unfold maph. pose proof (Z.div_le_mono (a + b) (a + len - 1) 4096 ltac:(lia) ltac:(lia)). lia.
      + lia.
    - intros [[[mc a1] l] x1] w1 (HS & HQ & XS & XD & ps & b & Hb & -> & -> & HT & HM & Hmc).
      unfold expread_body. destruct (mc <=? maph) eqn:Em.
      2:{ apply wp_ret. split; [exact HS|]. split; [exact HQ|]. split; [exact XS|]. split; [exact XD|].
          exists ps, b. split; [exact HT|]. split; [lia|]. split; [exact HM|].
          intros _. destruct Hmc as [(-> & Hlt & _)|(-> & ->)]; [|reflexivity].
          exfalso. unfold maph in Em. pose proof (Z.div_le_mono (a + b) (a + len - 1) 4096 ltac:(lia) ltac:(lia)). lia. }
      destruct Hmc as [(Hmc & Hlt & XO & XL)|[Hmc _]]; [|lia].
      unfold DIFFPAGESIZE.
      pose proof (Z.mod_pos_bound (a + b) 4096 ltac:(lia)) as Hmod.
      pose proof (Z.div_mod (a + b) 4096 ltac:(lia)) as Hdm. rewrite <- Hmc in Hdm.
      set (offset := a + b - mc * 4096).
      assert (Hoff : 0 <= offset < 4096) by (unfold offset; lia).
      rewrite page_part_spec by lia.
      set (n := Z.min (len - b) (4096 - offset)).
      assert (Hn : 0 < n /\ n <= len - b /\ offset + n <= 4096) by (unfold n; lia).
      destruct HS as [[pg HP] HSV].
      pose proof HP as (HB & Hms & Hdl & Hdp & Hfs & Hle & Hmx & Hnd & Hin & Hmap & Hno).
      assert (Hmcr : 0 <= mc < w_mapsz w1) by lia.
      apply wp_bind, wp_readmap; [exact Hmcr|].
      assert (Hnext : (mc + 1 = (a + b + n) / 4096 /\ b + n < len) \/ (mc + 1 = maph + 1 /\ b + n = len)).
      { destruct (Z_lt_dec (b + n) len).
        - left. split; [|assumption]. apply Z.div_unique with 0; lia.
        - right. split; [|lia]. assert (b + n = len) by lia. f_equal. unfold maph.
          apply Z.div_unique with (offset + n - 1); lia. }
      assert (Hpage : forall j, 0 <= j < n -> (a + (b + j)) / 4096 = mc).
      { intros j Hj. symmetry. apply Z.div_unique with (offset + j); unfold offset; lia. }
      destruct (map_cases pg w1 mc HP Hmcr) as [[Hnp Hnin]|(k & Ek & Hk & Hkr)].
      + rewrite Hnp. change (NP =? NOPAGE) with true. cbn [negb]. rewrite waiting_no.
        rewrite u32_small by (unfold is_u32; lia). apply wp_bind.
        assert (HBV : forall i, a + b <= i < a + b + n -> bview w1 i = cview w i).
        { intros i Hi. rewrite <- (HSV i). symmetry. apply cview_base.
          replace i with (a + (b + (i - a - b))) by lia. rewrite Hpage by lia. exact Hnp. }
        eapply wp_mono.
        * eapply wp_rawexpread_fully_struct with (lim := c_size c) (rw := false); try eassumption;
            cbn [ctx_set x_structured x_df x_off x_len x_alloc mreq rq_from];
            rewrite ?XS, ?XD; try reflexivity; fold a; lia.
        * intros [x2 fl] w2 (HS2 & HQ2 & S2 & D2 & ps2 & e2 & T2 & E2 & M2 & F2).
          cbn [ctx_set x_structured x_df x_off x_len x_alloc x_buflen x_buf mreq rq_from rq_cookie] in *.
          fold a in M2. rewrite XO in *.
          assert (HC2 : csame w w2).
          { eapply same_trans; [split; [exists pg; exact HP|exact HSV]|].
            apply cow_quiet; [exists pg; exact HP|exact HS2|exact HQ2]. }
          assert (HQ3 : quiet0 w w2) by (eapply quiet0_trans; eauto).
          assert (HM2 : sent w2 = sent w ++ PM (ps ++ ps2)).
          { rewrite M2, HM, <- app_assoc. unfold PM. rewrite map_app. do 2 f_equal.
            eapply piece_msg_ext; [exact T2|]. intros i Hi. apply HBV. lia. }
          destruct fl; apply wp_ret.
          -- split; [exact HC2|]. split; [exact HQ3|]. split; [exact S2|]. split; [exact D2|].
             exists (ps ++ ps2), e2. split; [eapply tiles_app; eauto|]. split; [lia|].
             split; [exact HM2|discriminate].
          -- destruct (F2 eq_refl) as (He & XL2 & XO2).
             split; [|lia]. split; [exact HC2|]. split; [exact HQ3|]. split; [exact S2|]. split; [exact D2|].
             exists (ps ++ ps2), (b + n). split; [lia|]. split; [lia|].
             split; [rewrite u64_small by (unfold is_u64; lia); lia|].
             split; [rewrite <- He; eapply tiles_app; eauto|]. split; [exact HM2|].
             replace (a + b + n) with (a + (b + n)) in * by lia.
             destruct Hnext as [[H1 H2]|[H1 H2]]; [left|right; auto]. split; [exact H1|]. split; [exact H2|].
             split; [congruence|]. intros Hx. exfalso. pose proof (Z.div_le_mono a (a + b) 4096 ltac:(lia) ltac:(lia)). lia.
        * intros w2 (Hd & HS2 & HQ2 & msgs & Hms2). split; [exact Hd|]. split.
          -- eapply same_trans; [split; [exists pg; exact HP|exact HSV]|].
             apply cow_quiet; [exists pg; exact HP|exact HS2|exact HQ2].
          -- split; [eapply quiet0_trans; eauto|]. exists (PM ps ++ msgs). rewrite Hms2, HM, app_assoc. reflexivity.
      + replace (w_map w1 mc =? NOPAGE) with false by (unfold NOPAGE; lia). cbn [negb].
        assert (Hwm : w_map w mc <> NP).
        { destruct HQ as (Q1 & _). rewrite <- Q1. unfold NP. lia. }
        assert (Hlast : mc = maph).
        { destruct (Z.eq_dec mc maph); [assumption|exfalso]. apply Hwm.
          apply Hpages. split; [|lia]. pose proof (Z.div_le_mono a (a + b) 4096 ltac:(lia) ltac:(lia)). lia. }
        assert (Honly : maph = a / 4096) by (destruct Hlastp; [assumption|congruence]).
        destruct (XL ltac:(congruence)) as [Hb0 XLen].
        assert (Hnl : n = len).
        { destruct Hnext as [[H1 H2]|[H1 H2]]; [|lia].
          exfalso. unfold maph in Hlast.
          pose proof (Z.div_le_mono (a + b + n) (a + len - 1) 4096 ltac:(lia) ltac:(lia)). lia. }
        unfold find_read_buf. rewrite XS, XD. cbn [negb orb]. apply wp_bind, wp_bind, wp_get, wp_ret.
        apply wp_bind. eapply wp_mono; [apply wp_diff_read; try lia; exact HB| |tauto].
        intros [k2 d] w2 (HS2 & HQ2 & Hk2 & Hd). cbn [fst snd] in *.
        assert (HC2 : csame w w2).
        { eapply same_trans; [split; [exists pg; exact HP|exact HSV]|].
          apply cow_quiet; [exists pg; exact HP|exact HS2|apply HQ2]. }
        assert (HQ3 : quiet0 w w2) by (eapply quiet0_trans; [exact HQ|apply HQ2]).
        assert (HM2 : sent w2 = sent w ++ PM ps) by (destruct HQ2 as [_ ->]; exact HM).
        apply wp_bind. unfold buf_store. cbn [x_alloc x_buf x_buflen x_off x_len].
        destruct (k2 <=? 0) eqn:Ek2.
        { apply wp_ret. replace (k2 =? n) with false by lia. cbn [negb]. apply wp_ret.
          split; [exact HC2|]. split; [exact HQ3|]. split; [reflexivity|]. split; [reflexivity|].
          exists ps, b. split; [exact HT|]. split; [lia|]. split; [exact HM2|discriminate]. }
        replace ((0 <=? 0) && (0 + k2 <=? x_len x1)) with true by lia.
        apply wp_ret. destruct (k2 =? n) eqn:Ekn; cbn [negb].
        2:{ apply wp_ret. split; [exact HC2|]. split; [exact HQ3|]. split; [reflexivity|]. split; [reflexivity|].
            exists ps, b. split; [exact HT|]. split; [lia|]. split; [exact HM2|discriminate]. }
        unfold confirm_read. cbn [x_structured x_df x_off x_buf mreq rq_cookie rq_from]. cbn [andb negb].
        apply wp_bind, wp_send, wp_ret.
        split; [|lia]. split; [eapply same_trans; [exact HC2|apply cow_send; apply HC2]|].
        split; [exact HQ3|]. cbn [x_structured x_df x_off x_len].
        split; [reflexivity|]. split; [reflexivity|].
        exists [(0, len)], (b + n). split; [lia|]. split; [lia|].
        split; [rewrite u64_small by (unfold is_u64; lia); lia|]. split.
        { cbn [tiles]. unfold MAX_RW. lia. }
        split.
        { rewrite sent_emit_send, HM2. assert (Hps : ps = []).
          { destruct ps as [|[o1 n1] ps]; [reflexivity|]. exfalso. cbn [tiles] in HT.
            destruct HT as (_ & Hn1 & HT). destruct (tiles_in _ _ _ HT) as [Hle1 _]. lia. }
          rewrite Hps. unfold PM. cbn [map app]. rewrite app_nil_r. f_equal. f_equal.
          unfold piece_msg, data_chunk. cbn [fst snd]. rewrite XO, Hb0, Z.add_0_r.
          fold a. rewrite u64_small by (unfold is_u64; lia).
          rewrite !Z.add_0_r. rewrite slice_zlen by lia. rewrite Hnl. f_equal. apply (f_equal2 (@app Z)); [f_equal; lia|].
          transitivity (slice (fun j => cview w (j + a)) 0 len); [|rewrite slice_shift; f_equal].
          apply slice_ext. intros j Hj. replace ((0 <=? j) && (j <? 0 + k2)) with true by lia.
          rewrite Z.sub_0_r, Hd by lia. rewrite <- (HSV (j + a)).
          replace (j + a) with (4096 * mc + (offset + j)) by (unfold offset; lia).
          rewrite cview_diff by (unfold NP; lia). f_equal. lia. }
        right. lia.
    - split; [apply same_refl; exact HI|]. split; [apply quiet0_refl|]. cbn [x_buflen x_structured x_df x_alloc x_off x_buf x_len].
      do 2 (split; [reflexivity|]). exists [], 0. split; [lia|]. split; [lia|]. split; [lia|].
      split; [reflexivity|]. split; [unfold PM; cbn; rewrite app_nil_r; reflexivity|].
      left. split; [f_equal; lia|]. split; [lia|]. auto.
    - lia.
  Qed.
End Cow.
