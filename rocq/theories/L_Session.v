(** Whole sessions: the request stream, answer by answer. *)
From Verif Require Import Base M_Const M_Disk M_Tree M_Raw L_Wp L_Raw S_Wire S_Disk L_Wire L_Req.

Lemma header_length q : length (q_cookie q) = 8%nat -> length (header q) = 28%nat.
Proof. intros H. unfold header. rewrite !app_length, !be_length, H. reflexivity. Qed.

Lemma encode_header q : encode q = header q ++ q_data q.
Proof. unfold encode, header. rewrite <- !app_assoc. reflexivity. Qed.

Lemma firstn_pre {A} n (a b : list A) : length a = n -> firstn n (a ++ b) = a.
Proof. intros <-. rewrite firstn_app, firstn_all, Nat.sub_diag, firstn_O, app_nil_r. reflexivity. Qed.
Lemma skipn_pre {A} n (a b : list A) : length a = n -> skipn n (a ++ b) = b.
Proof. intros <-. rewrite skipn_app, skipn_all, Nat.sub_diag, skipn_O. reflexivity. Qed.

Lemma skipn_plus {A} a b (l : list A) : skipn (a + b) l = skipn b (skipn a l).
Proof.
  revert l; induction a as [|a IH]; intros l; [reflexivity|].
  destruct l as [|x l]; cbn [Nat.add skipn]; [rewrite skipn_nil; reflexivity|apply IH].
Qed.
Lemma skipn_pre2 {A} n m (a b r : list A) : length a = n -> length b = m -> skipn (n + m) (a ++ b ++ r) = r.
Proof. intros H1 H2. rewrite skipn_plus, (skipn_pre n), (skipn_pre m); auto. Qed.

Lemma decode_header q s :
  is_u32 (q_type q) -> length (q_cookie q) = 8%nat -> is_u64 (q_from q) -> is_u32 (q_len q) ->
  decode_request (firstn 28 (header q ++ s)) = (NBD_REQUEST_MAGIC, mreq q) /\
  skipn 28 (header q ++ s) = s /\ (length (header q ++ s) <? 28)%nat = false.
Proof.
  intros Ht Hc Hf Hl. rewrite firstn_pre by (apply header_length; exact Hc).
  rewrite skipn_pre by (apply header_length; exact Hc).
  split; [|split; [reflexivity|]].
  2:{ rewrite app_length, header_length by exact Hc. apply Nat.ltb_ge. lia. }
  unfold decode_request, header, mreq.
  assert (H4 : forall x l, is_u32 x -> unbe (firstn 4 (be 4 x ++ l)) = x).
  { intros x l Hx. rewrite firstn_pre by apply be_length. rewrite unbe_be.
    apply Z.mod_small. change (2 ^ (8 * Z.of_nat 4)) with 4294967296. exact Hx. }
  apply (f_equal2 pair).
  { apply H4. unfold is_u32, NBD_REQUEST_MAGIC. lia. }
  rewrite !(skipn_pre 4) by apply be_length.
  replace (skipn 8 (be 4 0x25609513 ++ be 4 (q_type q) ++ q_cookie q ++ be 8 (q_from q) ++ be 4 (q_len q)))
    with (q_cookie q ++ be 8 (q_from q) ++ be 4 (q_len q)).
  2:{ symmetry. apply (skipn_pre2 4 4); apply be_length. }
  replace (skipn 16 (be 4 0x25609513 ++ be 4 (q_type q) ++ q_cookie q ++ be 8 (q_from q) ++ be 4 (q_len q)))
    with (be 8 (q_from q) ++ be 4 (q_len q)).
  2:{ symmetry. change 16%nat with (4 + (4 + 8))%nat. rewrite skipn_plus, skipn_pre by apply be_length.
      apply (skipn_pre2 4 8); [apply be_length|exact Hc]. }
  replace (skipn 24 (be 4 0x25609513 ++ be 4 (q_type q) ++ q_cookie q ++ be 8 (q_from q) ++ be 4 (q_len q)))
    with (be 4 (q_len q) ++ []).
  2:{ symmetry. change 24%nat with ((4 + 4) + (8 + 8))%nat.
      rewrite skipn_plus, (skipn_pre2 4 4) by apply be_length.
      rewrite app_nil_r. apply (skipn_pre2 8 8); [exact Hc|apply be_length]. }
  f_equal.
  - apply H4; exact Ht.
  - apply firstn_pre; exact Hc.
  - rewrite firstn_pre by apply be_length. rewrite unbe_be.
    apply Z.mod_small. change (2 ^ (8 * Z.of_nat 8)) with 18446744073709551616. exact Hf.
  - apply H4; exact Hl.
Qed.

Definition model_end (e : stream_end) : ending :=
  match e with StopCut => EndClosed | StopMagic => EndMagic | StopDisc r => EndDisc r end.

(** the whole input of a connection *)
Definition run (c : client) (inp : list Z) : M ending := mainloop (S (length inp)) c inp.

Lemma encodes_length qs : Forall wreq_ok qs -> (length qs <= length (concat (map encode qs)))%nat.
Proof.
  induction 1 as [|q qs Hq Hqs IH]; cbn [map concat length]; [lia|].
  rewrite app_length, encode_header, app_length, header_length by apply Hq. lia.
Qed.

Section Session.
  Variable c : client.
  Variable Inv : world -> Prop.
  Variable view : world -> Z -> Z.
  Variable dies : Prop.
  Hypothesis Hstable : forall w w', w_file w' = w_file w -> w_exists w' = w_exists w ->
    Inv w -> same Inv view w w'.
  Hypothesis Hreq : forall q p w, wreq_ok q -> payload_ok q p -> Inv w ->
    wp (handle_request c (mreq q) p) (fun _ w1 => answered c Inv view q w w1) (died c Inv view dies q w) w.
  Hypothesis Hsplice : cflag c F_SPLICE = false \/ c_tls c = false.

  Notation size := (c_size c).
  Notation ro := (bad_write c).

  (** everything sent answers [qs], in order, as the flat disk would *)
  Definition served (qs : list wreq) (w w1 : world) : Prop :=
    Inv w1 /\ exists msgs h, sent w1 = sent w ++ msgs /\
      (forall s, answers qs (concat msgs ++ s) = Some (h, s)) /\
      history size ro (view w) h (view w1).

  (** the process exited while serving one of [qs] *)
  Definition cut_short (qs : list wreq) (w w1 : world) : Prop :=
    dies /\ Inv w1 /\ exists qs1 q qs2 msgs msgs' h d,
      qs = qs1 ++ q :: qs2 /\ sent w1 = sent w ++ msgs ++ msgs' /\
      (forall s, answers qs1 (concat msgs ++ s) = Some (h, s)) /\
      history size ro (view w) h d /\ died_step size ro d q (view w1).

  Lemma history_left d0 d h d' : (forall i, d0 i = d i) -> history size ro d0 h d' -> history size ro d h d'.
  Proof.
    intros HE H. destruct H as [d1 d2 Hu|d1 q a d2 h d3 Hs Hh].
    - constructor. intros i. rewrite Hu. apply HE.
    - econstructor; [eapply flat_step_left; eauto|exact Hh].
  Qed.

  Lemma wp_receive q data w : Inv w -> wreq_ok q -> q_cmd q = 1 -> data = q_data q ->
    wp (receive_payload c (mreq q) data)
       (fun p w1 => payload_ok q p /\ same Inv view w w1 /\ sent w1 = sent w) (fun _ => False) w.
  Proof.
    intros HI Hq Hc ->. unfold receive_payload, mkpipe. cbn [mreq rq_len].
    destruct (cflag c F_SPLICE) eqn:Es.
    - destruct Hsplice as [|Htls]; [congruence|].
      apply wp_bind. destruct (MAX_PIPE_SIZE <? q_len q).
      + apply wp_ret, wp_ret. split; [intros _; auto|]. split; [split; auto|reflexivity].
      + apply wp_bind, wp_pull, wp_ret. rewrite Htls.
        destruct (match w_orc w (w_tick w) with RErr _ => false | _ => true end); apply wp_ret;
          (split; [intros _; auto|]; split; [apply Hstable; auto|reflexivity]).
    - apply wp_ret. split; [intros _; auto|]. split; [split; auto|reflexivity].
  Qed.

  Lemma served_cons q qs w w0 w1 w2 :
    (forall i, view w0 i = view w i) -> sent w0 = sent w ->
    answered c Inv view q w0 w1 -> served qs w1 w2 -> served (q :: qs) w w2.
  Proof.
    intros HV Hs (I1 & m1 & a & M1 & R1 & F1) (I2 & m2 & h & M2 & R2 & H2).
    split; [exact I2|]. exists (m1 ++ m2), ((q, a) :: h). split.
    { rewrite M2, M1, Hs, app_assoc. reflexivity. }
    split.
    - intros s. cbn [answers]. rewrite concat_app, <- app_assoc, R1, R2. reflexivity.
    - econstructor; [eapply flat_step_left; [exact HV|exact F1]|exact H2].
  Qed.

  Lemma cut_cons q qs w w0 w1 w2 :
    (forall i, view w0 i = view w i) -> sent w0 = sent w ->
    answered c Inv view q w0 w1 -> cut_short qs w1 w2 -> cut_short (q :: qs) w w2.
  Proof.
    intros HV Hs (I1 & m1 & a & M1 & R1 & F1) (Hd & I2 & qs1 & q' & qs2 & m2 & m2' & h & d & -> & M2 & R2 & H2 & Hx).
    split; [exact Hd|]. split; [exact I2|].
    exists (q :: qs1), q', qs2, (m1 ++ m2), m2', ((q, a) :: h), d.
    split; [reflexivity|]. split.
    { rewrite M2, M1, Hs, <- !app_assoc. reflexivity. }
    split; [|split; [|exact Hx]].
    - intros s. cbn [answers]. rewrite concat_app, <- app_assoc, R1, R2. reflexivity.
    - econstructor; [eapply flat_step_left; [exact HV|exact F1]|exact H2].
  Qed.

  Lemma cut_here q qs w w0 w1 :
    (forall i, view w0 i = view w i) -> sent w0 = sent w ->
    died c Inv view dies q w0 w1 -> cut_short (q :: qs) w w1.
  Proof.
    intros HV Hs (Hd & I1 & Hx & m' & M1). split; [exact Hd|]. split; [exact I1|].
    exists [], q, qs, [], m', [], (view w0). split; [reflexivity|].
    split; [rewrite M1, Hs; reflexivity|]. split; [reflexivity|].
    split; [constructor; exact HV|exact Hx].
  Qed.

  Lemma wp_mainloop qs : forall tail e fuel w,
    Forall wreq_ok qs -> Forall (fun q => q_type q <> 2) qs -> stops tail e ->
    (length qs < fuel)%nat -> Inv w ->
    wp (mainloop fuel c (concat (map encode qs) ++ tail))
       (fun r w1 => r = model_end e /\ served qs w w1) (cut_short qs w) w.
  Proof.
    induction qs as [|q qs IH]; intros tail e fuel w Hok Hnd Hst Hfuel HI;
      (destruct fuel as [|fuel]; [cbn in Hfuel; lia|]); cbn [map concat app].
    - assert (Hserved : served [] w w).
      { split; [exact HI|]. exists [], []. split; [rewrite app_nil_r; reflexivity|].
        split; [reflexivity|]. constructor. intros i; reflexivity. }
      cbn [mainloop]. destruct Hst as [s Hs|s Hs Hm|q s Ht Hc Hf Hl Hcmd Hlen|q rest Hq Hd].
      + replace (length s <? 28)%nat with true by (unfold zlen in Hs; lia).
        apply wp_ret. auto.
      + replace (length s <? 28)%nat with false by (unfold zlen in Hs; lia).
        unfold decode_request. rewrite firstn_firstn. change (Nat.min 4 28) with 4%nat.
        replace (unbe (firstn 4 s) =? NBD_REQUEST_MAGIC) with false
          by (symmetry; apply Z.eqb_neq; exact Hm).
        cbn [negb]. apply wp_ret. auto.
      + destruct (decode_header q s Ht Hc Hf Hl) as (D1 & D2 & D3). rewrite D3, D1, D2.
        change (NBD_REQUEST_MAGIC =? NBD_REQUEST_MAGIC) with true. cbn [negb].
        change (cmd_of (mreq q)) with (q_cmd q). rewrite Hcmd.
        change (1 =? NBD_CMD_WRITE) with true. cbn [mreq rq_len].
        replace (zlen s <? q_len q) with true by lia. apply wp_ret. auto.
      + pose proof Hq as (Ht & Hc & Hf & Hl & Hda).
        assert (Hcm : q_cmd q = 2) by (unfold q_cmd; rewrite Hd; reflexivity).
        rewrite Hcm in Hda. change (2 =? 1) with false in Hda. cbv iota in Hda.
        assert (Hnil : q_data q = []) by (destruct (q_data q); [reflexivity|unfold zlen in Hda; cbn in Hda; lia]).
        rewrite encode_header, Hnil, app_nil_r.
        destruct (decode_header q rest Ht Hc Hf Hl) as (D1 & D2 & D3). rewrite D3, D1, D2.
        change (NBD_REQUEST_MAGIC =? NBD_REQUEST_MAGIC) with true. cbn [negb].
        change (cmd_of (mreq q)) with (q_cmd q). rewrite Hcm.
        change (2 =? NBD_CMD_WRITE) with false. cbn [mreq rq_type]. rewrite Hd.
        change (2 =? NBD_CMD_DISC) with true. apply wp_ret. auto.
    - inversion Hok as [|? ? Hq Hok']; subst. inversion Hnd as [|? ? Hnq Hnd']; subst.
      pose proof Hq as (Ht & Hc & Hf & Hl & Hda).
      cbn [mainloop]. rewrite encode_header, <- !app_assoc.
      destruct (decode_header q (q_data q ++ concat (map encode qs) ++ tail) Ht Hc Hf Hl) as (D1 & D2 & D3).
      rewrite D3, D1, D2.
      change (NBD_REQUEST_MAGIC =? NBD_REQUEST_MAGIC) with true. cbn [negb].
      change (cmd_of (mreq q)) with (q_cmd q). cbn [mreq rq_len rq_type].
      unfold NBD_CMD_WRITE, NBD_CMD_DISC.
      destruct (q_cmd q =? 1) eqn:Ec.
      + replace (zlen (q_data q ++ concat (map encode qs) ++ tail) <? q_len q) with false.
        2:{ rewrite zlen_app. pose proof (zlen_nonneg (concat (map encode qs) ++ tail)). lia. }
        assert (Hn : Z.to_nat (q_len q) = length (q_data q)) by (unfold zlen in Hda; lia).
        rewrite Hn, firstn_pre, skipn_pre by reflexivity.
        apply wp_bind. eapply wp_mono; [apply (wp_receive q); auto; lia| |tauto].
        intros p w0 (Hp & [I0 V0] & M0). apply wp_bind.
        eapply wp_mono; [apply Hreq; [exact Hq|exact Hp|exact I0]| |].
        * intros u w1 Ha. cbv beta in Ha. pose proof Ha as [I1 _].
          eapply wp_mono; [apply (IH tail e fuel w1); auto; cbn in Hfuel; lia| |].
          -- intros r w2 [Hr Hs]. split; [exact Hr|]. eapply served_cons; eauto.
          -- intros w2 Hcut. eapply cut_cons; eauto.
        * intros w1 Hdied. eapply cut_here; eauto.
      + replace (q_type q =? 2) with false by lia.
        assert (Hnil : q_data q = []) by (destruct (q_data q); [reflexivity|unfold zlen in Hda; cbn in Hda; lia]).
        rewrite Hnil. cbn [app]. apply wp_bind.
        eapply wp_mono; [apply Hreq; [exact Hq|intros Hx; lia|exact HI]| |].
        * intros u w1 Ha. cbv beta in Ha. pose proof Ha as [I1 _].
          eapply wp_mono; [apply (IH tail e fuel w1); auto; cbn in Hfuel; lia| |].
          -- intros r w2 [Hr Hs]. split; [exact Hr|]. eapply served_cons; eauto.
          -- intros w2 Hcut. eapply cut_cons; eauto.
        * intros w1 Hdied. eapply cut_here; eauto.
  Qed.


  Theorem wp_run qs tail e w :
    Forall wreq_ok qs -> Forall (fun q => q_type q <> 2) qs -> stops tail e -> Inv w ->
    wp (run c (concat (map encode qs) ++ tail))
       (fun r w1 => r = model_end e /\ served qs w w1) (cut_short qs w) w.
  Proof.
    intros Hok Hnd Hst HI. unfold run. apply wp_mainloop; auto.
    pose proof (encodes_length qs Hok). rewrite app_length. lia.
  Qed.
End Session.

(** Every byte stream is a sequence of requests followed by a stop. *)
Lemma stream_decompose : forall inp, Forall is_byte inp ->
  exists qs tail e, inp = concat (map encode qs) ++ tail /\
    Forall wreq_ok qs /\ Forall (fun q => q_type q <> 2) qs /\ stops tail e.
Proof.
  assert (Hmain : forall n inp, (length inp <= n)%nat -> Forall is_byte inp ->
    exists qs tail e, inp = concat (map encode qs) ++ tail /\
      Forall wreq_ok qs /\ Forall (fun q => q_type q <> 2) qs /\ stops tail e).
  { induction n as [|n IH]; intros inp Hlen Hb.
    - destruct inp; [|cbn in Hlen; lia]. exists [], [], StopCut.
      repeat split; auto. constructor. reflexivity.
    - destruct (Nat.lt_ge_cases (length inp) 28) as [Hs|Hs].
      { exists [], inp, StopCut. repeat split; auto. constructor. unfold zlen. lia. }
      destruct (Z.eq_dec (unbe (firstn 4 inp)) 0x25609513) as [Hm|Hm].
      2:{ exists [], inp, StopMagic. repeat split; auto. constructor; [unfold zlen; lia|exact Hm]. }
      set (h1 := firstn 4 inp). set (r1 := skipn 4 inp).
      set (h2 := firstn 4 r1). set (r2 := skipn 4 r1).
      set (h3 := firstn 8 r2). set (r3 := skipn 8 r2).
      set (h4 := firstn 8 r3). set (r4 := skipn 8 r3).
      set (h5 := firstn 4 r4). set (r5 := skipn 4 r4).
      assert (E1 : inp = h1 ++ r1) by (symmetry; apply firstn_skipn).
      assert (E2 : r1 = h2 ++ r2) by (symmetry; apply firstn_skipn).
      assert (E3 : r2 = h3 ++ r3) by (symmetry; apply firstn_skipn).
      assert (E4 : r3 = h4 ++ r4) by (symmetry; apply firstn_skipn).
      assert (E5 : r4 = h5 ++ r5) by (symmetry; apply firstn_skipn).
      assert (L1 : length h1 = 4%nat) by (unfold h1; rewrite firstn_length; lia).
      assert (LL1 : length inp = (4 + length r1)%nat) by (rewrite E1 at 1; rewrite app_length, L1; reflexivity).
      assert (L2 : length h2 = 4%nat) by (unfold h2; rewrite firstn_length; lia).
      assert (LL2 : length r1 = (4 + length r2)%nat) by (rewrite E2 at 1; rewrite app_length, L2; reflexivity).
      assert (L3 : length h3 = 8%nat) by (unfold h3; rewrite firstn_length; lia).
      assert (LL3 : length r2 = (8 + length r3)%nat) by (rewrite E3 at 1; rewrite app_length, L3; reflexivity).
      assert (L4 : length h4 = 8%nat) by (unfold h4; rewrite firstn_length; lia).
      assert (LL4 : length r3 = (8 + length r4)%nat) by (rewrite E4 at 1; rewrite app_length, L4; reflexivity).
      assert (L5 : length h5 = 4%nat) by (unfold h5; rewrite firstn_length; lia).
      assert (LL5 : length r4 = (4 + length r5)%nat) by (rewrite E5 at 1; rewrite app_length, L5; reflexivity).
      assert (Hb' : Forall is_byte (h1 ++ h2 ++ h3 ++ h4 ++ h5 ++ r5))
        by (rewrite <- E5, <- E4, <- E3, <- E2, <- E1; exact Hb).
      rewrite !Forall_app in Hb'. destruct Hb' as (B1 & B2 & B3 & B4 & B5 & B6).
      pose (mk := fun data => mkWreq (unbe h2) h3 (unbe h4) (unbe h5) data).
      assert (Hhd : forall data, header (mk data) = h1 ++ h2 ++ h3 ++ h4 ++ h5).
      { intros data. unfold header, mk. cbn [q_type q_cookie q_from q_len].
        rewrite <- Hm. fold h1. rewrite <- L1, be_unbe by exact B1.
        rewrite L1, <- L2, be_unbe by exact B2. rewrite L2, <- L4, be_unbe by exact B4.
        rewrite <- L5, be_unbe by exact B5. reflexivity. }
      pose proof (unbe_range h2 B2) as R2. rewrite L2 in R2. change (2 ^ (8 * Z.of_nat 4)) with 4294967296 in R2.
      pose proof (unbe_range h4 B4) as R4. rewrite L4 in R4. change (2 ^ (8 * Z.of_nat 8)) with 18446744073709551616 in R4.
      pose proof (unbe_range h5 B5) as R5. rewrite L5 in R5. change (2 ^ (8 * Z.of_nat 4)) with 4294967296 in R5.
      assert (Einp : inp = (h1 ++ h2 ++ h3 ++ h4 ++ h5) ++ r5).
      { rewrite <- !app_assoc. rewrite <- E5, <- E4, <- E3, <- E2. exact E1. }
      destruct (Z.eq_dec (unbe h2 mod 65536) 1) as [Hw|Hw].
      + destruct (Z_lt_dec (zlen r5) (unbe h5)) as [Hcut|Hcut].
        { exists [], inp, StopCut. repeat split; auto. rewrite Einp. rewrite <- (Hhd []).
          apply stop_payload; unfold mk; cbn [q_type q_cookie q_from q_len]; auto. }
        set (data := firstn (Z.to_nat (unbe h5)) r5). set (r6 := skipn (Z.to_nat (unbe h5)) r5).
        assert (E6 : r5 = data ++ r6) by (symmetry; apply firstn_skipn).
        assert (L6 : zlen data = unbe h5).
        { unfold data, zlen. rewrite firstn_length. unfold zlen in Hcut. lia. }
        assert (B7 : Forall is_byte r6) by (rewrite E6 in B6; apply Forall_app in B6; tauto).
        assert (LL6 : length r5 = (length data + length r6)%nat) by (rewrite E6 at 1; apply app_length).
        destruct (IH r6 ltac:(lia) B7) as (qs & tail & e & Er & Hok & Hnd & Hst).
        exists (mk data :: qs), tail, e. split; [|split; [|split]].
        * cbn [map concat]. rewrite encode_header, Hhd. unfold mk at 1. cbn [q_data].
          rewrite Einp, E6 at 1. rewrite Er. rewrite <- !app_assoc. reflexivity.
        * constructor; [|exact Hok]. unfold wreq_ok, mk, q_cmd; cbn [q_type q_cookie q_from q_len q_data].
          rewrite Hw. change (1 =? 1) with true. unfold is_u32, is_u64. repeat split; auto; lia.
        * constructor; [|exact Hnd]. unfold mk; cbn [q_type]. intros E. rewrite E in Hw. discriminate.
        * exact Hst.
      + assert (Hok0 : wreq_ok (mk [])).
        { unfold wreq_ok, mk, q_cmd; cbn [q_type q_cookie q_from q_len q_data].
          replace (unbe h2 mod 65536 =? 1) with false by lia. unfold is_u32, is_u64.
          repeat split; auto; lia. }
        assert (Een : encode (mk []) = h1 ++ h2 ++ h3 ++ h4 ++ h5).
        { rewrite encode_header, Hhd. unfold mk; cbn [q_data]. apply app_nil_r. }
        destruct (Z.eq_dec (unbe h2) 2) as [Hd|Hd].
        { exists [], inp, (StopDisc r5). repeat split; auto. rewrite Einp, <- Een.
          apply stop_disc; auto. }
        destruct (IH r5 ltac:(lia) B6) as (qs & tail & e & Er & Hok & Hnd & Hst).
        exists (mk [] :: qs), tail, e. split; [|split; [|split]].
        * cbn [map concat]. rewrite Een. rewrite Einp, Er at 1. rewrite <- !app_assoc. reflexivity.
        * constructor; auto.
        * constructor; auto.
        * exact Hst. }
  intros inp. apply (Hmain (length inp)). lia.
Qed.
