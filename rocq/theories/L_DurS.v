(** Durability of FUA and sync writes, per request. *)
From Verif Require Import Base M_Const M_Disk M_Tree M_Raw M_Setup L_Wp L_Raw S_Wire S_Disk S_Crash L_Wire L_Req L_Plain L_Session L_Setup L_PlainS L_Gen L_Frame L_Props S_Tree L_Tree L_Crash L_Dur.

Lemma fua_flag q : is_u32 (q_type q) -> flag (q_type q) NBD_CMD_FLAG_FUA = Z.odd (q_flags q).
Proof.
  intros Ht. unfold flag, NBD_CMD_FLAG_FUA, q_flags.
  change 65536 with (2 ^ 16) at 2. rewrite <- Z.shiftr_div_pow2 by lia.
  rewrite <- Z.bit0_odd, Z.shiftr_spec by lia. change (0 + 16) with 16.
  destruct (Z.testbit (q_type q) 16) eqn:E.
  - destruct (Z.land (q_type q) 65536 =? 0) eqn:E2; [|reflexivity].
    assert (H : Z.testbit (Z.land (q_type q) 65536) 16 = false) by (replace (Z.land (q_type q) 65536) with 0 by lia; reflexivity).
    rewrite Z.land_spec, E in H. discriminate.
  - replace (Z.land (q_type q) 65536) with 0; [reflexivity|]. symmetry. apply Z.bits_inj'. intros n Hn.
    rewrite Z.bits_0, Z.land_spec. destruct (Z.eq_dec n 16) as [->|]; [rewrite E; reflexivity|].
    change 65536 with (2 ^ 16). rewrite Z.pow2_bits_false by lia. apply andb_false_r.
Qed.

Lemma nbd_errno_nz e : nbd_errno e <> 0.
Proof.
  unfold nbd_errno. repeat (match goal with |- context [if ?b then _ else _] => destruct b end); discriminate.
Qed.
Lemma nbd_errno_wire e : wire_error (nbd_errno e).
Proof.
  unfold nbd_errno, wire_error. repeat (match goal with |- context [if ?b then _ else _] => destruct b end); auto 10.
Qed.

Lemma reply_inj ck e : 0 <= e < 4294967296 -> simple_reply ck e [] = be 4 0x67446698 ++ be 4 0 ++ ck -> e = 0.
Proof.
  unfold simple_reply. rewrite app_nil_r. intros He H.
  apply app_eq_len in H; [|rewrite !be_length; reflexivity]. destruct H as [_ H].
  apply app_eq_len in H; [|rewrite !be_length; reflexivity]. destruct H as [H _].
  apply (f_equal unbe) in H. rewrite !unbe_be in H. change (2 ^ (8 * Z.of_nat 4)) with 4294967296 in H. lia.
Qed.

Lemma last_reply l1 l2 (a b : list Z) : l1 ++ [a] = l2 ++ [b] -> a = b.
Proof. intros H. apply app_inj_tail in H. tauto. Qed.

(** the reply acknowledging [q] *)
Definition ok_reply (q : wreq) : list Z := be 4 0x67446698 ++ be 4 0 ++ q_cookie q.
Definition acked (q : wreq) (w : world) : Prop := exists l, sent w = l ++ [ok_reply q].

Lemma refused_not_acked c q p w w1 e :
  wreq_ok q -> 0 <= c_size c <= 9223372036854775807 ->
  refusal (c_size c) (bad_write c) q = Some e ->
  handle_request c (mreq q) p w = Ret tt w1 -> acked q w1 -> False.
Proof.
  intros Hq Hs Hr E (l & Ha). rewrite (refused_request c q p w e Hq Hs Hr) in E. injection E as <-.
  rewrite sent_emit_send in Ha. apply last_reply in Ha. unfold error_reply, ok_reply in Ha.
  apply app_eq_len in Ha; [|rewrite !be_length; reflexivity]. destruct Ha as [_ H].
  apply app_eq_len in H; [|rewrite !be_length; reflexivity]. destruct H as [H _].
  apply (f_equal unbe) in H. rewrite !unbe_be in H. change (2 ^ (8 * Z.of_nat 4)) with 4294967296 in H.
  unfold refusal in Hr.
  repeat (match type of Hr with context [if ?b then _ else _] => destruct b end);
    try discriminate; injection Hr as <-; discriminate.
Qed.

Section FuaReq.
  Variable c : client.
  Variable init : fref -> Z -> Z.
  Variable loc : Z -> option (fref * Z).
  Hypothesis Hsz : 0 <= c_size c <= 9223372036854775807.
  Hypothesis Hcow : cflag c F_COPYONWRITE = false.
  Hypothesis Hwait : cflag c F_WAIT = false.
  Hypothesis Hloc : forall x y r, loc x = Some r -> loc y = Some r -> x = y.
  Hypothesis Hget : forall a w, 0 <= a < c_size c ->
    wlp (get_filepos c a)
      (fun r w1 => later w w1 /\
         match r with
         | None => True
         | Some (h, o, mb) => h <> FBad -> present w1 h /\ 0 <= o /\ 0 <= mb /\
             forall j, 0 <= j -> (mb = 0 \/ j < mb) -> a + j < c_size c -> loc (a + j) = Some (h, o + j)
         end) (fun _ => True) w.

  (** the tail of the handlers: read errno, send the reply *)
  Lemma wlp_finish q (failed : bool) (P : Prop) w2 :
    wlp (e <- get w_errno ;; send (simple_reply (q_cookie q) (if failed then nbd_errno e else 0) []))
        (fun _ w1 => w_orc w1 = w_orc w2 /\ w_tick w1 = w_tick w2 /\
           (exists m, w_tr w1 = ESend m :: w_tr w2) /\ w_exists w1 = w_exists w2 /\ w_file w1 = w_file w2 /\
           (acked q w1 -> failed = false)) (fun _ => True) w2.
  Proof.
    apply wlp_bind, wlp_get, wlp_send. split; [reflexivity|]. split; [reflexivity|]. split; [eexists; reflexivity|].
    split; [reflexivity|]. split; [reflexivity|].
    intros (l & Ha). rewrite sent_emit_send in Ha. apply last_reply in Ha. destruct failed; [|reflexivity].
    exfalso. apply (nbd_errno_nz (w_errno w2)). pose proof (nbd_errno_wire (w_errno w2)) as Hw.
    apply (reply_inj (q_cookie q)); [|exact Ha]. unfold wire_error in Hw. lia.
  Qed.

  Definition new_bytes (q : wreq) : Z -> Z := if q_cmd q =? 1 then content (q_data q) else zeroes.

  Lemma fua_request q p w w1 :
    wreq_ok q -> payload_ok q p ->
    q_cmd q = 1 \/ (q_cmd q = 6 /\ q_len q <= 67108864) ->
    cflag c F_SYNC = true \/ Z.odd (q_flags q) = true ->
    handle_request c (mreq q) p w = Ret tt w1 -> acked q w1 -> clean w w1 ->
    forall i, 0 <= i < q_len q ->
      exists h o, loc (q_from q + i) = Some (h, o) /\ durable init (w_tr w1) h o (new_bytes q i).
  Proof.
    intros Hq Hp Hcmd Hfua E Hack Hclean. pose proof Hq as (Ht & _ & Hf & Hl & Hda).
    destruct (refusal (c_size c) (bad_write c) q) as [e|] eqn:Href; [exfalso; eapply refused_not_acked; eauto|].
    rewrite (accepted_request c q p w Hq Hsz Href) in E.
    assert (Hin : inside (c_size c) q).
    { unfold refusal in Href. unfold inside. destruct (4 <=? q_flags q); [discriminate|].
      destruct Hcmd as [Hc1|[Hc6 _]].
      - rewrite Hc1 in Href. change (1 =? 0) with false in Href. change (1 =? 1) with true in Href. cbv iota in Href.
        destruct (bad_write c); [discriminate|]. destruct (c_size c <? q_from q + q_len q) eqn:Eo; [discriminate|lia].
      - rewrite Hc6 in Href. change (6 =? 0) with false in Href. change (6 =? 1) with false in Href. change (6 =? 3) with false in Href.
        change (6 =? 4) with false in Href. change (6 =? 6) with true in Href. cbv iota in Href.
        destruct (bad_write c); [discriminate|]. destruct (c_size c <? q_from q + q_len q) eqn:Eo; [discriminate|lia]. }
    unfold inside in Hin. unfold is_u64 in Hf. unfold is_u32 in Hl.
    assert (Hi64 : i64 (q_from q) = q_from q) by (apply i64_small; lia).
    assert (Hwt : waiting c = false) by (unfold waiting; rewrite Hwait; reflexivity).
    set (fua := flag (rq_type (mreq q)) NBD_CMD_FLAG_FUA).
    assert (Hfua' : cflag c F_SYNC = true \/ fua = true).
    { unfold fua. cbn [mreq rq_type]. rewrite fua_flag by exact Ht. exact Hfua. }
    assert (Hraw : forall d len w, 0 <= len -> q_from q + len <= c_size c ->
      wlp (rawexpwrite_fully c (q_from q) d len fua)
      (fun failed w1 => w_orc w1 = w_orc w /\ (w_tick w <= w_tick w1)%nat /\
         (failed = false -> clean w w1 -> forall i, 0 <= i < len -> onto init loc w1 (q_from q + i) (d i)))
      (fun _ => True) w).
    { intros d len w' H1 H2. apply (wlp_rawexpwrite_fully c init (c_size c) loc Hloc Hget fua Hfua'); lia. }
    assert (Hexp : forall d len w, 0 <= len -> q_from q + len <= c_size c ->
      wlp (expwrite c (q_from q) d len fua)
      (fun failed w1 => w_orc w1 = w_orc w /\ (w_tick w <= w_tick w1)%nat /\
         (failed = false -> clean w w1 -> forall i, 0 <= i < len -> onto init loc w1 (q_from q + i) (d i)))
      (fun _ => True) w).
    { intros d len w' H1 H2. unfold expwrite. rewrite Hcow, Hwt. cbn [negb andb]. apply Hraw; assumption. }
    assert (Hfin : forall m d, (forall w, wlp m (fun failed w1 => w_orc w1 = w_orc w /\ (w_tick w <= w_tick w1)%nat /\
         (failed = false -> clean w w1 -> forall i, 0 <= i < q_len q -> onto init loc w1 (q_from q + i) (d i)))
      (fun _ => True) w) ->
      (failed <- m ;; e <- get w_errno ;; send (simple_reply (q_cookie q) (if failed : bool then nbd_errno e else 0) [])) w = Ret tt w1 ->
      forall i, 0 <= i < q_len q -> exists h o, loc (q_from q + i) = Some (h, o) /\ durable init (w_tr w1) h o (d i)).
    { intros m d Hm E1 i Hi.
      assert (H : wlp (failed <- m ;; e <- get w_errno ;; send (simple_reply (q_cookie q) (if failed : bool then nbd_errno e else 0) []))
        (fun _ w1 => acked q w1 -> clean w w1 -> exists h o, loc (q_from q + i) = Some (h, o) /\ durable init (w_tr w1) h o (d i)) (fun _ => True) w).
      { apply wlp_bind. eapply wlp_mono; [apply Hm| |auto]. cbv beta. intros failed w2 (O2 & T2 & H2).
        eapply wlp_mono; [apply (wlp_finish q failed True w2)| |auto]. cbv beta.
        intros _ w3 (O3 & T3 & (m3 & E3) & _ & _ & A3) Ha Hc.
        assert (Hc2 : clean w w2). { intros n e Hn. apply Hc. lia. }
        destruct (H2 (A3 Ha) Hc2 i Hi) as (h & o & Ho & _ & Hd). exists h, o. split; [exact Ho|].
        rewrite E3. change (ESend m3 :: w_tr w2) with ([ESend m3] ++ w_tr w2). apply durable_later; [exact Hd|].
        repeat constructor. }
      unfold wlp in H. rewrite E1 in H. exact (H Hack Hclean). }
    unfold new_bytes. destruct Hcmd as [Hc1|[Hc6 Hlen]].
    - rewrite Hc1 in *. change (1 =? 0) with false in E. change (1 =? 1) with true in *. cbv iota in E |- *.
      unfold handle_write in E. fold fua in E. cbn [mreq rq_from rq_len rq_cookie] in E. rewrite Hi64 in E.
      destruct (Hp Hc1) as [-> | ->].
      + refine (Hfin (expwrite c (q_from q) (bytefn (q_data q)) (q_len q) fua) (content (q_data q)) _ E).
        intros w'. apply (Hexp (bytefn (q_data q))); lia.
      + refine (Hfin (expsplice_out c (q_from q) (bytefn (q_data q)) (q_len q) fua) (content (q_data q)) _ E).
        intros w'. apply (Hraw (bytefn (q_data q))); lia.
    - rewrite Hc6 in *. change (6 =? 0) with false in E. change (6 =? 1) with false in *. change (6 =? 3) with false in E.
      change (6 =? 4) with false in E. cbv iota in E |- *.
      unfold handle_write_zeroes in E. fold fua in E. cbn [mreq rq_from rq_len rq_cookie] in E.
      refine (Hfin (expwrite_zeroes c (mreq q) fua) zeroes _ E).
      intros w'. unfold expwrite_zeroes. cbn [mreq rq_from rq_len]. rewrite Hi64.
      apply wlp_mloop with (I := fun l w2 => (l = q_len q /\ w2 = w') \/ (l = 0 /\ w_orc w2 = w_orc w' /\ (w_tick w' <= w_tick w2)%nat /\
         (clean w' w2 -> forall i, 0 <= i < q_len q -> onto init loc w2 (q_from q + i) (zeroes i)))); [|left; auto].
      intros l w2 [[-> ->]|(-> & O2 & T2 & H2)]; unfold expwrite_zeroes_body.
      + destruct (0 <? q_len q) eqn:El.
        * replace (ZMAX <? q_len q) with false by (unfold ZMAX; lia). apply wlp_bind.
          eapply wlp_mono; [apply Hexp; lia| |auto]. intros [|] w3 (O3 & T3 & H3); apply wlp_ret.
          -- split; [exact O3|]. split; [exact T3|]. discriminate.
          -- right. split; [lia|]. split; [exact O3|]. split; [exact T3|]. intros Hc. apply H3; auto.
        * apply wlp_ret. split; [reflexivity|]. split; [lia|]. intros; lia.
      + change (0 <? 0) with false. cbv iota. apply wlp_ret. split; [exact O2|]. split; [exact T2|]. intros _. exact H2.
  Qed.
End FuaReq.

(** ** Plain exports *)
Section PlainFua.
  Variables (flags expected : Z) (ms : list member) (s : setup) (w0 : world).
  Variables (namelen : Z) (structured tls : bool).
  Hypothesis Hop : opened flags expected ms s w0.
  Let c := client_of s namelen structured tls.

  Definition ploc (i : Z) : option (fref * Z) :=
    if (0 <=? i) && (i <? su_size s) then
      match place (sizes_of (nfiles s) w0) i with Some (n, o) => Some (FExp n, o) | None => None end
    else None.

  Lemma ploc_inj x y r : ploc x = Some r -> ploc y = Some r -> x = y.
  Proof.
    unfold ploc. destruct ((0 <=? x) && (x <? su_size s)); [|discriminate].
    destruct ((0 <=? y) && (y <? su_size s)); [|discriminate].
    destruct (place _ x) as [[n o]|] eqn:E1; [|discriminate].
    destruct (place _ y) as [[n' o']|] eqn:E2; [|discriminate].
    intros H1 H2. apply (place_inj _ _ _ (n, o) E1). congruence.
  Qed.

  Lemma ploc_get a w : 0 <= a < c_size c ->
    wlp (get_filepos c a)
      (fun r w1 => later w w1 /\
         match r with
         | None => True
         | Some (h, o, mb) => h <> FBad -> present w1 h /\ 0 <= o /\ 0 <= mb /\
             forall j, 0 <= j -> (mb = 0 \/ j < mb) -> a + j < c_size c -> ploc (a + j) = Some (h, o + j)
         end) (fun _ => True) w.
  Proof.
    intros Ha. change (c_size c) with (su_size s) in *. destruct Hop as (Hs & Hexp & Hfl & Hne & Hb & Hok).
    destruct (setup_is_plain flags expected ms s w0 namelen structured tls Hs Hexp Hfl Hne Hb Hok) as (fis & St & Hpl & Hft).
    destruct St as (He & Hn & Hwf & Hmap & _ & Hsz & Htot & Hst' & Hjo & Hld).
    destruct Hpl as (Ht & _ & _ & He' & _ & Hsz' & Hst2).
    apply wp_wlp. eapply wp_mono; [apply (wp_get_filepos_plain c fis a w); auto; lia| |tauto].
    intros r w1 (-> & n & fi & Hsl & ->). split; [apply later_same; auto|]. intros _.
    destruct (Hld ltac:(lia)) as (e & Hl). pose proof (laid_total _ _ _ _ _ Hl) as Hte.
    pose proof Hsl as (En & Hle & Hnx). pose proof (wf_handle _ _ _ Hwf En) as (_ & _ & _ & Hnt).
    destruct (laid_place _ _ _ _ _ Hl a n fi Hsl ltac:(lia)) as (P1 & P2 & P3 & P4 & P5 & P6).
    split; [rewrite P1; exact Logic.I|]. split; [lia|].
    split. { destruct (nth_error fis (S n)) as [fj|]; [specialize (Hnx fj eq_refl); lia|lia]. }
    intros j Hj0 Hj1 Hj2. unfold ploc. replace ((0 <=? a + j) && (a + j <? su_size s)) with true by lia.
    replace (nfiles s) with (length fis) by (unfold nfiles; rewrite He; reflexivity).
    destruct (laid_place _ _ _ _ _ Hl (a + j) n fi) as (Q1 & Q2 & Q3 & _); [|lia|].
    - split; [exact En|]. split; [lia|]. intros fj Ej. rewrite Ej in Hj1. specialize (Hnx fj Ej). lia.
    - rewrite Z.sub_0_r in Q3. rewrite Q3, Q1. f_equal. f_equal. lia.
  Qed.
  Lemma plain_fua_request init q p w w1 :
    wreq_ok q -> payload_ok q p ->
    q_cmd q = 1 \/ (q_cmd q = 6 /\ q_len q <= 67108864) ->
    cflag c F_SYNC = true \/ Z.odd (q_flags q) = true ->
    handle_request c (mreq q) p w = Ret tt w1 -> acked q w1 -> clean w w1 ->
    forall i, 0 <= i < q_len q ->
      exists n o, place (sizes_of (nfiles s) w0) (q_from q + i) = Some (n, o) /\
        durable init (w_tr w1) (FExp n) o (new_bytes q i).
  Proof.
    intros Hq Hp Hcmd Hfua E Ha Hc i Hi.
    destruct (opened_plain flags expected ms s w0 namelen structured tls Hop) as (fis & _ & Hpl & _).
    destruct Hpl as (Ht & Hcow & Hw & _ & _ & Hsz & _).
    destruct (fua_request c init ploc Hsz Hcow Hw ploc_inj ploc_get q p w w1 Hq Hp Hcmd Hfua E Ha Hc i Hi) as (h & o & Hl & Hd).
    unfold ploc in Hl. destruct ((0 <=? q_from q + i) && (q_from q + i <? su_size s)); [|discriminate].
    destruct (place _ _) as [[n o']|]; [|discriminate]. injection Hl as <- <-. eauto.
  Qed.
End PlainFua.

(** ** Tree exports *)
Section TreeFua.
  Variable c : client.
  Variable d : nat.
  Hypothesis Ht : cflag c F_TREEFILES = true.
  Hypothesis Hcow : cflag c F_COPYONWRITE = false.
  Hypothesis Hwait : cflag c F_WAIT = false.
  Hypothesis Hro : cflag c F_READONLY = false.
  Hypothesis Hok : tree_ok (c_namelen c) (c_size c) d.

  Definition tloc (i : Z) : option (fref * Z) :=
    if (0 <=? i) && (i <? c_size c) then Some (FTree (block_path d (i / 4096)), i mod 4096) else None.

  Lemma tloc_inj x y r : tloc x = Some r -> tloc y = Some r -> x = y.
  Proof.
    unfold tloc. destruct ((0 <=? x) && (x <? c_size c)) eqn:E1; [|discriminate].
    destruct ((0 <=? y) && (y <? c_size c)) eqn:E2; [|discriminate].
    intros H1 H2. rewrite <- H1 in H2. injection H2 as H2 H3.
    assert (y / 4096 = x / 4096); [|lia].
    destruct Hok as (_ & _ & Hd & _).
    apply (block_path_inj d); [apply (block_in_range (c_size c)); auto; lia|apply (block_in_range (c_size c)); auto; lia|exact H2].
  Qed.

  Lemma tloc_get a w : 0 <= a < c_size c ->
    wlp (get_filepos c a)
      (fun r w1 => later w w1 /\
         match r with
         | None => True
         | Some (h, o, mb) => h <> FBad -> present w1 h /\ 0 <= o /\ 0 <= mb /\
             forall j, 0 <= j -> (mb = 0 \/ j < mb) -> a + j < c_size c -> tloc (a + j) = Some (h, o + j)
         end) (fun _ => True) w.
  Proof.
    intros Ha. unfold get_filepos. replace (a <? 0) with false by lia. rewrite Ht, Hro. cbn [negb].
    apply wlp_bind. unfold open_treefile.
    rewrite i64_small by (destruct Hok as (_ & ? & _); lia).
    rewrite (get_path_ok _ _ d) by (auto; lia). apply wlp_bind, wlp_ret, wlp_bind, wlp_pull, wlp_bind, wlp_get.
    cbn [tick w_exists]. set (p := block_path d (a / 4096)).
    assert (Hfin : forall h w1, later w w1 -> (h <> FBad -> h = FTree p /\ w_exists w1 p = true) ->
      wlp (ret (Some (h, a mod TREEPAGESIZE, (1 + a / TREEPAGESIZE) * TREEPAGESIZE - a)))
        (fun r w1 => later w w1 /\
         match r with
         | None => True
         | Some (h, o, mb) => h <> FBad -> present w1 h /\ 0 <= o /\ 0 <= mb /\
             forall j, 0 <= j -> (mb = 0 \/ j < mb) -> a + j < c_size c -> tloc (a + j) = Some (h, o + j)
         end) (fun _ => True) w1).
    { intros h w1 L H. apply wlp_ret. split; [exact L|]. intros Hh. destruct (H Hh) as [-> Hx].
      unfold TREEPAGESIZE. split; [exact Hx|]. split; [lia|]. split; [lia|]. intros j H0 H1 H2.
      unfold tloc. replace ((0 <=? a + j) && (a + j <? c_size c)) with true by lia.
      replace ((a + j) / 4096) with (a / 4096) by lia. fold p. do 2 f_equal. lia. }
    assert (Lt : later w (tick w)) by (apply later_same; auto; cbn; lia).
    destruct (w_exists w p) eqn:Ee.
    - assert (Hgo : wlp (ret (FTree p)) (fun h w' =>
       wlp (ret (Some (h, a mod TREEPAGESIZE, (1 + a / TREEPAGESIZE) * TREEPAGESIZE - a)))
        (fun r w1 => later w w1 /\
         match r with
         | None => True
         | Some (h, o, mb) => h <> FBad -> present w1 h /\ 0 <= o /\ 0 <= mb /\
             forall j, 0 <= j -> (mb = 0 \/ j < mb) -> a + j < c_size c -> tloc (a + j) = Some (h, o + j)
         end) (fun _ => True) w') (fun _ => True) (tick w)).
      { apply wlp_ret. apply Hfin; [exact Lt|]. intros _. split; [reflexivity|exact Ee]. }
      destruct (w_orc w (w_tick w)) as [|k|er]; [exact Hgo|exact Hgo|].
      destruct (er =? ENOENT); [exact Hgo|]. apply wlp_bind, wlp_modify, wlp_ret, Hfin; [|congruence].
      apply later_same; auto; cbn; lia.
    - destruct (match w_orc w (w_tick w) with RErr er => negb (er =? ENOENT) | _ => false end).
      { apply wlp_bind, wlp_modify, wlp_ret, Hfin; [|congruence]. apply later_same; auto; cbn; lia. }
      apply wlp_bind, wlp_pull. destruct (w_orc (tick w) (w_tick (tick w))) as [|k|er]; [| |apply wlp_die; exact Logic.I].
      all: apply wlp_bind, wlp_pull; destruct (w_orc (tick (tick w)) (w_tick (tick (tick w)))) as [|k2|er2]; [| |apply wlp_die; exact Logic.I].
      all: apply wlp_bind, wlp_modify, wlp_bind, wlp_modify, wlp_bind, wlp_modify, wlp_bind, wlp_pull.
      all: match goal with |- wlp _ ?Q ?D ?ws => set (w5 := ws) end.
      all: assert (L5 : later w w5 /\ w_exists w5 p = true) by
        (split; [split; [reflexivity|]; split; [cbn; lia|]; split;
          [intros h; unfold present; destruct h; auto; cbn; destruct (list_eq_dec Z.eq_dec p0 p); auto|
           exists [ECreate p]; split; [reflexivity|]; intros h i Hp; constructor; [|constructor];
           cbn [leaves]; intros ->; cbn [present] in Hp; congruence]|
         cbn; destruct (list_eq_dec Z.eq_dec p p); [reflexivity|contradiction]]).
      all: assert (Hgo : wlp (modify (set_file (FTree p) zero_block) ;;; ret (FTree p)) (fun h w' =>
       wlp (ret (Some (h, a mod TREEPAGESIZE, (1 + a / TREEPAGESIZE) * TREEPAGESIZE - a)))
        (fun r w1 => later w w1 /\
         match r with
         | None => True
         | Some (h, o, mb) => h <> FBad -> present w1 h /\ 0 <= o /\ 0 <= mb /\
             forall j, 0 <= j -> (mb = 0 \/ j < mb) -> a + j < c_size c -> tloc (a + j) = Some (h, o + j)
         end) (fun _ => True) w') (fun _ => True) w5) by
        (destruct L5 as [(O5 & T5 & P5 & ext & E5 & L5) X5]; apply wlp_bind, wlp_modify, wlp_ret, Hfin;
         [split; [exact O5|]; split; [exact T5|]; split; [exact P5|]; exists ext; split; [exact E5|exact L5]
         |intros _; split; [reflexivity|exact X5]]).
      all: destruct (w_orc _ _) as [|k3|er3]; [exact Hgo|destruct (k3 <=? 0); [apply wlp_die; exact Logic.I|exact Hgo]|apply wlp_die; exact Logic.I].
  Qed.

  Lemma tree_fua_request init q p w w1 :
    wreq_ok q -> payload_ok q p ->
    q_cmd q = 1 \/ (q_cmd q = 6 /\ q_len q <= 67108864) ->
    cflag c F_SYNC = true \/ Z.odd (q_flags q) = true ->
    handle_request c (mreq q) p w = Ret tt w1 -> acked q w1 -> clean w w1 ->
    forall i, 0 <= i < q_len q ->
      durable init (w_tr w1) (FTree (block_path d ((q_from q + i) / 4096))) ((q_from q + i) mod 4096) (new_bytes q i).
  Proof.
    intros Hq Hp Hcmd Hfua E Ha Hc i Hi.
    destruct (fua_request c init tloc ltac:(destruct Hok as (_ & ? & _); lia) Hcow Hwait tloc_inj tloc_get q p w w1 Hq Hp Hcmd Hfua E Ha Hc i Hi) as (h & o & Hl & Hd).
    unfold tloc in Hl. destruct ((0 <=? q_from q + i) && (q_from q + i <? c_size c)); [|discriminate].
    injection Hl as <- <-. exact Hd.
  Qed.
End TreeFua.

(** ** FLUSH at the end of a session *)
Lemma execute_app c qs1 : forall qs2 w, execute c (qs1 ++ qs2) w = (execute c qs1 ;;; execute c qs2) w.
Proof.
  induction qs1 as [|q t IH]; intros qs2 w; [reflexivity|]. cbn [app execute].
  rewrite bind_assoc. apply bind_ext. intros p w1. rewrite bind_assoc. apply bind_ext. intros _ w2. apply IH.
Qed.

Lemma run_last c qs q w0 w1 e : Forall wreq_ok (qs ++ [q]) -> Forall (fun q => q_type q <> 2) (qs ++ [q]) -> q_cmd q <> 1 ->
  run c (concat (map encode (qs ++ [q]))) w0 = Ret e w1 ->
  exists w, execute c qs w0 = Ret tt w /\ handle_request c (mreq q) PNone w = Ret tt w1.
Proof.
  intros Hok Hnd Hc H. rewrite <- (app_nil_r (concat _)) in H.
  rewrite (run_execute c (qs ++ [q]) [] StopCut w0 Hok Hnd) in H by (apply stop_short; reflexivity).
  unfold bind in H. rewrite execute_app in H. unfold bind in H.
  destruct (execute c qs w0) as [[] w| |w|]; try discriminate. exists w. split; [reflexivity|].
  cbn [execute] in H. replace (q_cmd q =? 1) with false in H by lia. unfold bind, ret in H.
  destruct (handle_request c (mreq q) PNone w) as [[] w2| |w2|]; try discriminate. congruence.
Qed.

Lemma joined_place w : forall k n i m o, place (sizes_from n k w) i = Some (m, o) ->
  joined (files_from n k w) i = frd (w_file w (FExp (n + m))) o.
Proof.
  induction k as [|k IH]; intros n i m o; unfold sizes_from, files_from; cbn [seq map place joined]; [discriminate|].
  destruct (i <? fsize (w_file w (FExp n))) eqn:E.
  - intros H. injection H as <- <-. rewrite Nat.add_0_r. reflexivity.
  - fold (sizes_from (S n) k w). fold (files_from (S n) k w).
    destruct (place (sizes_from (S n) k w) (i - fsize (w_file w (FExp n)))) as [[m' o']|] eqn:Ep; [|discriminate].
    intros H. injection H as <- <-. rewrite (IH (S n) _ _ _ Ep). do 3 f_equal. lia.
Qed.

Lemma acked_reply q w l e : 0 <= e < 4294967296 -> sent w = l ++ [simple_reply (q_cookie q) e []] -> acked q w -> e = 0.
Proof.
  intros He H (l' & H'). rewrite H in H'. apply last_reply in H'. apply (reply_inj (q_cookie q)); auto.
Qed.

Lemma flush_run c qs q w0 w1 e init : exp_handles c -> traced init w0 ->
  Forall wreq_ok (qs ++ [q]) -> Forall (fun q => q_type q <> 2) (qs ++ [q]) -> q_cmd q = 3 ->
  run c (concat (map encode (qs ++ [q]))) w0 = Ret e w1 -> acked q w1 ->
  forall h i, h <> FDummy -> flushed c h -> durable init (w_tr w1) h i (held w1 h i).
Proof.
  intros Hh Ht Hok Hnd Hc Hr Hack h i Hd Hf.
  destruct (run_last c qs q w0 w1 e Hok Hnd ltac:(lia) Hr) as (w & H1 & H2).
  assert (Tw : traced init w).
  { pose proof (traced_execute init c qs Hh w0 Ht) as K. unfold wlp in K. rewrite H1 in K. exact K. }
  assert (Hq : wreq_ok q) by (apply Forall_app in Hok; destruct Hok as [_ Hok]; inversion Hok; assumption).
  assert (Hk : known_flags q).
  { unfold known_flags. destruct (q_flags q <? 4) eqn:E; [lia|exfalso].
    pose proof Hq as (Ht' & _). unfold handle_request in H2. pose proof (bad_flags_spec q Ht') as Hbf.
    destruct (bad_flags (mreq q)) eqn:Eb; [|unfold known_flags in Hbf; lia].
    unfold reply_error, send, modify in H2. injection H2 as <-.
    destruct Hack as (l & Ha). rewrite sent_emit_send in Ha. apply last_reply in Ha.
    change (nbd_errno EINVAL) with 22 in Ha.
    apply reply_inj in Ha; [discriminate|lia]. }
  destruct (flush_durable c q PNone w w1 init Hq Hc Hk H2) as (er & S1 & F1 & X1 & N1 & D1 & W1).
  assert (er = 0).
  { apply (acked_reply q w1 (sent w) er); [|exact S1|exact Hack]. destruct (Z.eq_dec er 0) as [->|Hn]; [lia|].
    specialize (W1 Hn). unfold wire_error in W1. lia. }
  replace (held w1 h i) with (now init (w_tr w) h i); [apply D1; auto|].
  rewrite Tw by exact Hd. unfold held. rewrite F1, X1. reflexivity.
Qed.

Lemma plain_flush_run flags expected ms s w0 namelen structured tls :
  opened flags expected ms s w0 ->
  let c := client_of s namelen structured tls in
  no_splice_tls c -> forall init, traced init w0 -> forall qs q w1 e,
  Forall wreq_ok (qs ++ [q]) -> Forall (fun q => q_type q <> 2) (qs ++ [q]) -> q_cmd q = 3 ->
  run c (concat (map encode (qs ++ [q]))) w0 = Ret e w1 -> acked q w1 ->
  forall i, 0 <= i < su_size s -> exists n o, place (sizes_of (nfiles s) w0) i = Some (n, o) /\
    forall ext, Forall (leaves (FExp n) o) ext -> durable init (ext ++ w_tr w1) (FExp n) o (disk_of s w1 i).
Proof.
  intros Hop c Hst init Ht qs q w1 e Hok Hnd Hc Hr Ha i Hi.
  destruct (opened_plain flags expected ms s w0 namelen structured tls Hop) as (fis & He & Hpl & Hft & _ & Hmap & _).
  pose proof Hpl as (Htf & Hcow & Hwt & He' & Hwf & _).
  pose proof Hop as (Hs & Hexp & Hfl & Hne & Hb & Hkk).
  destruct (plain_session flags expected ms s w0 namelen structured tls Hs Hexp Hfl Hne Hb Hkk Hst (qs ++ [q]) [] StopCut Hok Hnd
     ltac:(apply stop_short; reflexivity)) as (w1' & msgs & h & _ & Htot & _ & _ & R & _ & _ & _ & Hz & _).
  rewrite app_nil_r in R. fold c in R. rewrite R in Hr. injection Hr as <- <-.
  destruct (place_offset flags expected ms s w0 namelen structured tls Hs Hexp Hfl Hne Hb Hkk i Hi) as (n & o & mb & _ & Hp & Hn & _).
  exists n, o. split; [exact Hp|]. intros ext Hext. apply durable_later; [|exact Hext].
  assert (Hz' : sizes_of (nfiles s) w1' = sizes_of (nfiles s) w0).
  { unfold sizes_from. apply map_ext. intros k. apply Hz. }
  unfold disk_of. rewrite <- Hz' in Hp. rewrite (joined_place w1' (nfiles s) 0 i n o Hp). cbn [Nat.add].
  change (frd (w_file w1' (FExp n)) o) with (held w1' (FExp n) o).
  apply (flush_run c qs q w0 w1' (model_end StopCut) init); auto; [|discriminate|].
  - intros fis' fi E Hin. change (c_export c) with (su_export s) in E. rewrite He in E. injection E as <-.
    destruct Hwf as (_ & _ & Hx). rewrite forallb_forall in Hx. apply Hx. exact Hin.
  - unfold flushed. fold c in Hcow, Hwt, Htf. rewrite Hcow, Hwt, Htf. cbn [orb].
    assert (Hin : In (FExp n) (map fi_h fis)).
    { rewrite Hmap. apply in_map. apply in_seq. unfold nfiles in Hn. rewrite He in Hn. lia. }
    apply in_map_iff in Hin. destruct Hin as (fi & H1 & H2). exists fis, fi. repeat split; auto.
Qed.
