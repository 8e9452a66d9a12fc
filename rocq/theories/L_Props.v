(** Request-level consequences for plain exports. *)
From Verif Require Import Base M_Const M_Disk M_Tree M_Raw M_Setup L_Wp L_Raw S_Wire S_Disk L_Wire L_Req L_Plain L_Session L_Setup L_PlainS L_Gen L_Frame.

(** A plain export that setupexport opened successfully, in a state where the
    backing files have the sizes it saw. *)
Definition opened (flags expected : Z) (ms : list member) (s : setup) (w : world) : Prop :=
  setupexport flags expected ms = SetupOk s /\ 0 <= expected /\ plain_flags flags /\
  no_empty_member flags ms /\ backed flags ms s w /\ sizes_ok w.

Lemma opened_stable flags expected ms s w w1 :
  (forall n, fsize (w_file w1 (FExp n)) = fsize (w_file w (FExp n))) ->
  opened flags expected ms s w -> opened flags expected ms s w1.
Proof.
  intros Hz (H1 & H2 & H3 & H4 & H5 & H6). unfold opened.
  split; [exact H1|]. split; [exact H2|]. split; [exact H3|]. split; [exact H4|]. split.
  - unfold backed in *. destruct (su_trunc s); [rewrite Hz; exact H5|].
    intros n z Hd. rewrite Hz. auto.
  - eapply sizes_ok_same; eauto.
Qed.

Section Opened.
  Variables (flags expected : Z) (ms : list member) (s : setup) (w : world).
  Variables (namelen : Z) (structured tls : bool).
  Hypothesis Hop : opened flags expected ms s w.
  Let c := client_of s namelen structured tls.

  Lemma opened_plain : exists fis, su_export s = Some fis /\ plain c fis /\ fits c fis w /\
    (forall fis' , su_export s = Some fis' -> fis' = fis) /\
    map fi_h fis = map FExp (seq 0 (length fis)) /\ fis <> [] /\
    0 <= su_size s <= 9223372036854775807 /\
    forall w', (forall n, fsize (w_file w' (FExp n)) = fsize (w_file w (FExp n))) ->
      forall i, flat fis w' i = disk_of s w' i.
  Proof.
    destruct Hop as (Hs & Hexp & Hfl & Hne & Hb & Hok).
    destruct (setup_plain flags expected ms s w Hs Hexp (proj1 Hfl) (proj1 (proj2 Hfl)) Hne Hb Hok)
      as (fis & St & _ & _).
    destruct St as (He & Hn & Hwf & Hmap & Hft & Hsz & Htot & Hst' & Hjo & Hld).
    exists fis. split; [exact He|].
    split. { destruct Hfl as (Ht & Hw & Hc). unfold plain, cflag, c, client_of. cbn [c_flags c_export c_size].
      rewrite !(setup_flags flags expected ms s) by (auto; reflexivity).
      repeat split; auto; try lia; try apply Hwf. }
    split; [apply Hft; reflexivity|].
    split; [congruence|]. split; [exact Hmap|]. split; [exact Hn|]. split; [lia|].
    intros w' Hw' i. unfold disk_of, nfiles. rewrite He. apply Hjo, Hw'.
  Qed.

  Lemma opened_size : 0 <= su_size s <= 9223372036854775807.
  Proof. destruct opened_plain as (fis & H); tauto. Qed.

  Lemma opened_request q p : wreq_ok q -> payload_ok q p ->
    exists w1 msgs ans, handle_request c (mreq q) p w = Ret tt w1 /\
      sent w1 = sent w ++ msgs /\
      (forall z, read_answer (q_cookie q) (q_from q) (if q_cmd q =? 0 then q_len q else 0)
                   (concat msgs ++ z) = Some (ans, z)) /\
      flat_step (su_size s) (bad_write c) (disk_of s w) q (disk_of s w1) ans /\
      opened flags expected ms s w1.
  Proof.
    intros Hq Hp. destruct opened_plain as (fis & He & Hpl & Hft & _ & Hmap & Hn & _ & Hflat).
    pose proof (plain_request c fis w Hpl Hft q p w Hq Hp ltac:(unfold kept; auto)) as H.
    unfold wp in H. destruct (handle_request c (mreq q) p w) as [[] w1| |w1|]; try contradiction.
    destruct H as ((K1 & K2 & K3) & msgs & ans & M1 & A1 & S1).
    exists w1, msgs, ans. split; [reflexivity|]. split; [exact M1|]. split; [exact A1|].
    assert (Hz : forall n, fsize (w_file w1 (FExp n)) = fsize (w_file w (FExp n))) by auto.
    split; [|eapply opened_stable; eauto].
    eapply flat_step_left with (d0 := flat fis w); [apply Hflat; auto|].
    apply (step_view_eq _ _ _ _ (flat fis w1)); [intros i; symmetry; apply Hflat, Hz|]. exact S1.
  Qed.

  (** A READ that is not refused, structured replies, no splice. *)
  Lemma opened_structured_read q : structured = true -> cflag c F_SPLICE = false ->
    wreq_ok q -> known_flags q -> q_cmd q = 0 -> inside (su_size s) q ->
    exists w1 msgs ans, handle_request c (mreq q) PNone w = Ret tt w1 /\
      sent w1 = sent w ++ msgs /\
      (forall m, In m msgs -> firstn 4 m = be 4 0x668e33ef) /\
      (forall z, collect (length (concat msgs ++ z)) (q_cookie q) (q_from q) (q_from q + q_len q) []
                   (concat msgs ++ z) = Some (ans, z)) /\
      (ans = Ok (bytes_at (disk_of s w) (q_from q) (q_len q)) \/ failed ans).
  Proof.
    intros Hst Hsp Hq Hk Hcmd Hin.
    destruct opened_plain as (fis & He & Hpl & Hft & _ & Hmap & Hn & Hsz & Hflat).
    pose proof Hpl as (Ht & Hc & Hw & _).
    pose proof (wp_normal_read c (kept fis w) (flat fis) False (plain_stable fis w)
       (plain_pos c fis w Hpl Hft) Hsz Hc Hw (plain_trim c fis w Hpl Hft) (plain_flush c fis w Hpl) q w Hq Hk Hcmd Hin ltac:(unfold kept; auto)) as H.
    assert (Hh : handle_request c (mreq q) PNone w = handle_normal_read c (mreq q) w).
    { unfold handle_request. change (cmd_of (mreq q)) with (q_cmd q). rewrite Hcmd.
      pose proof Hq as (Hty & _ & Hf & Hl & _).
      pose proof (bad_flags_spec q Hty) as Hbf. destruct (bad_flags (mreq q)); [destruct Hbf as [_ Hbf]; discriminate (Hbf Hk)|].
      pose proof (bad_range_spec c q Hf Hl Hsz) as Hbr.
      change (0 =? NBD_CMD_READ) with true. cbv iota.
      destruct (bad_range c (mreq q)); [destruct Hbr as [_ Hbr]; discriminate (Hbr Hin)|].
      unfold handle_read. rewrite Hsp. reflexivity. }
    rewrite Hh. unfold wp in H.
    destruct (handle_normal_read c (mreq q) w) as [[] w1| |w1|]; try (destruct H; tauto); try contradiction.
    destruct H as [(Hkp & msgs & ans & M1 & A1 & S1) Hsh].
    destruct (Hsh Hst) as (ps & fl & ty & n & pl & Hmsgs).
    assert (Em : msgs = map (piece_msg (q_cookie q) (q_from q) (flat fis w)) ps ++ [chunk (q_cookie q) fl ty n pl]).
    { rewrite Hmsgs in M1. apply app_inv_head in M1. congruence. }
    exists w1, msgs, ans. split; [reflexivity|]. split; [exact M1|].
    split.
    { intros m Hm. rewrite Em in Hm. apply in_app_iff in Hm. destruct Hm as [Hm|[<-|[]]].
      - apply in_map_iff in Hm. destruct Hm as (x & <- & _). reflexivity.
      - reflexivity. }
    split.
    - intros z. specialize (A1 z). rewrite Hcmd in A1. change (0 =? 0) with true in A1. cbv iota in A1.
      rewrite <- A1. symmetry. rewrite Em. rewrite concat_app. cbn [concat]. rewrite app_nil_r.
      destruct ps as [|p0 ps].
      + cbn [map concat app]. apply magic_not_simple.
      + cbn [map concat]. rewrite <- !app_assoc. unfold piece_msg at 1 3 5. unfold data_chunk. apply magic_not_simple.
    - destruct S1 as [_ S1]. destruct (S1 Hk) as (R & _). destruct (R Hcmd) as (_ & _ & R3).
      destruct (R3 Hin) as [->|Hf]; [left|right; exact Hf]. f_equal.
      rewrite !slice_bytes_at. apply slice_ext. intros i _. apply Hflat. reflexivity.
  Qed.
End Opened.

(** every error in a flat step is a protocol error *)
Lemma flat_step_error size ro d q d' e : flat_step size ro d q d' (Err e) -> wire_error e.
Proof.
  intros [Hn Hk].
  assert (F : failed (Err e) -> wire_error e) by (intros (x & Hx & E); congruence).
  assert (E : forall x, wire_error x -> Err e = Err x -> wire_error e) by (intros; congruence).
  assert (O : forall x, Err e = Ok x -> wire_error e) by (intros; congruence).
  assert (W : wire_error 22 /\ wire_error 28 /\ wire_error 1) by (unfold wire_error; lia).
  destruct W as (W1 & W2 & W3).
  assert (Dk : {q_flags q < 4} + {~ q_flags q < 4}) by (destruct (Z_lt_dec (q_flags q) 4); auto).
  destruct Dk as [K|K]; [|destruct (Hn K) as [H _]; eauto].
  destruct (Hk K) as (H0 & H1 & H3 & H4 & H6 & Hx). clear Hk Hn.
  assert (Di : {inside size q} + {~ inside size q}) by (unfold inside; apply Z_le_dec).
  destruct (Z.eq_dec (q_cmd q) 0) as [C|C0].
  { destruct (H0 C) as (_ & a & b). destruct Di as [i|i]; [destruct (b i); eauto|eauto]. }
  destruct (Z.eq_dec (q_cmd q) 1) as [C|C1].
  { destruct (H1 C) as (a1 & a2 & a3). destruct ro; [destruct (a1 eq_refl); eauto|].
    destruct Di as [i|i]; [destruct (a3 eq_refl i) as [[]|[]]; eauto|destruct (a2 eq_refl i); eauto]. }
  destruct (Z.eq_dec (q_cmd q) 3) as [C|C3].
  { destruct (H3 C) as (_ & [|]); eauto. }
  destruct (Z.eq_dec (q_cmd q) 4) as [C|C4].
  { destruct (H4 C) as (a1 & a2 & a3). destruct ro; [destruct (a1 eq_refl); eauto|].
    destruct Di as [i|i]; [destruct (a3 eq_refl i) as []; eauto|destruct (a2 eq_refl i); eauto]. }
  destruct (Z.eq_dec (q_cmd q) 6) as [C|C6].
  { destruct (H6 C) as (a1 & a2 & a3). destruct ro; [destruct (a1 eq_refl); eauto|].
    destruct Di as [i|i]; [destruct (a3 eq_refl i) as [[]|[]]; eauto|destruct (a2 eq_refl i); eauto]. }
  destruct (Hx C0 C1 C3 C4 C6). eauto.
Qed.

(** a request that is not refused reaches its handler *)
Lemma accepted_request c q p w :
  wreq_ok q -> 0 <= c_size c <= 9223372036854775807 ->
  refusal (c_size c) (bad_write c) q = None ->
  handle_request c (mreq q) p w =
    (if q_cmd q =? 0 then handle_read c (mreq q)
     else if q_cmd q =? 1 then handle_write c (mreq q) p
     else if q_cmd q =? 3 then handle_flush c (mreq q)
     else if q_cmd q =? 4 then handle_trim c (mreq q)
     else handle_write_zeroes c (mreq q)) w.
Proof.
  intros Hq Hsz Href.
  unfold refusal in Href. unfold handle_request. change (cmd_of (mreq q)) with (q_cmd q).
  pose proof Hq as (Ht & _ & Hf & Hl & _).
  pose proof (bad_flags_spec q Ht) as Hbf. unfold known_flags in Hbf.
  pose proof (bad_range_spec c q Hf Hl Hsz) as Hbr. unfold inside in Hbr.
  destruct (4 <=? q_flags q) eqn:Ef; [discriminate|].
  destruct (bad_flags (mreq q)) eqn:Eb; [lia|].
  unfold NBD_CMD_READ, NBD_CMD_WRITE, NBD_CMD_FLUSH, NBD_CMD_TRIM, NBD_CMD_WRITE_ZEROES.
  assert (Hout : bad_range c (mreq q) = (c_size c <? q_from q + q_len q)).
  { destruct (bad_range c (mreq q)) eqn:E1, (c_size c <? q_from q + q_len q) eqn:E2; auto; lia. }
  rewrite Hout.
  destruct (q_cmd q =? 0); [destruct (c_size c <? q_from q + q_len q); [discriminate|reflexivity]|].
  destruct (q_cmd q =? 1); [destruct (bad_write c), (c_size c <? q_from q + q_len q); try discriminate; reflexivity|].
  destruct (q_cmd q =? 3); [reflexivity|].
  destruct (q_cmd q =? 4); [destruct (bad_write c), (c_size c <? q_from q + q_len q); try discriminate; reflexivity|].
  destruct (q_cmd q =? 6); [destruct (bad_write c), (c_size c <? q_from q + q_len q); try discriminate; reflexivity|discriminate].
Qed.

(** configured read-only stays read-only *)
Lemma flag_lor_keep a b f : flag a f = true -> flag (Z.lor a b) f = true.
Proof.
  unfold flag. intros H. apply negb_true_iff, Z.eqb_neq in H. apply negb_true_iff, Z.eqb_neq.
  rewrite Z.land_lor_distr_l. intros E. apply Z.lor_eq_0_iff in E. tauto.
Qed.
Lemma open_member_ro flags cc m fl rw : open_member flags cc m = Some (fl, rw) ->
  flag flags F_READONLY = true -> flag fl F_READONLY = true /\ rw = false.
Proof. unfold open_member. intros E H. rewrite H in E. destruct (mb_rdonly m); [|discriminate]. split; congruence. Qed.
Lemma setup_multi_ro ms : forall flags i start fl fis rws tot,
  setup_multi flags ms i start = Some (fl, fis, rws, tot) ->
  flag flags F_READONLY = true -> flag fl F_READONLY = true.
Proof.
  induction ms as [|m ms IH]; intros flags i start fl fis rws tot E H; cbn [setup_multi] in E.
  - congruence.
  - destruct (open_member flags false m) as [[fl1 rw]|] eqn:Eo; [|congruence].
    destruct (off_add start (i64 (mb_size m))) as [nx|]; [|discriminate].
    destruct (setup_multi fl1 ms (S i) nx) as [[[[f2 fis'] rws'] tot']|] eqn:Er; [|discriminate].
    injection E as <- <- <- <-. eapply IH; [exact Er|]. eapply open_member_ro; eauto.
Qed.
Lemma setup_ro flags expected ms s : setupexport flags expected ms = SetupOk s ->
  flag flags F_READONLY = true -> flag (su_flags s) F_READONLY = true.
Proof.
  unfold setupexport. intros E H.
  destruct (flag flags F_TREEFILES || flag flags F_WAIT); [injection E as <-; exact H|].
  destruct (flag flags F_MULTIFILE).
  - destruct (setup_multi flags ms 0 0) as [[[[fl fis] rws] tot]|] eqn:Es; [|discriminate].
    destruct fis; [discriminate|]. destruct (setup_size expected tot); [|discriminate].
    injection E as <-. cbn [su_flags]. eapply setup_multi_ro; eauto.
  - destruct (open_single flags expected ms) as [[[fl rw] sz]|] eqn:Eo; [|discriminate].
    assert (Hf : flag fl F_READONLY = true).
    { unfold open_single in Eo. destruct (flag flags F_TEMPORARY); [congruence|].
      destruct ms as [|m ms]; [discriminate|].
      destruct (open_member flags (negb (expected =? 0)) m) as [[fl1 rw1]|] eqn:Em; [|discriminate].
      injection Eo as <- <- <-. eapply open_member_ro; eauto. }
    destruct ((sz =? 0) && negb (expected =? 0)).
    + destruct rw; [|discriminate]. injection E as <-. exact Hf.
    + destruct (setup_size expected (i64 sz)); [|discriminate]. injection E as <-. exact Hf.
Qed.

(** ** What a session on a read-only or copy-on-write export leaves alone *)
(** new events of a run, newest first *)
Definition new_events (P : event -> Prop) (w w' : world) : Prop :=
  exists l, w_tr w' = l ++ w_tr w /\ Forall P l.

Definition only_sync_send (e : event) : Prop :=
  match e with ESync _ | ESyncAll | ESend _ => True | _ => False end.

Definition untouched (w w' : world) : Prop :=
  (forall h, h <> FDummy -> w_file w' h = w_file w h) /\
  (forall p, w_exists w' p = w_exists w p) /\ new_events only_sync_send w w'.

Lemma readonly_run c inp w :
  bad_write c = true -> (cflag c F_READONLY = true \/ cflag c F_TREEFILES = false) ->
  Forall is_byte inp ->
  wlp (run c inp) (fun _ w' => untouched w w') (fun w' => untouched w w') w.
Proof.
  intros Hb Hro Hin.
  apply (k_run_ro c (untouched w) (fun _ => False)); [..|exact Hin|exact Hb|].
  - intros w1 (H1 & H2 & H3). repeat split; auto.
  - intros e w1 (H1 & H2 & H3). repeat split; auto.
  - intros e w1 Hf (H1 & H2 & l & H3 & H4). split; [exact H1|]. split; [exact H2|].
    exists (e :: l). split; [cbn; rewrite H3; reflexivity|]. constructor; [|exact H4].
    destruct e; cbn in *; tauto.
  - destruct Hro as [Hro|Ht]; [|apply keeps_get_array; exact Ht].
    apply keeps_get_tree_ro; [| | |exact Hro].
    + intros w1 (H1 & H2 & H3). repeat split; auto.
    + intros e w1 (H1 & H2 & H3). repeat split; auto.
    + intros f w1 (H1 & H2 & H3). split; [|split; auto]. intros h Hh. cbn. unfold upd_file.
      destruct (fref_eq_dec h FDummy); [contradiction|auto].
  - split; [auto|]. split; [auto|]. exists []. split; [reflexivity|constructor].
Qed.

Definition only_diff (e : event) : Prop :=
  match e with
  | ESync _ | ESyncAll | ESend _ => True
  | EWrite h _ _ _ | EPunch h _ _ => h = FDiff
  | _ => False
  end.
Definition base_untouched (w w' : world) : Prop :=
  (forall h, h <> FDiff -> w_file w' h = w_file w h) /\
  (forall p, w_exists w' p = w_exists w p) /\ new_events only_diff w w'.

Lemma cow_run c inp w :
  cflag c F_COPYONWRITE = true -> cflag c F_SPLICE = false -> cflag c F_TREEFILES = false ->
  Forall is_byte inp ->
  wlp (run c inp) (fun _ w' => base_untouched w w') (fun w' => base_untouched w w') w.
Proof.
  intros Hc Hs Ht Hin.
  apply (k_run c (base_untouched w) (fun h => h = FDiff)); [..|reflexivity|exact Hin|split; assumption|].
  - intros w1 (H1 & H2 & H3). repeat split; auto.
  - intros e w1 (H1 & H2 & H3). repeat split; auto.
  - intros e w1 Hf (H1 & H2 & l & H3 & H4). split; [exact H1|]. split; [exact H2|].
    exists (e :: l). split; [cbn; rewrite H3; reflexivity|]. constructor; [|exact H4].
    destruct e; cbn in *; tauto.
  - intros h f w1 -> (H1 & H2 & H3). split; [|split; auto]. intros h Hh. cbn. unfold upd_file.
    destruct (fref_eq_dec h FDiff); [contradiction|auto].
  - intros p w1 (H1 & H2 & H3). repeat split; auto.
  - intros i v w1 (H1 & H2 & H3). repeat split; auto.
  - intros n w1 (H1 & H2 & H3). repeat split; auto.
  - apply keeps_get_array; exact Ht.
  - split; [auto|]. split; [auto|]. exists []. split; [reflexivity|constructor].
Qed.

(** ** TRIM of a single file *)
Lemma trim_single c h q w :
  cflag c F_READONLY = false -> cflag c F_COPYONWRITE = false -> cflag c F_TREEFILES = false ->
  c_export c = Some [mkFI h 0] -> 0 <= c_size c <= 9223372036854775807 ->
  wreq_ok q -> inside (c_size c) q -> (forall n e, w_orc w n <> RErr e) ->
  exists w1, exptrim c (mreq q) w = Ret tt w1 /\
    (forall h', h' <> h -> w_file w1 h' = w_file w h') /\ fsize (w_file w1 h) = fsize (w_file w h) /\
    forall i, fdata (w_file w1 h) i =
      if (q_from q <=? i) && (i <? q_from q + Z.min (q_len q) (c_size c - 2 * q_from q))
      then 0 else fdata (w_file w h) i.
Proof.
  intros Hro Hcow Ht He Hsz Hq Hin Ho. pose proof Hq as (_ & _ & Hf & Hl & _).
  unfold is_u64, is_u32, inside in *.
  unfold exptrim. cbn [mreq rq_from rq_len]. rewrite Hro, Hcow, Ht, He. cbn [negb assert_].
  rewrite u64_small by (unfold is_u64; lia).
  replace (q_from q + q_len q <=? c_size c) with true by lia. cbn [assert_].
  unfold bind at 1. unfold ret at 1. unfold bind at 1. unfold ret at 1. cbn [nth_error fi_h fi_start].
  unfold mloop. change (Z.to_pos (zlen [mkFI h 0] + 1 + 1)) with 3%positive. cbn [loopP].
  unfold mstep. cbn [fst snd]. unfold trim_body. change (Z.to_nat 1) with 1%nat. cbn [nth_error fst snd].
  rewrite (i64_small (c_size c)) by lia.
  rewrite Z.sub_0_r. cbn [mreq rq_from rq_len].
  replace ((0 <=? q_from q) && (q_len q <=? c_size c)) with true by lia. cbv zeta.
  rewrite Z.sub_0_r, (i64_small (q_from q)) by lia.
  set (rl := if q_len q <? c_size c - q_from q - q_from q then q_len q else c_size c - q_from q - q_from q).
  assert (Hrl : rl = Z.min (q_len q) (c_size c - 2 * q_from q))
    by (unfold rl; destruct (q_len q <? c_size c - q_from q - q_from q) eqn:E; lia).
  assert (Hp : exists w1, punch_hole h (q_from q) rl w = Ret tt w1 /\
    (forall h', h' <> h -> w_file w1 h' = w_file w h') /\ fsize (w_file w1 h) = fsize (w_file w h) /\
    forall i, fdata (w_file w1 h) i =
      if (q_from q <=? i) && (i <? q_from q + rl) then 0 else fdata (w_file w h) i).
  { unfold punch_hole, bind, pull. specialize (Ho (w_tick w)).
    destruct (w_orc w (w_tick w)) as [|k|e] eqn:Eo; [| |destruct (Ho e); reflexivity];
    (destruct ((q_from q <? 0) || (rl <=? 0)) eqn:Eb;
     [eexists; split; [reflexivity|]; cbn [set_errno tick w_file];
      split; [auto|]; split; [reflexivity|]; intros i;
      replace ((q_from q <=? i) && (i <? q_from q + rl)) with false by lia; reflexivity
     |eexists; split; [reflexivity|]; cbn [emit set_file tick w_file]; unfold upd_file;
      split; [intros h' Hh; destruct (fref_eq_dec h' h); [contradiction|reflexivity]|];
      destruct (fref_eq_dec h h); [|contradiction]; cbn [fsize fdata]; auto]). }
  destruct Hp as (w1 & E1 & P1 & P2 & P3). rewrite Hrl in *.
  unfold bind at 1. rewrite E1.
  change (1 + 1 <? zlen [mkFI h 0]) with false. cbn [andb]. unfold ret.
  exists w1. auto.
Qed.

Lemma error_payload_swapped e msg : is_u32 e -> zlen msg < 65536 -> zlen msg mod 256 <> zlen msg / 256 ->
  error_payload (be 4 e ++ le16 (zlen msg) ++ msg) = None.
Proof.
  intros He Hl Hne. unfold error_payload. rewrite take_be4 by exact He.
  pose proof (zlen_nonneg msg) as H0.
  set (v := zlen msg mod 256 * 256 + zlen msg / 256).
  assert (Hv : take_be 2 (le16 (zlen msg) ++ msg) = Some (v, msg)).
  { unfold take_be. rewrite take_app by reflexivity. unfold unbe, le16, v. cbn [unbe_acc].
    f_equal. f_equal. rewrite (Z.mod_small (zlen msg / 256) 256) by lia. lia. }
  rewrite Hv. unfold take. destruct ((0 <=? v) && (v <=? zlen msg)) eqn:E; [|reflexivity].
  destruct (skipn (Z.to_nat v) msg) as [|x l] eqn:Es; [|reflexivity]. exfalso.
  assert (Hlen : length (skipn (Z.to_nat v) msg) = 0%nat) by (rewrite Es; reflexivity).
  rewrite skipn_length in Hlen. unfold zlen in *. unfold v in *. lia.
Qed.
