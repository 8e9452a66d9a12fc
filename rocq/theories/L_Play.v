(** Lemmas about nbd-trplay's limit and command line. *)
From Verif Require Import Base M_Const M_Acl M_Conf M_Log M_Play S_Wire S_Disk S_Par S_Acl S_Log S_Play L_Log L_Main2.

(** * The limit *)
Lemma block_loop_max bs max pw data n : forall k off len s,
  0 < bs -> (forall k, 0 < pw k) -> 0 <= off -> len = Z.of_nat n * bs -> len < 4294967296 ->
  off + len <= 9223372036854775807 -> (data = true -> len <= zlen (t_log s)) ->
  0 <= t_blocks s -> 1 <= k <= Z.of_nat n -> t_blocks s + k = max -> max <= 18446744073709551615 ->
  exists s', block_loop n bs max pw data off len s = TExit 0 s' /\ t_blocks s' = max
    /\ forall i, t_img s' i = poke (t_img s) off (stuff data (k * bs) (t_log s)) i.
Proof.
  induction n as [|n IH]; intros k off len s Hb Hp Ho Hl Hl2 Hend Hd Hb0 Hk Hbm Hmx; [cbn in Hk; lia|].
  cbn [block_loop]. assert (Hpos : bs <= len) by nia. replace (len <=? 0) with false by lia.
  set (b := stuff data bs (t_log s)). set (rest := if data then skipn (Z.to_nat bs) (t_log s) else t_log s).
  assert (E : (if data then doread bs (t_log s) else Some (repeat 0 (Z.to_nat bs), t_log s)) = Some (b, rest)).
  { unfold b, rest. destruct data; [|reflexivity]. unfold doread, stuff. specialize (Hd eq_refl).
    replace (zlen (t_log s) <? bs) with false by lia. reflexivity. }
  rewrite E. rewrite (i64_small off) by lia.
  assert (Lb : zlen b = bs) by (apply stuff_len; [lia|intros Hx; specialize (Hd Hx); lia]).
  destruct (dowriteimage_ok pw (length b) b off (mkT rest (t_img s) (t_dl s) (t_blocks s) (t_calls s)) Hp Ho ltac:(lia))
    as [s1 [E1 [E2 [E3 [E4 E5]]]]]. rewrite E1. cbn [t_log t_img t_dl t_blocks] in *.
  rewrite E4. rewrite (u64_small (t_blocks s + 1)) by (unfold is_u64; lia).
  destruct (Z.eqb_spec (t_blocks s + 1) max) as [Em|Em].
  - eexists. split; [reflexivity|]. cbn [t_blocks t_img]. split; [lia|].
    intros i. rewrite E5. unfold b. replace (k * bs) with bs by nia. reflexivity.
  - rewrite (u64_small (off + bs)) by (unfold is_u64; lia).
    replace (u32 (len - bs)) with (len - bs) by (unfold u32; rewrite Z.mod_small; lia).
    assert (Hkb : (k - 1) * bs = k * bs - bs) by lia. assert (Hkl : bs <= k * bs <= len) by nia.
    destruct (IH (k - 1) (off + bs) (len - bs) (mkT (t_log s1) (t_img s1) (t_dl s1) (t_blocks s + 1) (t_calls s1)))
      as [s' [F1 [F2 F3]]]; try assumption; cbn [t_log t_blocks]; try lia.
    { intros Hx. rewrite E2. unfold rest. rewrite Hx. specialize (Hd Hx). rewrite zlen_skip; lia. }
    exists s'. split; [exact F1|]. cbn [t_log t_dl t_blocks t_img] in *. split; [exact F2|].
    intros i. rewrite F3, Hkb.
    rewrite (poke_ext _ _ _ _ E5). rewrite E2. unfold b, rest. set (kl := k * bs) in *.
    rewrite <- (poke_split (t_img s) off (stuff data kl (t_log s)) bs i)
      by (rewrite stuff_len; [lia|lia|intros Hx; specialize (Hd Hx); lia]).
    assert (Q1 : stuff data bs (t_log s) = firstn (Z.to_nat bs) (stuff data kl (t_log s))).
    { unfold stuff. destruct data; [rewrite firstn_firstn; f_equal; lia|].
      replace (Z.to_nat kl) with (Z.to_nat bs + Z.to_nat (kl - bs))%nat by lia.
      rewrite repeat_app, firstn_app, firstn_all2 by (rewrite repeat_length; lia).
      rewrite repeat_length, Nat.sub_diag. cbn [firstn]. rewrite app_nil_r. reflexivity. }
    assert (Q2 : stuff data (kl - bs) (if data then skipn (Z.to_nat bs) (t_log s) else t_log s)
                 = skipn (Z.to_nat bs) (stuff data kl (t_log s))).
    { unfold stuff. destruct data.
      - rewrite firstn_skipn_comm. f_equal. f_equal. lia.
      - replace (Z.to_nat kl) with (Z.to_nat bs + Z.to_nat (kl - bs))%nat by lia.
        rewrite repeat_app, skipn_app, skipn_all2 by (rewrite repeat_length; lia).
        rewrite repeat_length, Nat.sub_diag. reflexivity. }
    rewrite Q1, Q2. reflexivity.
Qed.

Lemma process_max bs max pw q s rest k :
  0 < bs -> (forall k, 0 < pw k) -> replayable bs q -> t_dl s = true ->
  t_log s = (if q_cmd q =? 1 then q_data q ++ rest else rest) ->
  (q_cmd q = 1 -> zlen (q_data q) = q_len q) ->
  0 <= t_blocks s -> 1 <= k <= block_count bs q -> t_blocks s + k = max -> max <= 18446744073709551615 ->
  exists s', process_command bs max pw (q_type q) (q_from q) (q_len q) s = TExit 0 s'
    /\ t_blocks s' = max /\ forall i, t_img s' i = effect (cut bs k q) (t_img s) i.
Proof.
  intros Hb Hp [Hc [Hf [Hl [Hm1 [Hm2 He]]]]] Hdl Hlog Hdata Hb0 Hk Hbm Hmx. unfold process_command.
  rewrite Hm1, Hm2. cbn [Z.eqb negb]. rewrite land_mask.
  change (q_type q mod 65536) with (q_cmd q).
  pose proof (Z.div_mod (q_len q) bs ltac:(lia)) as Hdm.
  assert (Hq0 : 0 <= q_len q / bs) by (apply Z.div_pos; lia).
  assert (Hn : q_len q = Z.of_nat (Z.to_nat (q_len q / bs)) * bs) by nia.
  unfold block_count in Hk.
  change NBD_CMD_READ with 0. change NBD_CMD_DISC with 2. change NBD_CMD_FLUSH with 3. change NBD_CMD_WRITE with 1.
  change NBD_CMD_TRIM with 4. change NBD_CMD_WRITE_ZEROES with 6.
  assert (Cc : q_cmd (cut bs k q) = q_cmd q) by reflexivity.
  destruct (Z.eqb_spec (q_cmd q) 1) as [E1|N1].
  - cbn [orb] in Hk. rewrite E1 in *. cbn [Z.eqb Pos.eqb orb]. rewrite Hdl. cbn [negb]. specialize (Hdata eq_refl).
    destruct (block_loop_max bs max pw true (Z.to_nat (q_len q / bs)) k (q_from q) (q_len q) s)
      as [s' [F1 [F2 F3]]]; try assumption; try lia.
    { intros _. rewrite Hlog. unfold zlen in *. rewrite app_length. lia. }
    exists s'. split; [exact F1|]. split; [exact F2|]. intros i. rewrite F3. unfold effect. rewrite Cc. cbn [Z.eqb Pos.eqb].
    assert (Hkb : 0 <= k * bs <= zlen (q_data q)) by nia.
    unfold stuff. rewrite Hlog. rewrite firstn_app.
    replace (Z.to_nat (k * bs) - length (q_data q))%nat with O by (unfold zlen in Hkb; lia).
    cbn [firstn]. rewrite app_nil_r. unfold poke. rewrite zlen_first by exact Hkb.
    unfold cut. cbn [q_from q_len q_data]. unfold content. reflexivity.
  - destruct ((q_cmd q =? 4) || (q_cmd q =? 6)) eqn:Ez; [|cbn [orb] in Hk; rewrite Ez in Hk; lia].
    cbn [orb] in Hk. rewrite Ez in Hk.
    replace ((q_cmd q =? 0) || (q_cmd q =? 2) || (q_cmd q =? 3)) with false by lia. cbv iota.
    destruct (block_loop_max bs max pw false (Z.to_nat (q_len q / bs)) k (q_from q) (q_len q) s)
      as [s' [F1 [F2 F3]]]; try assumption; try lia; try discriminate.
    exists s'. split; [exact F1|]. split; [exact F2|]. intros i. rewrite F3. unfold effect. rewrite Cc.
    replace (q_cmd q =? 1) with false by lia. rewrite Ez.
    unfold poke. rewrite stuff_len by (try nia; discriminate). unfold cut. cbn [q_from q_len].
    unfold stuff. destruct (_ && _); [apply nth_repeat|reflexivity].
Qed.

Lemma play_entry_max bs max pw s b q rest k :
  0 < bs -> (forall k, 0 < pw k) -> t_dl s = true -> entry_bytes true b (GReq q) -> t_log s = b ++ rest ->
  0 <= t_blocks s -> max <= 18446744073709551615 -> replayable bs q -> 1 <= k <= block_count bs q -> t_blocks s + k = max ->
  exists s', play_round bs max pw s = TExit 0 s' /\ t_blocks s' = max /\ forall i, t_img s' i = effect (cut bs k q) (t_img s) i.
Proof.
  intros Hb Hp Hdl He Hlog Hb0 Hmx Hq Hk Hbm. unfold play_round. rewrite Hlog.
  inversion He as [t ck f n data bt bf bn L1 U1 L2 L3 U3 L4 U4 L5 bm L6 U6 Eb Eq| |]. subst b q.
  rewrite <- !app_assoc, (doread_app 4 bm _ L6), U6.
  change (0x25609513 =? NBD_REQUEST_MAGIC) with true. cbn iota.
  destruct (hdr_fields bt ck bf bn L1 L2 L3 L4) as [H0 [H1 [H2 [H3 H4]]]].
  replace (bt ++ ck ++ bf ++ bn ++ data ++ rest) with ((bt ++ ck ++ bf ++ bn) ++ data ++ rest) by (rewrite <- !app_assoc; reflexivity).
  rewrite (doread_app 24 _ _ H0), H1, H3, H4, U1, U3, U4.
  set (q := mkWreq t ck f n data) in *.
  assert (Qc : q_cmd q = t mod 65536) by reflexivity.
  destruct (process_max bs max pw q (t_rest (data ++ rest) s) rest k Hb Hp Hq Hdl) as [s' K];
    [ | |exact Hb0|exact Hk|exact Hbm|exact Hmx|].
  + cbn [t_rest t_log]. rewrite <- Qc in L5. destruct (q_cmd q =? 1); [reflexivity|].
    cbn [andb] in L5. destruct data; [reflexivity|]. unfold zlen in L5. cbn [length] in L5. lia.
  + intros Hq1. rewrite <- Qc, Hq1 in L5. cbn [andb Z.eqb Pos.eqb] in L5. exact L5.
  + exists s'. exact K.
Qed.

Lemma play_loop_max bs max pw fuel : forall lf s ents k,
  0 < bs -> (forall k, 0 < pw k) -> t_dl s = true -> parse_log lf true (t_log s) = Some ents ->
  Forall (replayable bs) (log_requests ents) -> simple_only ents ->
  0 <= t_blocks s -> 1 <= k <= blocks_in bs (log_requests ents) -> t_blocks s + k = max -> max <= 18446744073709551615 ->
  (length (t_log s) < fuel)%nat ->
  exists s', play_loop fuel bs max pw s = TExit 0 s' /\ t_blocks s' = max
    /\ forall i, t_img s' i = effects (upto bs k (log_requests ents)) (t_img s) i.
Proof.
  induction fuel as [|fuel IH]; intros lf s ents k Hb Hp Hdl Hlog Hq Hs Hb0 Hk Hbm Hmx Hf; [lia|].
  destruct (parse_log_cons _ _ _ _ Hlog) as [[E1 ->]|[f' [b [e [r [ents' [_ [Es [He [Hr ->]]]]]]]]]].
  - cbn [log_requests blocks_in] in Hk. lia.
  - pose proof (play_entry bs max pw s b e r Hb Hp Hdl He Es Hb0 Hmx) as P.
    assert (Lb : (0 < length b)%nat).
    { destruct He; rewrite app_length; unfold zlen in *; lia. }
    assert (Lr : (length r < fuel)%nat) by (rewrite Es, app_length in Hf; lia).
    assert (Hs' : simple_only ents') by (intros ck h Hin; apply (Hs ck h); right; exact Hin).
    destruct e as [q|ck [x|fl ty n]]; cbn [log_requests blocks_in upto] in *.
    + inversion Hq as [|q' l' Hq1 Hq2]; subst q' l'.
      pose proof (block_count_pos bs q Hb Hq1). pose proof (blocks_in_pos bs _ Hb Hq2).
      destruct (Z.leb_spec k (block_count bs q)) as [Kl|Kl].
      * destruct (play_entry_max bs max pw s b q r k Hb Hp Hdl He Es Hb0 Hmx Hq1 ltac:(lia) Hbm) as [s1 [E1 [E2 E3]]].
        exists s1. cbn [play_loop]. rewrite E1. split; [reflexivity|]. split; [exact E2|exact E3].
      * destruct (P Hq1 ltac:(lia)) as [s1 [E1 [E2 [E3 [E4 E5]]]]].
        rewrite <- E2 in Hr, Lr.
        destruct (IH f' s1 ents' (k - block_count bs q) Hb Hp E3 Hr Hq2 Hs' ltac:(lia) ltac:(lia) ltac:(lia) Hmx Lr) as [s' [F1 [F2 F3]]].
        exists s'. cbn [play_loop]. rewrite E1. split; [exact F1|]. split; [exact F2|].
        intros i. rewrite F3. unfold effects. cbn [fold_left]. apply effects_ext. exact E5.
    + destruct P as [s1 [E1 [E2 [E3 [E4 E5]]]]]. rewrite <- E2 in Hr, Lr.
      destruct (IH f' s1 ents' k Hb Hp E3 Hr Hq Hs' ltac:(lia) Hk ltac:(lia) Hmx Lr) as [s' [F1 [F2 F3]]].
      exists s'. cbn [play_loop]. rewrite E1. split; [exact F1|]. split; [exact F2|].
      intros i. rewrite F3. apply effects_ext. exact E5.
    + destruct (Hs ck (HChunk fl ty n) (or_introl eq_refl)) as [y Hy]. discriminate.
Qed.

Lemma trplay_max bs max pw log ents img lf :
  0 < bs -> (forall k, 0 < pw k) -> parse_log lf true log = Some ents ->
  Forall (replayable bs) (log_requests ents) -> simple_only ents ->
  1 <= max <= blocks_in bs (log_requests ents) -> max <= 18446744073709551615 ->
  exists s', trplay bs max pw (datalog_mark ++ log) img = TExit 0 s' /\ t_blocks s' = max
    /\ forall i, t_img s' i = effects (upto bs max (log_requests ents)) img i.
Proof.
  intros Hb Hp Hl Hq Hs Hk Hmx. unfold trplay. cbn [play_loop]. rewrite mark_round.
  apply (play_loop_max bs max pw _ lf (mkT log img true 0 0%nat) ents max); cbn [t_dl t_log t_blocks]; try assumption; try lia; try reflexivity.
  rewrite app_length. cbn [length]. change (length datalog_mark) with 28%nat. lia.
Qed.

(** * Any log *)
Lemma at_most_refl bs img : at_most bs 0 img img.
Proof. exists []. split; [reflexivity|]. intros i H. congruence. Qed.
Lemma at_most_more bs n m a b : n <= m -> at_most bs n a b -> at_most bs m a b.
Proof. intros H (l & H1 & H2). exists l. split; [lia|exact H2]. Qed.
Lemma at_most_step bs n a b c o : at_most bs n a b -> (forall i, c i <> b i -> o <= i < o + bs) -> at_most bs (n + 1) a c.
Proof.
  intros (l & H1 & H2) H. exists (o :: l). split; [unfold zlen in *; cbn [length]; lia|].
  intros i Hi. destruct (Z.eq_dec (c i) (b i)) as [E|N].
  - destruct (H2 i ltac:(congruence)) as (o' & Ho & Hr). exists o'. split; [right; exact Ho|exact Hr].
  - exists o. split; [left; reflexivity|]. apply H. exact N.
Qed.

(** writing a buffer changes bytes inside its place only, and ends *)
Lemma dowrite_any pw fuel : forall buf off s, (length buf <= fuel)%nat ->
  match dowriteimage fuel pw buf off s with
  | TGo s' => t_log s' = t_log s /\ t_blocks s' = t_blocks s /\ forall i, t_img s' i <> t_img s i -> off <= i < off + zlen buf
  | TExit c s' => (c = 0 \/ c = 1) /\ t_blocks s' = t_blocks s /\ forall i, t_img s' i <> t_img s i -> off <= i < off + zlen buf
  | TStuck => False
  end.
Proof.
  induction fuel as [|fuel IH]; intros buf off s Hl.
  - destruct buf; [|cbn [length] in Hl; lia]. cbn. repeat split; congruence.
  - cbn [dowriteimage]. destruct (zlen buf <=? 0) eqn:E; [split; [reflexivity|split; [reflexivity|congruence]]|]. cbv zeta.
    set (res := if off <? 0 then -1 else _). assert (Hr : res <= zlen buf) by (unfold res; destruct (off <? 0); lia).
    destruct (Z.leb_spec res 0) as [R|R].
    + destruct (res =? 0); (split; [auto|]); (split; [reflexivity|congruence]).
    + specialize (IH (skipn (Z.to_nat res) buf) (off + res)
        (mkT (t_log s) (poke (t_img s) off (firstn (Z.to_nat res) buf)) (t_dl s) (t_blocks s) (S (t_calls s)))).
      rewrite zlen_skip in IH by lia. cbn [t_log t_blocks t_img] in IH.
      assert (Hin : forall s', (forall i, t_img s' i <> poke (t_img s) off (firstn (Z.to_nat res) buf) i -> off + res <= i < off + res + (zlen buf - res)) ->
                forall i, t_img s' i <> t_img s i -> off <= i < off + zlen buf).
      { intros s' H i Hi. unfold poke in H. rewrite zlen_first in H by lia. specialize (H i).
        destruct ((off <=? i) && (i <? off + res)) eqn:Ei; [lia|]. specialize (H Hi). lia. }
      destruct (dowriteimage fuel pw _ _ _) as [s'|c s'|].
      * destruct IH as (I1 & I2 & I3); [rewrite skipn_length; unfold zlen in *; lia|].
        split; [exact I1|]. split; [exact I2|]. apply Hin. exact I3.
      * destruct IH as (I1 & I2 & I3); [rewrite skipn_length; unfold zlen in *; lia|].
        split; [exact I1|]. split; [exact I2|]. apply Hin. exact I3.
      * apply IH. rewrite skipn_length. unfold zlen in *. lia.
Qed.

Definition held (bs max : Z) (img : Z -> Z) (s : tstate) : Prop :=
  Forall is_byte (t_log s) /\ 0 <= t_blocks s < max /\ at_most bs (t_blocks s) img (t_img s).
Definition ended (bs max : Z) (img : Z -> Z) (c : Z) (s : tstate) : Prop :=
  (c = 0 \/ c = 1) /\ at_most bs max img (t_img s).
Definition fine (bs max : Z) (img : Z -> Z) (n : nat) (o : tout) : Prop :=
  match o with
  | TGo s => held bs max img s /\ (length (t_log s) <= n)%nat
  | TExit c s => ended bs max img c s
  | TStuck => False
  end.
Lemma held_ended bs max img c s : (c = 0 \/ c = 1) -> held bs max img s -> ended bs max img c s.
Proof. intros Hc (H1 & H2 & H3). split; [exact Hc|]. apply (at_most_more _ (t_blocks s)); [lia|exact H3]. Qed.
Lemma fine_le bs max img n m o : (n <= m)%nat -> fine bs max img n o -> fine bs max img m o.
Proof. intros H. destruct o; cbn [fine]; [|auto|auto]. intros [H1 H2]. split; [exact H1|lia]. Qed.
Lemma skipn_bytes n l : Forall is_byte l -> Forall is_byte (skipn n l).
Proof. revert l. induction n as [|n IH]; intros l H; [exact H|]. destruct l; [exact H|]. inversion H; subst. cbn. apply IH. assumption. Qed.
Lemma firstn_bytes n l : Forall is_byte l -> Forall is_byte (firstn n l).
Proof. revert l. induction n as [|n IH]; intros l H; [constructor|]. destruct l; [exact H|]. inversion H; subst. cbn. constructor; auto. Qed.

Lemma block_loop_any bs max pw img data n : forall off len s,
  0 < bs -> len = Z.of_nat n * bs -> 0 <= len < 4294967296 -> 1 <= max <= 18446744073709551615 -> held bs max img s ->
  fine bs max img (length (t_log s)) (block_loop n bs max pw data off len s).
Proof.
  induction n as [|n IH]; intros off len s Hb Hl Hlen Hm Hh.
  - assert (len = 0) by lia. subst len. cbn [block_loop]. change (0 <=? 0) with true. split; [exact Hh|lia].
  - cbn [block_loop]. assert (Hpos : bs <= len) by nia. replace (len <=? 0) with false by lia.
    destruct Hh as (Hby & Hbl & Ham).
    assert (Hd : match (if data then doread bs (t_log s) else Some (repeat 0 (Z.to_nat bs), t_log s)) with
      | None => True | Some (b, rest) => zlen b = bs /\ Forall is_byte rest /\ (length rest <= length (t_log s))%nat end).
    { destruct data.
      - unfold doread. destruct (Z.ltb_spec (zlen (t_log s)) bs); [exact I|]. split; [apply zlen_first; lia|].
        split; [apply skipn_bytes; exact Hby|rewrite skipn_length; lia].
      - split; [unfold zlen; rewrite repeat_length; lia|]. split; [exact Hby|lia]. }
    destruct (if data then doread bs (t_log s) else Some (repeat 0 (Z.to_nat bs), t_log s)) as [[b rest]|].
    2:{ apply held_ended; [auto|]. repeat split; try assumption; lia. }
    destruct Hd as (Lb & Rb & Rl).
    pose proof (dowrite_any pw (length b) b (i64 off) (mkT rest (t_img s) (t_dl s) (t_blocks s) (t_calls s)) ltac:(lia)) as D.
    destruct (dowriteimage (length b) pw b (i64 off) _) as [s1|c s1|]; [| |contradiction]; cbn [t_log t_blocks t_img] in D.
    + destruct D as (D1 & D2 & D3). rewrite Lb in D3. cbv zeta. cbn [t_blocks].
      rewrite D2. rewrite (u64_small (t_blocks s + 1)) by (unfold is_u64; lia).
      pose proof (at_most_step _ _ _ _ _ _ Ham D3) as Ham'.
      destruct (Z.eqb_spec (t_blocks s + 1) max) as [Em|Em].
      * split; [auto|]. cbn [t_img]. rewrite <- Em. exact Ham'.
      * replace (u32 (len - bs)) with (len - bs) by (unfold u32; rewrite Z.mod_small; lia).
        specialize (IH (u64 (off + bs)) (len - bs) (mkT (t_log s1) (t_img s1) (t_dl s1) (t_blocks s + 1) (t_calls s1)) Hb ltac:(lia) ltac:(lia) Hm).
        assert (Hh' : held bs max img (mkT (t_log s1) (t_img s1) (t_dl s1) (t_blocks s + 1) (t_calls s1))).
        { split; cbn [t_log t_blocks t_img]; [rewrite D1; exact Rb|]. split; [lia|exact Ham']. }
        specialize (IH Hh'). cbn [t_log] in IH.
        apply (fine_le _ _ _ (length (t_log s1))); [rewrite D1; exact Rl|exact IH].
    + destruct D as (D1 & D2 & D3). rewrite Lb in D3. split; [exact D1|].
      apply (at_most_more _ (t_blocks s + 1)); [lia|]. exact (at_most_step _ _ _ _ _ _ Ham D3).
Qed.

Lemma process_any bs max pw img command off len s :
  0 < bs -> 0 <= len < 4294967296 -> 1 <= max <= 18446744073709551615 -> held bs max img s ->
  fine bs max img (length (t_log s)) (process_command bs max pw command off len s).
Proof.
  intros Hb Hl Hm Hh. unfold process_command.
  destruct (negb (off mod bs =? 0)); [apply held_ended; auto|].
  destruct (Z.eqb_spec (len mod bs) 0) as [M|M]; cbn [negb]; [|apply held_ended; auto].
  pose proof (Z.div_mod len bs ltac:(lia)) as Hdm.
  assert (Hq0 : 0 <= len / bs) by (apply Z.div_pos; lia).
  assert (Hn : len = Z.of_nat (Z.to_nat (len / bs)) * bs) by nia. cbv zeta.
  destruct (_ || _); [split; [exact Hh|lia]|].
  destruct (_ =? NBD_CMD_WRITE).
  - destruct (negb (t_dl s)); [apply held_ended; auto|]. apply block_loop_any; assumption.
  - destruct (_ || _); [apply block_loop_any; assumption|apply held_ended; auto].
Qed.
Lemma doread_any n l b r : 0 <= n -> Forall is_byte l -> doread n l = Some (b, r) ->
  zlen b = n /\ Forall is_byte b /\ Forall is_byte r /\ Z.of_nat (length r) = zlen l - n.
Proof.
  intros Hn Hl. unfold doread. destruct (Z.ltb_spec (zlen l) n); [discriminate|]. intros [= <- <-].
  split; [apply zlen_first; lia|]. split; [apply firstn_bytes; exact Hl|]. split; [apply skipn_bytes; exact Hl|].
  rewrite skipn_length. unfold zlen in *. lia.
Qed.

Lemma round_any bs max pw img s :
  0 < bs -> 1 <= max <= 18446744073709551615 -> held bs max img s ->
  match play_round bs max pw s with
  | TGo s' => held bs max img s' /\ (length (t_log s') < length (t_log s))%nat
  | TExit c s' => ended bs max img c s'
  | TStuck => False
  end.
Proof.
  intros Hb Hm Hh. pose proof Hh as (Hby & Hbl & Ham). unfold play_round.
  destruct (doread 4 (t_log s)) as [[m r]|] eqn:E; [|apply held_ended; auto].
  destruct (doread_any 4 _ _ _ ltac:(lia) Hby E) as (_ & _ & Rb & Rl). cbv zeta.
  assert (Rest : forall n r', 0 <= n -> forall h, doread n r = Some (h, r') -> forall dl,
    held bs max img (mkT r' (t_img s) dl (t_blocks s) (t_calls s)) /\ (length r' < length (t_log s))%nat).
  { intros n r' Hn h H dl. destruct (doread_any _ _ _ _ Hn Rb H) as (_ & _ & Rb' & Rl').
    split; [split; [exact Rb'|split; [exact Hbl|exact Ham]]|unfold zlen in *; lia]. }
  destruct (unbe m =? NBD_REQUEST_MAGIC).
  - destruct (doread 24 r) as [[h r']|] eqn:E2; [|apply held_ended; auto].
    destruct (Rest 24 r' ltac:(lia) h E2 (t_dl s)) as [Hh' Hl'].
    destruct (doread_any 24 _ _ _ ltac:(lia) Rb E2) as (Lh & Bh & _ & _).
    assert (Hlen : 0 <= unbe (skipn 20 h) < 4294967296).
    { pose proof (unbe_range (skipn 20 h) (skipn_bytes 20 h Bh)) as U. rewrite skipn_length in U.
      replace (length h - 20)%nat with 4%nat in U by (unfold zlen in Lh; lia). exact U. }
    pose proof (process_any bs max pw img (unbe (firstn 4 h)) (unbe (firstn 8 (skipn 12 h))) (unbe (skipn 20 h)) (t_rest r' s)
      Hb Hlen Hm Hh') as P. cbn [t_rest t_log] in P.
    destruct (process_command _ _ _ _ _ _ _) as [s'|c s'|]; [|exact P|exact P]. destruct P as [P1 P2]. split; [exact P1|lia].
  - destruct (unbe m =? NBD_REPLY_MAGIC).
    + destruct (doread 12 r) as [[h r']|] eqn:E2; [|apply held_ended; auto].
      exact (Rest 12 r' ltac:(lia) h E2 (t_dl s)).
    + destruct (unbe m =? NBD_TRACELOG_MAGIC); [|apply held_ended; auto].
      destruct (doread 24 r) as [[h r']|] eqn:E2; [|apply held_ended; auto].
      destruct (_ && _); exact (Rest 24 r' ltac:(lia) h E2 _).
Qed.
Lemma loop_any bs max pw img fuel : forall s,
  0 < bs -> 1 <= max <= 18446744073709551615 -> held bs max img s -> (length (t_log s) < fuel)%nat ->
  exists c s', play_loop fuel bs max pw s = TExit c s' /\ ended bs max img c s'.
Proof.
  induction fuel as [|fuel IH]; intros s Hb Hm Hh Hf; [lia|]. cbn [play_loop].
  pose proof (round_any bs max pw img s Hb Hm Hh) as R. destruct (play_round bs max pw s) as [s'|c s'|]; [| |contradiction].
  - destruct R as [R1 R2]. apply IH; try assumption. lia.
  - exists c, s'. split; [reflexivity|exact R].
Qed.
Lemma trplay_any bs max pw log img :
  0 < bs -> 1 <= max <= 18446744073709551615 -> Forall is_byte log ->
  exists c s', trplay bs max pw log img = TExit c s' /\ (c = 0 \/ c = 1) /\ at_most bs max img (t_img s').
Proof.
  intros Hb Hm Hl. apply (loop_any bs max pw img (S (length log)) (mkT log img false 0 0%nat) Hb Hm); [|cbn [t_log]; lia].
  split; [exact Hl|]. cbn [t_blocks t_img]. split; [lia|apply at_most_refl].
Qed.

(** * The command line *)
Lemma digits_base10 s : forall acc, Forall (fun c => 48 <= c <= 57) s -> digits_base 10 s acc = digits s acc.
Proof.
  induction s as [|c t IH]; intros acc H; [reflexivity|]. inversion H; subst. cbn [digits_base digits].
  unfold xdigit. assert (D : isdigit c = true) by (unfold isdigit; lia). rewrite D.
  replace (c - 48 <? 10) with true by lia. apply IH. assumption.
Qed.
Lemma dec_first f : forall n, 0 < n < 10 ^ Z.of_nat f -> exists c t, dec f n = c :: t /\ 49 <= c <= 57.
Proof.
  induction f as [|f IH]; intros n Hn; [cbn in Hn; lia|]. cbn [dec]. destruct (Z.ltb_spec n 10).
  - exists (48 + n), []. split; [reflexivity|lia].
  - assert (Hq : 0 < n / 10 < 10 ^ Z.of_nat f).
    { split; [apply Z.div_str_pos; lia|]. apply Z.div_lt_upper_bound; [lia|].
      rewrite Nat2Z.inj_succ, Z.pow_succ_r in Hn by lia. lia. }
    destruct (IH _ Hq) as (c & t & E & Hc). exists c, (t ++ [48 + n mod 10]). rewrite E. split; [reflexivity|exact Hc].
Qed.
Lemma strtoull0_dec n : 0 < n < 10 ^ 20 -> strtoull0 (decimal n) = Z.min n 18446744073709551615.
Proof.
  intros H. destruct (dec_first 20 n H) as (c & t & E & Hc).
  pose proof (digits_decimal n [] ltac:(lia) I) as D. rewrite app_nil_r in D.
  pose proof (dec_digits 20 n ltac:(lia)) as F.
  unfold decimal in *. rewrite E in *. unfold strtoull0. rewrite skip_digit by lia.
  assert (M : (match c :: t with 45 :: t => (true, t) | 43 :: t => (false, t) | _ => (false, c :: t) end) = (false, c :: t)).
  { assert (forall k, c <> Z.neg k) by (intros; lia). destruct c as [|p|p]; [reflexivity| |exfalso; apply (H0 p); reflexivity].
    do 6 (destruct p as [p|p|]; try reflexivity; try lia). }
  rewrite M. clear M.
  assert (M : match c :: t with
     | 48 :: 120 :: t | 48 :: 88 :: t => digits_base 16 t 0
     | 48 :: t => digits_base 8 t 0
     | _ => digits_base 10 (c :: t) 0 end = digits_base 10 (c :: t) 0).
  { assert (forall k, c <> Z.neg k) by (intros; lia). destruct c as [|p|p]; [reflexivity| |exfalso; apply (H0 p); reflexivity].
    do 6 (destruct p as [p|p|]; try reflexivity; try lia). }
  cbv zeta. rewrite M, digits_base10, D by exact F.
  destruct (Z.ltb_spec 18446744073709551615 n); lia.
Qed.

(** an option as written *)
Definition spell (a : ask) : popt :=
  match a with
  | AVerbose => PV
  | ABlock b => PB (decimal b)
  | AMax n => PM (decimal n)
  | AImage f => PI f
  | ALog f => PL f
  end.
Definition has {A} (o : option A) : bool := match o with Some _ => true | None => false end.
Definition can (fs : pfiles) (a : ask) : bool := ask_ok (fun f => has (pf_img fs f)) (fun f => has (pf_log fs f)) a.
Definition asked (l : list ask) (p : pset) : pset :=
  mkP (latest block_of l (p_bs p)) (latest max_of l (p_max p)) (latest image_of l (p_img p)) (latest log_of l (p_log p)).

Lemma popts_ok fs l : forall rest p, Forall (fun a => can fs a = true) l ->
  popts fs (map spell l ++ rest) p = popts fs rest (asked l p).
Proof.
  induction l as [|a t IH]; intros rest p H; [destruct p; reflexivity|]. inversion H as [|x y Ha Ht]; subst.
  cbn [map app]. destruct a as [|b|n|f|f]; cbn [spell popts]; unfold can in Ha; cbn [ask_ok] in Ha.
  - rewrite IH by exact Ht. reflexivity.
  - apply andb_true_iff in Ha. rewrite !Z.leb_le in Ha. rewrite strtoull0_dec by lia. rewrite Z.min_l by lia. cbv zeta.
    unfold TRBUFSIZE. replace (b =? 0) with false by lia. replace (131072 <? b) with false by lia.
    rewrite IH by exact Ht. reflexivity.
  - apply andb_true_iff in Ha. rewrite !Z.leb_le in Ha. rewrite strtoull0_dec by lia. rewrite Z.min_l by lia. cbv zeta.
    replace (n =? 0) with false by lia. rewrite IH by exact Ht. reflexivity.
  - destruct (pf_img fs f); [|discriminate Ha]. rewrite IH by exact Ht. reflexivity.
  - destruct (pf_log fs f); [|discriminate Ha]. rewrite IH by exact Ht. reflexivity.
Qed.
Lemma popts_bad fs a rest p : ask_num a -> can fs a = false -> popts fs (spell a :: rest) p = inr 1.
Proof.
  intros Hn Ha. unfold can in Ha. destruct a as [|b|n|f|f]; cbn [spell popts ask_ok ask_num] in *; [discriminate| | | |].
  - destruct (Z.eq_dec b 0) as [->|N]; [reflexivity|]. rewrite strtoull0_dec by lia. cbv zeta. unfold TRBUFSIZE.
    replace (Z.min b 18446744073709551615 =? 0) with false by lia.
    replace (131072 <? Z.min b 18446744073709551615) with true by lia. reflexivity.
  - assert (n = 0) by lia. subst n. reflexivity.
  - destruct (pf_img fs f); [discriminate Ha|reflexivity].
  - destruct (pf_log fs f); [discriminate Ha|reflexivity].
Qed.

Lemma u64_range x : 0 <= u64 x <= 18446744073709551615.
Proof. unfold u64. pose proof (Z.mod_pos_bound x 18446744073709551616 ltac:(lia)). lia. Qed.
Lemma digits_base_nonneg b s : 0 < b -> forall acc, 0 <= acc -> 0 <= digits_base b s acc.
Proof.
  intros Hb. induction s as [|c t IH]; intros acc Ha; cbn [digits_base]; [exact Ha|].
  destruct (xdigit c) as [d|] eqn:E; [|exact Ha]. destruct (d <? b); [|exact Ha]. apply IH.
  assert (0 <= d). { unfold xdigit, isdigit in E. repeat match type of E with (if ?x then _ else _) = _ => destruct x eqn:? end; try discriminate; injection E as <-; lia. }
  nia.
Qed.
Lemma strtoull0_range s : 0 <= strtoull0 s <= 18446744073709551615.
Proof.
  unfold strtoull0. cbv zeta. destruct (match skip_space s with 45 :: t => (true, t) | 43 :: t => (false, t) | _ => (false, skip_space s) end) as [neg s'].
  set (v := match s' with 48 :: 120 :: t | 48 :: 88 :: t => digits_base 16 t 0 | 48 :: t => digits_base 8 t 0 | _ => digits_base 10 s' 0 end).
  assert (Hv : 0 <= v).
  { unfold v. repeat match goal with |- 0 <= match ?x with _ => _ end => destruct x end; apply digits_base_nonneg; lia. }
  destruct (Z.ltb_spec 18446744073709551615 v); [lia|]. destruct neg; [apply u64_range|lia].
Qed.
Lemma popts_range fs os : forall p p', popts fs os p = inl p' ->
  1 <= p_bs p <= 131072 -> 1 <= p_max p <= 18446744073709551615 ->
  (forall f, p_img p = Some f -> pf_img fs f <> None) -> (forall f, p_log p = Some f -> pf_log fs f <> None) ->
  1 <= p_bs p' <= 131072 /\ 1 <= p_max p' <= 18446744073709551615 /\
  (forall f, p_img p' = Some f -> pf_img fs f <> None) /\ (forall f, p_log p' = Some f -> pf_log fs f <> None).
Proof.
  induction os as [|o t IH]; intros p p' H H1 H2 H3 H4; cbn [popts] in H.
  - injection H as <-. auto.
  - destruct o as [| |s|s|f|f].
    + exact (IH _ _ H H1 H2 H3 H4).
    + discriminate.
    + cbv zeta in H. pose proof (strtoull0_range s). destruct (Z.eqb_spec (strtoull0 s) 0); [discriminate|].
      apply (IH _ _ H); cbn [p_bs p_max p_img p_log]; auto. lia.
    + cbv zeta in H. pose proof (strtoull0_range s). destruct (Z.eqb_spec (strtoull0 s) 0); [discriminate|].
      unfold TRBUFSIZE in H. destruct (Z.ltb_spec 131072 (strtoull0 s)); [discriminate|].
      apply (IH _ _ H); cbn [p_bs p_max p_img p_log]; auto. lia.
    + destruct (pf_img fs f) eqn:E; [|discriminate]. apply (IH _ _ H); cbn [p_bs p_max p_img p_log]; auto.
      intros g [= <-]. congruence.
    + destruct (pf_log fs f) eqn:E; [|discriminate]. apply (IH _ _ H); cbn [p_bs p_max p_img p_log]; auto.
      intros g [= <-]. congruence.
Qed.

Lemma main_any fs pw os :
  (forall f log, pf_log fs f = Some log -> Forall is_byte log) ->
  exists code r, trplay_main fs pw os = PEnd code r /\ (code = 0 \/ code = 1) /\
    match r with
    | None => True
    | Some (f, img') => exists bs max img, 1 <= bs <= 131072 /\ 1 <= max <= 18446744073709551615 /\
        pf_img fs f = Some img /\ at_most bs max img img'
    end.
Proof.
  intros Hb. unfold trplay_main. destruct (popts fs os pset0) as [p|code] eqn:E.
  - pose proof (popts_range fs os pset0 p E ltac:(cbn; lia) ltac:(cbn; lia) ltac:(cbn; discriminate) ltac:(cbn; discriminate)) as (R1 & R2 & R3 & R4).
    destruct (p_log p) as [l|]; [|exists 1, None; auto]. destruct (p_img p) as [i|]; [|exists 1, None; auto].
    specialize (R3 i eq_refl). specialize (R4 l eq_refl). destruct (pf_log fs l) as [log|] eqn:El; [|contradiction].
    destruct (pf_img fs i) as [img|] eqn:Ei; [|contradiction].
    destruct (trplay_any (p_bs p) (p_max p) pw log img ltac:(lia) ltac:(lia) (Hb _ _ El)) as (c & s' & T1 & T2 & T3).
    rewrite T1. exists c, (Some (i, t_img s')). split; [reflexivity|]. split; [exact T2|].
    exists (p_bs p), (p_max p), img. auto.
  - exists code, None. split; [reflexivity|]. split; [|exact I]. clear Hb. revert E. generalize pset0.
    induction os as [|o t IH]; intros p E; cbn [popts] in E; [discriminate|].
    destruct o; cbv zeta in E; repeat match type of E with (if ?x then _ else _) = _ => destruct x | match ?x with _ => _ end = _ => destruct x end;
      try (injection E as <-; auto); eauto.
Qed.
