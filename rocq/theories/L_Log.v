(** Lemmas about the log tools. *)
From Verif Require Import Base M_Const M_Log S_Wire S_Disk S_Par S_Log.

Lemma zlen_skip n (l : list Z) : 0 <= n <= zlen l -> zlen (skipn (Z.to_nat n) l) = zlen l - n.
Proof. intros H. unfold zlen in *. rewrite skipn_length. lia. Qed.
Lemma zlen_first n (l : list Z) : 0 <= n <= zlen l -> zlen (firstn (Z.to_nat n) l) = n.
Proof. intros H. unfold zlen in *. rewrite firstn_length. lia. Qed.
Lemma skip_skip n m (l : list Z) : skipn n (skipn m l) = skipn (m + n) l.
Proof. revert l. induction m as [|m IH]; intros l; [reflexivity|]. destruct l; [destruct n; reflexivity|]. cbn. apply IH. Qed.
Lemma zlen_pos (l : list Z) : 0 <= zlen l.
Proof. unfold zlen. lia. Qed.

Lemma poke_split img off b n i : 0 <= n <= zlen b ->
  poke (poke img off (firstn (Z.to_nat n) b)) (off + n) (skipn (Z.to_nat n) b) i = poke img off b i.
Proof.
  intros H. unfold poke. rewrite zlen_first, zlen_skip by exact H.
  destruct ((off + n <=? i) && (i <? off + n + (zlen b - n))) eqn:E1.
  - replace ((off <=? i) && (i <? off + zlen b)) with true by lia.
    rewrite <- (firstn_skipn (Z.to_nat n) b) at 2. rewrite app_nth2; rewrite firstn_length; unfold zlen in *; [|lia].
    f_equal. lia.
  - destruct ((off <=? i) && (i <? off + n)) eqn:E2.
    + replace ((off <=? i) && (i <? off + zlen b)) with true by lia.
      rewrite <- (firstn_skipn (Z.to_nat n) b) at 2. rewrite app_nth1; [reflexivity|].
      rewrite firstn_length. unfold zlen in *. lia.
    + replace ((off <=? i) && (i <? off + zlen b)) with false by lia. reflexivity.
Qed.

Lemma poke_ext img img' off b : (forall i, img i = img' i) -> forall i, poke img off b i = poke img' off b i.
Proof. intros H i. unfold poke. rewrite H. reflexivity. Qed.

Lemma dowriteimage_ok pw fuel : forall buf off s,
  (forall k, 0 < pw k) -> 0 <= off -> (length buf <= fuel)%nat ->
  exists s', dowriteimage fuel pw buf off s = TGo s' /\ t_log s' = t_log s /\ t_dl s' = t_dl s
    /\ t_blocks s' = t_blocks s /\ forall i, t_img s' i = poke (t_img s) off buf i.
Proof.
  induction fuel as [|fuel IH]; intros buf off s Hp Ho Hl.
  - destruct buf; [|cbn [length] in Hl; lia]. cbn [dowriteimage]. cbn.
    exists s. repeat split. intros i. unfold poke. change (zlen []) with 0.
    replace ((off <=? i) && (i <? off + 0)) with false by lia. reflexivity.
  - cbn [dowriteimage]. destruct (zlen buf <=? 0) eqn:E.
    + exists s. repeat split. intros i. unfold poke. pose proof (zlen_pos buf).
      replace ((off <=? i) && (i <? off + zlen buf)) with false by lia. reflexivity.
    + replace (off <? 0) with false by lia. cbv zeta. specialize (Hp (t_calls s)) as Hp1.
      set (res := Z.min (pw (t_calls s)) (zlen buf)). assert (Hr : 0 < res <= zlen buf) by lia.
      replace (res <=? 0) with false by lia.
      destruct (IH (skipn (Z.to_nat res) buf) (off + res)
        (mkT (t_log s) (poke (t_img s) off (firstn (Z.to_nat res) buf)) (t_dl s) (t_blocks s) (S (t_calls s))) Hp ltac:(lia))
        as [s' [E1 [E2 [E3 [E4 E5]]]]].
      { rewrite skipn_length. unfold zlen in *. lia. }
      exists s'. split; [exact E1|]. split; [exact E2|]. split; [exact E3|]. split; [exact E4|].
      intros i. rewrite E5. cbn [t_img]. apply poke_split. lia.
Qed.

(* what the block loop stores *)
Definition stuff (data : bool) (len : Z) (log : list Z) : list Z :=
  if data then firstn (Z.to_nat len) log else repeat 0 (Z.to_nat len).

Lemma stuff_len data len log : 0 <= len -> (data = true -> len <= zlen log) -> zlen (stuff data len log) = len.
Proof.
  intros H1 H2. destruct data; unfold stuff; [apply zlen_first; auto|]. unfold zlen. rewrite repeat_length. lia.
Qed.

Lemma block_loop_ok bs max pw data n : forall off len s,
  0 < bs -> (forall k, 0 < pw k) -> 0 <= off -> len = Z.of_nat n * bs -> len < 4294967296 ->
  off + len <= 9223372036854775807 -> (data = true -> len <= zlen (t_log s)) ->
  0 <= t_blocks s -> t_blocks s + Z.of_nat n < max -> max <= 18446744073709551615 ->
  exists s', block_loop n bs max pw data off len s = TGo s'
    /\ t_log s' = (if data then skipn (Z.to_nat len) (t_log s) else t_log s) /\ t_dl s' = t_dl s
    /\ t_blocks s' = t_blocks s + Z.of_nat n
    /\ forall i, t_img s' i = poke (t_img s) off (stuff data len (t_log s)) i.
Proof.
  induction n as [|n IH]; intros off len s Hb Hp Ho Hl Hl2 Hend Hd Hb0 Hbm Hmx.
  - assert (Hz : len = 0) by lia. clear Hl. subst len. exists s. cbn [block_loop]. change (0 <=? 0) with true.
    split; [reflexivity|]. split; [destruct data; reflexivity|]. split; [reflexivity|]. split; [cbn; lia|].
    intros i. unfold poke. rewrite stuff_len by (auto; lia). replace ((off <=? i) && (i <? off + 0)) with false by lia. reflexivity.
  - cbn [block_loop]. assert (Hpos : bs <= len) by nia. replace (len <=? 0) with false by lia.
    set (b := stuff data bs (t_log s)). set (rest := if data then skipn (Z.to_nat bs) (t_log s) else t_log s).
    assert (E : (if data then doread bs (t_log s) else Some (repeat 0 (Z.to_nat bs), t_log s)) = Some (b, rest)).
    { unfold b, rest. destruct data; [|reflexivity]. unfold doread, stuff. specialize (Hd eq_refl).
      replace (zlen (t_log s) <? bs) with false by lia. reflexivity. }
    rewrite E. rewrite (i64_small off) by lia.
    assert (Lb : zlen b = bs) by (apply stuff_len; [lia|intros Hx; specialize (Hd Hx); lia]).
    destruct (dowriteimage_ok pw (length b) b off (mkT rest (t_img s) (t_dl s) (t_blocks s) (t_calls s)) Hp Ho ltac:(lia))
      as [s1 [E1 [E2 [E3 [E4 E5]]]]]. rewrite E1. cbn [t_log t_img t_dl t_blocks] in *.
    rewrite E4. rewrite (u64_small (t_blocks s + 1)) by (unfold is_u64; lia).
    replace (t_blocks s + 1 =? max) with false by lia.
    rewrite (u64_small (off + bs)) by (unfold is_u64; lia).
    replace (u32 (len - bs)) with (len - bs) by (unfold u32; rewrite Z.mod_small; lia).
    destruct (IH (off + bs) (len - bs) (mkT (t_log s1) (t_img s1) (t_dl s1) (t_blocks s + 1) (t_calls s1)))
      as [s' [F1 [F2 [F3 [F4 F5]]]]]; try assumption; cbn [t_log t_blocks]; try lia.
    { intros Hx. rewrite E2. unfold rest. rewrite Hx. specialize (Hd Hx). rewrite zlen_skip; lia. }
    exists s'. split; [exact F1|]. cbn [t_log t_dl t_blocks t_img] in *.
    split; [|split; [congruence|split; [lia|]]].
    + rewrite F2, E2. unfold rest. destruct data; [|reflexivity]. rewrite skip_skip. f_equal. specialize (Hd eq_refl). lia.
    + intros i. rewrite F5.
      rewrite (poke_ext _ _ _ _ E5). rewrite E2. unfold b, rest.
      rewrite <- (poke_split (t_img s) off (stuff data len (t_log s)) bs i) by (rewrite stuff_len; auto; lia).
      assert (Q1 : stuff data bs (t_log s) = firstn (Z.to_nat bs) (stuff data len (t_log s))).
      { unfold stuff. destruct data; [rewrite firstn_firstn; f_equal; lia|].
        replace (Z.to_nat len) with (Z.to_nat bs + Z.to_nat (len - bs))%nat by lia.
        rewrite repeat_app, firstn_app, firstn_all2 by (rewrite repeat_length; lia).
        rewrite repeat_length, Nat.sub_diag. cbn [firstn]. rewrite app_nil_r. reflexivity. }
      assert (Q2 : stuff data (len - bs) (if data then skipn (Z.to_nat bs) (t_log s) else t_log s)
                   = skipn (Z.to_nat bs) (stuff data len (t_log s))).
      { unfold stuff. destruct data.
        - rewrite firstn_skipn_comm. f_equal. f_equal. lia.
        - replace (Z.to_nat len) with (Z.to_nat bs + Z.to_nat (len - bs))%nat by lia.
          rewrite repeat_app, skipn_app, skipn_all2 by (rewrite repeat_length; lia).
          rewrite repeat_length, Nat.sub_diag. reflexivity. }
      rewrite Q1, Q2. reflexivity.
Qed.

Lemma land_mask x : Z.land x NBD_CMD_MASK_COMMAND = x mod 65536.
Proof. change NBD_CMD_MASK_COMMAND with (Z.ones 16). rewrite Z.land_ones by lia. reflexivity. Qed.

Lemma process_ok bs max pw q s rest :
  0 < bs -> (forall k, 0 < pw k) -> replayable bs q -> t_dl s = true ->
  t_log s = (if q_cmd q =? 1 then q_data q ++ rest else rest) ->
  (q_cmd q = 1 -> zlen (q_data q) = q_len q) ->
  0 <= t_blocks s -> t_blocks s + block_count bs q < max -> max <= 18446744073709551615 ->
  exists s', process_command bs max pw (q_type q) (q_from q) (q_len q) s = TGo s'
    /\ t_log s' = rest /\ t_dl s' = true /\ t_blocks s' = t_blocks s + block_count bs q
    /\ forall i, t_img s' i = effect q (t_img s) i.
Proof.
  intros Hb Hp [Hc [Hf [Hl [Hm1 [Hm2 He]]]]] Hdl Hlog Hdata Hb0 Hbm Hmx. unfold process_command.
  rewrite Hm1, Hm2. cbn [Z.eqb negb]. rewrite land_mask. fold (q_cmd q).
  change (q_type q mod 65536) with (q_cmd q).
  pose proof (Z.div_mod (q_len q) bs ltac:(lia)) as Hdm.
  assert (Hq0 : 0 <= q_len q / bs) by (apply Z.div_pos; lia).
  assert (Hn : q_len q = Z.of_nat (Z.to_nat (q_len q / bs)) * bs) by nia.
  unfold block_count in *.
  change NBD_CMD_READ with 0. change NBD_CMD_DISC with 2. change NBD_CMD_FLUSH with 3. change NBD_CMD_WRITE with 1.
  change NBD_CMD_TRIM with 4. change NBD_CMD_WRITE_ZEROES with 6.
  assert (Nop : (q_cmd q = 0 \/ q_cmd q = 2 \/ q_cmd q = 3) ->
     exists s', TGo s = TGo s' /\ t_log s' = rest /\ t_dl s' = true /\ t_blocks s' = t_blocks s + 0
       /\ forall i, t_img s' i = effect q (t_img s) i).
  { intros Hq. exists s. split; [reflexivity|]. split; [rewrite Hlog; destruct (q_cmd q =? 1) eqn:E1; [lia|reflexivity]|].
    split; [exact Hdl|]. split; [lia|]. intros i. unfold effect.
    replace (q_cmd q =? 1) with false by lia. replace (q_cmd q =? 4) with false by lia. replace (q_cmd q =? 6) with false by lia.
    cbn [orb]. destruct (_ && _); reflexivity. }
  assert (Zr : (q_cmd q = 4 \/ q_cmd q = 6) -> t_blocks s + q_len q / bs < max ->
     exists s', block_loop (Z.to_nat (q_len q / bs)) bs max pw false (q_from q) (q_len q) s = TGo s'
       /\ t_log s' = rest /\ t_dl s' = true /\ t_blocks s' = t_blocks s + q_len q / bs
       /\ forall i, t_img s' i = effect q (t_img s) i).
  { intros Hq Hbm2. destruct (block_loop_ok bs max pw false (Z.to_nat (q_len q / bs)) (q_from q) (q_len q) s)
      as [s' [E1 [E2 [E3 [E4 E5]]]]]; try assumption; try lia; try discriminate.
    exists s'. split; [exact E1|]. split; [rewrite E2, Hlog; replace (q_cmd q =? 1) with false by lia; reflexivity|].
    split; [congruence|]. split; [lia|]. intros i. rewrite E5. unfold poke, effect.
    rewrite stuff_len by (auto; try lia; discriminate).
    replace (q_cmd q =? 1) with false by lia. replace ((q_cmd q =? 4) || (q_cmd q =? 6)) with true by lia.
    unfold stuff. destruct (_ && _); [|reflexivity]. apply nth_repeat. }
  destruct Hc as [Hc|[Hc|[Hc|[Hc|[Hc|Hc]]]]]; rewrite Hc in *; cbv [Z.eqb orb Pos.eqb] in Hlog, Hdata, Hbm |- *.
  - apply Nop. lia.
  - assert (Hlog' : t_log s = q_data q ++ rest) by exact Hlog. clear Hlog. rename Hlog' into Hlog.
    assert (Hbm' : t_blocks s + q_len q / bs < max) by exact Hbm. rewrite Hdl. cbn [negb].
    destruct (block_loop_ok bs max pw true (Z.to_nat (q_len q / bs)) (q_from q) (q_len q) s)
      as [s' [E1 [E2 [E3 [E4 E5]]]]]; try assumption; try lia.
    { intros _. rewrite Hlog. specialize (Hdata eq_refl). unfold zlen in *. rewrite app_length. lia. }
    specialize (Hdata eq_refl). assert (Hlen : Z.to_nat (q_len q) = length (q_data q)) by (unfold zlen in *; lia).
    exists s'. split; [exact E1|].
    split; [rewrite E2, Hlog, Hlen, skipn_app, skipn_all, Nat.sub_diag; reflexivity|].
    split; [congruence|]. split; [lia|]. intros i. rewrite E5. unfold poke, effect. rewrite Hc. cbn [Z.eqb Pos.eqb].
    unfold stuff. rewrite Hlog, Hlen, firstn_app, firstn_all, Nat.sub_diag. cbn [firstn]. rewrite app_nil_r, Hdata.
    unfold content. reflexivity.
  - apply Nop. lia.
  - apply Nop. lia.
  - apply Zr; lia.
  - apply Zr; lia.
Qed.

Lemma effect_ext q d d' : (forall i, d i = d' i) -> forall i, effect q d i = effect q d' i.
Proof. intros H i. unfold effect. rewrite H. reflexivity. Qed.
Lemma effects_ext qs : forall d d', (forall i, d i = d' i) -> forall i, effects qs d i = effects qs d' i.
Proof.
  unfold effects. induction qs as [|q t IH]; intros d d' H i; cbn [fold_left]; [apply H|].
  apply IH. apply effect_ext. exact H.
Qed.

(** ** The log format *)
Lemma take_split n s b r : take n s = Some (b, r) -> s = b ++ r /\ zlen b = n.
Proof.
  unfold take. destruct ((0 <=? n) && (n <=? zlen s)) eqn:E; [|discriminate]. intros [= <- <-].
  split; [symmetry; apply firstn_skipn|]. apply zlen_first. lia.
Qed.
Lemma take_be_split n s v r : take_be n s = Some (v, r) -> exists b, s = b ++ r /\ zlen b = n /\ unbe b = v.
Proof.
  unfold take_be. destruct (take n s) as [[b r']|] eqn:E; [|discriminate]. intros [= <- <-].
  exists b. destruct (take_split _ _ _ _ E). auto.
Qed.
Lemma doread_app n b r : zlen b = n -> doread n (b ++ r) = Some (b, r).
Proof.
  intros H. assert (Hn : Z.to_nat n = length b) by (unfold zlen in H; lia).
  unfold doread. replace (zlen (b ++ r) <? n) with false by (unfold zlen in *; rewrite app_length; lia).
  rewrite Hn, firstn_app, firstn_all, Nat.sub_diag, skipn_app, skipn_all, Nat.sub_diag.
  cbn [firstn skipn]. rewrite app_nil_r. reflexivity.
Qed.
Lemma app_first (a b : list Z) n : length a = n -> firstn n (a ++ b) = a.
Proof. intros <-. rewrite firstn_app, firstn_all, Nat.sub_diag. cbn [firstn]. apply app_nil_r. Qed.
Lemma app_skip (a b : list Z) n : length a = n -> skipn n (a ++ b) = b.
Proof. intros <-. rewrite skipn_app, skipn_all, Nat.sub_diag. reflexivity. Qed.

(** a log entry as bytes *)
Inductive entry_bytes (dl : bool) : list Z -> lview -> Prop :=
| eb_req t ck f n data bt bf bn : zlen bt = 4 -> unbe bt = t -> zlen ck = 8 -> zlen bf = 8 -> unbe bf = f -> zlen bn = 4 -> unbe bn = n ->
    zlen data = (if dl && (t mod 65536 =? 1) then n else 0) ->
    forall bm, zlen bm = 4 -> unbe bm = 0x25609513 ->
    entry_bytes dl (bm ++ (bt ++ ck ++ bf ++ bn) ++ data) (GReq (mkWreq t ck f n data))
| eb_rep e ck be : zlen be = 4 -> unbe be = e -> zlen ck = 8 -> forall bm, zlen bm = 4 -> unbe bm = 0x67446698 ->
    entry_bytes dl (bm ++ (be ++ ck)) (GRep ck (HSimple e))
| eb_chunk fl ty ck n bf bt bn : zlen bf = 2 -> unbe bf = fl -> zlen bt = 2 -> unbe bt = ty -> zlen ck = 8 -> zlen bn = 4 -> unbe bn = n ->
    forall bm, zlen bm = 4 -> unbe bm = 0x668e33ef ->
    entry_bytes dl (bm ++ (bf ++ bt ++ ck ++ bn)) (GRep ck (HChunk fl ty n)).

Lemma parse_log_cons dl fuel s ents : parse_log fuel dl s = Some ents ->
  (s = [] /\ ents = []) \/
  exists f' b e s' ents', fuel = S f' /\ s = b ++ s' /\ entry_bytes dl b e /\ parse_log f' dl s' = Some ents' /\ ents = e :: ents'.
Proof.
  destruct s as [|x s0]; [destruct fuel; intros [= <-]; left; split; reflexivity|].
  destruct fuel as [|f']; [discriminate|]. set (s := x :: s0). intros H. right. cbn [parse_log] in H.
  change (match take_be 4 s with
    | Some (magic, s) =>
        if magic =? 0x25609513 then
          match take_be 4 s with
          | Some (type, s) =>
            match take 8 s with
            | Some (ck, s) =>
              match take_be 8 s with
              | Some (from, s) =>
                match take_be 4 s with
                | Some (len, s) =>
                  match take (if dl && (type mod 65536 =? 1) then len else 0) s with
                  | Some (data, s) =>
                    match parse_log f' dl s with
                    | Some l => Some (GReq (mkWreq type ck from len data) :: l)
                    | None => None
                    end
                  | None => None
                  end
                | None => None
                end
              | None => None
              end
            | None => None
            end
          | None => None
          end
        else if magic =? 0x67446698 then
          match take_be 4 s with
          | Some (e, s) =>
            match take 8 s with
            | Some (ck, s) =>
              match parse_log f' dl s with
              | Some l => Some (GRep ck (HSimple e) :: l)
              | None => None
              end
            | None => None
            end
          | None => None
          end
        else if magic =? 0x668e33ef then
          match take_be 2 s with
          | Some (fl, s) =>
            match take_be 2 s with
            | Some (ty, s) =>
              match take 8 s with
              | Some (ck, s) =>
                match take_be 4 s with
                | Some (n, s) =>
                  match parse_log f' dl s with
                  | Some l => Some (GRep ck (HChunk fl ty n) :: l)
                  | None => None
                  end
                | None => None
                end
              | None => None
              end
            | None => None
            end
          | None => None
          end
        else None
      | None => None
      end = Some ents) in H.
  destruct (take_be 4 s) as [[m s1]|] eqn:E0; [|discriminate].
  destruct (take_be_split _ _ _ _ E0) as [bm [Es [Lm Um]]].
  destruct (m =? 0x25609513) eqn:M1.
  - destruct (take_be 4 s1) as [[t s2]|] eqn:E1; [|discriminate].
    destruct (take 8 s2) as [[ck s3]|] eqn:E2; [|discriminate].
    destruct (take_be 8 s3) as [[f s4]|] eqn:E3; [|discriminate].
    destruct (take_be 4 s4) as [[n s5]|] eqn:E4; [|discriminate].
    destruct (take _ s5) as [[data s6]|] eqn:E5; [|discriminate].
    destruct (parse_log f' dl s6) as [l|] eqn:E6; [|discriminate]. injection H as <-.
    destruct (take_be_split _ _ _ _ E1) as [bt [-> [Lt Ut]]]. destruct (take_split _ _ _ _ E2) as [-> Lc].
    destruct (take_be_split _ _ _ _ E3) as [bf [-> [Lf Uf]]]. destruct (take_be_split _ _ _ _ E4) as [bn [-> [Ln Un]]].
    destruct (take_split _ _ _ _ E5) as [-> Ld].
    exists f', (bm ++ (bt ++ ck ++ bf ++ bn) ++ data), (GReq (mkWreq t ck f n data)), s6, l.
    split; [reflexivity|]. split; [rewrite Es, <- !app_assoc; reflexivity|].
    split; [constructor; auto; lia|]. split; [exact E6|reflexivity].
  - destruct (m =? 0x67446698) eqn:M2.
    + destruct (take_be 4 s1) as [[e s2]|] eqn:E1; [|discriminate].
      destruct (take 8 s2) as [[ck s3]|] eqn:E2; [|discriminate].
      destruct (parse_log f' dl s3) as [l|] eqn:E6; [|discriminate]. injection H as <-.
      destruct (take_be_split _ _ _ _ E1) as [be [-> [Lt Ut]]]. destruct (take_split _ _ _ _ E2) as [-> Lc].
      exists f', (bm ++ (be ++ ck)), (GRep ck (HSimple e)), s3, l.
      split; [reflexivity|]. split; [rewrite Es, <- !app_assoc; reflexivity|].
      split; [constructor; auto; lia|]. split; [exact E6|reflexivity].
    + destruct (m =? 0x668e33ef) eqn:M3; [|discriminate].
      destruct (take_be 2 s1) as [[fl s2]|] eqn:E1; [|discriminate].
      destruct (take_be 2 s2) as [[ty s3]|] eqn:E2; [|discriminate].
      destruct (take 8 s3) as [[ck s4]|] eqn:E3; [|discriminate].
      destruct (take_be 4 s4) as [[n s5]|] eqn:E4; [|discriminate].
      destruct (parse_log f' dl s5) as [l|] eqn:E6; [|discriminate]. injection H as <-.
      destruct (take_be_split _ _ _ _ E1) as [bf [-> [Lf Uf]]]. destruct (take_be_split _ _ _ _ E2) as [bt [-> [Lt Ut]]].
      destruct (take_split _ _ _ _ E3) as [-> Lc]. destruct (take_be_split _ _ _ _ E4) as [bn [-> [Ln Un]]].
      exists f', (bm ++ (bf ++ bt ++ ck ++ bn)), (GRep ck (HChunk fl ty n)), s5, l.
      split; [reflexivity|]. split; [rewrite Es, <- !app_assoc; reflexivity|].
      split; [constructor; auto; lia|]. split; [exact E6|reflexivity].
Qed.

Lemma hdr_fields (bt ck bf bn : list Z) : zlen bt = 4 -> zlen ck = 8 -> zlen bf = 8 -> zlen bn = 4 ->
  zlen (bt ++ ck ++ bf ++ bn) = 24 /\ firstn 4 (bt ++ ck ++ bf ++ bn) = bt
  /\ firstn 8 (skipn 4 (bt ++ ck ++ bf ++ bn)) = ck
  /\ firstn 8 (skipn 12 (bt ++ ck ++ bf ++ bn)) = bf /\ skipn 20 (bt ++ ck ++ bf ++ bn) = bn.
Proof.
  unfold zlen. intros H1 H2 H3 H4.
  assert (S4 : skipn 4 (bt ++ ck ++ bf ++ bn) = ck ++ bf ++ bn) by (apply app_skip; lia).
  assert (S12 : skipn 12 (bt ++ ck ++ bf ++ bn) = bf ++ bn) by (rewrite app_assoc; apply app_skip; rewrite app_length; lia).
  split; [rewrite !app_length; lia|]. split; [apply app_first; lia|].
  split; [rewrite S4; apply app_first; lia|]. split; [rewrite S12; apply app_first; lia|].
  rewrite !app_assoc. apply app_skip. rewrite !app_length. lia.
Qed.

(** one round of nbd-trplay on an entry of the log *)
Lemma play_entry bs max pw s b e rest :
  0 < bs -> (forall k, 0 < pw k) -> t_dl s = true -> entry_bytes true b e -> t_log s = b ++ rest ->
  0 <= t_blocks s -> max <= 18446744073709551615 ->
  match e with
  | GReq q => replayable bs q -> t_blocks s + block_count bs q < max ->
      exists s', play_round bs max pw s = TGo s' /\ t_log s' = rest /\ t_dl s' = true
        /\ t_blocks s' = t_blocks s + block_count bs q /\ forall i, t_img s' i = effect q (t_img s) i
  | GRep _ (HSimple _) => exists s', play_round bs max pw s = TGo s' /\ t_log s' = rest /\ t_dl s' = true
        /\ t_blocks s' = t_blocks s /\ forall i, t_img s' i = t_img s i
  | GRep _ (HChunk _ _ _) => play_round bs max pw s = TExit 1 s
  end.
Proof.
  intros Hb Hp Hdl He Hlog Hb0 Hmx. unfold play_round. rewrite Hlog.
  destruct He as [t ck f n data bt bf bn L1 U1 L2 L3 U3 L4 U4 L5 bm L6 U6|e ck be L1 U1 L2 bm L3 U3|fl ty ck n bf bt bn L1 U1 L2 U2 L3 L4 U4 bm L5 U5].
  - intros Hq Hbm. rewrite <- !app_assoc, (doread_app 4 bm _ L6), U6.
    change (0x25609513 =? NBD_REQUEST_MAGIC) with true. cbn iota.
    destruct (hdr_fields bt ck bf bn L1 L2 L3 L4) as [H0 [H1 [H2 [H3 H4]]]].
    replace (bt ++ ck ++ bf ++ bn ++ data ++ rest) with ((bt ++ ck ++ bf ++ bn) ++ data ++ rest) by (rewrite <- !app_assoc; reflexivity).
    rewrite (doread_app 24 _ _ H0), H1, H3, H4, U1, U3, U4.
    set (q := mkWreq t ck f n data) in *.
    assert (Qc : q_cmd q = t mod 65536) by reflexivity.
    destruct (process_ok bs max pw q (t_rest (data ++ rest) s) rest Hb Hp Hq Hdl) as [s' K]; [ | | |exact Hbm|exact Hmx|].
    + cbn [t_rest t_log]. rewrite <- Qc in L5. destruct (q_cmd q =? 1); [reflexivity|].
      cbn [andb] in L5. destruct data; [reflexivity|]. unfold zlen in L5. cbn [length] in L5. lia.
    + intros Hq1. rewrite <- Qc, Hq1 in L5. cbn [andb Z.eqb Pos.eqb] in L5. exact L5.
    + exact Hb0.
    + exists s'. exact K.
  - rewrite <- !app_assoc, (doread_app 4 bm _ L3), U3.
    change (0x67446698 =? NBD_REQUEST_MAGIC) with false. change (0x67446698 =? NBD_REPLY_MAGIC) with true. cbn iota.
    rewrite app_assoc, (doread_app 12 (be ++ ck)) by (unfold zlen in *; rewrite app_length; lia).
    exists (t_rest rest s). repeat split. exact Hdl.
  - rewrite <- !app_assoc, (doread_app 4 bm _ L5), U5. reflexivity.
Qed.

Lemma block_count_pos bs q : 0 < bs -> replayable bs q -> 0 <= block_count bs q.
Proof.
  intros Hb [_ [_ [Hl _]]]. unfold block_count. destruct (_ || _); [apply Z.div_pos; lia|lia].
Qed.
Lemma blocks_in_pos bs qs : 0 < bs -> Forall (replayable bs) qs -> 0 <= blocks_in bs qs.
Proof. intros Hb. induction 1; cbn [blocks_in]; [lia|]. pose proof (block_count_pos bs x Hb H). lia. Qed.

Lemma play_loop_ok bs max pw fuel : forall lf s ents,
  0 < bs -> (forall k, 0 < pw k) -> t_dl s = true -> parse_log lf true (t_log s) = Some ents ->
  Forall (replayable bs) (log_requests ents) -> simple_only ents ->
  0 <= t_blocks s -> t_blocks s + blocks_in bs (log_requests ents) < max -> max <= 18446744073709551615 ->
  (length (t_log s) < fuel)%nat ->
  exists s', play_loop fuel bs max pw s = TExit 0 s'
    /\ t_blocks s' = t_blocks s + blocks_in bs (log_requests ents)
    /\ forall i, t_img s' i = effects (log_requests ents) (t_img s) i.
Proof.
  induction fuel as [|fuel IH]; intros lf s ents Hb Hp Hdl Hlog Hq Hs Hb0 Hbm Hmx Hf; [lia|].
  destruct (parse_log_cons _ _ _ _ Hlog) as [[E1 ->]|[f' [b [e [r [ents' [_ [Es [He [Hr ->]]]]]]]]]].
  - cbn [play_loop]. unfold play_round. rewrite E1. change (doread 4 []) with (@None (list Z * list Z)).
    exists s. cbn [log_requests blocks_in]. split; [reflexivity|]. split; [lia|]. reflexivity.
  - pose proof (play_entry bs max pw s b e r Hb Hp Hdl He Es Hb0 Hmx) as P.
    assert (Lb : (0 < length b)%nat).
    { destruct He; rewrite app_length; unfold zlen in *; lia. }
    assert (Lr : (length r < fuel)%nat) by (rewrite Es, app_length in Hf; lia).
    assert (Hs' : simple_only ents') by (intros ck h Hin; apply (Hs ck h); right; exact Hin).
    destruct e as [q|ck [x|fl ty n]]; cbn [log_requests blocks_in] in *.
    + inversion Hq as [|q' l' Hq1 Hq2]; subst q' l'.
      pose proof (block_count_pos bs q Hb Hq1). pose proof (blocks_in_pos bs _ Hb Hq2).
      destruct (P Hq1 ltac:(lia)) as [s1 [E1 [E2 [E3 [E4 E5]]]]].
      rewrite <- E2 in Hr, Lr.
      destruct (IH f' s1 ents' Hb Hp E3 Hr Hq2 Hs' ltac:(lia) ltac:(lia) Hmx Lr) as [s' [F1 [F2 F3]]].
      exists s'. cbn [play_loop]. rewrite E1. split; [exact F1|]. split; [lia|].
      intros i. rewrite F3. unfold effects. cbn [fold_left]. apply effects_ext. exact E5.
    + destruct P as [s1 [E1 [E2 [E3 [E4 E5]]]]]. rewrite <- E2 in Hr, Lr.
      destruct (IH f' s1 ents' Hb Hp E3 Hr Hq Hs' ltac:(lia) ltac:(lia) Hmx Lr) as [s' [F1 [F2 F3]]].
      exists s'. cbn [play_loop]. rewrite E1. split; [exact F1|]. split; [lia|].
      intros i. rewrite F3. apply effects_ext. exact E5.
    + destruct (Hs ck (HChunk fl ty n) (or_introl eq_refl)) as [y Hy]. discriminate.
Qed.

Lemma mark_round bs max pw log img :
  play_round bs max pw (mkT (datalog_mark ++ log) img false 0 0%nat) = TGo (mkT log img true 0 0%nat).
Proof.
  unfold play_round. cbn [t_log]. unfold datalog_mark. rewrite <- !app_assoc.
  rewrite (doread_app 4 (be 4 NBD_TRACELOG_MAGIC)) by reflexivity.
  change (unbe (be 4 NBD_TRACELOG_MAGIC) =? NBD_REQUEST_MAGIC) with false.
  change (unbe (be 4 NBD_TRACELOG_MAGIC) =? NBD_REPLY_MAGIC) with false.
  change (unbe (be 4 NBD_TRACELOG_MAGIC) =? NBD_TRACELOG_MAGIC) with true. cbn iota.
  replace (be 4 1 ++ be 8 0 ++ be 8 NBD_TRACELOG_FROM_MAGIC ++ be 4 1 ++ log)
    with ((be 4 1 ++ be 8 0 ++ be 8 NBD_TRACELOG_FROM_MAGIC ++ be 4 1) ++ log) by (rewrite <- !app_assoc; reflexivity).
  rewrite (doread_app 24) by reflexivity. reflexivity.
Qed.

Lemma trplay_ok bs max pw log ents img lf :
  0 < bs -> (forall k, 0 < pw k) -> parse_log lf true log = Some ents ->
  Forall (replayable bs) (log_requests ents) -> simple_only ents ->
  blocks_in bs (log_requests ents) < max -> max <= 18446744073709551615 ->
  exists s', trplay bs max pw (datalog_mark ++ log) img = TExit 0 s'
    /\ t_blocks s' = blocks_in bs (log_requests ents)
    /\ forall i, t_img s' i = effects (log_requests ents) img i.
Proof.
  intros Hb Hp Hlog Hq Hs Hbm Hmx. unfold trplay. cbn [play_loop]. rewrite mark_round.
  destruct (play_loop_ok bs max pw (length (datalog_mark ++ log)) lf (mkT log img true 0 0%nat) ents) as [s' [E1 [E2 E3]]];
    try assumption; cbn [t_dl t_log t_blocks]; try reflexivity; try lia.
  - rewrite app_length. change (length datalog_mark) with 28%nat. lia.
  - exists s'. split; [exact E1|]. split; [exact E2|exact E3].
Qed.

(** ** A structured reply ends the replay *)
Lemma trplay_chunk bs max pw fuel : forall lf s pre ck fl ty n post,
  0 < bs -> (forall k, 0 < pw k) -> t_dl s = true -> parse_log lf true (t_log s) = Some (pre ++ GRep ck (HChunk fl ty n) :: post) ->
  Forall (replayable bs) (log_requests pre) -> simple_only pre ->
  0 <= t_blocks s -> t_blocks s + blocks_in bs (log_requests pre) < max -> max <= 18446744073709551615 ->
  (length (t_log s) < fuel)%nat ->
  exists s', play_loop fuel bs max pw s = TExit 1 s' /\ forall i, t_img s' i = effects (log_requests pre) (t_img s) i.
Proof.
  induction fuel as [|fuel IH]; intros lf s pre ck fl ty n post Hb Hp Hdl Hlog Hq Hs Hb0 Hbm Hmx Hf; [lia|].
  destruct (parse_log_cons _ _ _ _ Hlog) as [[E1 E0]|[f' [b [e [r [ents' [_ [Es [He [Hr Eents]]]]]]]]]];
    [destruct pre; discriminate|].
  pose proof (play_entry bs max pw s b e r Hb Hp Hdl He Es Hb0 Hmx) as P.
  assert (Lb : (0 < length b)%nat).
  { destruct He; rewrite app_length; unfold zlen in *; lia. }
  assert (Lr : (length r < fuel)%nat) by (rewrite Es, app_length in Hf; lia).
  destruct pre as [|e0 pre]; cbn [app] in Eents; injection Eents as <- <-.
  - cbn [play_loop]. rewrite P. exists s. split; [reflexivity|]. reflexivity.
  - assert (Hs' : simple_only pre) by (intros ck0 h Hin; apply (Hs ck0 h); right; exact Hin).
    destruct e0 as [q|ck0 [x|fl0 ty0 n0]]; cbn [log_requests blocks_in] in *.
    + inversion Hq as [|q' l' Hq1 Hq2]; subst q' l'.
      pose proof (block_count_pos bs q Hb Hq1). pose proof (blocks_in_pos bs _ Hb Hq2).
      destruct (P Hq1 ltac:(lia)) as [s1 [E1 [E2 [E3 [E4 E5]]]]].
      rewrite <- E2 in Hr, Lr.
      destruct (IH f' s1 pre ck fl ty n post Hb Hp E3 Hr Hq2 Hs' ltac:(lia) ltac:(lia) Hmx Lr) as [s' [F1 F3]].
      exists s'. cbn [play_loop]. rewrite E1. split; [exact F1|].
      intros i. rewrite F3. unfold effects. cbn [fold_left]. apply effects_ext. exact E5.
    + destruct P as [s1 [E1 [E2 [E3 [E4 E5]]]]]. rewrite <- E2 in Hr, Lr.
      destruct (IH f' s1 pre ck fl ty n post Hb Hp E3 Hr Hq Hs' ltac:(lia) ltac:(lia) Hmx Lr) as [s' [F1 F3]].
      exists s'. cbn [play_loop]. rewrite E1. split; [exact F1|].
      intros i. rewrite F3. apply effects_ext. exact E5.
    + destruct (Hs ck0 (HChunk fl0 ty0 n0) (or_introl eq_refl)) as [y Hy]. discriminate.
Qed.

(** ** nbd-trdump *)
(** what is printed for an entry *)
Definition shown (e : lview) : line :=
  match e with
  | GReq q => LReq (unbe (q_cookie q)) (q_type q) (q_from q) (q_len q)
  | GRep ck (HSimple e) => LRep (unbe ck) e
  | GRep ck (HChunk fl ty n) => LChunk (unbe ck) ty fl (n / 65536)
  end.

Lemma unbe_first2 b : zlen b = 4 -> Forall is_byte b -> unbe (firstn 2 b) = unbe b / 65536.
Proof.
  intros H Hb. destruct b as [|b0 [|b1 [|b2 [|b3 [|? ?]]]]]; unfold zlen in H; cbn [length] in H; try lia.
  inversion Hb as [|? ? H0 Hb1]; subst. inversion Hb1 as [|? ? H1 Hb2]; subst. inversion Hb2 as [|? ? H2 Hb3]; subst.
  inversion Hb3 as [|? ? H3 _]; subst. unfold is_byte in *. cbn [firstn].
  unfold unbe. cbn. apply Z.div_unique with (r := b2 * 256 + b3); lia.
Qed.

Lemma dump_entry dl b e rest : Forall is_byte b -> entry_bytes dl b e ->
  dump_round dl (b ++ rest) = ([shown e], Some (dl, rest)).
Proof.
  intros Hby He. unfold dump_round.
  destruct He as [t ck f n data bt bf bn L1 U1 L2 L3 U3 L4 U4 L5 bm L6 U6|e ck be L1 U1 L2 bm L3 U3|fl ty ck n bf bt bn L1 U1 L2 U2 L3 L4 U4 bm L5 U5].
  - rewrite <- !app_assoc, (doread_app 4 bm _ L6), U6.
    change (0x25609513 =? NBD_REQUEST_MAGIC) with true. cbn iota.
    destruct (hdr_fields bt ck bf bn L1 L2 L3 L4) as [H0 [H1 [H2 [H3 H4]]]].
    replace (bt ++ ck ++ bf ++ bn ++ data ++ rest) with ((bt ++ ck ++ bf ++ bn) ++ data ++ rest) by (rewrite <- !app_assoc; reflexivity).
    rewrite (doread_app 24 _ _ H0), H1, H2, H3, H4, U1, U3, U4. cbv zeta. rewrite land_mask.
    change NBD_CMD_WRITE with 1. rewrite andb_comm in L5.
    destruct ((t mod 65536 =? 1) && dl).
    + rewrite (doread_app n data rest L5). reflexivity.
    + destruct data; [reflexivity|]. unfold zlen in L5. cbn [length] in L5. lia.
  - rewrite <- !app_assoc, (doread_app 4 bm _ L3), U3.
    change (0x67446698 =? NBD_REQUEST_MAGIC) with false. change (0x67446698 =? NBD_REPLY_MAGIC) with true. cbn iota.
    rewrite app_assoc, (doread_app 12 (be ++ ck)) by (unfold zlen in *; rewrite app_length; lia).
    rewrite app_first, app_skip by (unfold zlen in *; lia). rewrite U1. reflexivity.
  - rewrite <- !app_assoc, (doread_app 4 bm _ L5), U5.
    change (0x668e33ef =? NBD_REQUEST_MAGIC) with false. change (0x668e33ef =? NBD_REPLY_MAGIC) with false.
    change (0x668e33ef =? NBD_TRACELOG_MAGIC) with false. change (0x668e33ef =? NBD_STRUCTURED_REPLY_MAGIC) with true. cbn iota.
    replace (bf ++ bt ++ ck ++ bn ++ rest) with ((bf ++ bt ++ ck ++ bn) ++ rest) by (rewrite <- !app_assoc; reflexivity).
    assert (S2 : skipn 2 (bf ++ bt ++ ck ++ bn) = bt ++ ck ++ bn) by (apply app_skip; unfold zlen in *; lia).
    assert (S4 : skipn 4 (bf ++ bt ++ ck ++ bn) = ck ++ bn) by (rewrite app_assoc; apply app_skip; rewrite app_length; unfold zlen in *; lia).
    assert (S12 : skipn 12 (bf ++ bt ++ ck ++ bn) = bn) by (rewrite !app_assoc; apply app_skip; rewrite !app_length; unfold zlen in *; lia).
    rewrite (doread_app 16) by (unfold zlen in *; rewrite !app_length; lia).
    rewrite S2, S4, S12, !app_first by (unfold zlen in *; lia). rewrite U1, U2. unfold ntohs_field.
    rewrite unbe_first2, U4; [reflexivity|exact L4|].
    apply Forall_app in Hby. destruct Hby as [_ Hby]. rewrite !Forall_app in Hby. tauto.
Qed.

Lemma dump_loop_ok dl fuel : forall lf s ents,
  Forall is_byte s -> parse_log lf dl s = Some ents -> (length s < fuel)%nat ->
  dump_loop fuel dl s = (map shown ents, true).
Proof.
  induction fuel as [|fuel IH]; intros lf s ents Hby Hlog Hf; [lia|]. cbn [dump_loop].
  destruct (parse_log_cons _ _ _ _ Hlog) as [[-> ->]|[f' [b [e [r [ents' [_ [-> [He [Hr ->]]]]]]]]]].
  - reflexivity.
  - apply Forall_app in Hby. destruct Hby as [Hb1 Hb2]. rewrite (dump_entry dl b e r Hb1 He).
    assert (Lb : (0 < length b)%nat) by (destruct He; rewrite app_length; unfold zlen in *; lia).
    rewrite (IH f' r ents' Hb2 Hr) by (rewrite app_length in Hf; lia). reflexivity.
Qed.

Lemma trdump_ok log ents lf : Forall is_byte log -> parse_log lf false log = Some ents ->
  trdump log = (map shown ents, true).
Proof. intros Hby H. unfold trdump. apply (dump_loop_ok false _ lf); auto. Qed.

Lemma trdump_data_ok log ents lf : Forall is_byte log -> parse_log lf true log = Some ents ->
  trdump (datalog_mark ++ log) = ([LOpt 1 NBD_TRACELOG_FROM_MAGIC 1; LData true] ++ map shown ents, true).
Proof.
  intros Hby H. unfold trdump. cbn [dump_loop].
  assert (E : dump_round false (datalog_mark ++ log) = ([LOpt 1 NBD_TRACELOG_FROM_MAGIC 1; LData true], Some (true, log))).
  { unfold dump_round, datalog_mark. rewrite <- !app_assoc.
    rewrite (doread_app 4 (be 4 NBD_TRACELOG_MAGIC)) by reflexivity.
    change (unbe (be 4 NBD_TRACELOG_MAGIC) =? NBD_REQUEST_MAGIC) with false.
    change (unbe (be 4 NBD_TRACELOG_MAGIC) =? NBD_REPLY_MAGIC) with false.
    change (unbe (be 4 NBD_TRACELOG_MAGIC) =? NBD_TRACELOG_MAGIC) with true. cbn iota.
    replace (be 4 1 ++ be 8 0 ++ be 8 NBD_TRACELOG_FROM_MAGIC ++ be 4 1 ++ log)
      with ((be 4 1 ++ be 8 0 ++ be 8 NBD_TRACELOG_FROM_MAGIC ++ be 4 1) ++ log) by (rewrite <- !app_assoc; reflexivity).
    rewrite (doread_app 24) by reflexivity. reflexivity. }
  rewrite E. rewrite (dump_loop_ok true _ lf log ents Hby H) by (rewrite app_length; change (length datalog_mark) with 28%nat; lia).
  reflexivity.
Qed.
