(** The server's messages as a client parses them. *)
From Verif Require Import Base M_Const M_Disk M_Tree M_Raw L_Wp L_Raw S_Wire S_Disk.

Lemma take_app n a s : zlen a = n -> take n (a ++ s) = Some (a, s).
Proof.
  intros H. unfold take. rewrite zlen_app. pose proof (zlen_nonneg a). pose proof (zlen_nonneg s).
  replace ((0 <=? n) && (n <=? zlen a + zlen s)) with true by lia.
  unfold zlen in H. replace (Z.to_nat n) with (length a) by lia.
  rewrite firstn_app, skipn_app, firstn_all, skipn_all, Nat.sub_diag, firstn_O, skipn_O.
  rewrite app_nil_r. reflexivity.
Qed.

Lemma be_zlen n x : zlen (be n x) = Z.of_nat n.
Proof. unfold zlen. rewrite be_length. reflexivity. Qed.

Lemma take_be_app n z x s : z = Z.of_nat n -> take_be z (be n x ++ s) = Some (x mod 2 ^ (8 * Z.of_nat n), s).
Proof.
  intros ->. unfold take_be. rewrite take_app by apply be_zlen. rewrite unbe_be. reflexivity.
Qed.
Lemma take_be2 x s : 0 <= x < 65536 -> take_be 2 (be 2 x ++ s) = Some (x, s).
Proof. intros H. rewrite take_be_app by reflexivity. rewrite Z.mod_small; [reflexivity|]. change (2 ^ (8 * Z.of_nat 2)) with 65536. lia. Qed.
Lemma take_be4 x s : is_u32 x -> take_be 4 (be 4 x ++ s) = Some (x, s).
Proof. unfold is_u32. intros H. rewrite take_be_app by reflexivity. rewrite Z.mod_small; [reflexivity|]. change (2 ^ (8 * Z.of_nat 4)) with 4294967296. lia. Qed.
Lemma take_be8 x s : is_u64 x -> take_be 8 (be 8 x ++ s) = Some (x, s).
Proof. unfold is_u64. intros H. rewrite take_be_app by reflexivity. rewrite Z.mod_small; [reflexivity|]. change (2 ^ (8 * Z.of_nat 8)) with 18446744073709551616. lia. Qed.

Lemma eqb_bytes_refl a : eqb_bytes a a = true.
Proof. unfold eqb_bytes. destruct (list_eq_dec Z.eq_dec a a); congruence. Qed.

Lemma wire_error_u32 e : wire_error e -> is_u32 e /\ (e =? 0) = false.
Proof. unfold wire_error, is_u32. lia. Qed.

Lemma nbd_errno_wire e : wire_error (nbd_errno e).
Proof. unfold nbd_errno, wire_error. repeat match goal with |- context[if ?b then _ else _] => destruct b; [lia|] end. lia. Qed.

Lemma read_answer_simple_ok cookie from len data s :
  length cookie = 8%nat -> zlen data = len ->
  read_answer cookie from len (simple_reply cookie 0 data ++ s) = Some (Ok data, s).
Proof.
  intros Hc Hd. unfold read_answer, simple_reply. rewrite <- !app_assoc.
  rewrite take_be4 by (unfold is_u32, NBD_REPLY_MAGIC; lia).
  change (NBD_REPLY_MAGIC =? 0x67446698) with true. cbv iota.
  rewrite take_be4 by (unfold is_u32; lia).
  rewrite take_app by (unfold zlen; rewrite Hc; reflexivity).
  rewrite eqb_bytes_refl. change (0 =? 0) with true. cbv iota.
  rewrite take_app by exact Hd. reflexivity.
Qed.

Lemma read_answer_simple_err cookie from len e s :
  length cookie = 8%nat -> wire_error e ->
  read_answer cookie from len (simple_reply cookie e [] ++ s) = Some (Err e, s).
Proof.
  intros Hc He. destruct (wire_error_u32 e He) as [H32 H0].
  unfold read_answer, simple_reply. rewrite <- !app_assoc.
  rewrite take_be4 by (unfold is_u32, NBD_REPLY_MAGIC; lia).
  change (NBD_REPLY_MAGIC =? 0x67446698) with true. cbv iota.
  rewrite take_be4 by exact H32.
  rewrite take_app by (unfold zlen; rewrite Hc; reflexivity).
  rewrite eqb_bytes_refl. rewrite H0. reflexivity.
Qed.

Lemma parse_chunk_app cookie fl ty payload s :
  length cookie = 8%nat -> 0 <= fl < 65536 -> 0 <= ty < 65536 -> is_u32 (zlen payload) ->
  parse_chunk (be 2 fl ++ be 2 ty ++ cookie ++ be 4 (u32 (zlen payload)) ++ payload ++ s)
  = Some (mkChunk fl ty cookie payload, s).
Proof.
  intros Hc Hf Ht Hp. unfold parse_chunk. rewrite u32_small by exact Hp.
  rewrite take_be2 by exact Hf. rewrite take_be2 by exact Ht.
  rewrite take_app by (unfold zlen; rewrite Hc; reflexivity).
  rewrite take_be4 by exact Hp. rewrite take_app by reflexivity. reflexivity.
Qed.

Lemma collect_data fuel cookie pos stop acc data s :
  length cookie = 8%nat -> is_u64 pos -> 0 < zlen data <= MAX_RW -> pos + zlen data <= stop ->
  collect (S fuel) cookie pos stop acc (data_chunk cookie pos data ++ s)
  = collect fuel cookie (pos + zlen data) stop (acc ++ data) s.
Proof.
  intros Hc Hp Hd Hs. cbn [collect]. unfold data_chunk, chunk. rewrite <- !app_assoc.
  rewrite take_be4 by (unfold is_u32, NBD_STRUCTURED_REPLY_MAGIC; lia).
  change (NBD_STRUCTURED_REPLY_MAGIC =? 0x668e33ef) with true. cbv iota.
  replace (be 2 0 ++ be 2 NBD_REPLY_TYPE_OFFSET_DATA ++ cookie ++ be 4 (u32 (zlen data + 8)) ++ be 8 pos ++ data ++ s)
    with (be 2 0 ++ be 2 NBD_REPLY_TYPE_OFFSET_DATA ++ cookie ++
          be 4 (u32 (zlen (be 8 pos ++ data))) ++ (be 8 pos ++ data) ++ s).
  2:{ rewrite zlen_app, be_zlen. rewrite <- !app_assoc. do 6 f_equal. lia. }
  rewrite parse_chunk_app; [|exact Hc|lia|unfold NBD_REPLY_TYPE_OFFSET_DATA; lia|].
  2:{ unfold is_u32. rewrite zlen_app, be_zlen. unfold MAX_RW in Hd. lia. }
  cbn [k_cookie k_type k_flags k_payload]. rewrite eqb_bytes_refl.
  change ((NBD_REPLY_TYPE_OFFSET_DATA =? 1) && (0 =? 0)) with true. cbv iota.
  rewrite take_be8 by exact Hp.
  replace ((pos =? pos) && (0 <? zlen data) && (pos + zlen data <=? stop)) with true by lia.
  reflexivity.
Qed.

Lemma collect_done fuel cookie stop acc s :
  length cookie = 8%nat ->
  collect (S fuel) cookie stop stop acc
    (chunk cookie NBD_REPLY_FLAG_DONE NBD_REPLY_TYPE_NONE 0 [] ++ s) = Some (Ok acc, s).
Proof.
  intros Hc. cbn [collect]. unfold chunk. rewrite <- !app_assoc.
  rewrite take_be4 by (unfold is_u32, NBD_STRUCTURED_REPLY_MAGIC; lia).
  change (NBD_STRUCTURED_REPLY_MAGIC =? 0x668e33ef) with true. cbv iota.
  change (u32 0) with (u32 (zlen (@nil Z))).
  rewrite parse_chunk_app; [|exact Hc|unfold NBD_REPLY_FLAG_DONE; lia|unfold NBD_REPLY_TYPE_NONE; lia|unfold is_u32; change (zlen (@nil Z)) with 0; lia].
  cbn [k_cookie k_type k_flags k_payload]. rewrite eqb_bytes_refl.
  change ((NBD_REPLY_TYPE_NONE =? 1) && (NBD_REPLY_FLAG_DONE =? 0)) with false.
  change ((NBD_REPLY_TYPE_NONE =? 0) && (NBD_REPLY_FLAG_DONE =? 1)) with true. cbv iota.
  rewrite Z.eqb_refl. reflexivity.
Qed.

Lemma collect_err fuel cookie pos stop acc e msg s :
  length cookie = 8%nat -> is_u32 e -> zlen msg < 65536 ->
  collect (S fuel) cookie pos stop acc
    (chunk cookie NBD_REPLY_FLAG_DONE NBD_REPLY_TYPE_ERROR (6 + zlen msg)
       (be 4 e ++ le16 (zlen msg) ++ msg) ++ s) = Some (Err e, s).
Proof.
  intros Hc He Hm. cbn [collect]. unfold chunk. rewrite <- !app_assoc.
  rewrite take_be4 by (unfold is_u32, NBD_STRUCTURED_REPLY_MAGIC; lia).
  change (NBD_STRUCTURED_REPLY_MAGIC =? 0x668e33ef) with true. cbv iota.
  set (pl := be 4 e ++ le16 (zlen msg) ++ msg).
  assert (Hpl : zlen pl = 6 + zlen msg).
  { unfold pl. rewrite !zlen_app, be_zlen. cbn. unfold zlen at 1. cbn. lia. }
  replace (be 2 NBD_REPLY_FLAG_DONE ++ be 2 NBD_REPLY_TYPE_ERROR ++ cookie ++ be 4 (u32 (6 + zlen msg)) ++
           be 4 e ++ le16 (zlen msg) ++ msg ++ s)
    with (be 2 NBD_REPLY_FLAG_DONE ++ be 2 NBD_REPLY_TYPE_ERROR ++ cookie ++ be 4 (u32 (zlen pl)) ++ pl ++ s).
  2:{ rewrite Hpl. unfold pl. rewrite <- !app_assoc. reflexivity. }
  rewrite parse_chunk_app; [|exact Hc|unfold NBD_REPLY_FLAG_DONE; lia|unfold NBD_REPLY_TYPE_ERROR; lia|].
  2:{ unfold is_u32. pose proof (zlen_nonneg msg). lia. }
  cbn [k_cookie k_type k_flags k_payload]. rewrite eqb_bytes_refl.
  change ((NBD_REPLY_TYPE_ERROR =? 1) && (NBD_REPLY_FLAG_DONE =? 0)) with false.
  change ((NBD_REPLY_TYPE_ERROR =? 0) && (NBD_REPLY_FLAG_DONE =? 1)) with false.
  change ((NBD_REPLY_TYPE_ERROR =? 32769) && (NBD_REPLY_FLAG_DONE =? 1)) with true. cbv iota.
  unfold pl. rewrite take_be4 by exact He. reflexivity.
Qed.

Lemma tiles_le p ps e : tiles p ps e -> p <= e.
Proof. revert p. induction ps as [|[o n] ps IH]; cbn [tiles]; intros p H; [lia|]. destruct H as (-> & Hn & Ht). specialize (IH _ Ht). lia. Qed.

Lemma collect_tiles cookie from f ps : forall p e fuel acc s stop,
  length cookie = 8%nat -> tiles p ps e -> 0 <= from + p -> from + e <= stop -> stop < 18446744073709551616 ->
  collect (length ps + fuel) cookie (from + p) stop acc
    (concat (map (piece_msg cookie from f) ps) ++ s)
  = collect fuel cookie (from + e) stop (acc ++ slice f (from + p) (e - p)) s.
Proof.
  induction ps as [|[o n] ps IH]; cbn [tiles map concat length Nat.add]; intros p e fuel acc s stop Hc Ht Hp He Hs.
  - subst e. rewrite Z.sub_diag, slice_nil, app_nil_r. reflexivity.
  - destruct Ht as (-> & Hn & Ht). pose proof (tiles_le _ _ _ Ht) as Hle.
    rewrite <- app_assoc. unfold piece_msg at 1. cbn [fst snd].
    assert (Hz : zlen (slice f (from + p) n) = n) by (apply slice_zlen; lia).
    rewrite collect_data; rewrite ?Hz; try assumption; try lia; [|unfold is_u64; lia].
    replace (from + p + n) with (from + (p + n)) by lia.
    rewrite IH with (e := e); try assumption; try lia.
    f_equal. rewrite <- app_assoc. f_equal.
    replace (e - p) with (n + (e - (p + n))) by lia.
    rewrite slice_split by lia. do 2 f_equal. lia.
Qed.

Lemma piece_msg_nonempty cookie from f p : (0 < length (piece_msg cookie from f p))%nat.
Proof. unfold piece_msg, data_chunk, chunk. rewrite !app_length, !be_length. lia. Qed.

Lemma concat_pieces_length cookie from f ps :
  (length ps <= length (concat (map (piece_msg cookie from f) ps)))%nat.
Proof.
  induction ps as [|p ps IH]; cbn [map concat length]; [lia|].
  rewrite app_length. pose proof (piece_msg_nonempty cookie from f p). lia.
Qed.

Lemma magic_not_simple fl ty cookie n payload s from len :
  read_answer cookie from len (chunk cookie fl ty n payload ++ s) =
  collect (length (chunk cookie fl ty n payload ++ s)) cookie from (from + len) [] (chunk cookie fl ty n payload ++ s).
Proof.
  unfold read_answer. unfold chunk at 1. rewrite <- app_assoc.
  rewrite take_be4 by (unfold is_u32, NBD_STRUCTURED_REPLY_MAGIC; lia).
  change (NBD_STRUCTURED_REPLY_MAGIC =? 0x67446698) with false. cbv iota. reflexivity.
Qed.

Lemma read_answer_struct cookie from len f ps e last s ans :
  length cookie = 8%nat -> 0 <= from -> 0 <= len -> from + len < 18446744073709551616 ->
  tiles 0 ps e -> e <= len -> (0 < length last)%nat ->
  (forall stop acc fuel, stop = from + len -> acc = slice f from e ->
      collect (S fuel) cookie (from + e) stop acc (last ++ s) = Some (ans, s)) ->
  (exists fl ty n pl, last = chunk cookie fl ty n pl) ->
  read_answer cookie from len (concat (map (piece_msg cookie from f) ps ++ [last]) ++ s) = Some (ans, s).
Proof.
  intros Hc Hf Hl Hm Ht He Hlast Hend (fl & ty & n & pl & Hlc).
  rewrite concat_app. cbn [concat]. rewrite app_nil_r, <- app_assoc.
  set (str := concat (map (piece_msg cookie from f) ps) ++ last ++ s).
  assert (Hread : read_answer cookie from len str = collect (length str) cookie from (from + len) [] str).
  { unfold str. destruct ps as [|p ps].
    - cbn [map concat app]. rewrite Hlc. apply magic_not_simple.
    - cbn [map concat]. rewrite <- app_assoc. unfold piece_msg at 1 3 5. unfold data_chunk. apply magic_not_simple. }
  rewrite Hread. clear Hread.
  assert (Hlen : exists fuel, length str = (length ps + S fuel)%nat).
  { exists (length str - length ps - 1)%nat. unfold str. rewrite !app_length.
    pose proof (concat_pieces_length cookie from f ps). lia. }
  destruct Hlen as [fuel ->].
  replace from with (from + 0) at 1 by lia. unfold str.
  rewrite collect_tiles with (e := e); try assumption; try lia.
  cbn [app]. apply Hend; [reflexivity|]. rewrite Z.add_0_r, Z.sub_0_r. reflexivity.
Qed.
