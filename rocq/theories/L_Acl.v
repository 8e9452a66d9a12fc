(** Lemmas about client authorization. *)
From Verif Require Import Base M_Acl S_Acl.

(** * Bit prefixes *)
Lemma addr_bit_head x s i : 0 <= i < 8 -> addr_bit (x :: s) i = Z.testbit x (7 - i).
Proof.
  intros H. unfold addr_bit. rewrite (Z.div_small i 8), (Z.mod_small i 8) by lia. reflexivity.
Qed.
Lemma addr_bit_tail x s i : 8 <= i -> addr_bit (x :: s) i = addr_bit s (i - 8).
Proof.
  intros H. unfold addr_bit.
  replace (i / 8) with (1 + (i - 8) / 8) by lia. replace (i mod 8) with ((i - 8) mod 8) by lia.
  unfold znth. replace (Z.to_nat (1 + (i - 8) / 8)) with (S (Z.to_nat ((i - 8) / 8))) by lia. reflexivity.
Qed.

Lemma byte_high x k : is_byte x -> 8 <= k -> Z.testbit x k = false.
Proof.
  intros H Hk. destruct (Z.eq_dec x 0) as [->|N]; [apply Z.bits_0|].
  apply Z.bits_above_log2; [unfold is_byte in H; lia|].
  assert (Z.log2 x < 8); [|lia]. apply Z.log2_lt_pow2; unfold is_byte in H; [lia|]. change (2 ^ 8) with 256. lia.
Qed.

Lemma byte_eq x y : is_byte x -> is_byte y -> (forall i, 0 <= i < 8 -> Z.testbit x (7 - i) = Z.testbit y (7 - i)) -> x = y.
Proof.
  intros Hx Hy H. apply Z.bits_inj'. intros k Hk. destruct (Z.ltb k 8) eqn:E.
  - replace k with (7 - (7 - k)) by lia. apply H. lia.
  - rewrite !byte_high by (auto; lia). reflexivity.
Qed.

Lemma same_prefix_cons n x y s t : 8 <= n -> is_byte x -> is_byte y ->
  (same_prefix n (x :: s) (y :: t) <-> x = y /\ same_prefix (n - 8) s t).
Proof.
  intros Hn Hx Hy. split.
  - intros H. split.
    + apply byte_eq; auto. intros i Hi. rewrite <- (addr_bit_head x s i Hi), <- (addr_bit_head y t i Hi). apply H. lia.
    + intros i Hi. specialize (H (i + 8)). rewrite !addr_bit_tail in H by lia.
      replace (i + 8 - 8) with i in H by lia. apply H. lia.
  - intros [-> H] i Hi. destruct (Z.ltb i 8) eqn:E.
    + rewrite !addr_bit_head by lia. reflexivity.
    + rewrite !addr_bit_tail by lia. apply H. lia.
Qed.

Lemma mask_bit len k : 1 <= len <= 7 -> 0 <= k -> Z.testbit (getmaskbyte len) k = (8 - len <=? k) && (k <? 8).
Proof.
  intros Hl Hk.
  assert (C : getmaskbyte len = 256 - 2 ^ (8 - len)).
  { assert (len = 1 \/ len = 2 \/ len = 3 \/ len = 4 \/ len = 5 \/ len = 6 \/ len = 7) as D by lia.
    destruct D as [->|[->|[->|[->|[->|[->| ->]]]]]]; vm_compute; reflexivity. }
  rewrite C. clear C.
  destruct (Z.ltb k 8) eqn:E.
  - assert (len = 1 \/ len = 2 \/ len = 3 \/ len = 4 \/ len = 5 \/ len = 6 \/ len = 7) as D by lia.
    assert (k = 0 \/ k = 1 \/ k = 2 \/ k = 3 \/ k = 4 \/ k = 5 \/ k = 6 \/ k = 7) as D2 by lia.
    destruct D as [->|[->|[->|[->|[->|[->| ->]]]]]]; destruct D2 as [->|[->|[->|[->|[->|[->|[->| ->]]]]]]];
      vm_compute; reflexivity.
  - rewrite andb_false_r. apply byte_high; [|lia]. unfold is_byte.
    assert (2 ^ 1 <= 2 ^ (8 - len) <= 2 ^ 7) by (split; apply Z.pow_le_mono_r; lia).
    change (2 ^ 1) with 2 in *. change (2 ^ 7) with 128 in *. lia.
Qed.

Lemma same_prefix_last n x y s t : 1 <= n <= 7 ->
  (same_prefix n (x :: s) (y :: t) <-> Z.land x (getmaskbyte n) = Z.land y (getmaskbyte n)).
Proof.
  intros Hn. split.
  - intros H. apply Z.bits_inj'. intros k Hk. rewrite !Z.land_spec, mask_bit by lia.
    destruct ((8 - n <=? k) && (k <? 8)) eqn:E; [|rewrite !andb_false_r; reflexivity].
    rewrite !andb_true_r. specialize (H (7 - k)). rewrite !addr_bit_head in H by lia.
    replace (7 - (7 - k)) with k in H by lia. apply H. lia.
  - intros H i Hi. rewrite !addr_bit_head by lia.
    assert (E := f_equal (fun z => Z.testbit z (7 - i)) H). cbv beta in E.
    rewrite !Z.land_spec, mask_bit in E by lia.
    replace ((8 - n <=? 7 - i) && (7 - i <? 8)) with true in E by lia. rewrite !andb_true_r in E. exact E.
Qed.

Lemma same_prefix_0 a b : same_prefix 0 a b.
Proof. intros i Hi. lia. Qed.

(** the comparison loop decides equality of the first [len] bits *)
Lemma compare_spec : forall fuel len s t, 0 <= len -> len / 8 < Z.of_nat fuel ->
  len <= 8 * zlen s -> len <= 8 * zlen t -> Forall is_byte s -> Forall is_byte t ->
  (compare_bits fuel len s t = AYes /\ same_prefix len s t) \/
  (compare_bits fuel len s t = ANo /\ ~ same_prefix len s t).
Proof.
  induction fuel as [|fuel IH]; intros len s t Hl Hf Hs Ht Bs Bt; [lia|]. cbn [compare_bits].
  destruct (8 <=? len) eqn:E8.
  - destruct s as [|x s]; [change (zlen (@nil Z)) with 0 in Hs; lia|]. destruct t as [|y t]; [change (zlen (@nil Z)) with 0 in Ht; lia|].
    rewrite zlen_cons in Hs, Ht. inversion Bs as [|? ? Bx Bs']; subst. inversion Bt as [|? ? By Bt']; subst.
    rewrite same_prefix_cons by (auto; lia).
    destruct (x =? y) eqn:Exy.
    + destruct (IH (len - 8) s t) as [[A B]|[A B]]; auto; try lia; rewrite A; [left|right].
      * split; [reflexivity|]. split; [lia|exact B].
      * split; [reflexivity|]. intros [_ C]. contradiction.
    + right. split; [reflexivity|]. intros [C _]. lia.
  - destruct (len =? 0) eqn:E0.
    + left. split; [reflexivity|]. replace len with 0 by lia. apply same_prefix_0.
    + destruct s as [|x s]; [change (zlen (@nil Z)) with 0 in Hs; lia|]. destruct t as [|y t]; [change (zlen (@nil Z)) with 0 in Ht; lia|].
      rewrite same_prefix_last by lia.
      destruct (Z.land x (getmaskbyte len) =? Z.land y (getmaskbyte len)) eqn:E; [left|right]; split; auto; lia.
Qed.

Lemma mapped_bytes b : Forall is_byte b -> Forall is_byte (mapped b).
Proof. intros H. unfold mapped. apply Forall_app. split; [repeat constructor; lia|exact H]. Qed.

Lemma addr_bit_app_lo p a i : 0 <= i -> i < 8 * zlen p -> addr_bit (p ++ a) i = addr_bit p i.
Proof.
  intros H1 H2. unfold addr_bit, znth. rewrite app_nth1; [reflexivity|]. unfold zlen in *. lia.
Qed.
Lemma addr_bit_app_hi p a i : 8 * zlen p <= i -> addr_bit (p ++ a) i = addr_bit a (i - 8 * zlen p).
Proof.
  intros H2. unfold addr_bit, znth. pose proof (zlen_nonneg p). rewrite app_nth2 by (unfold zlen in *; lia).
  replace ((i - 8 * zlen p) mod 8) with (i mod 8) by lia. do 2 f_equal. unfold zlen in *. lia.
Qed.

Lemma bytes_eq : forall a b, length a = length b -> Forall is_byte a -> Forall is_byte b ->
  same_prefix (8 * zlen a) a b -> a = b.
Proof.
  induction a as [|x a IH]; intros [|y b] L Ba Bb H; try discriminate; [reflexivity|].
  inversion Ba; subst. inversion Bb; subst. rewrite zlen_cons in H. pose proof (zlen_nonneg a).
  apply same_prefix_cons in H; auto; [|lia]. destruct H as [-> H]. f_equal. apply IH; auto.
  replace (8 * (1 + zlen a) - 8) with (8 * zlen a) in H by lia. exact H.
Qed.

Lemma mapped_prefix a b n : length a = 16%nat -> Forall is_byte a -> Forall is_byte b -> 0 <= n ->
  (same_prefix (n + 96) a (mapped b) <-> exists c, length c = 4%nat /\ a = v4mapped c /\ same_prefix n c b).
Proof.
  intros L Ba Bb Hn. set (p := [0;0;0;0;0;0;0;0;0;0;255;255]).
  assert (Lp : zlen p = 12) by reflexivity.
  assert (Bp : Forall is_byte p) by (repeat constructor; lia).
  assert (M : forall x, v4mapped x = p ++ x) by reflexivity.
  change (mapped b) with (p ++ b).
  split.
  - intros H. exists (skipn 12 a). assert (E : firstn 12 a = p).
    { apply bytes_eq; auto.
      - rewrite firstn_length, L. reflexivity.
      - rewrite <- (firstn_skipn 12 a) in Ba. apply Forall_app in Ba. tauto.
      - intros i Hi. assert (zlen (firstn 12 a) = 12) as L12 by (unfold zlen; rewrite firstn_length, L; reflexivity).
        rewrite L12 in Hi. rewrite <- (addr_bit_app_lo (firstn 12 a) (skipn 12 a) i) by lia. rewrite firstn_skipn.
        rewrite H by lia. apply addr_bit_app_lo; lia. }
    assert (Ea : a = p ++ skipn 12 a) by (rewrite <- E; symmetry; apply firstn_skipn).
    split; [rewrite skipn_length, L; reflexivity|]. split; [rewrite M; exact Ea|].
    intros i Hi. specialize (H (i + 96)). rewrite Ea in H. rewrite !addr_bit_app_hi in H by lia.
    rewrite Lp in H. replace (i + 96 - 8 * 12) with i in H by lia. apply H. lia.
  - intros (c & Lc & -> & H) i Hi. rewrite M. destruct (Z.ltb i 96) eqn:E.
    + rewrite !addr_bit_app_lo by lia. reflexivity.
    + rewrite !addr_bit_app_hi by lia. apply H. lia.
Qed.

Lemma len_zlen {A} (l : list A) n : length l = n -> zlen l = Z.of_nat n.
Proof. intros <-. reflexivity. Qed.

Lemma match_one_spec client r n : good_addr client -> good_addr r -> ~ v6_for_v4 client r -> 0 <= n <= addr_bits r ->
  (match_one client n r = AYes /\ admits client r n) \/ (match_one client n r = ANo /\ ~ admits client r n).
Proof.
  intros Hc Hr Hx Hn. destruct client as [a|a|]; destruct r as [b|b|]; cbn in Hc, Hr, Hx, Hn; try tauto;
    destruct Hc as [La Ba]; destruct Hr as [Lb Bb]; cbn [match_one admits];
    apply len_zlen in La as Za; apply len_zlen in Lb as Zb; cbn in Za, Zb.
  - apply compare_spec; auto; lia.
  - rewrite <- mapped_prefix by (auto; lia).
    assert (zlen (mapped b) = 16) by (unfold mapped; rewrite zlen_app, Zb; reflexivity).
    apply compare_spec; auto; try lia. apply mapped_bytes; exact Bb.
  - apply compare_spec; auto; lia.
Qed.

Lemma match_list_spec client n res : good_addr client ->
  Forall (fun r => good_addr r /\ ~ v6_for_v4 client r /\ 0 <= n <= addr_bits r) res ->
  (match_list client n res = AYes /\ Exists (fun r => admits client r n) res) \/
  (match_list client n res = ANo /\ ~ Exists (fun r => admits client r n) res).
Proof.
  intros Hc. induction res as [|r res IH]; intros H; cbn [match_list].
  - right. split; [reflexivity|]. intros K. inversion K.
  - inversion H as [|? ? (H1 & H2 & H3) H4]; subst.
    destruct (match_one_spec client r n Hc H1 H2 H3) as [[E A]|[E A]]; rewrite E.
    + left. split; [reflexivity|]. constructor. exact A.
    + destruct (IH H4) as [[E2 A2]|[E2 A2]]; [left|right]; (split; [exact E2|]).
      * apply Exists_cons_tl. exact A2.
      * intros K. inversion K; contradiction.
Qed.

(** * Entry text *)
Lemma split_at_app c a b : ~ In c a -> split_at c (a ++ c :: b) = (a, Some b).
Proof.
  induction a as [|x a IH]; intros H; cbn [split_at app].
  - rewrite Z.eqb_refl. reflexivity.
  - destruct (x =? c) eqn:E; [exfalso; apply H; left; lia|]. rewrite IH; [reflexivity|].
    intros K. apply H. right. exact K.
Qed.
Lemma split_at_none c a : ~ In c a -> split_at c a = (a, None).
Proof.
  induction a as [|x a IH]; intros H; cbn [split_at]; [reflexivity|].
  destruct (x =? c) eqn:E; [exfalso; apply H; left; lia|]. rewrite IH; [reflexivity|].
  intros K. apply H. right. exact K.
Qed.

Lemma strtol_decimal n : 0 <= n <= 128 -> strtol (decimal n) = n.
Proof.
  intros H.
  assert (K : forallb (fun k => strtol (decimal (Z.of_nat k)) =? Z.of_nat k) (seq 0 129) = true) by (vm_compute; reflexivity).
  rewrite forallb_forall in K. specialize (K (Z.to_nat n)).
  rewrite in_seq in K. specialize (K ltac:(lia)). rewrite Z2Nat.id in K by lia. lia.
Qed.

Lemma address_matches_mask gai host client res n :
  ~ In 47 host -> gai host = Some res -> good_addr client ->
  Forall (fun r => good_addr r /\ ~ v6_for_v4 client r /\ 0 <= n <= addr_bits r) res ->
  0 <= n <= addr_bits client ->
  (address_matches gai (host ++ 47 :: decimal n) client = AYes /\ Exists (fun r => admits client r n) res) \/
  (address_matches gai (host ++ 47 :: decimal n) client = ANo /\ ~ Exists (fun r => admits client r n) res).
Proof.
  intros Hh Hg Hc Hr Hn. unfold address_matches. rewrite split_at_app by exact Hh.
  assert (addr_bits client <= 128) by (destruct client; cbn; lia).
  rewrite strtol_decimal by lia.
  assert (i32 n = n) as -> by (unfold i32; rewrite Z.mod_small; lia).
  set (al := match client with V4 _ => 4 | _ => 16 end).
  assert (n <= al * 8) by (unfold al; destruct client; cbn in Hn; lia).
  replace ((al * 8 <? n) || (n <? 0)) with false by lia. rewrite Hg.
  apply match_list_spec; auto.
Qed.

Lemma address_matches_plain gai host client res :
  ~ In 47 host -> gai host = Some res -> good_addr client ->
  Forall (fun r => good_addr r /\ same_family client r) res ->
  (address_matches gai host client = AYes /\ In client res) \/
  (address_matches gai host client = ANo /\ ~ In client res).
Proof.
  intros Hh Hg Hc Hr. unfold address_matches. rewrite split_at_none by exact Hh. rewrite Hg.
  set (al := match client with V4 _ => 4 | _ => 16 end).
  assert (Hal : al * 8 = addr_bits client) by (unfold al; destruct client; cbn in Hc |- *; [reflexivity|reflexivity|contradiction]).
  replace ((al * 8 <? al * 8) || (al * 8 <? 0)) with false by (unfold al; destruct client; reflexivity).
  assert (Hr2 : Forall (fun r => good_addr r /\ ~ v6_for_v4 client r /\ 0 <= al * 8 <= addr_bits r) res).
  { eapply Forall_impl; [|exact Hr]. intros r (G & S). rewrite Hal.
    split; [exact G|]. destruct client, r; cbn in *; try contradiction; split; try tauto; lia. }
  assert (Ad : forall r, In r res -> (admits client r (al * 8) <-> r = client)).
  { intros r Hin. rewrite Forall_forall in Hr. destruct (Hr r Hin) as [G S]. rewrite Hal.
    destruct client as [a|a|], r as [b|b|]; cbn in *; try contradiction;
      destruct Hc as [L1 B1], G as [L2 B2]; (split; [|intros E; injection E as ->; intros i _; reflexivity]);
      intros P; f_equal; symmetry; apply bytes_eq; try congruence; rewrite (len_zlen _ _ L1); exact P. }
  destruct (match_list_spec client (al * 8) res Hc Hr2) as [[E A]|[E A]]; rewrite E; [left|right]; (split; [reflexivity|]).
  - apply Exists_exists in A. destruct A as (r & Hin & A). apply Ad in A; auto. subst. exact Hin.
  - intros K. apply A. apply Exists_exists. exists client. split; [exact K|]. apply Ad; auto.
Qed.

(** IPv6 entries and IPv4 clients: the number counts from bit 96 *)
Lemma v6_list a n res : length a = 4%nat -> Forall is_byte a -> 0 <= n <= 32 ->
  Forall (fun b => length b = 16%nat /\ Forall is_byte b) res ->
  (match_list (V4 a) n (map V6 res) = AYes /\ Exists (fun b => same_prefix (96 + n) (v4mapped a) b) res) \/
  (match_list (V4 a) n (map V6 res) = ANo /\ Forall (fun b => ~ same_prefix (96 + n) (v4mapped a) b) res).
Proof.
  intros La Ba Hn. apply len_zlen in La as Za. cbn in Za.
  assert (Zm : zlen (mapped a) = 16) by (unfold mapped; rewrite zlen_app, Za; reflexivity).
  induction 1 as [|b res (Lb & Bb) _ IH]; cbn [map match_list].
  - right. split; [reflexivity|constructor].
  - apply len_zlen in Lb as Zb. cbn in Zb. cbn [match_one]. rewrite (Z.add_comm n 96).
    destruct (compare_spec 30 (96 + n) (mapped a) b) as [[E A]|[E A]]; try lia; auto using mapped_bytes; rewrite E.
    + left. split; [reflexivity|]. constructor. exact A.
    + destruct IH as [[E2 A2]|[E2 A2]]; [left|right]; (split; [exact E2|]).
      * apply Exists_cons_tl. exact A2.
      * constructor; assumption.
Qed.
Lemma v6_entry_v4_client gai host a res n entry :
  ~ In 47 host -> gai host = Some (map V6 res) -> good_addr (V4 a) -> Forall (fun b => good_addr (V6 b)) res ->
  (entry = host ++ 47 :: decimal n /\ 0 <= n <= 32) \/ (entry = host /\ n = 32) ->
  (address_matches gai entry (V4 a) = AYes /\ Exists (fun b => same_prefix (96 + n) (v4mapped a) b) res) \/
  (address_matches gai entry (V4 a) = ANo /\ Forall (fun b => ~ same_prefix (96 + n) (v4mapped a) b) res).
Proof.
  intros Hh Hg (La & Ba) Hr [(-> & Hn) | (-> & ->)]; unfold address_matches.
  - rewrite split_at_app by exact Hh. rewrite strtol_decimal by lia.
    assert (i32 n = n) as -> by (unfold i32; rewrite Z.mod_small; lia).
    replace ((4 * 8 <? n) || (n <? 0)) with false by lia. rewrite Hg. now apply v6_list.
  - rewrite split_at_none by exact Hh. rewrite Hg. change ((4 * 8 <? 4 * 8) || (4 * 8 <? 0)) with false. cbv beta iota. apply v6_list; auto. lia.
Qed.
