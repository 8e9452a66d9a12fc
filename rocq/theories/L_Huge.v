(** Lemmas for make-integrityhuge. *)
From Verif Require Import Base M_Const M_Huge S_Wire S_Disk S_Par S_Huge L_Wire.
Local Open Scope list_scope.

(** ** random numbers *)
Lemma u64_r x : 0 <= u64 x < 18446744073709551616.
Proof. unfold u64. apply Z.mod_pos_bound. lia. Qed.
Lemma random64_range rnd k : 0 <= random64 rnd k < 18446744073709551616.
Proof. unfold random64. cbn [stir]. apply u64_r. Qed.
Lemma clear10_is x : 0 <= x < 18446744073709551616 -> clear10 x = x / 1024 * 1024.
Proof.
  intros H. unfold clear10. change (u64 (Z.lnot 1023)) with (Z.ldiff (Z.ones 64) (Z.ones 10)).
  replace (Z.land x (Z.ldiff (Z.ones 64) (Z.ones 10))) with (Z.ldiff (Z.land x (Z.ones 64)) (Z.ones 10)).
  - rewrite Z.land_ones, Z.mod_small by (cbn; lia). rewrite Z.ldiff_ones_r by lia. rewrite Z.shiftl_mul_pow2, Z.shiftr_div_pow2 by lia. reflexivity.
  - apply Z.bits_inj'. intros n Hn. rewrite Z.land_spec, !Z.ldiff_spec, Z.land_spec. now rewrite andb_assoc.
Qed.
Lemma mul1024 a : (a * 1024) mod 1024 = 0.
Proof. apply Z.mod_mul. lia. Qed.
Definition huge_req (c : Z * Z * Z) (h : Z) : wreq := let '(command, offset, len) := c in mkWreq command (be 8 h) offset len [].
Lemma pick_ok rnd k h : huge_ok 50000000 (huge_req (pick rnd k) h).
Proof.
  unfold pick. change filesize with 50000000. cbv zeta.
  pose proof (Z.mod_pos_bound (random64 rnd k) 49997952 ltac:(lia)) as R1. change (50000000 - 2048) with 49997952.
  rewrite (clear10_is (random64 rnd k mod 49997952)) by lia.
  set (a := random64 rnd k mod 49997952) in *. assert (A : 0 <= a / 1024 * 1024 <= 49997824) by (pose proof (Z.div_mod a 1024 ltac:(lia)); pose proof (Z.mod_pos_bound a 1024 ltac:(lia)); assert (a / 1024 < 48827) by (apply Z.div_lt_upper_bound; lia); assert (0 <= a / 1024) by (apply Z.div_pos; lia); lia).
  replace (u64 (a / 1024 * 1024 + 1024)) with (a / 1024 * 1024 + 1024) by (unfold u64; rewrite Z.mod_small; lia).
  set (l := a / 1024 * 1024 + 1024) in *.
  pose proof (Z.mod_pos_bound (random64 rnd (k + 5)) (50000000 - l) ltac:(lia)) as R2.
  rewrite (clear10_is (random64 rnd (k + 5) mod (50000000 - l))) by lia.
  set (b := random64 rnd (k + 5) mod (50000000 - l)) in *.
  assert (B : 0 <= b / 1024 * 1024 <= b) by (pose proof (Z.div_mod b 1024 ltac:(lia)); pose proof (Z.mod_pos_bound b 1024 ltac:(lia)); assert (0 <= b / 1024) by (apply Z.div_pos; lia); lia).
  destruct (Z.land (random64 rnd (k + 10)) 240 =? 0); [right; cbn; auto|left]. unfold huge_req. cbn [q_type q_len q_from].
  split.
  { destruct (Z.land _ 15 =? 0); [cbn; auto|]. destruct (Z.land _ 1 =? 0); cbn; auto. }
  split; [lia|]. split; [unfold l; rewrite <- Z.add_mod_idemp_l, mul1024 by lia; reflexivity|]. split; [lia|]. split; [apply mul1024|]. lia.
Qed.

(** ** output *)
Definition prefix_of (p l : list Z) : Prop := exists t, t <> [] /\ l = p ++ t.
Lemma dowrite_spec wr fuel : forall buf out n, (length buf <= fuel)%nat ->
  (exists m, dowrite fuel wr buf out n = HGo (out ++ buf) m) \/
  (exists p k, dowrite fuel wr buf out n = HExit (out ++ p) /\ prefix_of p buf /\ wr k <= 0).
Proof.
  induction fuel as [|fuel IH]; intros buf out n L; cbn [dowrite].
  { destruct buf; [|cbn in L; lia]. left. exists n. cbn. now rewrite app_nil_r. }
  destruct buf as [|x buf]. { left. exists n. cbn. now rewrite app_nil_r. }
  set (b := x :: buf) in *. assert (Lb : 0 < zlen b) by (unfold zlen, b; cbn [length]; lia). replace (zlen b <=? 0) with false by lia. cbv zeta.
  destruct (Z.leb_spec (Z.min (wr n) (zlen b)) 0) as [H|H].
  { right. exists [], n. rewrite app_nil_r. split; [reflexivity|]. split; [|lia]. exists b. split; [discriminate|reflexivity]. }
  set (r := Z.to_nat (Z.min (wr n) (zlen b))). assert (R : (1 <= r <= length b)%nat) by (unfold r, zlen in *; lia).
  destruct (IH (skipn r b) (out ++ firstn r b) (S n)) as [(m & E)|(p & k & E & (t & Ht & Ep) & Hk)].
  { rewrite skipn_length. lia. }
  - left. exists m. rewrite E. rewrite <- app_assoc, firstn_skipn. reflexivity.
  - right. exists (firstn r b ++ p), k. rewrite E, <- app_assoc. split; [reflexivity|]. split; [|exact Hk]. exists t. split; [exact Ht|].
    rewrite <- app_assoc, <- Ep. symmetry. apply firstn_skipn.
Qed.
(** the output so far: all of [l], or the program ended after less *)
Definition wrote (wr : nat -> Z) (l : list Z) (o : hout) : Prop :=
  (exists n, o = HGo l n) \/ (exists p k, o = HExit p /\ prefix_of p l /\ wr k <= 0).
Lemma wrote_all wr buf l o : wrote wr l o -> wrote wr (l ++ buf) (dowrite_all wr buf o).
Proof.
  intros [(n & ->)|(p & k & -> & (t & Ht & ->) & Hk)]; cbn [dowrite_all].
  - destruct (dowrite_spec wr (length buf) buf l n (le_n _)) as [(m & ->)|(p & k & -> & (t & Ht & E) & Hk)].
    + left. eauto.
    + right. exists (l ++ p), k. split; [reflexivity|]. split; [|exact Hk]. exists t. split; [exact Ht|]. rewrite E. now rewrite app_assoc.
  - right. exists p, k. split; [reflexivity|]. split; [|exact Hk]. exists (t ++ buf). split; [destruct t; [contradiction|discriminate]|]. now rewrite app_assoc.
Qed.
Fixpoint huge_bytes (n : nat) (rnd : nat -> Z) (h : nat) : list Z :=
  match n with
  | O => []
  | S n => let '(command, offset, len) := pick rnd (15 * h) in req_bytes command (Z.of_nat h) offset len ++ rep_bytes (Z.of_nat h) ++ huge_bytes n rnd (S h)
  end.
Lemma loop_wrote rnd wr n : forall h l o, wrote wr l o -> wrote wr (l ++ huge_bytes n rnd h) (huge_loop n rnd wr h o).
Proof.
  induction n as [|n IH]; intros h l o H; cbn [huge_loop huge_bytes]; [now rewrite app_nil_r|].
  destruct (pick rnd (15 * h)) as [[c f] e]. rewrite !app_assoc. apply IH. apply wrote_all, wrote_all, H.
Qed.
Definition huge_log (rnd : nat -> Z) : list Z := huge_bytes transactions rnd 0 ++ req_bytes NBD_CMD_DISC (Z.of_nat (transactions - 1)) 0 0.
Lemma main_wrote rnd wr : wrote wr (huge_log rnd) (huge_main rnd wr).
Proof. unfold huge_main, huge_log. apply wrote_all. apply (loop_wrote rnd wr transactions 0 []). left. eauto. Qed.

(** ** reading it back *)
Lemma be_zlen n x : zlen (be n x) = Z.of_nat n.
Proof. unfold zlen. now rewrite be_length. Qed.
Lemma parse_req fuel c h f l s : 0 <= c < 4294967296 -> 0 <= f < 18446744073709551616 -> 0 <= l < 4294967296 ->
  parse_log (S fuel) false (req_bytes c h f l ++ s) = match parse_log fuel false s with Some t => Some (GReq (mkWreq c (be 8 h) f l []) :: t) | None => None end.
Proof.
  intros Hc Hf Hl. unfold req_bytes, NBD_REQUEST_MAGIC, u32. rewrite !(Z.mod_small _ 4294967296) by lia.
  destruct ((be 4 627086611 ++ be 4 c ++ be 8 h ++ be 8 f ++ be 4 l) ++ s) as [|x y] eqn:E; [discriminate E|]. cbn [parse_log]. rewrite <- E.
  rewrite <- !app_assoc. rewrite (take_be4 627086611) by (unfold is_u32; lia). change (627086611 =? 627086611) with true. cbv beta iota.
  rewrite (take_be4 c) by (unfold is_u32; lia). rewrite (take_app 8 (be 8 h)) by apply be_zlen. rewrite (take_be8 f) by (unfold is_u64; lia).
  rewrite (take_be4 l) by (unfold is_u32; lia). cbn [andb]. change (take 0 s) with (take 0 ([] ++ s)). rewrite (take_app 0 [] s) by reflexivity. reflexivity.
Qed.
Lemma parse_rep fuel h s :
  parse_log (S fuel) false (rep_bytes h ++ s) = match parse_log fuel false s with Some t => Some (GRep (be 8 h) (HSimple 0) :: t) | None => None end.
Proof.
  unfold rep_bytes, NBD_REPLY_MAGIC.
  destruct ((be 4 1732535960 ++ be 4 0 ++ be 8 h) ++ s) as [|x y] eqn:E; [discriminate E|]. cbn [parse_log]. rewrite <- E.
  rewrite <- !app_assoc. rewrite (take_be4 1732535960) by (unfold is_u32; lia). change (1732535960 =? 627086611) with false. change (1732535960 =? 1732535960) with true. cbv beta iota.
  rewrite (take_be4 0) by (unfold is_u32; lia). rewrite (take_app 8 (be 8 h)) by apply be_zlen. reflexivity.
Qed.
Fixpoint huge_reqs (n : nat) (rnd : nat -> Z) (h : nat) : list wreq :=
  match n with O => [] | S n => huge_req (pick rnd (15 * h)) (Z.of_nat h) :: huge_reqs n rnd (S h) end.
Lemma huge_reqs_ok rnd n : forall h, Forall (huge_ok 50000000) (huge_reqs n rnd h) /\ cookies_from (Z.of_nat h) (huge_reqs n rnd h) /\ length (huge_reqs n rnd h) = n.
Proof.
  induction n as [|n IH]; intros h; cbn [huge_reqs]; [repeat constructor|]. destruct (IH (S h)) as (I1 & I2 & I3).
  split; [constructor; [apply pick_ok|exact I1]|]. split; [|cbn [length]; lia]. cbn [cookies_from]. split; [destruct (pick rnd (15 * h)) as [[? ?] ?]; reflexivity|].
  replace (Z.of_nat h + 1) with (Z.of_nat (S h)) by lia. exact I2.
Qed.
Lemma parse_huge rnd last n : forall h fuel s, parse_log fuel false s = Some [GReq last] ->
  parse_log (n + n + fuel) false (huge_bytes n rnd h ++ s) = Some (answered (Z.of_nat h) (huge_reqs n rnd h) last).
Proof.
  induction n as [|n IH]; intros h fuel s E; cbn [huge_bytes huge_reqs answered]; [exact E|].
  pose proof (pick_ok rnd (15 * h) (Z.of_nat h)) as P. destruct (pick rnd (15 * h)) as [[c f] l] eqn:Ep. rewrite <- !app_assoc.
  replace (S n + S n + fuel)%nat with (S (S (n + n + fuel))) by lia.
  rewrite parse_req, parse_rep, (IH (S h) fuel s E).
  - replace (Z.of_nat (S h)) with (Z.of_nat h + 1) by lia. reflexivity.
  - unfold huge_ok, huge_req in P. cbn [q_type q_from q_len In] in P. lia.
  - unfold huge_ok, huge_req in P. cbn [q_type q_from q_len In] in P. lia.
  - unfold huge_ok, huge_req in P. cbn [q_type q_from q_len In] in P. lia.
Qed.
Lemma huge_read rnd : exists qs, parse_log 501 false (huge_log rnd) = Some (answered 0 qs (mkWreq 2 (be 8 249) 0 0 [])) /\
  length qs = 250%nat /\ cookies_from 0 qs /\ Forall (huge_ok 50000000) qs.
Proof.
  exists (huge_reqs 250 rnd 0). destruct (huge_reqs_ok rnd 250 0) as (I1 & I2 & I3).
  split; [|split; [exact I3|split; [exact I2|exact I1]]].
  unfold huge_log. change transactions with 250%nat. apply (parse_huge rnd (mkWreq 2 (be 8 249) 0 0 []) 250 0 1).
  rewrite <- (app_nil_r (req_bytes _ _ _ _)). rewrite parse_req by (unfold NBD_CMD_DISC; lia). reflexivity.
Qed.

(** ** every request can come up *)
Definition spread (x : Z) : Z := Z.lxor (Z.shiftr x 15) (Z.lxor (Z.shiftr x 30) (Z.lxor (Z.shiftr x 45) (Z.shiftr x 60))).
Definition fold15 (s : Z) : Z := Z.lxor s (Z.shiftl s 15).
Lemma spread_high x i : 0 <= x < 18446744073709551616 -> 15 <= i -> Z.testbit (fold15 (spread x)) i = Z.testbit x i.
Proof.
  intros Hx Hi. unfold fold15, spread. rewrite !Z.lxor_spec, Z.shiftl_spec by lia. rewrite !Z.lxor_spec, !Z.shiftr_spec by lia.
  replace (i - 15 + 15) with i by lia. replace (i - 15 + 30) with (i + 15) by lia. replace (i - 15 + 45) with (i + 30) by lia. replace (i - 15 + 60) with (i + 45) by lia.
  assert (H60 : Z.testbit x (i + 60) = false) by (apply (Z.bits_above_log2 x (i + 60)); [lia|]; destruct (Z.eq_dec x 0) as [->|N]; [cbn; lia|apply Z.log2_lt_pow2; [lia|]; apply Z.lt_le_trans with (2 ^ 64); [cbn; lia|apply Z.pow_le_mono_r; lia]]).
  rewrite H60. destruct (Z.testbit x i), (Z.testbit x (i + 15)), (Z.testbit x (i + 30)), (Z.testbit x (i + 45)); reflexivity.
Qed.
Lemma small_bits z n : 0 <= n -> 0 <= z -> (forall i, n <= i -> Z.testbit z i = false) -> z < 2 ^ n.
Proof.
  intros Hn Hz H. replace z with (z mod 2 ^ n); [apply Z.mod_pos_bound; apply Z.pow_pos_nonneg; lia|].
  apply Z.bits_inj'. intros i Hi. destruct (Z_lt_ge_dec i n) as [L|L]; [now apply Z.mod_pow2_bits_low|]. rewrite Z.mod_pow2_bits_high by lia. symmetry. apply H. lia.
Qed.
Lemma bits_small z n i : 0 <= z < 2 ^ n -> 0 <= n <= i -> Z.testbit z i = false.
Proof.
  intros Hz Hi. destruct (Z.eq_dec z 0) as [->|N]; [apply Z.bits_0|]. apply Z.bits_above_log2; [lia|]. apply Z.lt_le_trans with n; [apply Z.log2_lt_pow2; lia|lia].
Qed.
Lemma spread_small x n : 0 <= x < 2 ^ (n + 15) -> 0 <= n -> 0 <= spread x < 2 ^ n.
Proof.
  intros Hx Hn. assert (P : 0 <= spread x) by (unfold spread; repeat (apply Z.lxor_nonneg; split; intro); try (apply Z.shiftr_nonneg; lia);
    rewrite !Z.lxor_nonneg, !Z.shiftr_nonneg; lia).
  split; [exact P|]. apply small_bits; [exact Hn|exact P|]. intros i Hi. unfold spread. rewrite !Z.lxor_spec, !Z.shiftr_spec by lia.
  rewrite !(bits_small x (n + 15)) by lia. reflexivity.
Qed.
(** one round from [spread x] reaches [x] *)
Definition step_to (x : Z) : Z := Z.lxor x (fold15 (spread x)).
Lemma step_to_small x : 0 <= x < 18446744073709551616 -> 0 <= step_to x < 32768.
Proof.
  intros Hx. assert (P : 0 <= step_to x).
  { destruct (spread_small x 49) as [S _]; [cbn; lia|lia|]. unfold step_to, fold15. rewrite !Z.lxor_nonneg. rewrite Z.shiftl_nonneg. lia. }
  split; [exact P|]. apply (small_bits _ 15); [lia|exact P|]. intros i Hi. unfold step_to. rewrite Z.lxor_spec, spread_high by lia. apply xorb_nilpotent.
Qed.
Lemma step_reaches x : 0 <= x < 18446744073709551616 -> u64 (Z.lxor (spread x) (Z.lxor (step_to x) (u64 (Z.shiftl (spread x) 15)))) = x.
Proof.
  intros Hx. destruct (spread_small x 49) as [S1 S2]; [cbn; lia|lia|].
  replace (u64 (Z.shiftl (spread x) 15)) with (Z.shiftl (spread x) 15) by (unfold u64; rewrite Z.shiftl_mul_pow2 by lia; rewrite Z.mod_small; [reflexivity|]; change (2 ^ 49) with 562949953421312 in S2; change (2 ^ 15) with 32768; lia).
  unfold step_to, fold15. replace (Z.lxor (spread x) _) with x; [unfold u64; apply Z.mod_small; lia|].
  rewrite (Z.lxor_comm x), !Z.lxor_assoc. rewrite (Z.lxor_comm x). rewrite <- (Z.lxor_assoc (Z.shiftl (spread x) 15)), Z.lxor_nilpotent, Z.lxor_0_l.
  rewrite <- Z.lxor_assoc, Z.lxor_nilpotent, Z.lxor_0_l. reflexivity.
Qed.
Definition seed (x : Z) : list Z :=
  let a := spread x in let b := spread a in let c := spread b in [spread c; step_to c; step_to b; step_to a; step_to x].
Lemma stir_ext rnd rnd' n : forall k k' r, (forall i, (i < n)%nat -> rnd (k + i)%nat = rnd' (k' + i)%nat) -> stir rnd n k r = stir rnd' n k' r.
Proof.
  induction n as [|n IH]; intros k k' r H; cbn [stir]; [reflexivity|]. pose proof (H 0%nat ltac:(lia)) as H0. rewrite !Nat.add_0_r in H0. rewrite H0.
  apply IH. intros i Hi. specialize (H (S i) ltac:(lia)). replace (S k + i)%nat with (k + S i)%nat by lia. replace (S k' + i)%nat with (k' + S i)%nat by lia. exact H.
Qed.
Lemma seed_ok x : 0 <= x < 18446744073709551616 -> Forall (fun r => 0 <= r < 32768) (seed x) /\
  random64 (fun k => nth k (seed x) 0) 0 = x.
Proof.
  intros Hx. unfold random64, seed. set (a := spread x). set (b := spread a). set (c := spread b). set (d := spread c).
  assert (A : 0 <= a < 2 ^ 49) by (apply spread_small; [cbn; lia|lia]). assert (B : 0 <= b < 2 ^ 34) by (apply spread_small; [exact A|lia]).
  assert (C : 0 <= c < 2 ^ 19) by (apply spread_small; [exact B|lia]). assert (D : 0 <= d < 2 ^ 4) by (apply spread_small; [exact C|lia]).
  change (2 ^ 49) with 562949953421312 in A. change (2 ^ 34) with 17179869184 in B. change (2 ^ 19) with 524288 in C. change (2 ^ 4) with 16 in D.
  pose proof (step_to_small x Hx). pose proof (step_to_small a ltac:(lia)). pose proof (step_to_small b ltac:(lia)). pose proof (step_to_small c ltac:(lia)).
  split. { repeat (apply Forall_cons; [lia|]). constructor. }
  cbv zeta. cbn [stir nth]. change (u64 (Z.shiftl 0 15)) with 0. rewrite Z.lxor_0_r, Z.lxor_0_l. replace (u64 d) with d by (unfold u64; rewrite Z.mod_small; lia).
  pose proof (step_reaches c ltac:(lia)) as Ec. fold d in Ec. rewrite Ec.
  pose proof (step_reaches b ltac:(lia)) as Eb. fold c in Eb. rewrite Eb. pose proof (step_reaches a ltac:(lia)) as Ea. fold b in Ea. rewrite Ea.
  pose proof (step_reaches x ltac:(lia)) as Ex. fold a in Ex. exact Ex.
Qed.
Lemma random64_ext rnd rnd' k k' : (forall i, (i < 5)%nat -> rnd (k + i)%nat = rnd' (k' + i)%nat) -> random64 rnd k = random64 rnd' k'.
Proof. intros H. unfold random64. now apply stir_ext. Qed.
Definition plan (k : nat) (x y z : Z) (i : nat) : Z :=
  if (k <=? i)%nat then nth (i - k) (seed x ++ seed y ++ seed z) 0 else 0.
Lemma plan_ok k x y z : 0 <= x < 18446744073709551616 -> 0 <= y < 18446744073709551616 -> 0 <= z < 18446744073709551616 ->
  (forall i, 0 <= plan k x y z i < 32768) /\ random64 (plan k x y z) k = x /\ random64 (plan k x y z) (k + 5) = y /\ random64 (plan k x y z) (k + 10) = z.
Proof.
  intros Hx Hy Hz. destruct (seed_ok x Hx) as [X1 X2], (seed_ok y Hy) as [Y1 Y2], (seed_ok z Hz) as [Z1 Z2].
  split; [|split; [|split]].
  - intros i. unfold plan. destruct (k <=? i)%nat; [|lia].
    assert (F : Forall (fun r => 0 <= r < 32768) (seed x ++ seed y ++ seed z)) by (rewrite !Forall_app; auto).
    destruct (Nat.lt_ge_cases (i - k) (length (seed x ++ seed y ++ seed z))) as [L|L]; [|rewrite nth_overflow by lia; lia].
    rewrite Forall_forall in F. apply F. now apply nth_In.
  - transitivity (random64 (fun k => nth k (seed x) 0) 0); [|exact X2]. apply random64_ext. intros i Hi. unfold plan. replace (k <=? k + i)%nat with true by (symmetry; apply Nat.leb_le; lia).
    replace (k + i - k)%nat with i by lia. rewrite app_nth1 by (cbn [seed length]; lia). reflexivity.
  - transitivity (random64 (fun k => nth k (seed y) 0) 0); [|exact Y2]. apply random64_ext. intros i Hi. unfold plan. replace (k <=? k + 5 + i)%nat with true by (symmetry; apply Nat.leb_le; lia).
    replace (k + 5 + i - k)%nat with (5 + i)%nat by lia. rewrite app_nth2 by (cbn [seed length]; lia). change (length (seed x)) with 5%nat. replace (5 + i - 5)%nat with i by lia.
    rewrite app_nth1 by (cbn [seed length]; lia). reflexivity.
  - transitivity (random64 (fun k => nth k (seed z) 0) 0); [|exact Z2]. apply random64_ext. intros i Hi. unfold plan. replace (k <=? k + 10 + i)%nat with true by (symmetry; apply Nat.leb_le; lia).
    replace (k + 10 + i - k)%nat with (10 + i)%nat by lia. rewrite app_nth2 by (cbn [seed length]; lia). change (length (seed x)) with 5%nat.
    rewrite app_nth2 by (change (length (seed y)) with 5%nat; lia). change (length (seed y)) with 5%nat. replace (10 + i - 5 - 5)%nat with i by lia. reflexivity.
Qed.
Lemma exact1024 x : x mod 1024 = 0 -> x / 1024 * 1024 = x.
Proof. intros H. pose proof (Z.div_mod x 1024 ltac:(lia)). lia. Qed.
Lemma pick_any k q : huge_ok 50000000 q -> q_len q <= 49998848 -> exists rnd, random_ok rnd /\ pick rnd k = (q_type q, q_from q, q_len q).
Proof.
  intros [(Ht & Hl & Ml & Hf & Mf & Hs)|(Ht & Hf & Hl)] Hm.
  - set (z := if q_type q =? 0 then 17 else if q_type q =? 1 then 18 else 16).
    assert (Hz : 16 <= z <= 18) by (unfold z; destruct (_ =? 0); [lia|]; destruct (_ =? 1); lia).
    assert (Hlt : q_from q < 50000000 - q_len q).
    { destruct (Z.eq_dec (q_from q) (50000000 - q_len q)) as [E|E]; [|lia]. exfalso. rewrite E in Mf. rewrite Zminus_mod, Ml in Mf. vm_compute in Mf. discriminate Mf. }
    exists (plan k (q_len q - 1024) (q_from q) z).
    destruct (plan_ok k (q_len q - 1024) (q_from q) z) as (P0 & P1 & P2 & P3); try lia. split; [intros i; specialize (P0 i); lia|].
    unfold pick. rewrite P1, P2, P3. change filesize with 50000000. cbv zeta. change (50000000 - 2048) with 49997952.
    rewrite (Z.mod_small (q_len q - 1024) 49997952) by lia. rewrite (clear10_is (q_len q - 1024)) by lia.
    rewrite exact1024 by (rewrite Zminus_mod, Ml; reflexivity). replace (u64 (q_len q - 1024 + 1024)) with (q_len q) by (unfold u64; rewrite Z.mod_small; lia).
    rewrite (Z.mod_small (q_from q)) by lia. rewrite (clear10_is (q_from q)) by lia. rewrite (exact1024 _ Mf).
    unfold z. destruct Ht as [Ht|[Ht|[Ht|[]]]]; rewrite <- Ht; reflexivity.
  - destruct (plan_ok k 0 0 0) as (P0 & P1 & P2 & P3); try lia. exists (plan k 0 0 0). split; [intros i; specialize (P0 i); lia|]. unfold pick. rewrite P1, P2, P3, Ht, Hf, Hl. reflexivity.
Qed.
Lemma huge_reqs_nth rnd h n : forall g, (h < n)%nat -> nth_error (huge_reqs n rnd g) h = Some (huge_req (pick rnd (15 * (g + h))) (Z.of_nat (g + h))).
Proof.
  revert h. induction n as [|n IH]; intros h g Hh; [lia|]. destruct h as [|h]; cbn [huge_reqs nth_error].
  - now rewrite Nat.add_0_r.
  - rewrite IH by lia. now replace (S g + h)%nat with (g + S h)%nat by lia.
Qed.
Lemma huge_log_len rnd : zlen (huge_log rnd) = 11028.
Proof.
  assert (E : forall n h, length (huge_bytes n rnd h) = (44 * n)%nat).
  { induction n as [|n IH]; intros h; [reflexivity|]. cbn [huge_bytes]. destruct (pick rnd (15 * h)) as [[c f] l]. unfold req_bytes, rep_bytes. rewrite !app_length, IH, !be_length. lia. }
  unfold huge_log, zlen, req_bytes. rewrite !app_length, E, !be_length. reflexivity.
Qed.

Lemma log_spec rnd wr : (forall n, 0 < wr n) ->
  exists out n qs, huge_main rnd wr = HGo out n /\ zlen out = 11028 /\
    parse_log 501 false out = Some (answered 0 qs (mkWreq 2 (be 8 249) 0 0 [])) /\ length qs = 250%nat /\ cookies_from 0 qs /\ Forall (huge_ok 50000000) qs.
Proof.
  intros W. destruct (main_wrote rnd wr) as [(n & E)|(p & k & _ & _ & H)]; [|specialize (W k); lia].
  destruct (huge_read rnd) as (qs & P). exists (huge_log rnd), n, qs. split; [exact E|]. split; [apply huge_log_len|exact P].
Qed.
Lemma short_spec rnd wr : exists out qs,
    parse_log 501 false out = Some (answered 0 qs (mkWreq 2 (be 8 249) 0 0 [])) /\ length qs = 250%nat /\ cookies_from 0 qs /\ Forall (huge_ok 50000000) qs /\
    ((exists n, huge_main rnd wr = HGo out n) \/
     (exists p t k, huge_main rnd wr = HExit p /\ out = p ++ t /\ t <> [] /\ wr k <= 0)).
Proof.
  destruct (huge_read rnd) as (qs & P & L & C & F). exists (huge_log rnd), qs. repeat (split; [assumption|]).
  destruct (main_wrote rnd wr) as [(n & E)|(p & k & E & (t & Ht & El) & H)]; [left; eauto|right]. exists p, t, k. auto.
Qed.
Lemma every_spec h q : (h < 250)%nat -> huge_ok 50000000 q -> q_len q <= 49998848 -> q_cookie q = be 8 (Z.of_nat h) -> q_data q = [] ->
  exists rnd, random_ok rnd /\ forall wr, (forall n, 0 < wr n) -> exists out n qs last,
    huge_main rnd wr = HGo out n /\ parse_log 501 false out = Some (answered 0 qs last) /\ nth_error qs h = Some q.
Proof.
  intros Hh Hq Hl Hc Hd. destruct (pick_any (15 * h) q Hq Hl) as (rnd & R & P). exists rnd. split; [exact R|]. intros wr W.
  destruct (main_wrote rnd wr) as [(n & E)|(p & k & _ & _ & H)]; [|specialize (W k); lia].
  exists (huge_log rnd), n, (huge_reqs 250 rnd 0), (mkWreq 2 (be 8 249) 0 0 []). split; [exact E|]. split.
  - unfold huge_log. change transactions with 250%nat. apply (parse_huge rnd (mkWreq 2 (be 8 249) 0 0 []) 250 0 1).
    rewrite <- (app_nil_r (req_bytes _ _ _ _)). rewrite parse_req by (unfold NBD_CMD_DISC; lia). reflexivity.
  - rewrite huge_reqs_nth by exact Hh. cbn [Nat.add]. rewrite P. unfold huge_req. destruct q as [ty ck fr ln da]. cbn [q_type q_cookie q_from q_len q_data] in *. now subst.
Qed.
Lemma surj_spec x k : 0 <= x < 18446744073709551616 -> exists rnd, (forall i, 0 <= rnd i < 32768) /\ random64 rnd k = x.
Proof. intros H. destruct (plan_ok k x 0 0 H) as (A & B & _); try lia. eauto. Qed.

(** ** the log and a server *)
Lemma answered_inj last last' qs : forall h qs', answered h qs last = answered h qs' last' -> qs = qs'.
Proof.
  induction qs as [|q qs IH]; intros h [|q' qs'] E; cbn [answered] in E; [reflexivity|discriminate E|discriminate E|].
  injection E as E1 E2. subst. f_equal. exact (IH _ _ E2).
Qed.
Lemma cookies_nodup qs : forall h, 0 <= h -> h + zlen qs <= 4294967296 -> cookies_from h qs ->
  NoDup (map q_cookie qs) /\ (forall c, In c (map q_cookie qs) -> exists i, h <= i < h + zlen qs /\ c = be 8 i) /\ Forall (fun q => length (q_cookie q) = 8%nat) qs.
Proof.
  induction qs as [|q qs IH]; intros h Hh Hl C; cbn [cookies_from map In] in *; [split; [constructor|split; [intros c []|constructor]]|].
  destruct C as [C1 C2]. assert (L : zlen (q :: qs) = 1 + zlen qs) by (unfold zlen; cbn [length]; lia). assert (0 <= zlen qs) by (unfold zlen; lia).
  destruct (IH (h + 1) ltac:(lia) ltac:(lia) C2) as (I1 & I2 & I3). split; [|split].
  - constructor; [|exact I1]. intros Hin. destruct (I2 _ Hin) as (i & Hi & E). rewrite C1 in E. apply (f_equal unbe) in E. rewrite !unbe_be in E.
    change (2 ^ (8 * Z.of_nat 8)) with 18446744073709551616 in E. rewrite !Z.mod_small in E by lia. lia.
  - intros c [<-|Hc]; [exists h; split; [lia|exact C1]|]. destruct (I2 c Hc) as (i & Hi & E). exists i. split; [lia|exact E].
  - constructor; [rewrite C1; apply be_length|exact I3].
Qed.
Lemma huge_accepted size q q' : 49999872 <= size -> huge_ok 50000000 q -> length (q_cookie q) = 8%nat -> sent_as q q' ->
  wreq_ok q' /\ q_type q' <> 2 /\ refusal size false q' = None.
Proof.
  intros Hs Hq Hc (E1 & E2 & E3 & E4 & E5).
  assert (T : is_u32 (q_type q') /\ is_u64 (q_from q') /\ is_u32 (q_len q') /\ q_type q' <> 2 /\ In (q_type q') [0; 1; 65537; 3] /\ q_from q' + q_len q' <= size).
  { unfold huge_ok, is_u32, is_u64 in *. rewrite E1, E3, E4. cbn [In] in *. lia. }
  destruct T as (T1 & T2 & T3 & T4 & T5 & T6). split; [|split; [exact T4|]].
  - unfold wreq_ok. rewrite E2. auto.
  - unfold refusal, q_flags, q_cmd. replace (size <? q_from q' + q_len q') with false by lia. cbn [In] in T5.
    destruct T5 as [T|[T|[T|[T|[]]]]]; rewrite <- T; reflexivity.
Qed.
Lemma served_spec rnd wr out n qs last qs' size : huge_main rnd wr = HGo out n -> parse_log 501 false out = Some (answered 0 qs last) ->
  Forall2 sent_as qs qs' -> 49999872 <= size ->
  Forall wreq_ok qs' /\ Forall (fun q => q_type q <> 2) qs' /\ NoDup (map q_cookie qs') /\ Forall (fun q => refusal size false q = None) qs'.
Proof.
  intros E P S Hs. destruct (main_wrote rnd wr) as [(m & E')|(p & k & E' & _)]; rewrite E in E'; [|discriminate E']. injection E' as -> _.
  destruct (huge_read rnd) as (qs0 & P0 & L & C & F). rewrite P in P0. injection P0 as P0. apply answered_inj in P0. subst qs0.
  destruct (cookies_nodup qs 0 ltac:(lia) ltac:(unfold zlen; lia) C) as (N & _ & K).
  assert (M : map q_cookie qs' = map q_cookie qs) by (clear - S; induction S as [|a b ? ? H]; [reflexivity|]; cbn [map]; f_equal; [apply H|assumption]).
  rewrite M. assert (A : Forall (fun q => wreq_ok q /\ q_type q <> 2 /\ refusal size false q = None) qs').
  { clear - S Hs F K. induction S as [|a b ? ? H]; constructor; inversion F; inversion K; subst; auto. now apply (huge_accepted size a b). }
  rewrite !Forall_forall in *. split; [|split; [|split; [exact N|]]]; intros q Hq; apply A, Hq.
Qed.
