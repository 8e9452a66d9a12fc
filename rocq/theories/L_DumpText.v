(** Lemmas for the text of nbd-trdump. *)
From Coq Require Import String.
From Verif Require Import Base M_Nego M_Virt M_Const M_Log M_DumpText S_DumpText.
Local Open Scope list_scope.

(** ** numbers *)
Fixpoint hexw (n : nat) (x : Z) : list Z := match n with O => [] | S n => hexw n (x / 16) ++ [digit (x mod 16)] end.
Lemma hexw_len n : forall x, length (hexw n x) = n.
Proof. induction n as [|n IH]; intros x; [reflexivity|]. cbn [hexw]. rewrite app_length, IH. cbn [length]. lia. Qed.
Lemma xdigits_acc f : forall x acc, xdigits f x acc = xdigits f x [] ++ acc.
Proof.
  induction f as [|f IH]; intros x acc; [reflexivity|]. cbn [xdigits]. destruct (x / 16 =? 0); [reflexivity|].
  rewrite (IH _ (digit (x mod 16) :: acc)), (IH _ [digit (x mod 16)]), <- app_assoc. reflexivity.
Qed.
Lemma hexw_0 n : hexw n 0 = repeat 48 n.
Proof.
  induction n as [|n IH]; [reflexivity|]. cbn [hexw]. change (0 / 16) with 0. rewrite IH. change (digit (0 mod 16)) with 48.
  change [48] with (repeat 48 1). rewrite <- repeat_app. f_equal. lia.
Qed.
Lemma xdigits_hexw f : forall n x, (1 <= n <= f)%nat -> 0 <= x < 16 ^ Z.of_nat n ->
  (length (xdigits f x []) <= n)%nat /\ repeat 48 (n - length (xdigits f x [])) ++ xdigits f x [] = hexw n x.
Proof.
  induction f as [|f IH]; intros n x Hn Hx; [lia|]. destruct n as [|n]; [lia|].
  cbn [xdigits hexw]. destruct (Z.eqb_spec (x / 16) 0) as [E|E].
  - cbn [length]. split; [lia|]. rewrite E, hexw_0. replace (S n - 1)%nat with n by lia. reflexivity.
  - assert (R : 0 <= x / 16 < 16 ^ Z.of_nat n).
    { rewrite Nat2Z.inj_succ, Z.pow_succ_r in Hx by lia. split; [apply Z.div_pos; lia|apply Z.div_lt_upper_bound; lia]. }
    assert (n <> 0)%nat by (intros ->; cbn in R; lia).
    destruct (IH n (x / 16) ltac:(lia) R) as [L H1]. rewrite xdigits_acc, app_length. cbn [length]. split; [lia|].
    rewrite app_assoc. f_equal. rewrite <- H1. f_equal. f_equal. lia.
Qed.
Lemma pr_x_hexw n x : (1 <= n <= 16)%nat -> 0 <= x < 16 ^ Z.of_nat n -> pr_x n x = hexw n x.
Proof. intros Hn Hx. unfold pr_x. apply xdigits_hexw; assumption. Qed.
Lemma digit_value d : 0 <= d < 16 -> (if digit d <? 58 then digit d - 48 else digit d - 87) = d.
Proof. intros H. unfold digit. destruct (Z.ltb_spec d 10); [destruct (Z.ltb_spec (48 + d) 58); lia|destruct (Z.ltb_spec (87 + d) 58); lia]. Qed.
Lemma hexw_value n : forall x, 0 <= x < 16 ^ Z.of_nat n -> hex_value (hexw n x) = x.
Proof.
  induction n as [|n IH]; intros x Hx; [cbn in Hx |- *; lia|]. cbn [hexw]. unfold hex_value in *. rewrite fold_left_app. cbn [fold_left].
  rewrite IH, digit_value; [pose proof (Z.div_mod x 16); lia|apply Z.mod_pos_bound; lia|].
  rewrite Nat2Z.inj_succ, Z.pow_succ_r in Hx by lia. split; [apply Z.div_pos; lia|apply Z.div_lt_upper_bound; lia].
Qed.
Lemma pr_x_len n x : (1 <= n <= 16)%nat -> 0 <= x < 16 ^ Z.of_nat n -> length (pr_x n x) = n.
Proof. intros Hn Hx. rewrite pr_x_hexw by assumption. apply hexw_len. Qed.
Lemma pr_x_value n x : (1 <= n <= 16)%nat -> 0 <= x < 16 ^ Z.of_nat n -> hex_value (pr_x n x) = x.
Proof. intros Hn Hx. rewrite pr_x_hexw by assumption. now apply hexw_value. Qed.

Lemma x16 x : 0 <= x < 18446744073709551616 -> length (pr_x 16 x) = 16%nat /\ hex_value (pr_x 16 x) = x.
Proof. intros H. split; [apply pr_x_len|apply pr_x_value]; auto; lia. Qed.
Lemma x8 x : 0 <= x < 4294967296 -> length (pr_x 8 x) = 8%nat /\ hex_value (pr_x 8 x) = x.
Proof. intros H. split; [apply pr_x_len|apply pr_x_value]; auto; lia. Qed.
Lemma x4 x : 0 <= x < 65536 -> length (pr_x 4 x) = 4%nat /\ hex_value (pr_x 4 x) = x.
Proof. intros H. split; [apply pr_x_len|apply pr_x_value]; auto; lia. Qed.

(** ** columns *)
Lemma cols_at (a b c : list Z) n m : length a = n -> length b = m -> cols n m (a ++ b ++ c) = b.
Proof.
  intros <- <-. unfold cols. rewrite skipn_app, Nat.sub_diag, skipn_all. cbn [app skipn].
  rewrite firstn_app, Nat.sub_diag, firstn_all. cbn [firstn]. apply app_nil_r.
Qed.
Lemma cols_end_at (a b c : list Z) n m : length (b ++ c) = n -> length b = m -> cols_end n m (a ++ b ++ c) = b.
Proof.
  intros <- <-. unfold cols_end. rewrite app_length. replace (length a + length (b ++ c) - length (b ++ c))%nat with (length a) by lia.
  apply cols_at; reflexivity.
Qed.

(** ** names *)
Lemma command_name_ok c : command_name c = name_of c command_names.
Proof. reflexivity. Qed.
Lemma command_name_len c : (length (command_name c) <= 20)%nat.
Proof. unfold command_name. repeat match goal with |- context [if ?b then _ else _] => destruct b end; cbv; lia. Qed.
Lemma command_name_start c : exists x t, command_name c = x :: t /\ x <> 32.
Proof. unfold command_name. repeat match goal with |- context [if ?b then _ else _] => destruct b end; (eexists; eexists; split; [reflexivity|discriminate]). Qed.
Lemma unpad_repeat n x t : x <> 32 -> unpad (repeat 32 n ++ x :: t) = x :: t.
Proof. intros H. induction n as [|n IH]; [cbn|exact IH]. destruct x as [|p|p]; try reflexivity. do 6 (destruct p; try reflexivity). congruence. Qed.
Lemma pr_s_len n s : (length s <= n)%nat -> length (pr_s n s) = n.
Proof. intros H. unfold pr_s. rewrite app_length, repeat_length. lia. Qed.

Lemma request_columns ck cmd off len : in_range (LReq ck cmd off len) ->
  let t := line_text (LReq ck cmd off len) in
  length t = 92%nat /\ hex_value (cols 4 16 t) = ck /\ hex_value (cols 25 8 t) = cmd /\ hex_value (cols 64 16 t) = off /\ hex_value (cols 83 8 t) = len /\
  unpad (cols 35 20 t) = name_of (cmd mod 65536) command_names /\ (unpad (cols 56 4 t) = text "FUA" <-> Z.testbit cmd 16 = true).
Proof.
  cbn [in_range]. intros (H1 & H2 & H3 & H4). cbv zeta. cbn [line_text].
  destruct (x16 _ H1) as [L1 V1], (x8 _ H2) as [L2 V2], (x16 _ H3) as [L3 V3], (x8 _ H4) as [L4 V4].
  replace (Z.land cmd NBD_CMD_MASK_COMMAND) with (cmd mod 65536) by (symmetry; change NBD_CMD_MASK_COMMAND with (Z.ones 16); apply Z.land_ones; lia).
  pose proof (pr_s_len 20 _ (command_name_len (cmd mod 65536))) as L5.
  set (fua := if flag cmd NBD_CMD_FLAG_FUA then text "FUA" else text "NONE").
  assert (L6 : length (pr_s 4 fua) = 4%nat) by (subst fua; destruct (flag cmd NBD_CMD_FLAG_FUA); reflexivity).
  assert (S1 : length (text "> H=") = 4%nat) by reflexivity. assert (S2 : length (text " C=0x") = 5%nat) by reflexivity.
  assert (S3 : length (text " (") = 2%nat) by reflexivity. assert (S4 : length (text "+") = 1%nat) by reflexivity.
  assert (S5 : length (text ") O=") = 4%nat) by reflexivity. assert (S6 : length (text " L=") = 3%nat) by reflexivity.
  split; [rewrite !app_length, L1, L2, L3, L4, L5, L6, S1, S2, S3, S4, S5, S6; reflexivity|].
  split; [rewrite (cols_at (text "> H=") (pr_x 16 ck)); assumption|].
  split. { rewrite (app_assoc (text "> H=")), (app_assoc (text "> H=" ++ pr_x 16 ck)). rewrite (cols_at _ (pr_x 8 cmd)); [assumption| |assumption]. rewrite !app_length. lia. }
  split. { rewrite !app_assoc. rewrite <- 3 app_assoc. rewrite (cols_at _ (pr_x 16 off)); [assumption| |assumption]. rewrite !app_length. lia. }
  split. { rewrite !app_assoc. rewrite <- 1 app_assoc. rewrite (cols_at _ (pr_x 8 len)); [assumption| |assumption]. rewrite !app_length. lia. }
  split.
  { rewrite !app_assoc. rewrite <- 7 app_assoc. rewrite (cols_at _ (pr_s 20 _)); [| |assumption]; [|rewrite !app_length; lia].
    rewrite <- command_name_ok. destruct (command_name_start (cmd mod 65536)) as (x & t & E & N). rewrite E. unfold pr_s. now apply unpad_repeat. }
  rewrite !app_assoc. rewrite <- 5 app_assoc. rewrite (cols_at _ (pr_s 4 fua)); [| |assumption]; [|rewrite !app_length; lia].
  assert (F : flag cmd NBD_CMD_FLAG_FUA = Z.testbit cmd 16).
  { unfold flag. change NBD_CMD_FLAG_FUA with (2 ^ 16). destruct (Z.testbit cmd 16) eqn:B.
    - destruct (Z.eqb_spec (Z.land cmd (2 ^ 16)) 0) as [E|]; [|reflexivity]. exfalso.
      assert (T : Z.testbit (Z.land cmd (2 ^ 16)) 16 = true) by (rewrite Z.land_spec, B, Z.pow2_bits_true by lia; reflexivity).
      rewrite E, Z.bits_0 in T. discriminate T.
    - destruct (Z.eqb_spec (Z.land cmd (2 ^ 16)) 0) as [|E]; [reflexivity|]. exfalso. apply E. apply Z.bits_inj'. intros n Hn. rewrite Z.land_spec, Z.bits_0.
      destruct (Z.eq_dec n 16) as [->|N]; [now rewrite B|]. rewrite Z.pow2_bits_false by lia. apply andb_false_r. }
  subst fua. rewrite F. destruct (Z.testbit cmd 16); split; intros H; [reflexivity|vm_compute; reflexivity|exfalso; revert H; vm_compute; discriminate|discriminate H].
Qed.

Lemma reply_columns ck e : in_range (LRep ck e) ->
  let t := line_text (LRep ck e) in length t = 34%nat /\ hex_value (cols 4 16 t) = ck /\ hex_value (cols 25 8 t) = e.
Proof.
  cbn [in_range]. intros (H1 & H2). cbv zeta. cbn [line_text]. destruct (x16 _ H1) as [L1 V1], (x8 _ H2) as [L2 V2].
  assert (S1 : length (text "< H=") = 4%nat) by reflexivity. assert (S2 : length (text " E=0x") = 5%nat) by reflexivity.
  split; [rewrite !app_length, L1, L2; reflexivity|].
  split; [rewrite (cols_at (text "< H=") (pr_x 16 ck)); assumption|].
  rewrite !app_assoc. rewrite <- 1 app_assoc. rewrite (cols_at _ (pr_x 8 e)); [assumption| |assumption]. rewrite !app_length. lia.
Qed.
Lemma between_at (a b c : list Z) n z : length a = n -> length c = z -> between n z (a ++ b ++ c) = b.
Proof. intros <- <-. unfold between. apply cols_at; [reflexivity|]. rewrite !app_length. lia. Qed.
Lemma chunk_name_start c : exists x t, chunk_name c = x :: t /\ x <> 32.
Proof. unfold chunk_name. repeat match goal with |- context [if ?b then _ else _] => destruct b end; (eexists; eexists; split; [reflexivity|discriminate]). Qed.
Lemma chunk_columns ck ty fl n : in_range (LChunk ck ty fl n) ->
  let t := line_text (LChunk ck ty fl n) in
  hex_value (cols 6 16 t) = ck /\ hex_value (cols 27 4 t) = ty /\ hex_value (cols_end 14 4 t) = fl /\ hex_value (cols_end 5 4 t) = n /\
  unpad (between 33 20 t) = name_of ty chunk_names.
Proof.
  cbn [in_range]. intros (H1 & H2 & H3 & H4). cbv zeta. cbn [line_text].
  destruct (x16 _ H1) as [L1 V1], (x4 _ H2) as [L2 V2], (x4 _ H3) as [L3 V3], (x4 _ H4) as [L4 V4].
  assert (S1 : length (text "<S: H=") = 6%nat) by reflexivity. assert (S2 : length (text " T=0x") = 5%nat) by reflexivity.
  assert (S3 : length (text " L=0x") = 5%nat) by reflexivity. assert (S4 : length (text " (") = 2%nat) by reflexivity.
  assert (S5 : length (text ") F=0x") = 6%nat) by reflexivity.
  split; [rewrite (cols_at (text "<S: H=") (pr_x 16 ck)); assumption|].
  split. { rewrite !app_assoc. rewrite <- 7 app_assoc. rewrite (cols_at _ (pr_x 4 ty)); [assumption| |assumption]. rewrite !app_length. lia. }
  split. { rewrite !app_assoc. rewrite <- 3 app_assoc. rewrite (cols_end_at _ (pr_x 4 fl)); [assumption| |assumption]. rewrite !app_length. cbn [length]. lia. }
  split. { rewrite !app_assoc. rewrite <- 1 app_assoc. rewrite (cols_end_at _ (pr_x 4 n)); [assumption| |assumption]. rewrite !app_length. cbn [length]. lia. }
  rewrite !app_assoc. rewrite <- 5 app_assoc. rewrite (between_at _ (pr_s 20 _)); [|rewrite !app_length; lia|rewrite !app_length; cbn [length]; lia].
  change (name_of ty chunk_names) with (chunk_name ty). destruct (chunk_name_start ty) as (x & t & E & N). rewrite E. unfold pr_s. now apply unpad_repeat.
Qed.
Lemma option_columns cmd off len : in_range (LOpt cmd off len) ->
  let t := line_text (LOpt cmd off len) in
  hex_value (cols 17 8 t) = cmd /\ hex_value (cols_end 28 16 t) = off /\ hex_value (cols_end 9 8 t) = len /\
  (unpad (between 27 32 t) = text "NBD_TRACELOG_SET_DATALOG" <-> cmd = 1).
Proof.
  cbn [in_range]. intros (H1 & H2 & H3). cbv zeta. cbn [line_text].
  destruct (x8 _ H1) as [L1 V1], (x16 _ H2) as [L2 V2], (x8 _ H3) as [L3 V3].
  assert (S1 : length (text "TRACE_OPTION C=0x") = 17%nat) by reflexivity. assert (S2 : length (text " (") = 2%nat) by reflexivity.
  assert (S3 : length (text " L=") = 3%nat) by reflexivity. assert (S4 : length (text ") O=") = 4%nat) by reflexivity.
  split; [rewrite (cols_at (text "TRACE_OPTION C=0x") (pr_x 8 cmd)); assumption|].
  split. { rewrite !app_assoc. rewrite <- 3 app_assoc. rewrite (cols_end_at _ (pr_x 16 off)); [assumption| |assumption]. rewrite !app_length. cbn [length]. lia. }
  split. { rewrite !app_assoc. rewrite <- 1 app_assoc. rewrite (cols_end_at _ (pr_x 8 len)); [assumption| |assumption]. rewrite !app_length. cbn [length]. lia. }
  rewrite !app_assoc. rewrite <- 5 app_assoc. rewrite (between_at _ (pr_s 23 _)); [|rewrite !app_length; lia|rewrite !app_length; cbn [length]; lia].
  unfold tracelog_name. destruct (Z.eqb_spec cmd 1); split; intros E; auto; [exfalso; revert E; vm_compute; discriminate|contradiction].
Qed.

(** ** what is shown can be told from the text *)
Lemma app_same (a a' b b' : list Z) : length a = length a' -> a ++ b = a' ++ b' -> a = a' /\ b = b'.
Proof.
  revert a'. induction a as [|x a IH]; intros [|y a'] L E; cbn in L; try lia; [auto|]. injection E as -> E. injection L as L.
  destruct (IH a' L E) as [-> ->]. auto.
Qed.
Lemma pr_x_inj n x y r r' : (1 <= n <= 16)%nat -> 0 <= x < 16 ^ Z.of_nat n -> 0 <= y < 16 ^ Z.of_nat n -> pr_x n x ++ r = pr_x n y ++ r' -> x = y /\ r = r'.
Proof.
  intros Hn Hx Hy E. destruct (app_same _ _ _ _ (eq_trans (pr_x_len n x Hn Hx) (eq_sym (pr_x_len n y Hn Hy))) E) as [A B]. split; [|exact B].
  rewrite <- (pr_x_value n x Hn Hx), <- (pr_x_value n y Hn Hy), A. reflexivity.
Qed.
Lemma head_inj (a b b' : list Z) : a ++ b = a ++ b' -> b = b'.
Proof. apply app_inv_head. Qed.
Ltac strip := repeat first
  [ match goal with H : ?a ++ _ = ?a ++ _ |- _ => apply head_inj in H end
  | match goal with H : pr_x _ _ ++ _ = pr_x _ _ ++ _ |- _ => apply pr_x_inj in H; [destruct H as [? H]; subst|lia|cbn; lia|cbn; lia] end ].
Lemma line_prefix a b r r' : in_range a -> in_range b -> line_text a ++ r = line_text b ++ r' -> a = b /\ r = r'.
Proof.
  intros Ha Hb.
  destruct a as [ck cmd off len|ck e|cmd off len|on| | |ck ty fl n|m], b as [ck' cmd' off' len'|ck' e'|cmd' off' len'|on'| | |ck' ty' fl' n'|m'];
    cbn [line_text in_range] in *; rewrite <- ?app_assoc.
  all: try (intros E; exfalso; revert E; repeat match goal with |- context [pr_x ?n ?x] => generalize (pr_x n x); intro end;
            repeat match goal with |- context [pr_s ?n ?x] => generalize (pr_s n x); intro end; cbv; discriminate).
  - intros E. destruct Ha as (?&?&?&?), Hb as (?&?&?&?). strip. auto.
  - intros E. destruct Ha as (?&?), Hb as (?&?). strip. auto.
  - intros E. destruct Ha as (?&?&?), Hb as (?&?&?). strip. auto.
  - intros E. strip. destruct on, on'; try discriminate E; injection E as E; auto.
  - intros E. strip. auto.
  - intros E. strip. auto.
  - intros E. destruct Ha as (?&?&?&?), Hb as (?&?&?&?). strip. auto.
  - intros E. strip. auto.
Qed.
Lemma line_text_some a : line_text a <> [].
Proof. destruct a; discriminate. Qed.
Lemma lines_inj a : forall b, Forall in_range a -> Forall in_range b -> concat (map line_text a) = concat (map line_text b) -> a = b.
Proof.
  induction a as [|x a IH]; intros [|y b] Ha Hb E; cbn [map concat] in E.
  - reflexivity.
  - symmetry in E. apply app_eq_nil in E. destruct (line_text_some y (proj1 E)).
  - apply app_eq_nil in E. destruct (line_text_some x (proj1 E)).
  - inversion Ha; inversion Hb; subst. destruct (line_prefix x y _ _ ltac:(assumption) ltac:(assumption) E) as [-> E2]. f_equal. apply IH; assumption.
Qed.

(** ** every value shown fits its field *)
Lemma bytes_first n l : Forall is_byte l -> Forall is_byte (firstn n l).
Proof. intros H. rewrite <- (firstn_skipn n l) in H. apply Forall_app in H. tauto. Qed.
Lemma bytes_skip n l : Forall is_byte l -> Forall is_byte (skipn n l).
Proof. intros H. rewrite <- (firstn_skipn n l) in H. apply Forall_app in H. tauto. Qed.
Lemma unbe_at_most l k : Forall is_byte l -> (length l <= k)%nat -> 0 <= unbe l < 2 ^ (8 * Z.of_nat k).
Proof. intros H L. pose proof (unbe_range l H). assert (2 ^ (8 * Z.of_nat (length l)) <= 2 ^ (8 * Z.of_nat k)) by (apply Z.pow_le_mono_r; lia). lia. Qed.
Lemma doread_bytes n s b r : 0 <= n -> Forall is_byte s -> doread n s = Some (b, r) -> Forall is_byte b /\ Forall is_byte r /\ length b = Z.to_nat n.
Proof.
  intros Hn H. unfold doread. destruct (Z.ltb_spec (zlen s) n); [discriminate|]. intros E. injection E as <- <-.
  split; [now apply bytes_first|]. split; [now apply bytes_skip|]. apply firstn_length_le. unfold zlen in *. lia.
Qed.
Ltac unb := match goal with
  | |- 0 <= unbe ?l < 18446744073709551616 => change 18446744073709551616 with (2 ^ (8 * Z.of_nat 8)); apply (unbe_at_most l 8)
  | |- 0 <= unbe ?l < 4294967296 => change 4294967296 with (2 ^ (8 * Z.of_nat 4)); apply (unbe_at_most l 4)
  | |- 0 <= unbe ?l < 65536 => change 65536 with (2 ^ (8 * Z.of_nat 2)); apply (unbe_at_most l 2)
  end; [auto using bytes_first, bytes_skip|rewrite ?firstn_length, ?skipn_length; lia].
Lemma dump_round_range dl s : Forall is_byte s ->
  Forall in_range (fst (dump_round dl s)) /\ (forall dl' r, snd (dump_round dl s) = Some (dl', r) -> Forall is_byte r).
Proof.
  intros Hs. unfold dump_round. destruct (doread 4 s) as [[m r]|] eqn:E; [|split; [constructor|discriminate]].
  destruct (doread_bytes 4 _ _ _ ltac:(lia) Hs E) as (B1 & B2 & L1). cbv zeta.
  destruct (unbe m =? NBD_REQUEST_MAGIC).
  { destruct (doread 24 r) as [[h r2]|] eqn:E2; [|split; [constructor|discriminate]]. destruct (doread_bytes 24 _ _ _ ltac:(lia) B2 E2) as (B3 & B4 & L2).
    assert (L24 : length h = 24%nat) by (rewrite L2; reflexivity).
    assert (R : Forall in_range [LReq (unbe (firstn 8 (skipn 4 h))) (unbe (firstn 4 h)) (unbe (firstn 8 (skipn 12 h))) (unbe (skipn 20 h))]).
    { constructor; [|constructor]. cbn [in_range]. split; [unb|split; [unb|split; unb]]. }
    destruct (_ && dl); [|split; [exact R|intros ? ? [= _ <-]; exact B4]].
    destruct (doread _ r2) as [[x r3]|] eqn:E3; [|split; [exact R|discriminate]]. split; [exact R|]. intros ? ? [= _ <-].
    assert (0 <= unbe (skipn 20 h) < 4294967296) by unb. destruct (doread_bytes (unbe (skipn 20 h)) _ _ _ ltac:(lia) B4 E3) as (_ & X & _). exact X. }
  destruct (unbe m =? NBD_REPLY_MAGIC).
  { destruct (doread 12 r) as [[h r2]|] eqn:E2; [|split; [constructor|discriminate]]. destruct (doread_bytes 12 _ _ _ ltac:(lia) B2 E2) as (B3 & B4 & L2).
    assert (L24 : length h = 12%nat) by (rewrite L2; reflexivity).
    split; [|intros ? ? [= _ <-]; exact B4]. constructor; [|constructor]. cbn [in_range]. split; unb. }
  destruct (unbe m =? NBD_TRACELOG_MAGIC).
  { destruct (doread 24 r) as [[h r2]|] eqn:E2; [|split; [constructor|discriminate]]. destruct (doread_bytes 24 _ _ _ ltac:(lia) B2 E2) as (B3 & B4 & L2).
    assert (L24 : length h = 24%nat) by (rewrite L2; reflexivity).
    assert (R : in_range (LOpt (unbe (firstn 4 h)) (unbe (firstn 8 (skipn 12 h))) (unbe (skipn 20 h)))).
    { cbn [in_range]. split; [unb|split; unb]. }
    destruct (_ =? NBD_TRACELOG_FROM_MAGIC); [destruct (_ =? 1)|]; (split; [constructor; [exact R|constructor; [exact I|constructor]]|intros ? ? [= _ <-]; exact B4]). }
  destruct (unbe m =? NBD_STRUCTURED_REPLY_MAGIC).
  { destruct (doread 16 r) as [[h r2]|] eqn:E2; [|split; [constructor|discriminate]]. destruct (doread_bytes 16 _ _ _ ltac:(lia) B2 E2) as (B3 & B4 & L2).
    assert (L24 : length h = 16%nat) by (rewrite L2; reflexivity).
    split; [|intros ? ? [= _ <-]; exact B4]. constructor; [|constructor]. cbn [in_range]. unfold ntohs_field. split; [unb|split; [unb|split; unb]]. }
  split; [|intros ? ? [= _ <-]; exact B2]. constructor; [|constructor]. cbn [in_range]. unb.
Qed.
Lemma dump_loop_range f : forall dl s, Forall is_byte s -> Forall in_range (fst (dump_loop f dl s)).
Proof.
  induction f as [|f IH]; intros dl s Hs; [constructor|]. cbn [dump_loop]. destruct (dump_round_range dl s Hs) as [R1 R2].
  destruct (dump_round dl s) as [l [[dl' r]|]]; [|exact R1]. cbn [fst snd] in *. specialize (IH dl' r (R2 _ _ eq_refl)).
  destruct (dump_loop f dl' r) as [l' e]. cbn [fst] in *. apply Forall_app. auto.
Qed.
Lemma dump_tells a0 v log log' : Forall is_byte log -> Forall is_byte log' ->
  trdump_main a0 v [] log = trdump_main a0 v [] log' -> fst (trdump log) = fst (trdump log').
Proof. intros H H' E. injection E as E. revert E. apply lines_inj; apply dump_loop_range; assumption. Qed.

(** ** one line each *)
Definition nonl (l : list Z) : bool := negb (existsb (Z.eqb 10) l).
Lemma nonl_app a b : nonl (a ++ b) = nonl a && nonl b.
Proof. unfold nonl. rewrite existsb_app. apply negb_orb. Qed.
Lemma nonl_in l : nonl l = true -> ~ In 10 l.
Proof. unfold nonl. intros H I. apply negb_true_iff in H. assert (existsb (Z.eqb 10) l = true) by (apply existsb_exists; exists 10; auto). congruence. Qed.
Lemma nonl_hexw n : forall x, nonl (hexw n x) = true.
Proof.
  induction n as [|n IH]; intros x; [reflexivity|]. cbn [hexw]. rewrite nonl_app, IH. unfold nonl, digit. cbn [existsb andb].
  pose proof (Z.mod_pos_bound x 16 ltac:(lia)). destruct (Z.ltb_spec (x mod 16) 10); [destruct (Z.eqb_spec 10 (48 + x mod 16))|destruct (Z.eqb_spec 10 (87 + x mod 16))]; try lia; reflexivity.
Qed.
Lemma nonl_x n x : (1 <= n <= 16)%nat -> 0 <= x < 16 ^ Z.of_nat n -> nonl (pr_x n x) = true.
Proof. intros Hn Hx. rewrite pr_x_hexw by assumption. apply nonl_hexw. Qed.
Lemma nonl_s n s : nonl s = true -> nonl (pr_s n s) = true.
Proof. intros H. unfold pr_s. rewrite nonl_app, H, andb_true_r. induction (n - length s)%nat as [|k IH]; [reflexivity|exact IH]. Qed.
Lemma nonl_command c : nonl (command_name c) = true.
Proof. unfold command_name. repeat match goal with |- context [if ?b then _ else _] => destruct b end; reflexivity. Qed.
Lemma nonl_chunk c : nonl (chunk_name c) = true.
Proof. unfold chunk_name. repeat match goal with |- context [if ?b then _ else _] => destruct b end; reflexivity. Qed.
Lemma nonl_trace c : nonl (tracelog_name c) = true.
Proof. unfold tracelog_name. destruct (c =? 1); reflexivity. Qed.
Lemma line_ends l : in_range l -> exists body, line_text l = body ++ [10] /\ ~ In 10 body.
Proof.
  intros H.
  destruct l as [ck cmd off len|ck e|cmd off len|on| | |ck ty fl n|m]; cbn [line_text in_range] in *; rewrite ?app_assoc; eexists; (split; [reflexivity|]); apply nonl_in; rewrite ?nonl_app.
  - destruct H as (H1 & H2 & H3 & H4). rewrite !nonl_x by (cbn; lia). rewrite (nonl_s _ _ (nonl_command _)).
    destruct (flag cmd NBD_CMD_FLAG_FUA); reflexivity.
  - destruct H. rewrite !nonl_x by (cbn; lia). reflexivity.
  - destruct H as (H1 & H2 & H3). rewrite !nonl_x by (cbn; lia). rewrite (nonl_s _ _ (nonl_trace _)). reflexivity.
  - destruct on; reflexivity.
  - reflexivity.
  - reflexivity.
  - destruct H as (H1 & H2 & H3 & H4). rewrite !nonl_x by (cbn; lia). rewrite (nonl_s _ _ (nonl_chunk _)). reflexivity.
  - rewrite !nonl_x by (cbn; lia). reflexivity.
Qed.
Lemma count_lines ls : Forall in_range ls -> count_occ Z.eq_dec (concat (map line_text ls)) 10 = length ls.
Proof.
  induction 1 as [|l ls H _ IH]; [reflexivity|]. cbn [map concat length]. rewrite count_occ_app, IH. destruct (line_ends l H) as (b & -> & N).
  rewrite count_occ_app, (proj1 (count_occ_not_In Z.eq_dec b 10) N). reflexivity.
Qed.
