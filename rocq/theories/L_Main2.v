(** Lemmas about the texts of the command line. *)
From Coq Require Import String.
From Verif Require Import Base M_Const M_Acl M_Nego M_Conf M_Main S_Root S_Acl S_Conf S_Main L_Acl L_Conf L_Main.
Open Scope list_scope.
Open Scope Z_scope.

(** * Decimal numbers *)
Lemma isdigit_48 n : 0 <= n < 10 -> isdigit (48 + n) = true.
Proof. intros H. unfold isdigit. rewrite andb_true_iff, !Z.leb_le. lia. Qed.
Lemma dec_digits f : forall n, 0 <= n -> Forall (fun c => 48 <= c <= 57) (dec f n).
Proof.
  induction f as [|f IH]; intros n Hn; cbn [dec]; [constructor|].
  destruct (Z.ltb_spec n 10).
  - constructor; [lia|constructor].
  - apply Forall_app. split; [apply IH; apply Z.div_pos; lia|]. constructor; [|constructor].
    pose proof (Z.mod_pos_bound n 10 ltac:(lia)). lia.
Qed.
Lemma digits_dec f : forall n rest acc, 0 <= n < 10 ^ Z.of_nat f ->
  digits (dec f n ++ rest) acc = digits rest (acc * 10 ^ zlen (dec f n) + n).
Proof.
  induction f as [|f IH]; intros n rest acc Hn.
  - cbn [dec app]. change (10 ^ Z.of_nat 0) with 1 in Hn. assert (n = 0) by lia. subst n.
    unfold zlen. cbn [length Z.of_nat]. f_equal. change (10 ^ 0) with 1. lia.
  - cbn [dec]. destruct (Z.ltb_spec n 10).
    + cbn [app digits]. rewrite isdigit_48 by lia. f_equal. unfold zlen. cbn [length].
      change (10 ^ Z.of_nat 1) with 10. lia.
    + rewrite <- app_assoc.
      assert (Hq : 0 <= n / 10 < 10 ^ Z.of_nat f).
      { split; [apply Z.div_pos; lia|]. apply Z.div_lt_upper_bound; [lia|].
        rewrite Nat2Z.inj_succ, Z.pow_succ_r in Hn by lia. lia. }
      rewrite IH by exact Hq. cbn [app digits].
      pose proof (Z.mod_pos_bound n 10 ltac:(lia)). rewrite isdigit_48 by lia. f_equal.
      unfold zlen. rewrite app_length. cbn [length]. rewrite Nat2Z.inj_add. change (Z.of_nat 1) with 1.
      rewrite Z.pow_add_r by lia. change (10 ^ 1) with 10.
      pose proof (Z.div_mod n 10 ltac:(lia)). nia.
Qed.
Lemma dec_cons f n : 0 <= n -> exists c t, dec (S f) n = c :: t /\ 48 <= c <= 57.
Proof.
  intros Hn. pose proof (dec_digits (S f) n Hn) as F. destruct (dec (S f) n) as [|c t] eqn:E.
  - exfalso. cbn [dec] in E. destruct (n <? 10); [discriminate E|]. destruct (dec f (n / 10)); discriminate E.
  - exists c, t. split; [reflexivity|]. inversion F; assumption.
Qed.
Lemma digit_match {A} (c : Z) (x y z : A) : 48 <= c <= 57 ->
  match c with 45 => x | 43 => y | _ => z end = z.
Proof.
  intros H. assert (forall k, c <> Z.neg k) by (intros; lia). destruct c as [|p|p]; [reflexivity| |exfalso; apply (H0 p); reflexivity].
  do 6 (destruct p as [p|p|]; try reflexivity; try lia).
Qed.
Lemma skip_digit c t : 48 <= c <= 57 -> skip_space (c :: t) = c :: t.
Proof.
  intros H. cbn [skip_space]. unfold isspace.
  destruct (Z.eqb_spec c 32); [lia|]. destruct (Z.leb_spec 9 c), (Z.leb_spec c 13); try lia; reflexivity.
Qed.
Lemma digits_decimal n rest : 0 <= n < 10 ^ 20 -> match rest with c :: _ => isdigit c = false | [] => True end ->
  digits (decimal n ++ rest) 0 = n.
Proof.
  intros H R. unfold decimal. rewrite digits_dec by exact H. rewrite Z.mul_0_l, Z.add_0_l.
  destruct rest as [|c t]; [reflexivity|]. cbn [digits]. rewrite R. reflexivity.
Qed.
Lemma strtol_dec n : 0 <= n < 10 ^ 19 -> strtol (decimal n) = Z.min n 9223372036854775807.
Proof.
  intros H. destruct (dec_cons 19 n ltac:(lia)) as (c & t & E & Hc).
  change (dec 20 n) with (decimal n) in E. unfold strtol. rewrite E, skip_digit by exact Hc.
  assert (M : (match c :: t with 45 :: t => (true, t) | 43 :: t => (false, t) | _ => (false, c :: t) end) = (false, c :: t)).
  { clear E. assert (forall k, c <> Z.neg k) by (intros; lia). destruct c as [|p|p]; [reflexivity| |exfalso; apply (H0 p); reflexivity].
    do 6 (destruct p as [p|p|]; try reflexivity; try lia). }
  rewrite M. rewrite <- E. pose proof (digits_decimal n [] ltac:(lia) I) as D. rewrite app_nil_r in D. rewrite D. reflexivity.
Qed.
Lemma last_dec n x : 0 <= n -> 48 <= last (decimal n) x <= 57.
Proof.
  intros H. pose proof (dec_digits 20 n H) as F. change (dec 20 n) with (decimal n) in F.
  destruct (dec_cons 19 n H) as (c & t & E & _). change (dec 20 n) with (decimal n) in E.
  rewrite E in *. clear E. revert c F. induction t as [|d t IH]; intros c F.
  - inversion F; assumption.
  - inversion F. change (last (c :: d :: t) x) with (last (d :: t) x). apply IH. assumption.
Qed.
Lemma last_snoc {A} (l : list A) a d : last (l ++ [a]) d = a.
Proof. apply last_last. Qed.
Lemma size_arg_cases s suffix : s <> [] -> last s 0 = suffix ->
  size_arg s =
    (let k := (suffix =? 107) || (suffix =? 75) in
     let m := (suffix =? 109) || (suffix =? 77) in
     let es := strtol (if k || m then removelast s else s) in
     match match (if m then shl10 es else Some es) with
           | None => None
           | Some es => if k || m then shl10 es else Some es
           end with
     | None => None
     | Some es => Some (u64 es)
     end).
Proof. intros H <-. destruct s; [congruence|]. reflexivity. Qed.
Lemma size_arg_ok w n : names_size w n -> n < 2 ^ 63 -> size_arg w = Some n.
Proof.
  intros (m & Hm & C) Hn. change (2 ^ 63) with 9223372036854775808 in Hn.
  assert (U : forall x, 0 <= x < 9223372036854775808 -> u64 x = x).
  { intros x Hx. unfold u64. apply Z.mod_small. lia. }
  assert (S1 : forall x, 0 <= x -> x * 1024 < 9223372036854775808 -> shl10 x = Some (x * 1024)).
  { intros x H1 H2. unfold shl10. rewrite (proj2 (Z.ltb_ge x 0)), (proj2 (Z.ltb_ge _ (x * 1024))) by lia. reflexivity. }
  assert (NE : forall c, decimal m ++ [c] <> []) by (intros c; destruct (decimal m); discriminate).
  destruct C as [(-> & ->)|[([-> | ->] & ->)|([-> | ->] & ->)]].
  - pose proof (last_dec m 0 ltac:(lia)) as L.
    rewrite (size_arg_cases _ (last (decimal m) 0));
      [|destruct (dec_cons 19 m ltac:(lia)) as (c & t & E & _); change (dec 20 m) with (decimal m) in E; rewrite E; discriminate|reflexivity].
    rewrite (proj2 (Z.eqb_neq _ 107)), (proj2 (Z.eqb_neq _ 75)), (proj2 (Z.eqb_neq _ 109)), (proj2 (Z.eqb_neq _ 77)) by lia.
    cbn [orb]. cbv zeta iota. rewrite strtol_dec by lia. rewrite Z.min_l by lia. rewrite U by lia. reflexivity.
  - rewrite (size_arg_cases _ 107 (NE 107)) by apply last_snoc.
    change ((107 =? 107) || (107 =? 75)) with true. change ((107 =? 109) || (107 =? 77)) with false. cbn [orb]. cbv zeta iota.
    rewrite removelast_last, strtol_dec by lia. rewrite Z.min_l, S1, U by lia. reflexivity.
  - rewrite (size_arg_cases _ 75 (NE 75)) by apply last_snoc.
    change ((75 =? 107) || (75 =? 75)) with true. change ((75 =? 109) || (75 =? 77)) with false. cbn [orb]. cbv zeta iota.
    rewrite removelast_last, strtol_dec by lia. rewrite Z.min_l, S1, U by lia. reflexivity.
  - rewrite (size_arg_cases _ 109 (NE 109)) by apply last_snoc.
    change ((109 =? 107) || (109 =? 75)) with false. change ((109 =? 109) || (109 =? 77)) with true. cbn [orb]. cbv zeta iota.
    rewrite removelast_last, strtol_dec by lia. rewrite Z.min_l, S1 by lia. rewrite S1, U by lia. f_equal. lia.
  - rewrite (size_arg_cases _ 77 (NE 77)) by apply last_snoc.
    change ((77 =? 107) || (77 =? 75)) with false. change ((77 =? 109) || (77 =? 77)) with true. cbn [orb]. cbv zeta iota.
    rewrite removelast_last, strtol_dec by lia. rewrite Z.min_l, S1 by lia. rewrite S1, U by lia. f_equal. lia.
Qed.

(** * Address and port *)
Lemma split_at_hit c a b : ~ In c a -> split_at c (a ++ c :: b) = (a, Some b).
Proof.
  induction a as [|x t IH]; intros H.
  - cbn [app split_at]. rewrite Z.eqb_refl. reflexivity.
  - cbn [app split_at]. rewrite (proj2 (Z.eqb_neq x c)) by (intros ->; apply H; left; reflexivity).
    rewrite IH by (intros K; apply H; right; exact K). reflexivity.
Qed.
Lemma no_colon s : ~ In 58 s -> filter (fun c => c =? 58) s = [].
Proof.
  induction s as [|x t IH]; intros H; [reflexivity|]. cbn [filter].
  rewrite (proj2 (Z.eqb_neq x 58)) by (intros ->; apply H; left; reflexivity).
  apply IH. intros K; apply H; right; exact K.
Qed.
Lemma addr_port_ok w a p : names_port w a p -> addr_port w = Some (a, p).
Proof.
  intros H. unfold names_port in H. unfold addr_port, one_colon.
  destruct a as [a|].
  - destruct H as [(-> & Ha & Hp)|(-> & Ha & Hw)].
    + destruct (a ++ 58 :: p) as [|x t] eqn:E; [destruct a; discriminate E|]. rewrite <- E. clear x t E.
      rewrite filter_app. cbn [filter]. rewrite Z.eqb_refl, (no_colon a Ha), (no_colon p Hp). cbn [app].
      change (zlen [58] <=? 1) with true. cbn iota. rewrite split_at_hit by exact Ha. reflexivity.
    + destruct (a ++ 64 :: p) as [|x t] eqn:E; [destruct a; discriminate E|]. rewrite <- E in *. clear x t E.
      destruct Hw as [Hw|(x & y & z & ->)].
      * rewrite (no_colon _ Hw). change (zlen [] <=? 1) with true. cbn iota. rewrite (split_at_none 58) by exact Hw.
        rewrite split_at_hit by exact Ha. reflexivity.
      * assert (C : (zlen (filter (fun c => c =? 58) ((x ++ 58 :: y ++ 58 :: z) ++ 64 :: p)) <=? 1) = false).
        { apply Z.leb_gt. unfold zlen. rewrite !filter_app. cbn [filter]. rewrite Z.eqb_refl, !filter_app. cbn [filter]. rewrite Z.eqb_refl.
          repeat (rewrite app_length; cbn [length]). lia. }
        rewrite C. rewrite split_at_hit by exact Ha. reflexivity.
  - destruct H as (<- & Hn & H1 & H2). destruct w as [|x t] eqn:E; [congruence|]. rewrite <- E in *.
    rewrite (no_colon _ H1). change (zlen [] <=? 1) with true. cbn iota. rewrite (split_at_none 58) by exact H1.
    rewrite (split_at_none 64) by exact H2. reflexivity.
Qed.
