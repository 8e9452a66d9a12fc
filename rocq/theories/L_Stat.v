(** Lemmas for C89. *)
From Coq Require Import String.
From Verif Require Import Base M_Acl M_Nego M_Conf M_Main M_Tab S_Acl S_Dev L_Acl L_Main2 L_Dev M_Stat S_Stat.
Local Open Scope list_scope.

Lemma starts_app k s : starts k (k ++ s) = true.
Proof. induction k as [|a k IH]; [reflexivity|]. cbn [starts app]. now rewrite Z.eqb_refl, IH. Qed.
Lemma sscanf_name n : 0 <= n < 2 ^ 31 -> sscanf_nbd (dev_name n) = Some n.
Proof.
  intros H. unfold sscanf_nbd, dev_name. rewrite starts_app. change (skipn 8 (text "/dev/nbd" ++ decimal n)) with (decimal n).
  destruct (dec_cons 19 n ltac:(lia)) as (c & t & E & Hc). change (dec 20 n) with (decimal n) in E. rewrite E, skip_digit by exact Hc.
  assert (M : (match c :: t with 45 :: t0 | 43 :: t0 => t0 | _ => c :: t end) = c :: t).
  { clear E. assert (forall k, c <> Z.neg k) by (intros; lia). destruct c as [|p|p]; [reflexivity| |exfalso; apply (H0 p); reflexivity].
    do 6 (destruct p as [p|p|]; try reflexivity; try lia). }
  rewrite M. replace (isdigit c) with true by (symmetry; unfold isdigit; rewrite andb_true_iff, !Z.leb_le; lia).
  rewrite <- E, strtol_dec by lia. rewrite Z.min_l by lia. f_equal. unfold i32. rewrite Z.mod_small; lia.
Qed.
Lemma dec_of_dec f : forall g n, 0 <= n < 10 ^ Z.of_nat (S f) -> n < 10 ^ Z.of_nat (S g) -> dec_of (S f) n = dec (S g) n.
Proof.
  induction f as [|f IH]; intros g n H1 H2.
  - cbn [dec_of dec]. change (10 ^ Z.of_nat 1) with 10 in H1. destruct (Z.ltb_spec n 10); [reflexivity|lia].
  - destruct g as [|g].
    + cbn [dec_of dec]. change (10 ^ Z.of_nat 1) with 10 in H2. destruct (Z.ltb_spec n 10); [reflexivity|lia].
    + rewrite Nat2Z.inj_succ, Z.pow_succ_r in H1, H2 by lia. change (dec_of (S (S f)) n) with (if n <? 10 then [48 + n] else dec_of (S f) (n / 10) ++ [48 + n mod 10]).
      change (dec (S (S g)) n) with (if n <? 10 then [48 + n] else dec (S g) (n / 10) ++ [48 + n mod 10]). destruct (Z.ltb_spec n 10); [reflexivity|]. f_equal. apply IH.
      * split; [apply Z.div_pos; lia|]. apply Z.div_lt_upper_bound; lia.
      * apply Z.div_lt_upper_bound; lia.
Qed.
Lemma show_decimal n : 0 <= n < 2 ^ 31 -> show_int (i32 n) = decimal n.
Proof.
  intros H. unfold i32. rewrite Z.mod_small by lia. replace (n + 2147483648 - 2147483648) with n by lia. unfold show_int. destruct (Z.ltb_spec n 0); [lia|].
  unfold decimal. apply dec_of_dec.
  - change (10 ^ Z.of_nat 10) with 10000000000. lia.
  - change (10 ^ Z.of_nat 20) with 100000000000000000000. lia.
Qed.
Lemma line_says n c : 0 <= n < 2 ^ 31 -> status_line n c = says n (negb (c =? 0)).
Proof.
  intros H. unfold status_line, says, dev_name. rewrite show_decimal by exact H. rewrite <- app_assoc. destruct (c =? 0); reflexivity.
Qed.
(** the device -d is about *)
Lemma do_arg_dev v o s v' : o <> "l"%string -> do_arg v (AOpt o s) = Some v' -> t_dev (v_cl v') = match opt_arg "d" (AOpt o s) with Some d => Some d | None => t_dev (v_cl v) end.
Proof.
  intros Ho. revert v'. intros v'. cbn [do_arg opt_arg opt_or_word]; repeat opt_case; try one_step;
    try (intros H; apply do_bs_eq in H; subst; reflexivity);
    try (intros H; injection H as <-; repeat match goal with E : (_ =? _)%string = false |- _ => rewrite E; clear E end; reflexivity).
  now destruct Ho.
Qed.
Lemma f_dev l : forall v v', only_options l -> do_args v l = Some v' -> t_dev (v_cl v') = match last_opt "d" l with Some d => Some d | None => t_dev (v_cl v) end.
Proof.
  induction l as [|a l IH]; intros v v' Ho H; [cbn in H; injection H as <-; reflexivity|]. inversion_clear Ho as [|? ? Ha Hl]. cbn [do_args] in H.
  destruct (do_arg v a) as [v1|] eqn:E; [|discriminate H]. rewrite (IH _ _ Hl H). unfold last_opt. cbn [last_sel]. destruct (last_sel (opt_arg "d") l); [reflexivity|].
  destruct a as [w|o s]; [destruct Ha|]. exact (do_arg_dev _ _ _ _ Ha E).
Qed.
