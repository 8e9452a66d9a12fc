(** Lemmas about starting the server. *)
From Coq Require Import String.
From Verif Require Import Base M_Const M_Acl M_Nego M_Conf M_Main S_Root S_Acl S_Conf S_Main L_Conf.
Open Scope list_scope.
Open Scope Z_scope.

(** * The command line *)
Ltac opt_cases :=
  repeat match goal with
  | K : context [if (?a =? ?b)%string then _ else _] |- _ => destruct (String.eqb_spec a b); [subst|]
  end.
Ltac one_opt K :=
  cbn [do_opt] in K; opt_cases; try discriminate K;
  try (injection K as <-).

Ltac changes :=
  change (0 =? 0) with true; change (0 =? 1) with false; change (0 =? 2) with false;
  change (1 =? 0) with false; change (1 =? 1) with true; change (1 =? 2) with false;
  change (2 =? 0) with false; change (2 =? 1) with false; change (2 =? 2) with true.
Lemma do_opt_word c s c' : do_opt c (SWord s) = ClGo c' ->
  c_words c' = c_words c + 1 /\ s_flags (c_serve c') = s_flags (c_serve c) /\ s_auth (c_serve c') = s_auth (c_serve c)
  /\ s_max (c_serve c') = s_max (c_serve c) /\ c_file c' = c_file c /\ c_pid c' = c_pid c /\ c_out c' = c_out c
  /\ c_nodaemon c' = c_nodaemon c /\ c_dontfork c' = c_dontfork c
  /\ s_export (c_serve c') = (if c_words c =? 1 then Some s else s_export (c_serve c))
  /\ (c_words c = 1 -> exists t, s = 47 :: t)
  /\ (if c_words c =? 0 then exists a p, addr_port s = Some (a, p) /\ gs_addr (c_gs c') = a /\ gs_port (c_gs c') = Some p
      else c_gs c' = c_gs c)
  /\ (if c_words c =? 2 then size_arg s = Some (s_size (c_serve c')) else s_size (c_serve c') = s_size (c_serve c)).
Proof.
  intros K. cbn [do_opt] in K.
  destruct (Z.eqb_spec (c_words c) 0) as [W0|W0].
  - rewrite W0. destruct (addr_port s) as [[a p]|] eqn:Ea; [|discriminate K]. injection K as <-.
    changes. cbn. repeat apply conj; try reflexivity; try (intros; lia). exists a, p. repeat split; reflexivity.
  - destruct (Z.eqb_spec (c_words c) 1) as [W1|W1].
    + rewrite W1. destruct s as [|x t]; [discriminate K|].
      assert (Hx : x = 47).
      { revert K. destruct x as [|x|x]; try discriminate; repeat (destruct x as [x|x|]; try discriminate). reflexivity. }
      subst x. injection K as <-. changes. cbn. repeat apply conj; try reflexivity; [lia|]. intros _. exists t. reflexivity.
    + destruct (Z.eqb_spec (c_words c) 2) as [W2|W2].
      * rewrite W2. destruct (size_arg s) as [n|] eqn:Es; [|discriminate K]. injection K as <-.
        changes. cbn. repeat apply conj; try reflexivity; intros; lia.
      * injection K as <-.
        cbn. repeat apply conj; try reflexivity; intros; lia.
Qed.

Lemma do_opt_opt c o s c' : do_opt c (SOpt o s) = ClGo c' ->
  c_words c' = c_words c /\ c_gs c' = c_gs c /\ s_export (c_serve c') = s_export (c_serve c)
  /\ s_size (c_serve c') = s_size (c_serve c)
  /\ s_flags (c_serve c') = (if (o =? "r")%string then Z.lor (s_flags (c_serve c)) F_READONLY
                             else if (o =? "m")%string then Z.lor (s_flags (c_serve c)) F_MULTIFILE
                             else if (o =? "c")%string then Z.lor (s_flags (c_serve c)) F_COPYONWRITE
                             else s_flags (c_serve c))
  /\ s_auth (c_serve c') = (if (o =? "l")%string then Some s else s_auth (c_serve c))
  /\ s_max (c_serve c') = (if (o =? "M")%string then i32 (strtol0 s) else s_max (c_serve c))
  /\ c_file c' = (if (o =? "C")%string then s else c_file c)
  /\ c_pid c' = (if (o =? "p")%string then firstn 255 s else c_pid c)
  /\ c_out c' = (if (o =? "o")%string then Some s else c_out c)
  /\ c_nodaemon c' = ((o =? "n")%string || (o =? "d")%string || c_nodaemon c)
  /\ c_dontfork c' = ((o =? "d")%string || c_dontfork c).
Proof.
  intros K. one_opt K;
    repeat match goal with
    | H : ?a <> ?b |- context [(?a =? ?b)%string] => rewrite (proj2 (String.eqb_neq a b) H)
    end; cbn; repeat split; reflexivity.
Qed.

Lemma opts_cons a t c r : opts (a :: t) c = ClGo r -> exists c', do_opt c a = ClGo c' /\ opts t c' = ClGo r.
Proof. cbn [opts]. destruct (do_opt c a) as [c'|ok|]; try discriminate. intros K. exists c'. split; [reflexivity|exact K]. Qed.

(** the options other than words *)
Lemma opts_auth l : forall c c', opts l c = ClGo c' ->
  s_auth (c_serve c') = match last_arg "l" l with Some a => Some a | None => s_auth (c_serve c) end.
Proof.
  induction l as [|a t IH]; intros c c' K; [cbn in *; congruence|].
  destruct (opts_cons _ _ _ _ K) as (c1 & K1 & K2). rewrite (IH _ _ K2). cbn [last_arg].
  destruct (last_arg "l" t); [reflexivity|]. destruct a as [s|o s].
  - destruct (do_opt_word _ _ _ K1) as (_ & _ & E & _). exact E.
  - destruct (do_opt_opt _ _ _ _ K1) as (_ & _ & _ & _ & _ & E & _). rewrite E. destruct (o =? "l")%string; reflexivity.
Qed.
Lemma opts_max l : forall c c', opts l c = ClGo c' ->
  s_max (c_serve c') = match last_arg "M" l with Some a => i32 (strtol0 a) | None => s_max (c_serve c) end.
Proof.
  induction l as [|a t IH]; intros c c' K; [cbn in *; congruence|].
  destruct (opts_cons _ _ _ _ K) as (c1 & K1 & K2). rewrite (IH _ _ K2). cbn [last_arg].
  destruct (last_arg "M" t); [reflexivity|]. destruct a as [s|o s].
  - destruct (do_opt_word _ _ _ K1) as (_ & _ & _ & E & _). exact E.
  - destruct (do_opt_opt _ _ _ _ K1) as (_ & _ & _ & _ & _ & _ & E & _). rewrite E. destruct (o =? "M")%string; reflexivity.
Qed.
Lemma opts_file l : forall c c', opts l c = ClGo c' ->
  c_file c' = match last_arg "C" l with Some a => a | None => c_file c end.
Proof.
  induction l as [|a t IH]; intros c c' K; [cbn in *; congruence|].
  destruct (opts_cons _ _ _ _ K) as (c1 & K1 & K2). rewrite (IH _ _ K2). cbn [last_arg].
  destruct (last_arg "C" t); [reflexivity|]. destruct a as [s|o s].
  - destruct (do_opt_word _ _ _ K1) as (_ & _ & _ & _ & E & _). exact E.
  - destruct (do_opt_opt _ _ _ _ K1) as (_ & _ & _ & _ & _ & _ & _ & E & _). rewrite E. destruct (o =? "C")%string; reflexivity.
Qed.
Lemma opts_pid l : forall c c', opts l c = ClGo c' ->
  c_pid c' = match last_arg "p" l with Some a => firstn 255 a | None => c_pid c end.
Proof.
  induction l as [|a t IH]; intros c c' K; [cbn in *; congruence|].
  destruct (opts_cons _ _ _ _ K) as (c1 & K1 & K2). rewrite (IH _ _ K2). cbn [last_arg].
  destruct (last_arg "p" t); [reflexivity|]. destruct a as [s|o s].
  - destruct (do_opt_word _ _ _ K1) as (_ & _ & _ & _ & _ & E & _). exact E.
  - destruct (do_opt_opt _ _ _ _ K1) as (_ & _ & _ & _ & _ & _ & _ & _ & E & _). rewrite E. destruct (o =? "p")%string; reflexivity.
Qed.
Lemma opts_out l : forall c c', opts l c = ClGo c' ->
  c_out c' = match last_arg "o" l with Some a => Some a | None => c_out c end.
Proof.
  induction l as [|a t IH]; intros c c' K; [cbn in *; congruence|].
  destruct (opts_cons _ _ _ _ K) as (c1 & K1 & K2). rewrite (IH _ _ K2). cbn [last_arg].
  destruct (last_arg "o" t); [reflexivity|]. destruct a as [s|o s].
  - destruct (do_opt_word _ _ _ K1) as (_ & _ & _ & _ & _ & _ & E & _). exact E.
  - destruct (do_opt_opt _ _ _ _ K1) as (_ & _ & _ & _ & _ & _ & _ & _ & _ & E & _). rewrite E. destruct (o =? "o")%string; reflexivity.
Qed.
Lemma given_cons o a t : given o (a :: t) <-> ((exists s, a = SOpt o s) \/ given o t).
Proof.
  unfold given. split.
  - intros (s & [E|E]); [left; exists s; exact E|right; exists s; exact E].
  - intros [(s & E)|(s & E)]; exists s; [left; exact E|right; exact E].
Qed.
Lemma opts_modes l : forall c c', opts l c = ClGo c' ->
  (c_nodaemon c' = true <-> c_nodaemon c = true \/ given "n" l \/ given "d" l)
  /\ (c_dontfork c' = true <-> c_dontfork c = true \/ given "d" l).
Proof.
  induction l as [|a t IH]; intros c c' K.
  - cbn in K. injection K as ->. unfold given. cbn. split; (split; [tauto|]); intros [E|E]; try exact E.
    + destruct E as [(s & [])|(s & [])].
    + destruct E as (s & []).
  - destruct (opts_cons _ _ _ _ K) as (c1 & K1 & K2). destruct (IH _ _ K2) as (I1 & I2). clear IH K.
    rewrite I1, I2, !given_cons. clear I1 I2 K2. destruct a as [s|o s].
    + destruct (do_opt_word _ _ _ K1) as (_ & _ & _ & _ & _ & _ & _ & E1 & E2 & _). rewrite E1, E2.
      split; (split; [tauto|]); intros [E|E]; try tauto.
      * destruct E as [[(x & E)|E]|[(x & E)|E]]; try discriminate E; tauto.
      * destruct E as [(x & E)|E]; try discriminate E; tauto.
    + destruct (do_opt_opt _ _ _ _ K1) as (_ & _ & _ & _ & _ & _ & _ & _ & _ & _ & E1 & E2). rewrite E1, E2, !orb_true_iff, !String.eqb_eq.
      assert (G : forall x, (exists s0, SOpt o s = SOpt x s0) <-> o = x).
      { intros x. split; [intros (s0 & E); congruence|intros ->; exists s; reflexivity]. }
      rewrite !G. tauto.
Qed.
Lemma opts_flags l : forall c c', opts l c = ClGo c' -> forall b, 0 <= b ->
  (Z.testbit (s_flags (c_serve c')) b = true <->
     Z.testbit (s_flags (c_serve c)) b = true \/ (b = 0 /\ given "r" l) \/ (b = 1 /\ given "m" l) \/ (b = 2 /\ given "c" l)).
Proof.
  induction l as [|a t IH]; intros c c' K b Hb.
  - cbn in K. injection K as ->. unfold given. cbn. split; [tauto|].
    intros [E|[(_ & s & [])|[(_ & s & [])|(_ & s & [])]]]; exact E.
  - destruct (opts_cons _ _ _ _ K) as (c1 & K1 & K2). specialize (IH _ _ K2 b Hb). clear K K2.
    rewrite IH, !given_cons. clear IH. destruct a as [s|o s].
    + destruct (do_opt_word _ _ _ K1) as (_ & E & _). rewrite E.
      assert (G : forall x, (exists s0, SWord s = SOpt x s0) <-> False) by (intros x; split; [intros (s0 & E0); discriminate E0|tauto]).
      rewrite !G. tauto.
    + destruct (do_opt_opt _ _ _ _ K1) as (_ & _ & _ & _ & E & _). rewrite E.
      assert (G : forall x, (exists s0, SOpt o s = SOpt x s0) <-> o = x).
      { intros x. split; [intros (s0 & E0); congruence|intros ->; exists s; reflexivity]. }
      rewrite !G. clear E K1 G.
      assert (T : forall k, 0 <= k -> Z.testbit (2 ^ k) b = (k =? b)) by (intros k Hk; rewrite Z.pow2_bits_eqb by lia; reflexivity).
      pose proof (T 0 ltac:(lia)) as T0. pose proof (T 1 ltac:(lia)) as T1. pose proof (T 2 ltac:(lia)) as T2.
      change (2 ^ 0) with F_READONLY in T0. change (2 ^ 1) with F_MULTIFILE in T1. change (2 ^ 2) with F_COPYONWRITE in T2.
      destruct (String.eqb_spec o "r") as [->|Nr].
      { rewrite Z.lor_spec, orb_true_iff, T0, Z.eqb_eq. split; [intuition congruence|]. intros Q. intuition (try congruence). }
      destruct (String.eqb_spec o "m") as [->|Nm].
      { rewrite Z.lor_spec, orb_true_iff, T1, Z.eqb_eq. split; [intuition congruence|]. intros Q. intuition (try congruence). }
      destruct (String.eqb_spec o "c") as [->|Nc].
      { rewrite Z.lor_spec, orb_true_iff, T2, Z.eqb_eq. split; [intuition congruence|]. intros Q. intuition (try congruence). }
      split; [tauto|]. intros Q. intuition (try congruence).
Qed.

(** the words *)
Lemma words_cons_w s t : words (SWord s :: t) = s :: words t.
Proof. reflexivity. Qed.
Lemma words_cons_o o s t : words (SOpt o s :: t) = words t.
Proof. reflexivity. Qed.
Lemma opts_words l : forall c c', opts l c = ClGo c' -> c_words c' = c_words c + zlen (words l).
Proof.
  induction l as [|a t IH]; intros c c' K; [cbn in *; injection K as ->; unfold zlen; cbn; lia|].
  destruct (opts_cons _ _ _ _ K) as (c1 & K1 & K2). rewrite (IH _ _ K2). destruct a as [s|o s].
  - destruct (do_opt_word _ _ _ K1) as (E & _). rewrite E, words_cons_w. unfold zlen. cbn [length]. lia.
  - destruct (do_opt_opt _ _ _ _ K1) as (E & _). rewrite E. reflexivity.
Qed.
Lemma nth_shift (i k : Z) : k < i -> Z.to_nat (i - k) = S (Z.to_nat (i - (k + 1))).
Proof. intros. lia. Qed.
Lemma opts_export l : forall c c', opts l c = ClGo c' -> c_words c <= 1 ->
  match nth_error (words l) (Z.to_nat (1 - c_words c)) with
  | Some w => s_export (c_serve c') = Some w /\ (exists t, w = 47 :: t)
  | None => s_export (c_serve c') = s_export (c_serve c)
  end.
Proof.
  assert (A : forall l c c', opts l c = ClGo c' -> 1 < c_words c -> s_export (c_serve c') = s_export (c_serve c)).
  { intros l0. induction l0 as [|a t IH]; intros c c' K W; [cbn in K; congruence|].
    destruct (opts_cons _ _ _ _ K) as (c1 & K1 & K2). destruct a as [s|o s].
    - destruct (do_opt_word _ _ _ K1) as (E & _ & _ & _ & _ & _ & _ & _ & _ & X & _).
      rewrite (IH _ _ K2 ltac:(lia)), X, (proj2 (Z.eqb_neq _ _)) by lia. reflexivity.
    - destruct (do_opt_opt _ _ _ _ K1) as (E & _ & X & _). rewrite (IH _ _ K2 ltac:(lia)). exact X. }
  induction l as [|a t IH]; intros c c' K W.
  - cbn in K. injection K as ->. cbn [words flat_map]. destruct (Z.to_nat (1 - c_words c')); reflexivity.
  - destruct (opts_cons _ _ _ _ K) as (c1 & K1 & K2). destruct a as [s|o s].
    + destruct (do_opt_word _ _ _ K1) as (E & _ & _ & _ & _ & _ & _ & _ & _ & X & Y & _).
      rewrite words_cons_w. destruct (Z.eq_dec (c_words c) 1) as [W1|W1].
      * rewrite W1 in *. cbn [nth_error Z.sub Z.to_nat]. change (Z.to_nat (1 - 1)) with O. cbn [nth_error].
        rewrite (A _ _ _ K2 ltac:(lia)), X. split; [reflexivity|apply Y; reflexivity].
      * rewrite (nth_shift 1) by lia. cbn [nth_error]. specialize (IH _ _ K2 ltac:(lia)). rewrite E in IH.
        destruct (nth_error (words t) (Z.to_nat (1 - (c_words c + 1)))); [exact IH|]. rewrite IH, X, (proj2 (Z.eqb_neq _ _) W1). reflexivity.
    + destruct (do_opt_opt _ _ _ _ K1) as (E & _ & X & _). rewrite words_cons_o. specialize (IH _ _ K2 ltac:(lia)). rewrite E, X in IH. exact IH.
Qed.
Lemma opts_size l : forall c c', opts l c = ClGo c' -> c_words c <= 2 ->
  match nth_error (words l) (Z.to_nat (2 - c_words c)) with
  | Some w => size_arg w = Some (s_size (c_serve c'))
  | None => s_size (c_serve c') = s_size (c_serve c)
  end.
Proof.
  assert (A : forall l c c', opts l c = ClGo c' -> 2 < c_words c -> s_size (c_serve c') = s_size (c_serve c)).
  { intros l0. induction l0 as [|a t IH]; intros c c' K W; [cbn in K; congruence|].
    destruct (opts_cons _ _ _ _ K) as (c1 & K1 & K2). destruct a as [s|o s].
    - destruct (do_opt_word _ _ _ K1) as (E & _ & _ & _ & _ & _ & _ & _ & _ & _ & _ & _ & X).
      rewrite (proj2 (Z.eqb_neq _ _)) in X by lia. rewrite (IH _ _ K2 ltac:(lia)), X. reflexivity.
    - destruct (do_opt_opt _ _ _ _ K1) as (E & _ & _ & X & _). rewrite (IH _ _ K2 ltac:(lia)). exact X. }
  induction l as [|a t IH]; intros c c' K W.
  - cbn in K. injection K as ->. cbn [words flat_map]. destruct (Z.to_nat (2 - c_words c')); reflexivity.
  - destruct (opts_cons _ _ _ _ K) as (c1 & K1 & K2). destruct a as [s|o s].
    + destruct (do_opt_word _ _ _ K1) as (E & _ & _ & _ & _ & _ & _ & _ & _ & _ & _ & _ & X).
      rewrite words_cons_w. destruct (Z.eq_dec (c_words c) 2) as [W1|W1].
      * rewrite W1 in *. change (Z.to_nat (2 - 2)) with O. cbn [nth_error].
        rewrite (A _ _ _ K2 ltac:(lia)). exact X.
      * rewrite (nth_shift 2) by lia. cbn [nth_error]. specialize (IH _ _ K2 ltac:(lia)). rewrite E in IH.
        rewrite (proj2 (Z.eqb_neq _ _) W1) in X.
        destruct (nth_error (words t) (Z.to_nat (2 - (c_words c + 1)))); [exact IH|]. rewrite IH, X. reflexivity.
    + destruct (do_opt_opt _ _ _ _ K1) as (E & _ & _ & X & _). rewrite words_cons_o. specialize (IH _ _ K2 ltac:(lia)). rewrite E, X in IH. exact IH.
Qed.
Lemma opts_gs l : forall c c', opts l c = ClGo c' -> c_words c = 0 ->
  match words l with
  | w :: _ => exists a p, addr_port w = Some (a, p) /\ gs_addr (c_gs c') = a /\ gs_port (c_gs c') = Some p
  | [] => c_gs c' = c_gs c
  end.
Proof.
  assert (A : forall l c c', opts l c = ClGo c' -> 0 < c_words c -> c_gs c' = c_gs c).
  { intros l0. induction l0 as [|a t IH]; intros c c' K W; [cbn in K; congruence|].
    destruct (opts_cons _ _ _ _ K) as (c1 & K1 & K2). destruct a as [s|o s].
    - destruct (do_opt_word _ _ _ K1) as (E & _ & _ & _ & _ & _ & _ & _ & _ & _ & _ & X & _).
      rewrite (proj2 (Z.eqb_neq _ _)) in X by lia. rewrite (IH _ _ K2 ltac:(lia)), X. reflexivity.
    - destruct (do_opt_opt _ _ _ _ K1) as (E & X & _). rewrite (IH _ _ K2 ltac:(lia)). exact X. }
  induction l as [|a t IH]; intros c c' K W.
  - cbn in K. injection K as ->. reflexivity.
  - destruct (opts_cons _ _ _ _ K) as (c1 & K1 & K2). destruct a as [s|o s].
    + destruct (do_opt_word _ _ _ K1) as (E & _ & _ & _ & _ & _ & _ & _ & _ & _ & _ & X & _).
      rewrite words_cons_w. rewrite W in X. change (0 =? 0) with true in X. cbn iota in X. rewrite (A _ _ _ K2 ltac:(lia)). exact X.
    + destruct (do_opt_opt _ _ _ _ K1) as (E & X & _). rewrite words_cons_o. specialize (IH _ _ K2 ltac:(lia)). rewrite X in IH. exact IH.
Qed.
