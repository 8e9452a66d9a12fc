(** Common ground of the development: arithmetic set-up, C integer
    conversions, big-endian codecs, the loop combinator. *)
From Coq Require Export List ZArith Lia Bool.
From Coq Require Export ZifyBool ZifyNat.
Export ListNotations.
Open Scope Z_scope.
Ltac Zify.zify_post_hook ::= Z.div_mod_to_equations.

Arguments Z.mul : simpl never.
Arguments Z.add : simpl never.
Arguments Z.sub : simpl never.
Arguments Z.div : simpl never.
Arguments Z.modulo : simpl never.
Arguments Z.pow : simpl never.
Arguments Z.of_nat : simpl never.
Arguments Z.to_nat : simpl never.
Arguments Z.ltb : simpl never.
Arguments Z.leb : simpl never.
Arguments Z.eqb : simpl never.
Arguments Z.land : simpl never.
Arguments Z.lor : simpl never.
Arguments Z.min : simpl never.
Arguments Z.max : simpl never.
Arguments Nat.div : simpl never.
Arguments Nat.modulo : simpl never.

(** * C integer conversions (ISO C 6.3.1.3; two's complement, LP64). *)
Definition u8  (x : Z) : Z := x mod 256.
Definition u16 (x : Z) : Z := x mod 65536.
Definition u32 (x : Z) : Z := x mod 4294967296.
Definition u64 (x : Z) : Z := x mod 18446744073709551616.
Definition i64 (x : Z) : Z :=
  (x + 9223372036854775808) mod 18446744073709551616 - 9223372036854775808.
Definition i32 (x : Z) : Z :=
  (x + 2147483648) mod 4294967296 - 2147483648.

Definition is_byte (b : Z) : Prop := 0 <= b < 256.
Definition is_u16 (x : Z) : Prop := 0 <= x < 65536.
Definition is_u32 (x : Z) : Prop := 0 <= x < 4294967296.
Definition is_u64 (x : Z) : Prop := 0 <= x < 18446744073709551616.

Lemma u64_small x : is_u64 x -> u64 x = x.
Proof. unfold is_u64, u64; intros H; apply Z.mod_small; lia. Qed.
Lemma u32_small x : is_u32 x -> u32 x = x.
Proof. unfold is_u32, u32; intros H; apply Z.mod_small; lia. Qed.
Lemma u64_range x : is_u64 (u64 x).
Proof. unfold is_u64, u64; lia. Qed.
Lemma u32_range x : is_u32 (u32 x).
Proof. unfold is_u32, u32; lia. Qed.
Lemma i64_small x : -9223372036854775808 <= x < 9223372036854775808 -> i64 x = x.
Proof. unfold i64; intros H. rewrite Z.mod_small; lia. Qed.

(** * Flag words *)
Definition flag (w f : Z) : bool := negb (Z.land w f =? 0).

(** * Big-endian byte strings (network byte order) *)
Fixpoint be (n : nat) (x : Z) : list Z :=
  match n with
  | O => []
  | S m => (x / 2 ^ (8 * Z.of_nat m)) mod 256 :: be m x
  end.

Fixpoint unbe_acc (acc : Z) (l : list Z) : Z :=
  match l with
  | [] => acc
  | b :: t => unbe_acc (acc * 256 + b) t
  end.
Definition unbe (l : list Z) : Z := unbe_acc 0 l.

Lemma be_length n x : length (be n x) = n.
Proof. induction n as [|n IH]; cbn [be length]; congruence. Qed.

Lemma unbe_acc_be n : forall acc x,
  unbe_acc acc (be n x) = acc * 2 ^ (8 * Z.of_nat n) + x mod 2 ^ (8 * Z.of_nat n).
Proof.
  induction n as [|n IH]; intros acc x; cbn [be unbe_acc].
  - change (8 * Z.of_nat 0) with 0. rewrite Z.pow_0_r. lia.
  - rewrite IH.
    replace (8 * Z.of_nat (S n)) with (8 * Z.of_nat n + 8) by lia.
    rewrite Z.pow_add_r by lia. change (2 ^ 8) with 256.
    set (k := 2 ^ (8 * Z.of_nat n)).
    assert (Hk : 0 < k) by (apply Z.pow_pos_nonneg; lia).
    rewrite (Z.rem_mul_r x k 256) by lia. lia.
Qed.

Lemma unbe_be n x : unbe (be n x) = x mod 2 ^ (8 * Z.of_nat n).
Proof. unfold unbe. rewrite unbe_acc_be. lia. Qed.

Lemma be_bytes n x : Forall is_byte (be n x).
Proof.
  induction n as [|n IH]; cbn [be]; constructor; auto.
  unfold is_byte. apply Z.mod_pos_bound. lia.
Qed.

Lemma unbe_acc_app l1 : forall acc l2, unbe_acc acc (l1 ++ l2) = unbe_acc (unbe_acc acc l1) l2.
Proof. induction l1 as [|b l1 IH]; intros acc l2; cbn [app unbe_acc]; auto. Qed.

Lemma unbe_acc_shift l : forall acc,
  unbe_acc acc l = acc * 2 ^ (8 * Z.of_nat (length l)) + unbe_acc 0 l.
Proof.
  induction l as [|b l IH]; intros acc; cbn [unbe_acc length].
  - change (8 * Z.of_nat 0) with 0. rewrite Z.pow_0_r. lia.
  - rewrite IH. rewrite (IH (0 * 256 + b)).
    replace (8 * Z.of_nat (S (length l))) with (8 * Z.of_nat (length l) + 8) by lia.
    rewrite Z.pow_add_r by lia. change (2 ^ 8) with 256. ring.
Qed.

Lemma unbe_range l : Forall is_byte l -> 0 <= unbe l < 2 ^ (8 * Z.of_nat (length l)).
Proof.
  unfold unbe. induction l as [|b l IH]; intros H; cbn [unbe_acc length].
  - change (8 * Z.of_nat 0) with 0. rewrite Z.pow_0_r. lia.
  - inversion H as [|b' l' Hb Hl]; subst. specialize (IH Hl).
    rewrite unbe_acc_shift.
    replace (8 * Z.of_nat (S (length l))) with (8 * Z.of_nat (length l) + 8) by lia.
    rewrite Z.pow_add_r by lia. change (2 ^ 8) with 256.
    unfold is_byte in Hb. set (k := 2 ^ (8 * Z.of_nat (length l))) in *. nia.
Qed.

Lemma be_shift n x c : be n (x + c * 2 ^ (8 * Z.of_nat n)) = be n x.
Proof.
  revert c. induction n as [|n IH]; intros c; cbn [be]; [reflexivity|].
  replace (8 * Z.of_nat (S n)) with (8 + 8 * Z.of_nat n) by lia.
  rewrite Z.pow_add_r by lia. change (2 ^ 8) with 256.
  set (k := 2 ^ (8 * Z.of_nat n)).
  assert (Hk : 0 < k) by (apply Z.pow_pos_nonneg; lia).
  f_equal.
  - replace (x + c * (256 * k)) with (x + (c * 256) * k) by ring.
    rewrite Z.div_add by lia.
    rewrite Z.add_mod by lia. rewrite Z.mod_mul by lia.
    rewrite Z.add_0_r, Z.mod_mod by lia. reflexivity.
  - replace (x + c * (256 * k)) with (x + (c * 256) * k) by ring. apply IH.
Qed.

Lemma be_unbe l : Forall is_byte l -> be (length l) (unbe l) = l.
Proof.
  unfold unbe. induction l as [|b l IH]; intros H; cbn [unbe_acc length be]; [reflexivity|].
  inversion H as [|b' l' Hb Hl]; subst. specialize (IH Hl).
  rewrite unbe_acc_shift.
  pose proof (unbe_range l Hl) as Hr. unfold unbe in Hr.
  set (k := 2 ^ (8 * Z.of_nat (length l))) in *.
  assert (Hk : 0 < k) by (apply Z.pow_pos_nonneg; lia).
  unfold is_byte in Hb. f_equal.
  - rewrite Z.div_add_l by lia. rewrite (Z.div_small (unbe_acc 0 l) k) by lia.
    rewrite Z.mod_small; lia.
  - rewrite Z.add_comm. unfold k. rewrite be_shift. exact IH.
Qed.

(** * Loops

    [loopP step p s] runs at most [p] iterations; [inl] means the bound was
    exhausted, [inr r] that the loop left with [r].  Binary fuel keeps it
    computable for bounds like 2^64. *)
Section Loop.
  Context {S R : Type}.
  Variable step : S -> S + R.
  Fixpoint loopP (p : positive) (s : S) : S + R :=
    match p with
    | xH => step s
    | xO q => match loopP q s with inl s' => loopP q s' | inr r => inr r end
    | xI q => match step s with
              | inl s1 => match loopP q s1 with inl s2 => loopP q s2 | inr r => inr r end
              | inr r => inr r
              end
    end.

  Lemma loopP_spec (I : S -> Prop) (Q : R -> Prop) (m : S -> Z) :
    (forall s, I s -> match step s with
                      | inl s' => I s' /\ m s' + 1 <= m s
                      | inr r => Q r
                      end) ->
    forall p s, I s ->
      (exists r, loopP p s = inr r /\ Q r) \/
      (exists s', loopP p s = inl s' /\ I s' /\ m s' + Z.pos p <= m s).
  Proof.
    intros Hstep. induction p as [p IH|p IH|]; intros s Hs; cbn [loopP].
    - pose proof (Hstep s Hs) as H. destruct (step s) as [s1|r].
      + destruct H as [H1 H2].
        destruct (IH s1 H1) as [(r & Hr & HQ)|(s2 & E2 & I2 & M2)].
        * rewrite Hr. left; eauto.
        * rewrite E2. destruct (IH s2 I2) as [(r & Hr & HQ)|(s3 & E3 & I3 & M3)].
          -- left; eauto.
          -- right. exists s3. repeat split; auto. lia.
      + left; eauto.
    - destruct (IH s Hs) as [(r & Hr & HQ)|(s2 & E2 & I2 & M2)].
      + rewrite Hr. left; eauto.
      + rewrite E2. destruct (IH s2 I2) as [(r & Hr & HQ)|(s3 & E3 & I3 & M3)].
        * left; eauto.
        * right. exists s3. repeat split; auto. lia.
    - pose proof (Hstep s Hs) as H. destruct (step s) as [s1|r].
      + right. exists s1. destruct H. repeat split; auto; lia.
      + left; eauto.
  Qed.

  (** Total correctness: invariant, postcondition, variant. *)
  Lemma loopP_total (I : S -> Prop) (Q : R -> Prop) (m : S -> Z) :
    (forall s, I s -> 0 <= m s) ->
    (forall s, I s -> match step s with
                      | inl s' => I s' /\ m s' < m s
                      | inr r => Q r
                      end) ->
    forall p s, I s -> m s < Z.pos p -> exists r, loopP p s = inr r /\ Q r.
  Proof.
    intros Hm Hstep p s Hs Hp.
    destruct (loopP_spec I Q m) with (p := p) (s := s) as [H|(s' & E & Is & M)]; auto.
    - intros s0 H0. specialize (Hstep s0 H0). destruct (step s0); [|assumption].
      destruct Hstep; split; auto; lia.
    - specialize (Hm s' Is). lia.
  Qed.

  (** Partial correctness (no variant): whatever it returns satisfies [Q]. *)
  Lemma loopP_partial (I : S -> Prop) (Q : R -> Prop) :
    (forall s, I s -> match step s with inl s' => I s' | inr r => Q r end) ->
    forall p s, I s -> match loopP p s with inl s' => I s' | inr r => Q r end.
  Proof.
    intros Hstep. induction p as [p IH|p IH|]; intros s Hs; cbn [loopP].
    - pose proof (Hstep s Hs) as H. destruct (step s) as [s1|r]; [|exact H].
      pose proof (IH s1 H) as H1. destruct (loopP p s1) as [s2|r]; [|exact H1].
      apply IH; exact H1.
    - pose proof (IH s Hs) as H1. destruct (loopP p s) as [s2|r]; [|exact H1].
      apply IH; exact H1.
    - apply Hstep; exact Hs.
  Qed.
End Loop.

(** * Small list helpers *)
Definition zlen {A} (l : list A) : Z := Z.of_nat (length l).
Lemma zlen_nonneg {A} (l : list A) : 0 <= zlen l.
Proof. unfold zlen; lia. Qed.
Lemma zlen_app {A} (l1 l2 : list A) : zlen (l1 ++ l2) = zlen l1 + zlen l2.
Proof. unfold zlen; rewrite app_length; lia. Qed.
Lemma zlen_cons {A} (a : A) (l : list A) : zlen (a :: l) = 1 + zlen l.
Proof. unfold zlen; cbn [length]; lia. Qed.
Lemma zlen_nil {A} : zlen (@nil A) = 0.
Proof. reflexivity. Qed.

Definition znth {A} (d : A) (l : list A) (i : Z) : A := nth (Z.to_nat i) l d.

(** [n] consecutive values of a byte function, starting at [o]. *)
Definition slice (f : Z -> Z) (o n : Z) : list Z :=
  map (fun k => f (o + Z.of_nat k)) (seq 0 (Z.to_nat n)).

Lemma slice_length f o n : length (slice f o n) = Z.to_nat n.
Proof. unfold slice. rewrite map_length, seq_length. reflexivity. Qed.
Lemma slice_zlen f o n : 0 <= n -> zlen (slice f o n) = n.
Proof. intros H. unfold zlen. rewrite slice_length. lia. Qed.
Lemma slice_nil f o : slice f o 0 = [].
Proof. reflexivity. Qed.

Lemma seq_shift_map {A} (g : nat -> A) a b n :
  map g (seq (a + b) n) = map (fun k => g (k + a)%nat) (seq b n).
Proof.
  revert b. induction n as [|n IH]; intros b; cbn [seq map]; [reflexivity|].
  f_equal; [f_equal; lia|].
  replace (S (a + b)) with (a + S b)%nat by lia. apply IH.
Qed.

Lemma slice_split f o n m : 0 <= n -> 0 <= m ->
  slice f o (n + m) = slice f o n ++ slice f (o + n) m.
Proof.
  intros Hn Hm. unfold slice.
  replace (Z.to_nat (n + m)) with (Z.to_nat n + Z.to_nat m)%nat by lia.
  rewrite seq_app, map_app. f_equal. cbn [Nat.add].
  replace (Z.to_nat n) with (Z.to_nat n + 0)%nat at 1 by lia.
  rewrite seq_shift_map.
  apply map_ext. intros k. f_equal. lia.
Qed.

Lemma slice_ext f g o n : (forall i, o <= i < o + n -> f i = g i) -> slice f o n = slice g o n.
Proof.
  intros H. unfold slice. apply map_ext_in. intros k Hk.
  apply in_seq in Hk. apply H. lia.
Qed.

Lemma slice_shift f o o' n : slice (fun i => f (i + o')) o n = slice f (o + o') n.
Proof. unfold slice. apply map_ext. intros k. f_equal. lia. Qed.

Lemma slice_nth f o n d k : (k < Z.to_nat n)%nat -> nth k (slice f o n) d = f (o + Z.of_nat k).
Proof.
  intros H. unfold slice.
  rewrite nth_indep with (d' := f (o + Z.of_nat 0)) by (rewrite map_length, seq_length; lia).
  rewrite map_nth with (f := fun k => f (o + Z.of_nat k)).
  rewrite seq_nth by lia. f_equal; lia.
Qed.

Lemma slice_znth f o n d i : 0 <= i < n -> znth d (slice f o n) i = f (o + i).
Proof. intros H. unfold znth. rewrite slice_nth by lia. f_equal; lia. Qed.

(** A byte string seen as a function. *)
Definition bytefn (l : list Z) : Z -> Z := fun i => znth 0 l i.

Lemma slice_bytefn l : slice (bytefn l) 0 (zlen l) = l.
Proof.
  apply nth_ext with (d := 0) (d' := 0).
  - rewrite slice_length. unfold zlen. lia.
  - intros k Hk. rewrite slice_length in Hk. rewrite slice_nth by lia.
    unfold bytefn, znth. f_equal. lia.
Qed.

Lemma app_eq_len {A} (a b c d : list A) :
  length a = length c -> a ++ b = c ++ d -> a = c /\ b = d.
Proof.
  revert c. induction a as [|x a IH]; intros [|y c] Hl H; cbn in *; try discriminate; auto.
  injection H as -> H. injection Hl as Hl. destruct (IH c Hl H); subst; auto.
Qed.
