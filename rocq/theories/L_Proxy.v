(** The TLS proxy loop keeps both directions in order. *)
From Verif Require Import Base M_Io M_Ring S_Ring L_Io L_Ring.

Definition px_inv (pin0 cin0 : list Z) (s : proxy) : Prop :=
  ring_ok (px_p2c s) /\ ring_ok (px_c2p s) /\
  pin0 = px_cout s ++ queued (px_p2c s) ++ px_pin s /\
  cin0 = px_pout s ++ queued (px_c2p s) ++ px_cin s /\
  (exists r, queued (px_p2c s) = px_pend s ++ r) /\
  (px_wrint s = false -> px_pend s = []).

Definition px_all (P : proxy -> Prop) (r : pxend) : Prop :=
  match r with PxStop s | PxError s | PxGo s => P s | PxUb => False end.

Lemma px_andthen P r k : px_all P r -> (forall s, P s -> px_all P (k s)) -> px_all P (andthen r k).
Proof. destruct r; cbn; auto. Qed.

Ltac px_unfold H := destruct H as (I1 & I2 & I3 & I4 & (pr & I5) & I6).
Ltac px_simpl := cbn [px_all px_inv px_p2c px_c2p px_wrint px_peof px_ceof px_pin px_cin px_pout px_cout px_pend] in *.

Lemma plain_read_inv pin0 cin0 r s : px_inv pin0 cin0 s -> px_all (px_inv pin0 cin0) (plain_read r s).
Proof.
  intros H. px_unfold H. unfold plain_read.
  pose proof (write_span (px_p2c s) I1) as W. destruct (bufGetWriteSpan (px_p2c s)) as [[[a|] len] b].
  - destruct W as (W1 & W2 & W3 & W4 & W5 & W6 & W7 & W8).
    assert (B : forall pe ce, px_inv pin0 cin0 (mkPx b (px_c2p s) (px_wrint s) pe ce (px_pin s) (px_cin s) (px_pout s) (px_cout s) (px_pend s))).
    { intros. unfold px_inv. px_simpl. rewrite W6. split; [exact W5|]. split; [exact I2|]. split; [exact I3|]. split; [exact I4|]. split; [exists pr; exact I5|exact I6]. }
    replace (0 <? len) with true by lia. cbv zeta. px_simpl.
    destruct r as [k| |]; px_simpl; [|apply B|apply B].
    destruct (some_bytes k len (zlen (px_pin s)) =? 0) eqn:E0; [apply B|].
    set (n := some_bytes k len (zlen (px_pin s))) in *.
    assert (Hn : 0 < n <= len /\ n <= zlen (px_pin s)) by (pose proof (zlen_nonneg (px_pin s)); unfold n, some_bytes in *; lia).
    destruct W7 as (_ & W7 & _). replace ((0 <=? a) && (a + n <=? rb_size b)) with true by lia.
    assert (L : zlen (firstn (Z.to_nat n) (px_pin s)) = n) by (unfold zlen in *; rewrite firstn_length; lia).
    destruct (W8 (firstn (Z.to_nat n) (px_pin s))) as (b'' & E & E1 & E2 & _); [lia|].
    rewrite L in E. rewrite E. px_simpl. unfold px_inv. px_simpl.
    split; [exact E1|]. split; [exact I2|]. rewrite E2. split.
    { rewrite <- app_assoc, firstn_skipn. exact I3. }
    split; [exact I4|]. split; [|exact I6]. exists (pr ++ firstn (Z.to_nat n) (px_pin s)). rewrite I5, app_assoc. reflexivity.
  - destruct W as (-> & -> & _). change (0 <? 0) with false. cbv iota zeta. px_simpl.
    unfold px_inv. px_simpl. split; [exact I1|]. split; [exact I2|]. split; [exact I3|]. split; [exact I4|].
    split; [exists pr; exact I5|exact I6].
Qed.

Lemma plain_write_inv pin0 cin0 r s : px_inv pin0 cin0 s -> px_all (px_inv pin0 cin0) (plain_write r s).
Proof.
  intros H. assert (H0 := H). px_unfold H. unfold plain_write.
  pose proof (read_span (px_c2p s) I2) as W. destruct (bufGetReadSpan (px_c2p s)) as [[a|] len].
  - destruct W as (W1 & W2 & W3 & W4). replace (0 <? len) with true by lia.
    destruct r as [k|]; [|exact H0].
    set (n := some_bytes k len len).
    assert (Hn : 0 < n <= len) by (unfold n, some_bytes; lia).
    cbv zeta. fold n. replace ((0 <=? a) && (a + n <=? rb_size (px_c2p s))) with true by lia.
    destruct (done_read (px_c2p s) n I2) as (b' & E & E1 & E2 & _); [lia|]. rewrite E.
    unfold px_all, px_inv. px_simpl. split; [exact I1|]. split; [exact E1|]. split; [exact I3|].
    split; [|split; [exists pr; exact I5|exact I6]].
    rewrite E2, W4 by lia. rewrite <- app_assoc. rewrite (app_assoc (firstn _ _)), firstn_skipn. exact I4.
  - destruct W as (-> & _). exact H0.
Qed.

Lemma crypt_read_inv pin0 cin0 r s : px_inv pin0 cin0 s -> px_all (px_inv pin0 cin0) (crypt_read r s).
Proof.
  intros H. px_unfold H. unfold crypt_read.
  pose proof (write_span (px_c2p s) I2) as W. destruct (bufGetWriteSpan (px_c2p s)) as [[[a|] len] b].
  - destruct W as (W1 & W2 & W3 & W4 & W5 & W6 & W7 & W8).
    assert (B : forall pe ce, px_inv pin0 cin0 (mkPx (px_p2c s) b (px_wrint s) pe ce (px_pin s) (px_cin s) (px_pout s) (px_cout s) (px_pend s))).
    { intros. unfold px_inv. px_simpl. rewrite W6. split; [exact I1|]. split; [exact W5|]. split; [exact I3|]. split; [exact I4|]. split; [exists pr; exact I5|exact I6]. }
    replace (0 <? len) with true by lia. cbv zeta. px_simpl.
    destruct r as [k| | |].
    + destruct (some_bytes k len (zlen (px_cin s)) =? 0) eqn:E0; [apply B|].
      set (n := some_bytes k len (zlen (px_cin s))) in *.
      assert (Hn : 0 < n <= len /\ n <= zlen (px_cin s)) by (pose proof (zlen_nonneg (px_cin s)); unfold n, some_bytes in *; lia).
      destruct W7 as (_ & W7 & _). replace ((0 <=? a) && (a + n <=? rb_size b)) with true by lia.
      assert (L : zlen (firstn (Z.to_nat n) (px_cin s)) = n) by (unfold zlen in *; rewrite firstn_length; lia).
      destruct (W8 (firstn (Z.to_nat n) (px_cin s))) as (b'' & E & E1 & E2 & _); [lia|].
      rewrite L in E. rewrite E. px_simpl. unfold px_inv. px_simpl.
      split; [exact I1|]. split; [exact E1|]. split; [exact I3|]. rewrite E2. split.
      { rewrite <- app_assoc, firstn_skipn. exact I4. }
      split; [exists pr; exact I5|exact I6].
    + apply B.
    + assert (bufDoneWrite b (-28) = Some b) as ->; [|apply B].
      unfold bufDoneWrite. rewrite (loop_inr donewrite_body _ b); [reflexivity|].
      unfold donewrite_body. change (0 <? -28) with false. rewrite andb_false_r. reflexivity.
    + apply B.
  - destruct W as (-> & -> & _). change (0 <? 0) with false. cbv iota zeta. px_simpl.
    unfold px_inv. px_simpl. split; [exact I1|]. split; [exact I2|]. split; [exact I3|]. split; [exact I4|].
    split; [exists pr; exact I5|exact I6].
Qed.

Lemma crypt_write_inv pin0 cin0 r s : px_inv pin0 cin0 s -> px_all (px_inv pin0 cin0) (crypt_write r s).
Proof.
  intros H. assert (H0 := H). px_unfold H. unfold crypt_write.
  pose proof (read_span (px_p2c s) I1) as W. destruct (bufGetReadSpan (px_p2c s)) as [[a|] len].
  - destruct W as (W1 & W2 & W3 & W4). replace (0 <? len) with true by lia.
    destruct (px_wrint s) eqn:Ew.
    + destruct (px_pend s) as [|p0 pend] eqn:Ep; [exact H0|]. rewrite <- Ep in *.
      destruct r as [k|k|]; [|exact H0|exact H0].
      destruct (done_read (px_p2c s) (zlen (px_pend s)) I1) as (b' & E & E1 & E2 & _); [apply zlen_nonneg|]. rewrite E.
      unfold px_all, px_inv. px_simpl. split; [exact E1|]. split; [exact I2|].
      assert (Q : queued (px_p2c s) = px_pend s ++ queued b').
      { rewrite E2. rewrite <- (firstn_skipn (Z.to_nat (zlen (px_pend s))) (queued (px_p2c s))) at 1. f_equal.
        rewrite I5. apply firstn_app_len. unfold zlen. lia. }
      split; [rewrite <- app_assoc; rewrite (app_assoc (px_pend s)), <- Q; exact I3|].
      split; [exact I4|]. split; [exists (queued b'); reflexivity|auto].
    + destruct r as [k|k|]; [| |exact H0].
      * set (n := some_bytes k len len).
        assert (Hn : 0 < n <= len) by (unfold n, some_bytes; lia).
        cbv zeta. fold n. replace ((0 <=? a) && (a + n <=? rb_size (px_p2c s))) with true by lia.
        destruct (done_read (px_p2c s) n I1) as (b' & E & E1 & E2 & _); [lia|]. rewrite E.
        unfold px_all, px_inv. px_simpl. split; [exact E1|]. split; [exact I2|].
        split; [|split; [exact I4|split; [exists (queued b'); rewrite (I6 eq_refl); reflexivity|exact I6]]].
        rewrite E2, W4 by lia. rewrite <- app_assoc. rewrite (app_assoc (firstn _ _)), firstn_skipn. exact I3.
      * set (n := some_bytes k len len).
        assert (Hn : 0 < n <= len) by (unfold n, some_bytes; lia).
        cbv zeta. fold n. replace ((0 <=? a) && (a + n <=? rb_size (px_p2c s))) with true by lia.
        unfold px_all, px_inv. px_simpl. split; [exact I1|]. split; [exact I2|]. split; [exact I3|]. split; [exact I4|].
        split; [|discriminate]. exists (skipn (Z.to_nat n) (queued (px_p2c s))). rewrite W4 by lia.
        symmetry. apply firstn_skipn.
  - destruct W as (-> & _). exact H0.
Qed.

Lemma step_inv pin0 cin0 e s : px_inv pin0 cin0 s -> px_all (px_inv pin0 cin0) (proxy_step e s).
Proof.
  intros H. unfold proxy_step.
  destruct (px_peof s && px_ceof s); [exact H|].
  destruct (px_peof s && (bufIsEmpty (px_p2c s) && negb (px_wrint s))); [exact H|].
  destruct (px_ceof s && (bufIsEmpty (px_c2p s) && negb (ev_buffered e))); [exact H|].
  cbv zeta. destruct (ev_quit e); [exact H|].
  apply px_andthen. { match goal with |- px_all _ (if ?b then _ else _) => destruct b end; [apply plain_read_inv|]; exact H. }
  intros s1 H1. apply px_andthen. { match goal with |- px_all _ (if ?b then _ else _) => destruct b end; [apply plain_write_inv|]; exact H1. }
  intros s2 H2. apply px_andthen. { match goal with |- px_all _ (if ?b then _ else _) => destruct b end; [apply crypt_read_inv|]; exact H2. }
  intros s3 H3. match goal with |- px_all _ (if ?b then _ else _) => destruct b end; [apply crypt_write_inv|]; exact H3.
Qed.

Lemma run_inv pin0 cin0 : forall evs s, px_inv pin0 cin0 s -> px_all (px_inv pin0 cin0) (proxy_run evs s).
Proof.
  induction evs as [|e evs IH]; intros s H; cbn [proxy_run]; [exact H|].
  apply px_andthen; [apply step_inv; exact H|exact IH].
Qed.

Lemma init_inv size hwm pin0 cin0 : 0 < size -> px_inv pin0 cin0 (proxy_init size hwm pin0 cin0).
Proof.
  intros H. destruct (ring_new size hwm H) as [R Q]. unfold px_inv, proxy_init. px_simpl. rewrite Q.
  repeat (split; [auto; fail|]). split; [exists []; reflexivity|auto].
Qed.

(** * Ending: what is left in the buffers *)
(** a direction whose receiving side never closed ends only when drained *)
Definition c_alive (s : proxy) : Prop := px_ceof s = false \/ px_cin s = [].
Definition p_alive (s : proxy) : Prop := px_peof s = false \/ px_pin s = [].

Lemma done_read_eof r s s' : plain_write r s = PxGo s' -> px_peof s' = px_peof s /\ px_ceof s' = px_ceof s /\ px_pin s' = px_pin s /\ px_cin s' = px_cin s.
Proof.
  unfold plain_write. destruct (bufGetReadSpan (px_c2p s)) as [[a|] len]; destruct (0 <? len); try (destruct r);
    try (intros E; discriminate E); try (intros E; injection E as <-; auto); cbv zeta.
  match goal with |- context [if ?b then _ else _] => destruct b end; [|discriminate].
  match goal with |- context [bufDoneRead ?x ?y] => destruct (bufDoneRead x y) end; [|discriminate].
  intros E; injection E as <-; auto.
Qed.
Lemma crypt_write_eof r s s' : crypt_write r s = PxGo s' -> px_peof s' = px_peof s /\ px_ceof s' = px_ceof s /\ px_pin s' = px_pin s /\ px_cin s' = px_cin s.
Proof.
  unfold crypt_write. destruct (bufGetReadSpan (px_p2c s)) as [oa len]. destruct (0 <? len); [|intros E; injection E as <-; auto].
  destruct (px_wrint s).
  - destruct (px_pend s) as [|p0 pend]; [discriminate|].
    destruct r as [k|k|]; [|intros E; injection E as <-; auto|discriminate].
    match goal with |- context [bufDoneRead ?x ?y] => destruct (bufDoneRead x y) end; [|discriminate].
    intros E; injection E as <-; auto.
  - destruct r as [k|k|]; [| |discriminate]; (destruct oa as [a|]; [|discriminate]); cbv zeta;
      (match goal with |- context [if ?b then _ else _] => destruct b end; [|discriminate]).
    + match goal with |- context [bufDoneRead ?x ?y] => destruct (bufDoneRead x y) end; [|discriminate].
      intros E; injection E as <-; auto.
    + intros E; injection E as <-; auto.
Qed.

Lemma skipn_nil_inv {A} n (l : list A) : l = [] -> skipn n l = [].
Proof. intros ->. apply skipn_nil. Qed.

Lemma some_bytes_none {A} k len (l : list A) : (0 <? len) = true -> (some_bytes k len (zlen l) =? 0) = true -> l = [].
Proof. intros H E. apply zlen_zero. pose proof (zlen_nonneg l). unfold some_bytes in E. lia. Qed.

Lemma plain_read_eof r s s' : plain_read r s = PxGo s' ->
  px_ceof s' = px_ceof s /\ px_cin s' = px_cin s /\ (r <> PrEof -> p_alive s -> p_alive s').
Proof.
  unfold plain_read, p_alive. destruct (bufGetWriteSpan (px_p2c s)) as [[oa len] b]. cbv zeta. px_simpl.
  destruct (0 <? len) eqn:El; [|intros E; injection E as <-; px_simpl; auto].
  destruct r as [k| |]; [|intros E; injection E as <-; px_simpl; repeat split; congruence|discriminate].
  destruct oa as [a|]; [|discriminate].
  destruct (some_bytes k len (zlen (px_pin s)) =? 0) eqn:E0.
  - intros E; injection E as <-; px_simpl. split; [reflexivity|]. split; [reflexivity|].
    intros _ _. right. exact (some_bytes_none _ _ _ El E0).
  - match goal with |- context [if ?b then _ else _] => destruct b end; [|discriminate].
    match goal with |- context [bufDoneWrite ?x ?y] => destruct (bufDoneWrite x y) end; [|discriminate].
    intros E; injection E as <-; px_simpl. split; [reflexivity|]. split; [reflexivity|].
    intros _ [H|H]; [left; exact H|right; apply skipn_nil_inv; exact H].
Qed.
Lemma crypt_read_eof r s s' : crypt_read r s = PxGo s' ->
  px_peof s' = px_peof s /\ px_pin s' = px_pin s /\ (r <> CrEof -> c_alive s -> c_alive s').
Proof.
  unfold crypt_read, c_alive. destruct (bufGetWriteSpan (px_c2p s)) as [[oa len] b]. cbv zeta. px_simpl.
  destruct (0 <? len) eqn:El; [|intros E; injection E as <-; px_simpl; auto].
  destruct r as [k| | |]; [|intros E; injection E as <-; px_simpl; repeat split; congruence| |discriminate].
  - destruct oa as [a|]; [|discriminate].
    destruct (some_bytes k len (zlen (px_cin s)) =? 0) eqn:E0.
    + intros E; injection E as <-; px_simpl. split; [reflexivity|]. split; [reflexivity|].
      intros _ _. right. exact (some_bytes_none _ _ _ El E0).
    + match goal with |- context [if ?b then _ else _] => destruct b end; [|discriminate].
      match goal with |- context [bufDoneWrite ?x ?y] => destruct (bufDoneWrite x y) end; [|discriminate].
      intros E; injection E as <-; px_simpl. split; [reflexivity|]. split; [reflexivity|].
      intros _ [H|H]; [left; exact H|right; apply skipn_nil_inv; exact H].
  - destruct (bufDoneWrite b (-28)); [|discriminate]. intros E; injection E as <-; px_simpl. auto.
Qed.

Lemma andthen_go r k s' : andthen r k = PxGo s' -> exists s, r = PxGo s /\ k s = PxGo s'.
Proof. destruct r; cbn; intros E; try discriminate. eauto. Qed.

(** transfers do not stop the loop *)
Lemma no_stop_pr r s s' : plain_read r s <> PxStop s'.
Proof.
  unfold plain_read. destruct (bufGetWriteSpan (px_p2c s)) as [[oa len] b]. cbv zeta.
  destruct (0 <? len); [|discriminate]. destruct r; try discriminate. destruct oa; [|discriminate].
  match goal with |- (if ?b then _ else _) <> _ => destruct b end; [discriminate|].
  match goal with |- (if ?b then _ else _) <> _ => destruct b end; [|discriminate].
  match goal with |- context [bufDoneWrite ?x ?y] => destruct (bufDoneWrite x y) end; discriminate.
Qed.
Lemma no_stop_pw r s s' : plain_write r s <> PxStop s'.
Proof.
  unfold plain_write. destruct (bufGetReadSpan (px_c2p s)) as [oa len].
  destruct (0 <? len); [|discriminate]. destruct r; try discriminate. destruct oa; [|discriminate]. cbv zeta.
  match goal with |- (if ?b then _ else _) <> _ => destruct b end; [|discriminate].
  match goal with |- context [bufDoneRead ?x ?y] => destruct (bufDoneRead x y) end; discriminate.
Qed.
Lemma no_stop_cr r s s' : crypt_read r s <> PxStop s'.
Proof.
  unfold crypt_read. destruct (bufGetWriteSpan (px_c2p s)) as [[oa len] b]. cbv zeta.
  destruct (0 <? len); [|discriminate]. destruct r; try discriminate; [destruct oa; [|discriminate]|].
  - match goal with |- (if ?b then _ else _) <> _ => destruct b end; [discriminate|].
    match goal with |- (if ?b then _ else _) <> _ => destruct b end; [|discriminate].
    match goal with |- context [bufDoneWrite ?x ?y] => destruct (bufDoneWrite x y) end; discriminate.
  - match goal with |- context [bufDoneWrite ?x ?y] => destruct (bufDoneWrite x y) end; discriminate.
Qed.
Lemma no_stop_cw r s s' : crypt_write r s <> PxStop s'.
Proof.
  unfold crypt_write. destruct (bufGetReadSpan (px_p2c s)) as [oa len].
  destruct (0 <? len); [|discriminate]. destruct (px_wrint s).
  - destruct (px_pend s); [discriminate|]. destruct r; try discriminate.
    match goal with |- context [bufDoneRead ?x ?y] => destruct (bufDoneRead x y) end; discriminate.
  - destruct r; try discriminate; (destruct oa; [|discriminate]); cbv zeta;
      (match goal with |- (if ?b then _ else _) <> _ => destruct b end; try discriminate).
    match goal with |- context [bufDoneRead ?x ?y] => destruct (bufDoneRead x y) end; discriminate.
Qed.

Lemma andthen_nostop r k s' : (forall s, r <> PxStop s) -> (forall s, k s <> PxStop s') -> andthen r k <> PxStop s'.
Proof. intros H1 H2. destruct r; cbn; auto; discriminate. Qed.

Definition stopped (e : event) (s s' : proxy) : Prop :=
  ev_quit e = true \/ (px_peof s = true /\ px_ceof s = true) \/
  (px_peof s = true /\ rb_empty (px_p2c s) = true /\ px_cout s' = px_cout s /\ px_pin s' = px_pin s /\ px_cin s' = px_cin s) \/
  (px_ceof s = true /\ rb_empty (px_c2p s) = true /\ px_pout s' = px_pout s /\ px_cin s' = px_cin s /\ px_pin s' = px_pin s).

Lemma step_stop e s s' : proxy_step e s = PxStop s' ->
  stopped e s s' /\ px_pin s' = px_pin s /\ px_cin s' = px_cin s.
Proof.
  unfold proxy_step, stopped. destruct (px_peof s && px_ceof s) eqn:E1.
  { intros E. injection E as <-. apply andb_true_iff in E1. tauto. }
  destruct (px_peof s && (bufIsEmpty (px_p2c s) && negb (px_wrint s))) eqn:E2.
  { intros E. injection E as <-. cbn. rewrite !andb_true_iff in E2. unfold bufIsEmpty in E2. tauto. }
  destruct (px_ceof s && (bufIsEmpty (px_c2p s) && negb (ev_buffered e))) eqn:E3.
  { intros E. injection E as <-. cbn. rewrite !andb_true_iff in E3. unfold bufIsEmpty in E3. tauto. }
  cbv zeta. destruct (ev_quit e). { intros E. injection E as <-. tauto. }
  intros E. exfalso. revert E.
  apply andthen_nostop.
  { intros s0. match goal with |- (if ?b then _ else _) <> _ => destruct b end; [apply no_stop_pr|discriminate]. }
  intros s1. apply andthen_nostop.
  { intros s0. match goal with |- (if ?b then _ else _) <> _ => destruct b end; [apply no_stop_pw|discriminate]. }
  intros s2. apply andthen_nostop.
  { intros s0. match goal with |- (if ?b then _ else _) <> _ => destruct b end; [apply no_stop_cr|discriminate]. }
  intros s3. match goal with |- (if ?b then _ else _) <> _ => destruct b end; [apply no_stop_cw|discriminate].
Qed.

Lemma step_alive e s s' : proxy_step e s = PxGo s' ->
  (ev_crr e <> CrEof -> c_alive s -> c_alive s') /\ (ev_prr e <> PrEof -> p_alive s -> p_alive s').
Proof.
  unfold proxy_step. destruct (px_peof s && px_ceof s); [discriminate|].
  destruct (px_peof s && (bufIsEmpty (px_p2c s) && negb (px_wrint s))); [discriminate|].
  destruct (px_ceof s && (bufIsEmpty (px_c2p s) && negb (ev_buffered e))); [discriminate|].
  cbv zeta. destruct (ev_quit e); [discriminate|]. intros E.
  apply andthen_go in E. destruct E as (s1 & E1 & E). apply andthen_go in E. destruct E as (s2 & E2 & E).
  apply andthen_go in E. destruct E as (s3 & E3 & E4).
  assert (A1 : px_ceof s1 = px_ceof s /\ px_cin s1 = px_cin s /\ (ev_prr e <> PrEof -> p_alive s -> p_alive s1)).
  { match type of E1 with (if ?b then _ else _) = _ => destruct b end; [apply plain_read_eof in E1; exact E1|injection E1 as <-; auto]. }
  assert (A2 : px_peof s2 = px_peof s1 /\ px_ceof s2 = px_ceof s1 /\ px_pin s2 = px_pin s1 /\ px_cin s2 = px_cin s1).
  { match type of E2 with (if ?b then _ else _) = _ => destruct b end; [apply done_read_eof in E2; exact E2|injection E2 as <-; auto]. }
  assert (A3 : px_peof s3 = px_peof s2 /\ px_pin s3 = px_pin s2 /\ (ev_crr e <> CrEof -> c_alive s2 -> c_alive s3)).
  { match type of E3 with (if ?b then _ else _) = _ => destruct b end; [apply crypt_read_eof in E3; exact E3|injection E3 as <-; auto]. }
  assert (A4 : px_peof s' = px_peof s3 /\ px_ceof s' = px_ceof s3 /\ px_pin s' = px_pin s3 /\ px_cin s' = px_cin s3).
  { match type of E4 with (if ?b then _ else _) = _ => destruct b end; [apply crypt_write_eof in E4; exact E4|injection E4 as <-; auto]. }
  destruct A1 as (B1 & B2 & B3), A2 as (C1 & C2 & C3 & C4), A3 as (D1 & D2 & D3), A4 as (F1 & F2 & F3 & F4).
  unfold c_alive, p_alive in *. rewrite F1, F2, F3, F4, D1, D2, C1, C3. rewrite C2, C4, B1, B2 in D3. tauto.
Qed.

Lemma run_end : forall evs s s' pin0 cin0, px_inv pin0 cin0 s -> proxy_run evs s = PxStop s' ->
  (forall e, In e evs -> ev_quit e = false) ->
  ((forall e, In e evs -> ev_crr e <> CrEof) -> c_alive s -> px_cin s' <> [] -> pin0 = px_cout s' ++ px_pin s') /\
  ((forall e, In e evs -> ev_prr e <> PrEof) -> p_alive s -> px_pin s' <> [] -> cin0 = px_pout s' ++ px_cin s').
Proof.
  induction evs as [|e evs IH]; intros s s' pin0 cin0 HI H Hq; cbn [proxy_run] in H; [discriminate|].
  destruct (proxy_step e s) as [s1|s1|s1|] eqn:E; cbn in H; try discriminate.
  - injection H as <-. destruct (step_stop e s s1 E) as (S & P1 & P2).
    destruct S as [S|[(S1 & S2)|[(S1 & S2 & S3 & S4 & S5)|(S1 & S2 & S3 & S4 & S5)]]].
    + rewrite Hq in S by (left; reflexivity). discriminate.
    + split; [intros _ [A|A] B|intros _ [A|A] B]; congruence.
    + destruct HI as (I1 & I2 & I3 & I4 & _). split.
      * intros _ _ _. rewrite I3, S3, S4. f_equal.
        assert (queued (px_p2c s) = []) as -> by (unfold queued, bufGetCount; rewrite S2; apply slice_nil). reflexivity.
      * intros _ [A|A] B; congruence.
    + destruct HI as (I1 & I2 & I3 & I4 & _). split.
      * intros _ [A|A] B; congruence.
      * intros _ _ _. rewrite I4, S3, S4. f_equal.
        assert (queued (px_c2p s) = []) as -> by (unfold queued, bufGetCount; rewrite S2; apply slice_nil). reflexivity.
  - pose proof (step_inv pin0 cin0 e s HI) as HI1. rewrite E in HI1. cbn in HI1.
    destruct (step_alive e s s1 E) as [A1 A2].
    destruct (IH s1 s' pin0 cin0 HI1 H) as [K1 K2]. { intros e0 H0. apply Hq. right. exact H0. }
    split.
    + intros C A. apply K1; [intros e0 H0; apply C; right; exact H0|]. apply A1; [apply C; left; reflexivity|exact A].
    + intros C A. apply K2; [intros e0 H0; apply C; right; exact H0|]. apply A2; [apply C; left; reflexivity|exact A].
Qed.

Lemma proxy_prefix size hwm pin0 cin0 evs : 0 < size ->
  match proxy_run evs (proxy_init size hwm pin0 cin0) with
  | PxStop s | PxError s | PxGo s =>
      (exists rest, pin0 = px_cout s ++ rest ++ px_pin s) /\ (exists rest, cin0 = px_pout s ++ rest ++ px_cin s)
  | PxUb => False
  end.
Proof.
  intros H. pose proof (run_inv pin0 cin0 evs _ (init_inv size hwm pin0 cin0 H)) as K.
  destruct (proxy_run evs (proxy_init size hwm pin0 cin0)); cbn in K; [| | |exact K];
    destruct K as (_ & _ & K3 & K4 & _); eauto.
Qed.

Lemma proxy_end size hwm pin0 cin0 evs s : 0 < size ->
  proxy_run evs (proxy_init size hwm pin0 cin0) = PxStop s -> (forall e, In e evs -> ev_quit e = false) ->
  ((forall e, In e evs -> ev_crr e <> CrEof) -> px_cin s <> [] -> pin0 = px_cout s ++ px_pin s) /\
  ((forall e, In e evs -> ev_prr e <> PrEof) -> px_pin s <> [] -> cin0 = px_pout s ++ px_cin s).
Proof.
  intros H E Q. destruct (run_end evs _ s pin0 cin0 (init_inv size hwm pin0 cin0 H) E Q) as [K1 K2].
  split; intros A B; [apply K1|apply K2]; auto; left; reflexivity.
Qed.

Lemma ring_counters b : ring_ok b ->
  bufGetCount b = zlen (queued b) /\ bufGetFree b = rb_size b - zlen (queued b) /\
  (bufIsEmpty b = true <-> queued b = []) /\ (bufIsFull b = true <-> zlen (queued b) = rb_size b) /\
  (bufIsOverHWM b = true <-> rb_hwm b < zlen (queued b)).
Proof.
  intros H. pose proof (queued_zlen b H) as Q. pose proof (count_range b H) as [C1 C2].
  split; [auto|]. unfold bufGetFree. rewrite Q. split; [reflexivity|].
  split; [|split].
  - unfold bufIsEmpty. destruct (rb_empty b) eqn:E; split; intros K; auto; try discriminate.
    + apply zlen_zero. rewrite Q. unfold bufGetCount. rewrite E. reflexivity.
    + rewrite K, zlen_nil in Q. specialize (C2 eq_refl). lia.
  - destruct H as (H1 & H2 & H3 & H4). unfold bufIsFull, bufGetCount in *. destruct (rb_empty b); cbn [negb andb].
    + split; [discriminate|lia].
    + rewrite Z.eqb_eq. destruct (rb_ridx b <? rb_widx b) eqn:E; lia.
  - unfold bufIsOverHWM. apply Z.ltb_lt.
Qed.

Lemma retry_is_fatal s r : px_wrint s = true -> px_pend s = [] -> ring_ok (px_p2c s) -> queued (px_p2c s) <> [] ->
  exists s', crypt_write r s = PxError s'.
Proof.
  intros H1 H2 H3 H4. unfold crypt_write. pose proof (read_span (px_p2c s) H3) as W.
  destruct (bufGetReadSpan (px_p2c s)) as [[a|] len]; [|destruct W; contradiction].
  destruct W as (W & _). replace (0 <? len) with true by lia. rewrite H1, H2. eauto.
Qed.
