(** The switch completes; reads after it; exports over 2 GiB. *)
From Verif Require Import Base M_Const M_Wait S_Wait L_Wait L_WaitS L_WaitR.

Definition ok := WCom 4096.
Lemma wrun_app e l1 l2 : forall s, wrun e (l1 ++ l2) s = match wrun e l1 s with WGo s => wrun e l2 s | r => r end.
Proof. induction l1 as [|c l1 IH]; intros s; cbn [app wrun]; [reflexivity|]. destruct (wstep e c s); auto. Qed.
Lemma com_frame e k s s' : com_step e k s = WGo s' -> w_rpc s' = w_rpc s /\ w_log s' = w_log s /\ w_in s' = w_in s.
Proof.
  unfold com_step. destruct (w_cpc s) as [|lk i d|]; [|
    destruct (i <? pages e); [destruct (2147483647 <? DIFFPAGESIZE * i); [discriminate|]; destruct (there (w_map s i));
      [destruct (negb (at_slot (w_map s i) + DIFFPAGESIZE <=? w_dsize s)); [|cbv zeta; destruct (negb (_ =? DIFFPAGESIZE))]|]
    |destruct (0 <? d); [|destruct lk]]|discriminate];
  intros E; injection E as <-; auto.
Qed.

Definition all_back (s : wst) : Prop := forall p, w_map s p = NOPAGE.

(** one page, written in full *)
Lemma page_step e s lk i d : limits e -> inv e s -> w_cpc s = CPass lk i d -> i < pages e ->
  exists s' d', com_step e 4096 s = WGo s' /\ inv e s' /\ w_cpc s' = CPass lk (i + 1) d' /\ d <= d' /\
    (forall p, p <> i -> w_map s' p = w_map s p) /\ w_map s' i = NOPAGE /\ (w_map s i = NOPAGE -> d' = d).
Proof.
  intros L I C P. destruct (com_step e 4096 s) as [s'| |] eqn:E.
  - assert (X : inv e s' -> exists s'' d', WGo s' = WGo s'' /\ inv e s'' /\ w_cpc s'' = CPass lk (i + 1) d' /\ d <= d' /\
      (forall p, p <> i -> w_map s'' p = w_map s p) /\ w_map s'' i = NOPAGE /\ (w_map s i = NOPAGE -> d' = d)).
    { intros I'. exists s'. pose proof (dlen_small _ _ I) as SM. pose proof L as [SP PG].
      unfold com_step in E. rewrite C in E. replace (i <? pages e) with true in E by lia.
      destruct (2147483647 <? DIFFPAGESIZE * i); [discriminate|]. destruct (there (w_map s i)) eqn:Et.
      - apply there_spec in Et. destruct (i_slot _ _ I i Et) as [Hs _]. rewrite at_slot_small in E by lia.
        destruct (i_pos _ _ I) as [_ DS].
        replace (negb (w_map s i * 4096 + DIFFPAGESIZE <=? w_dsize s)) with false in E by (unfold DIFFPAGESIZE; lia).
        change (Z.max 0 (Z.min 4096 DIFFPAGESIZE)) with 4096 in E. change (negb (4096 =? DIFFPAGESIZE)) with false in E.
        change (4096 =? 0) with false in E.
        cbv zeta iota in E. exists (d + 1). split; [reflexivity|]. split; [exact I'|].
        injection E as <-. wc. split; [reflexivity|]. split; [lia|]. split; [intros p N; apply set_other; exact N|].
        split; [apply set_same|]. congruence.
      - exists d. split; [reflexivity|]. split; [exact I'|]. injection E as <-. wc. split; [reflexivity|]. split; [lia|].
        split; [reflexivity|]. split; [|reflexivity].
        destruct (Z.eq_dec (w_map s i) NOPAGE) as [Q|Q]; [exact Q|]. apply there_spec in Q. congruence. }
    apply X. eapply com_inv; eauto. intros E1 E2. exfalso.
    unfold com_step in E. rewrite C in E. replace (i <? pages e) with true in E by lia.
    destruct (2147483647 <? DIFFPAGESIZE * i); [discriminate|]. destruct (there (w_map s i));
      [destruct (negb (at_slot (w_map s i) + DIFFPAGESIZE <=? w_dsize s)); [|cbv zeta in E; destruct (negb (_ =? DIFFPAGESIZE))]|];
      injection E as <-; wc; congruence.
  - exfalso. unfold com_step in E. rewrite C in E. replace (i <? pages e) with true in E by lia.
    destruct (2147483647 <? DIFFPAGESIZE * i); [discriminate|]. destruct (there (w_map s i));
      [destruct (negb (at_slot (w_map s i) + DIFFPAGESIZE <=? w_dsize s)); [|cbv zeta in E; destruct (negb (_ =? DIFFPAGESIZE))]|];
      discriminate.
  - exfalso. eapply com_no_ub; eauto.
Qed.

(** a pass *)
Lemma pass_run e lk : limits e -> forall n s i d, inv e s -> w_cpc s = CPass lk i d -> Z.to_nat (pages e - i) = n ->
  exists s' i' d', wrun e (repeat ok n) s = WGo s' /\ inv e s' /\ w_cpc s' = CPass lk i' d' /\ pages e <= i' /\ d <= d' /\
    (forall p, w_map s' p <> NOPAGE -> w_map s p <> NOPAGE /\ p < i) /\ (all_back s -> d' = d).
Proof.
  intros L. induction n as [|n IH]; intros s i d I C N.
  - exists s, i, d. cbn [repeat wrun]. split; [reflexivity|]. split; [exact I|]. split; [exact C|]. split; [lia|]. split; [lia|].
    split; [|auto]. intros p Hp. split; [exact Hp|]. destruct (i_slot _ _ I p Hp). lia.
  - destruct (page_step e s lk i d L I C ltac:(lia)) as [s1 [d1 [E1 [I1 [C1 [D1 [M1 [M2 M3]]]]]]]].
    destruct (IH s1 (i + 1) d1 I1 C1 ltac:(lia)) as [s2 [i2 [d2 [E2 [I2 [C2 [P2 [D2 [M4 M5]]]]]]]]].
    exists s2, i2, d2. cbn [repeat wrun]. change (wstep e ok s) with (com_step e 4096 s). rewrite E1.
    split; [exact E2|]. split; [exact I2|]. split; [exact C2|]. split; [exact P2|]. split; [lia|]. split.
    + intros p Hp. destruct (M4 p Hp) as [Q1 Q2]. destruct (Z.eq_dec p i) as [->|NE]; [congruence|].
      rewrite M1 in Q1 by exact NE. split; [exact Q1|lia].
    + intros A. rewrite M5; [apply M3; apply A|]. intros p. destruct (Z.eq_dec p i) as [->|NE]; [exact M2|].
      rewrite M1 by exact NE. apply A.
Qed.

(** what follows a pass *)
Lemma pass_end e lk s i d : limits e -> inv e s -> w_cpc s = CPass lk i d -> pages e <= i ->
  exists s', com_step e 4096 s = WGo s' /\ w_map s' = w_map s /\
    (if 0 <? d then inv e s' /\ w_cpc s' = CPass lk 0 0
     else if lk then w_export s' = true else inv e s' /\ w_cpc s' = CPass true 0 0).
Proof.
  intros L I C P. destruct (com_step e 4096 s) as [s'| |] eqn:E.
  - assert (EX : w_export s = false).
    { destruct (w_export s) eqn:Q; [|reflexivity]. apply (proj1 (i_exp _ _ I)) in Q. congruence. }
    exists s'. pose proof E as E'. unfold com_step in E. rewrite C in E. replace (i <? pages e) with false in E by lia.
    split; [reflexivity|].
    destruct (0 <? d); [|destruct lk].
    + injection E as <-. split; [reflexivity|]. split; [|reflexivity]. eapply com_inv; eauto. wc. congruence.
    + injection E as <-. auto.
    + injection E as <-. split; [reflexivity|]. split; [|reflexivity]. eapply com_inv; eauto. wc. congruence.
  - exfalso. unfold com_step in E. rewrite C in E. replace (i <? pages e) with false in E by lia. destruct (0 <? d), lk; discriminate.
  - exfalso. eapply com_no_ub; eauto.
Qed.

Definition ends (e : wenv) (s : wst) : Prop := exists n s', wrun e (repeat ok n) s = WGo s' /\ w_export s' = true.
Lemma ends_later e n s s' : wrun e (repeat ok n) s = WGo s' -> ends e s' -> ends e s.
Proof.
  intros E [m [s2 [E2 X]]]. exists (n + m)%nat, s2. rewrite repeat_app, wrun_app, E. auto.
Qed.
Lemma ends_step e s s' : com_step e 4096 s = WGo s' -> ends e s' -> ends e s.
Proof. intros E. apply (ends_later e 1). cbn [repeat wrun]. change (wstep e ok s) with (com_step e 4096 s). rewrite E. reflexivity. Qed.
Lemma ends_now e s : w_export s = true -> ends e s.
Proof. intros E. exists O, s. auto. Qed.

Ltac pass s i d I C s' i' d' E I' C' P D M F :=
  match goal with L : limits ?e |- _ =>
  destruct (pass_run e _ L _ s i d I C eq_refl) as [s' [i' [d' [E [I' [C' [P [D [M F]]]]]]]]] end;
  eapply ends_later; [exact E|].
Lemma back_0 e s s' : inv e s -> inv e s' -> (forall p, w_map s' p <> NOPAGE -> w_map s p <> NOPAGE /\ p < 0) -> all_back s'.
Proof.
  intros I I' M p. destruct (Z.eq_dec (w_map s' p) NOPAGE) as [Q|Q]; [exact Q|]. destruct (M p Q) as [Q1 Q2].
  destruct (i_slot _ _ I p Q1). lia.
Qed.
Lemma ends_all e lk : limits e -> forall s i d, inv e s -> w_cpc s = CPass lk i d -> ends e s.
Proof.
  intros L.
  assert (E1 : forall s i, inv e s -> all_back s -> w_cpc s = CPass true i 0 -> ends e s).
  { intros s i I A C. pass s i 0 I C s1 i1 d1 E1 I1 C1 P1 D1 M1 F1. rewrite (F1 A) in *.
    destruct (pass_end e true s1 i1 0 L I1 C1 P1) as [s2 [E2 [_ X]]]. eapply ends_step; [exact E2|]. apply ends_now. exact X. }
  assert (E3 : forall s, inv e s -> w_cpc s = CPass true 0 0 -> ends e s).
  { intros s I C. pass s 0 0 I C s1 i1 d1 E2 I1 C1 P1 D1 M1 F1. pose proof (back_0 _ _ _ I I1 M1) as B.
    destruct (pass_end e true s1 i1 d1 L I1 C1 P1) as [s2 [E4 [MM X]]]. eapply ends_step; [exact E4|].
    destruct (0 <? d1); [|apply ends_now; exact X]. destruct X as [I2 C2]. apply (E1 s2 0 I2); [|exact C2]. intros p. rewrite MM. apply B. }
  assert (E5 : forall s, inv e s -> all_back s -> w_cpc s = CPass false 0 0 -> ends e s).
  { intros s I A C. pass s 0 0 I C s1 i1 d1 E2 I1 C1 P1 D1 M1 F1. rewrite (F1 A) in *.
    destruct (pass_end e false s1 i1 0 L I1 C1 P1) as [s2 [E4 [MM X]]]. eapply ends_step; [exact E4|].
    change (0 <? 0) with false in X. destruct X as [I2 C2]. eauto. }
  assert (E6 : forall s, inv e s -> w_cpc s = CPass false 0 0 -> ends e s).
  { intros s I C. pass s 0 0 I C s1 i1 d1 E2 I1 C1 P1 D1 M1 F1. pose proof (back_0 _ _ _ I I1 M1) as B.
    destruct (pass_end e false s1 i1 d1 L I1 C1 P1) as [s2 [E4 [MM X]]]. eapply ends_step; [exact E4|].
    destruct (0 <? d1); destruct X as [I2 C2]; eauto. apply E5; auto. intros p. rewrite MM. apply B. }
  intros s i d I C. pass s i d I C s1 i1 d1 E2 I1 C1 P1 D1 M1 F1.
  destruct (pass_end e lk s1 i1 d1 L I1 C1 P1) as [s2 [E4 [MM X]]]. eapply ends_step; [exact E4|].
  destruct (0 <? d1).
  - destruct X as [I2 C2]. destruct lk; eauto.
  - destruct lk; [apply ends_now; exact X|]. destruct X; eauto.
Qed.

(** only the waiting thread runs: requests and their outcomes stay, and the
    schedule is clean if no write is in progress *)
Lemma only_commit e n : forall s s', wrun e (repeat ok n) s = WGo s' ->
  w_log s' = w_log s /\ w_in s' = w_in s /\ w_rpc s' = w_rpc s /\ (~ in_write s -> clean e (repeat ok n) s).
Proof.
  induction n as [|n IH]; intros s s'; cbn [repeat wrun clean].
  - intros E. injection E as <-. auto.
  - change (wstep e ok s) with (com_step e 4096 s). destruct (com_step e 4096 s) as [s1| |] eqn:E1; try discriminate.
    intros E. destruct (com_frame _ _ _ _ E1) as [F1 [F2 F3]]. destruct (IH _ _ E) as [G1 [G2 [G3 G4]]].
    split; [congruence|]. split; [congruence|]. split; [congruence|]. intros N. split; [auto|]. apply G4.
    unfold in_write in *. rewrite F1. exact N.
Qed.

Lemma stored_seen log : forall rq d b x, In (rq, WOk d) log -> stores rq b = Some x -> exists y, last_write log b = Some y.
Proof.
  induction log as [|[rq' r'] log IH]; intros rq d b x; cbn [In last_write]; [intros []|].
  intros [E|I] S.
  - injection E as -> ->. rewrite S. destruct (last_write log b); eauto.
  - destruct (IH _ _ _ _ I S) as [y ->]. eauto.
Qed.

Lemma file_latest e s : inv e s -> w_export s = true -> forall b, w_file s b = latest e (w_log s) b.
Proof.
  intros I X b. assert (C : w_cpc s = CDone) by (apply (i_exp _ _ I); exact X).
  pose proof (i_none _ _ I b (i_done _ _ I C _)) as N. pose proof (i_rpc _ _ I) as R. unfold rpc_ok in R.
  assert (CU : cur (w_rpc s) (w_log s) b = last_write (w_log s) b).
  { destruct (w_rpc s); try reflexivity. destruct R as [? [? [? [_ [_ [_ [_ [_ [_ [_ Q]]]]]]]]]]. congruence. }
  rewrite CU in N. unfold latest. destruct (last_write (w_log s) b); [tauto|]. apply N. congruence.
Qed.

Lemma read_after e s a len l : inv e s -> w_export s = true -> w_rpc s = RIdle -> w_in s = WRead a len :: l ->
  (a + len <= we_f0size e \/ exists a' len' d f r, In (WWrite a' len' d f, WOk r) (w_log s) /\ 0 < len' /\ a + len <= a' + len') ->
  exists s', wrun e [WReq; WReq] s = WGo s' /\ w_log s' = w_log s ++ [(WRead a len, WOk (expected e (w_log s) a len))].
Proof.
  intros I X R N H. assert (C : w_cpc s = CDone) by (apply (i_exp _ _ I); exact X).
  assert (SZ : a + len <= w_fsize s).
  { destruct H as [H|[a' [len' [d [f [r [Hi [Hl Hc]]]]]]]].
    - pose proof (i_size _ _ I ltac:(congruence)). lia.
    - destruct (stored_seen _ _ _ (a' + len' - 1) (d (a' + len' - 1 - a')) Hi) as [y Hy].
      { cbn [stores]. replace ((a' <=? a' + len' - 1) && (a' + len' - 1 <? a' + len')) with true by lia. reflexivity. }
      pose proof (i_none _ _ I (a' + len' - 1) (i_done _ _ I C _)) as Q. rewrite R in Q. cbn [cur] in Q. rewrite Hy in Q. lia. }
  cbn [wrun]. cbn [wstep]. unfold req_step at 1. rewrite R, N. wc. rewrite X. unfold req_step. wc. cbn [raw]. wc.
  replace (a + len <=? w_fsize s) with true by lia. eexists. split; [reflexivity|]. wc. do 4 f_equal.
  apply slice_expected. intros i _. apply file_latest; auto.
Qed.

(** over 2 GiB the offset of a page overflows *)
Lemma count_up e : 524288 < pages e -> forall n s i, all_back s -> w_cpc s = CPass false i 0 -> 0 <= i -> i + Z.of_nat n = 524288 ->
  wrun e (repeat ok (n + 1)) s = WUb.
Proof.
  intros P. induction n as [|n IH]; intros s i A C H0 H; cbn [Nat.add repeat wrun]; change (wstep e ok s) with (com_step e 4096 s);
    unfold com_step; rewrite C.
  - assert (i = 524288) by lia. subst i. replace (524288 <? pages e) with true by lia. reflexivity.
  - replace (i <? pages e) with true by lia. replace (2147483647 <? DIFFPAGESIZE * i) with false by (unfold DIFFPAGESIZE; lia).
    rewrite (A i). change (there NOPAGE) with false. cbv iota. apply (IH _ (i + 1)); [|reflexivity|lia|lia].
    intros p. wc. apply A.
Qed.
