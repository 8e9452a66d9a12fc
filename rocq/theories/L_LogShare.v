(** Lemmas for connections sharing a log. *)
From Verif Require Import Base M_LogShare S_LogShare.
Local Open Scope list_scope.

Record inv (s : lstate) : Prop := {
  i_conn : forall c l, ls_conn s c = Some l -> (l_sem l < ls_next s)%nat;
  i_name : forall n, ls_name s = Some n -> (n < ls_next s)%nat;
  i_one : forall c d l m, ls_conn s c = Some l -> ls_conn s d = Some m -> l_hold l = true -> l_hold m = true -> l_sem l = l_sem m -> c = d;
  i_zero : forall c l, ls_conn s c = Some l -> l_hold l = true -> ls_val s (l_sem l) = 0;
  i_val : forall n, ls_val s n <= 1 }.
Lemma inv_init old : inv (linit old).
Proof. split; cbn; intros; try discriminate; lia. Qed.
Ltac conns := repeat match goal with
  | H : context [Nat.eqb ?a ?b] |- _ => destruct (Nat.eqb_spec a b); [subst|]
  | |- context [Nat.eqb ?a ?b] => destruct (Nat.eqb_spec a b); [subst|]
  | H : Some _ = Some _ |- _ => injection H as H; subst
  | H : None = Some _ |- _ => discriminate H
  end; cbn [l_sem l_hold l_pos] in *; try discriminate; try congruence.
Lemma inv_step s e s' : inv s -> lstep s e = Some s' -> inv s'.
Proof.
  intros [I1 I2 I3 I4 I5] H. destruct e as [c hdr|c|c bs|c|c|c]; cbn [lstep] in H.
  - destruct (is_open s c); [discriminate H|]. destruct (ls_name s) as [n|] eqn:En; injection H as <-; split; cbn [ls_conn ls_name ls_next ls_val]; unfold set_conn, set_val.
    + intros d l Hd. conns; [now apply I2|]. eauto.
    + intros m Hm. conns. now apply I2.
    + intros d d' l m Hd Hd' H1 H2 E. conns; eauto.
    + intros d l Hd Hh. conns; eauto.
    + exact I5.
    + intros d l Hd. conns; [lia|]. specialize (I1 _ _ Hd). lia.
    + intros m Hm. conns. lia.
    + intros d d' l m Hd Hd' H1 H2 E. conns; eauto.
    + intros d l Hd Hh. conns; try (specialize (I1 _ _ Hd); lia); eauto.
    + intros m. conns; try lia; try apply I5.
  - destruct (ls_conn s c) as [l0|] eqn:Ec; [|discriminate H]. destruct (Z.ltb_spec 0 (ls_val s (l_sem l0))) as [V|V]; [|discriminate H]. injection H as <-.
    assert (V1 : ls_val s (l_sem l0) = 1) by (specialize (I5 (l_sem l0)); lia).
    split; cbn [ls_conn ls_name ls_next ls_val]; unfold set_conn, set_val.
    + intros d l Hd. conns; eauto.
    + exact I2.
    + intros d d' l m Hd Hd' H1 H2 E. conns; eauto; exfalso; match goal with Hx : ls_conn _ _ = Some ?k, Hy : l_hold ?k = true |- _ => pose proof (I4 _ _ Hx Hy) end; match goal with X : l_sem _ = l_sem _ |- _ => rewrite X in * end; lia.
    + intros d l Hd Hh. conns; try lia; eauto.
    + intros m. conns; try lia; try apply I5.
  - destruct (ls_conn s c) as [l0|] eqn:Ec; [|discriminate H]. destruct (l_hold l0) eqn:Eh; [|discriminate H]. injection H as <-.
    split; cbn [ls_conn ls_name ls_next ls_val]; unfold set_conn.
    + intros d l Hd. conns; eauto.
    + exact I2.
    + intros d d' l m Hd Hd' H1 H2 E. conns; eauto.
    + intros d l Hd Hh. conns; eauto.
    + exact I5.
  - destruct (ls_conn s c) as [l0|] eqn:Ec; [|discriminate H]. destruct (l_hold l0) eqn:Eh; [|discriminate H]. injection H as <-.
    pose proof (I4 _ _ Ec Eh) as V0.
    split; cbn [ls_conn ls_name ls_next ls_val]; unfold set_conn, set_val.
    + intros d l Hd. conns; eauto.
    + exact I2.
    + intros d d' l m Hd Hd' H1 H2 E. conns; eauto.
    + intros d l Hd Hh. conns; eauto. exfalso. match goal with N : d <> c |- _ => apply N end. eauto.
    + intros m. conns; try lia; try apply I5.
  - destruct (is_open s c); [|discriminate H]. injection H as <-. split; cbn [ls_conn ls_name ls_next ls_val]; unfold set_conn.
    + intros d l Hd. conns; eauto.
    + discriminate.
    + intros d d' l m Hd Hd' H1 H2 E. conns; eauto.
    + intros d l Hd Hh. conns; eauto.
    + exact I5.
  - destruct (is_open s c); [|discriminate H]. injection H as <-. split; cbn [ls_conn ls_name ls_next ls_val]; unfold set_conn.
    + intros d l Hd. conns; eauto.
    + exact I2.
    + intros d d' l m Hd Hd' H1 H2 E. conns; eauto.
    + intros d l Hd Hh. conns; eauto.
    + exact I5.
Qed.
Lemma inv_run es : forall s s', inv s -> lrun s es = Some s' -> inv s'.
Proof.
  induction es as [|e es IH]; intros s s' I H; cbn [lrun] in H; [now injection H as <-|].
  destruct (lstep s e) as [s1|] eqn:E; [|discriminate H]. exact (IH _ _ (inv_step _ _ _ I E) H).
Qed.

(** while no connection ends, all have the semaphore of the name *)
Definition shared (s : lstate) : Prop :=
  forall c l, ls_conn s c = Some l -> ls_name s = Some (l_sem l).
Lemma shared_step s e s' : shared s -> ~ ends e -> lstep s e = Some s' -> shared s'.
Proof.
  unfold shared. intros S N H c0 l. destruct e as [c hdr|c|c bs|c|c|c]; cbn [lstep] in H.
  - destruct (is_open s c); [discriminate H|]. destruct (ls_name s) as [n|] eqn:En; injection H as <-; cbn [ls_conn ls_name]; unfold set_conn; intros Hd; conns; specialize (S _ _ Hd); congruence.
  - destruct (ls_conn s c) as [l0|] eqn:Ec; [|discriminate H]. destruct (0 <? _); [|discriminate H]. injection H as <-. cbn [ls_conn ls_name]. unfold set_conn. intros Hd. conns; eauto.
  - destruct (ls_conn s c) as [l0|] eqn:Ec; [|discriminate H]. destruct (l_hold l0); [|discriminate H]. injection H as <-. cbn [ls_conn ls_name]. unfold set_conn. intros Hd. conns; eauto.
  - destruct (ls_conn s c) as [l0|] eqn:Ec; [|discriminate H]. destruct (l_hold l0); [|discriminate H]. injection H as <-. cbn [ls_conn ls_name]. unfold set_conn. intros Hd. conns; eauto.
  - contradiction (N I).
  - destruct (is_open s c); [|discriminate H]. injection H as <-. cbn [ls_conn ls_name]. unfold set_conn. intros Hd. conns; eauto.
Qed.
Lemma shared_run es : forall s s', shared s -> Forall (fun e => ~ ends e) es -> lrun s es = Some s' -> shared s'.
Proof.
  induction es as [|e es IH]; intros s s' S F H; cbn [lrun] in H; [now injection H as <-|]. inversion F as [|? ? F1 F2]. subst.
  destruct (lstep s e) as [s1|] eqn:E; [|discriminate H]. exact (IH _ _ (shared_step _ _ _ S F1 E) F2 H).
Qed.
Lemma exclusion old es s : lrun (linit old) es = Some s ->
  (forall c d l m, ls_conn s c = Some l -> ls_conn s d = Some m -> l_sem l = l_sem m -> l_hold l = true -> l_hold m = true -> c = d) /\
  (Forall (fun e => ~ ends e) es -> ~ both_write s).
Proof.
  intros H. pose proof (inv_run _ _ _ (inv_init old) H) as I. split.
  - intros. eapply (i_one s I); eauto.
  - intros F (c & d & l & m & N & Hc & Hd & H1 & H2). assert (S : shared s) by (apply (shared_run es (linit old)); auto; intros ? ? X; discriminate X).
    apply N. eapply (i_one s I); eauto. pose proof (S _ _ Hc) as A. pose proof (S _ _ Hd) as B. congruence.
Qed.

(** a lock that is never given back *)
Definition dead (a : nat) (s : lstate) : Prop :=
  exists n, ls_name s = Some n /\ ls_val s n <= 0 /\ forall c l, ls_conn s c = Some l -> l_sem l = n /\ (l_hold l = true -> c = a).
Lemma dead_step a s e s' : dead a s -> ~ ends e -> (of e = a -> e = LDie a) -> lstep s e = Some s' -> dead a s' /\ ~ locks e.
Proof.
  intros (n & En & V & C) N A H. destruct e as [c hdr|c|c bs|c|c|c]; cbn [lstep of locks] in *.
  - destruct (is_open s c); [discriminate H|]. rewrite En in H. injection H as <-. split; [|auto]. exists n. cbn [ls_conn ls_name ls_val]. split; [reflexivity|]. split; [exact V|].
    unfold set_conn. intros d l Hd. conns; [split; [reflexivity|discriminate]|]. auto.
  - destruct (ls_conn s c) as [l0|] eqn:Ec; [|discriminate H]. destruct (C _ _ Ec) as [X _]. rewrite X in H. destruct (Z.ltb_spec 0 (ls_val s n)); [lia|discriminate H].
  - destruct (ls_conn s c) as [l0|] eqn:Ec; [|discriminate H]. destruct (l_hold l0) eqn:Eh; [|discriminate H]. destruct (C _ _ Ec) as [_ X]. specialize (A (X Eh)). discriminate A.
  - destruct (ls_conn s c) as [l0|] eqn:Ec; [|discriminate H]. destruct (l_hold l0) eqn:Eh; [|discriminate H]. destruct (C _ _ Ec) as [_ X]. specialize (A (X Eh)). discriminate A.
  - contradiction (N I).
  - destruct (is_open s c); [|discriminate H]. injection H as <-. split; [|auto]. exists n. cbn [ls_conn ls_name ls_val]. split; [exact En|]. split; [exact V|].
    unfold set_conn. intros d l Hd. conns. auto.
Qed.
Lemma dead_run a es : forall s s', dead a s -> Forall (fun e => ~ ends e /\ (of e = a -> e = LDie a)) es -> lrun s es = Some s' -> Forall (fun e => ~ locks e) es.
Proof.
  induction es as [|e es IH]; intros s s' D F H; cbn [lrun] in H; [constructor|]. inversion F as [|? ? F1 F2]. subst. destruct F1 as [F1 F1'].
  destruct (lstep s e) as [s1|] eqn:E; [|discriminate H]. destruct (dead_step _ _ _ _ D F1 F1' E) as [D1 L]. constructor; [exact L|]. eapply IH; eauto.
Qed.
Lemma blocked old es s a l more s' : lrun (linit old) es = Some s -> Forall (fun e => ~ ends e) es ->
  ls_conn s a = Some l -> l_hold l = true ->
  Forall (fun e => ~ ends e /\ (of e = a -> e = LDie a)) more -> lrun s more = Some s' -> Forall (fun e => ~ locks e) more.
Proof.
  intros H F Ha Hh G R. pose proof (inv_run _ _ _ (inv_init old) H) as I.
  assert (S : shared s) by (apply (shared_run es (linit old)); auto; intros ? ? X; discriminate X).
  apply (dead_run a more s s'); [|exact G|exact R]. exists (l_sem l). split; [exact (S _ _ Ha)|]. split; [rewrite (i_zero s I _ _ Ha Hh); lia|].
  intros c m Hc. assert (E : l_sem m = l_sem l) by (pose proof (S _ _ Ha) as A; pose proof (S _ _ Hc) as B; congruence). split; [exact E|].
  intros Hm. eapply (i_one s I); eauto.
Qed.

(** one connection on its own *)
Lemma put_at bs w r : put (length w) bs (w ++ r) = (w ++ bs) ++ skipn (length bs) r.
Proof.
  unfold put. rewrite <- !app_assoc. rewrite firstn_app, Nat.sub_diag, firstn_all, firstn_O, app_nil_r. f_equal. f_equal.
  rewrite skipn_app. replace (skipn (length w + length bs) w) with (@nil Z) by (symmetry; apply skipn_all2; lia). cbn [app]. f_equal. lia.
Qed.
Definition alone_inv (c : nat) (old w : list Z) (s : lstate) : Prop :=
  ls_file s = w ++ skipn (length w) old /\ (forall l, ls_conn s c = Some l -> l_pos l = length w).
Lemma skipn_add {A} (l : list A) a b : skipn a (skipn b l) = skipn (b + a) l.
Proof. revert l; induction b as [|b IH]; intros l; [reflexivity|]. destruct l; cbn [skipn Nat.add]; [now destruct a|apply IH]. Qed.
Lemma alone_step c old w s e s' : of e = c -> (forall h, e <> LOpen c h) -> alone_inv c old w s -> lstep s e = Some s' -> alone_inv c old (w ++ bytes_of c e) s'.
Proof.
  intros O NO [F P] H. destruct e as [d hdr|d|d bs|d|d|d]; cbn [of] in O; subst d; cbn [lstep bytes_of] in *; rewrite ?app_nil_r.
  - contradiction (NO hdr eq_refl).
  - destruct (ls_conn s c) as [l0|] eqn:Ec; [|discriminate H]. destruct (0 <? _); [|discriminate H]. injection H as <-. split; [exact F|]. cbn [ls_conn]. unfold set_conn. rewrite Nat.eqb_refl. intros l E. injection E as <-. cbn. auto.
  - destruct (ls_conn s c) as [l0|] eqn:Ec; [|discriminate H]. destruct (l_hold l0); [|discriminate H]. injection H as <-. rewrite Nat.eqb_refl. split.
    + cbn [ls_file]. rewrite (P _ eq_refl), F, put_at, skipn_add, app_length. reflexivity.
    + cbn [ls_conn]. unfold set_conn. rewrite Nat.eqb_refl. intros l E. injection E as <-. cbn [l_pos]. rewrite (P _ eq_refl), app_length. reflexivity.
  - destruct (ls_conn s c) as [l0|] eqn:Ec; [|discriminate H]. destruct (l_hold l0); [|discriminate H]. injection H as <-. split; [exact F|]. cbn [ls_conn]. unfold set_conn. rewrite Nat.eqb_refl. intros l E. injection E as <-. cbn. auto.
  - destruct (is_open s c); [|discriminate H]. injection H as <-. split; [exact F|]. cbn [ls_conn]. unfold set_conn. rewrite Nat.eqb_refl. discriminate.
  - destruct (is_open s c); [|discriminate H]. injection H as <-. split; [exact F|]. cbn [ls_conn]. unfold set_conn. rewrite Nat.eqb_refl. discriminate.
Qed.
Lemma alone_run c old es : forall w s s', Forall (fun e => of e = c /\ forall h, e <> LOpen c h) es -> alone_inv c old w s -> lrun s es = Some s' -> alone_inv c old (w ++ all_bytes c es) s'.
Proof.
  induction es as [|e es IH]; intros w s s' F A H; cbn [lrun] in H.
  - injection H as <-. unfold all_bytes. cbn. now rewrite app_nil_r.
  - inversion F as [|? ? [F1 F1'] F2]. subst. destruct (lstep s e) as [s1|] eqn:E; [|discriminate H].
    unfold all_bytes. cbn [map concat]. rewrite app_assoc. eapply IH; eauto. eapply alone_step; eauto.
Qed.
Lemma alone old c hdr es s : Forall (fun e => of e = c /\ forall h, e <> LOpen c h) es -> lrun (linit old) (LOpen c hdr :: es) = Some s ->
  ls_file s = (hdr ++ all_bytes c es) ++ skipn (length (hdr ++ all_bytes c es)) old.
Proof.
  intros F H. cbn [lrun lstep is_open linit ls_conn ls_name] in H.
  eapply (alone_run c old es hdr) in H; [apply H|exact F|]. split.
  - cbn [ls_file]. exact (put_at hdr [] old).
  - cbn [ls_conn]. unfold set_conn. rewrite Nat.eqb_refl. intros l E. injection E as <-. reflexivity.
Qed.

(** nobody left who could give the lock back *)
Lemma none_step s e s' :
  (exists n, ls_name s = Some n /\ ls_val s n <= 0 /\ forall c l, ls_conn s c = Some l -> l_sem l = n /\ l_hold l = false) -> ~ ends e -> lstep s e = Some s' ->
  (exists n, ls_name s' = Some n /\ ls_val s' n <= 0 /\ forall c l, ls_conn s' c = Some l -> l_sem l = n /\ l_hold l = false) /\ ~ locks e.
Proof.
  intros (n & En & V & C) N H. destruct e as [c hdr|c|c bs|c|c|c]; cbn [lstep locks] in *.
  - destruct (is_open s c); [discriminate H|]. rewrite En in H. injection H as <-. split; [|auto]. exists n. cbn [ls_conn ls_name ls_val]. split; [reflexivity|]. split; [exact V|].
    unfold set_conn. intros d l Hd. conns; [split; reflexivity|]. eauto.
  - destruct (ls_conn s c) as [l0|] eqn:Ec; [|discriminate H]. destruct (C _ _ Ec) as [X _]. rewrite X in H. destruct (Z.ltb_spec 0 (ls_val s n)); [lia|discriminate H].
  - destruct (ls_conn s c) as [l0|] eqn:Ec; [|discriminate H]. destruct (C _ _ Ec) as [_ X]. rewrite X in H. discriminate H.
  - destruct (ls_conn s c) as [l0|] eqn:Ec; [|discriminate H]. destruct (C _ _ Ec) as [_ X]. rewrite X in H. discriminate H.
  - contradiction (N I).
  - destruct (is_open s c); [|discriminate H]. injection H as <-. split; [|auto]. exists n. cbn [ls_conn ls_name ls_val]. split; [exact En|]. split; [exact V|].
    unfold set_conn. intros d l Hd. conns. eauto.
Qed.
Lemma none_run es : forall s s',
  (exists n, ls_name s = Some n /\ ls_val s n <= 0 /\ forall c l, ls_conn s c = Some l -> l_sem l = n /\ l_hold l = false) ->
  Forall (fun e => ~ ends e) es -> lrun s es = Some s' -> Forall (fun e => ~ locks e) es.
Proof.
  induction es as [|e es IH]; intros s1 s2 D Fe R; [constructor|]. inversion Fe as [|? ? F1 F2]. subst. cbn [lrun] in R. destruct (lstep s1 e) as [s3|] eqn:E; [|discriminate R].
  destruct (none_step _ _ _ D F1 E) as [D3 L]. constructor; [exact L|]. eapply IH; eauto.
Qed.

(** each connection writes behind what it wrote before, whatever the others do *)
Lemma pos_step c n s e s' : (forall h, e <> LOpen c h) -> (forall l, ls_conn s c = Some l -> l_pos l = n) -> lstep s e = Some s' ->
  forall l, ls_conn s' c = Some l -> l_pos l = (n + length (bytes_of c e))%nat.
Proof.
  intros NO P H l. destruct e as [d hdr|d|d bs|d|d|d]; cbn [lstep bytes_of] in *; cbn [length]; rewrite ?Nat.add_0_r.
  - destruct (Nat.eqb_spec d c) as [->|N]; [contradiction (NO hdr eq_refl)|]. cbn [length]. rewrite Nat.add_0_r. destruct (is_open s d); [discriminate H|].
    destruct (ls_name s); injection H as <-; cbn [ls_conn]; unfold set_conn; destruct (Nat.eqb_spec c d); try congruence; apply P.
  - destruct (ls_conn s d) as [l0|] eqn:Ec; [|discriminate H]. destruct (0 <? _); [|discriminate H]. injection H as <-. cbn [ls_conn]. unfold set_conn. destruct (Nat.eqb_spec c d) as [->|N]; [|apply P]. intros E. injection E as <-. cbn [l_pos]. now apply P.
  - destruct (ls_conn s d) as [l0|] eqn:Ec; [|discriminate H]. destruct (l_hold l0); [|discriminate H]. injection H as <-. cbn [ls_conn]. unfold set_conn. destruct (Nat.eqb_spec c d) as [->|N].
    + rewrite Nat.eqb_refl. intros E. injection E as <-. cbn [l_pos]. now rewrite (P _ Ec).
    + destruct (Nat.eqb_spec d c); [congruence|]. cbn [length]. rewrite Nat.add_0_r. apply P.
  - destruct (ls_conn s d) as [l0|] eqn:Ec; [|discriminate H]. destruct (l_hold l0); [|discriminate H]. injection H as <-. cbn [ls_conn]. unfold set_conn. destruct (Nat.eqb_spec c d) as [->|N]; [|apply P]. intros E. injection E as <-. cbn [l_pos]. now apply P.
  - destruct (is_open s d); [|discriminate H]. injection H as <-. cbn [ls_conn]. unfold set_conn. destruct (Nat.eqb c d); [discriminate|apply P].
  - destruct (is_open s d); [|discriminate H]. injection H as <-. cbn [ls_conn]. unfold set_conn. destruct (Nat.eqb c d); [discriminate|apply P].
Qed.
Lemma pos_run c es : forall n s s', Forall (fun e => forall h, e <> LOpen c h) es -> (forall l, ls_conn s c = Some l -> l_pos l = n) -> lrun s es = Some s' ->
  forall l, ls_conn s' c = Some l -> l_pos l = (n + length (all_bytes c es))%nat.
Proof.
  induction es as [|e es IH]; intros n s s' F P H l Hl; cbn [lrun] in H.
  - injection H as <-. cbn. rewrite Nat.add_0_r. auto.
  - inversion F as [|? ? F1 F2]. subst. destruct (lstep s e) as [s1|] eqn:E; [|discriminate H]. unfold all_bytes. cbn [map concat]. rewrite app_length, Nat.add_assoc.
    apply (IH _ s1 s'); auto. exact (pos_step _ _ _ _ _ F1 P E).
Qed.
Lemma position s c hdr es s' l : Forall (fun e => forall h, e <> LOpen c h) es -> lrun s (LOpen c hdr :: es) = Some s' -> ls_conn s' c = Some l ->
  l_pos l = length (hdr ++ all_bytes c es).
Proof.
  intros F H Hl. cbn [lrun] in H. destruct (lstep s (LOpen c hdr)) as [s1|] eqn:E; [|discriminate H]. rewrite app_length. apply (pos_run c es _ s1 s'); auto.
  cbn [lstep] in E. destruct (is_open s c); [discriminate E|]. destruct (ls_name s); injection E as <-; cbn [ls_conn]; unfold set_conn; rewrite Nat.eqb_refl; intros k Ek; injection Ek as <-; reflexivity.
Qed.
