(** Many connections at once: what one step changes, and that a connection whose
    files nobody else changes runs as if it were alone. *)
From Verif Require Import Base M_Const M_Disk M_Tree M_Raw M_Par M_Conn M_Crowd L_Wp S_Wire S_Disk L_Wire L_Session L_Props L_Frame L_FrameT S_Leak L_Own L_Rel L_RelP S_Crowd.

Lemma kt_of_keeps {A} (T : world -> world -> Prop) (Q : A -> Prop) (m : M A) :
  (forall w0, L_Frame.keeps (T w0) m) -> (forall a, Q a) -> L_FrameT.kq T Q m.
Proof. intros H HQ w0 w Hw. eapply wlp_mono; [apply H, Hw| |auto]. auto. Qed.

(** files of the machine are left alone *)
Definition files_kept (w w' : world) : Prop := forall g, w_file w' (FExp g) = w_file w (FExp g).
Definition not_exp (h : fref) : Prop := match h with FExp _ => False | _ => True end.

(** what is known of the threads of a connection between steps *)
Record tame (lg : bool) (c : client) (s : sys) : Prop := mkTame {
  tm_own : sysK c (confined c) s;
  tm_ro : bad_write c = true -> (cflag c F_READONLY = true \/ cflag c F_TREEFILES = false) -> sysK c untouched s;
  tm_cow : cflag c F_COPYONWRITE = true -> cflag c F_SPLICE = false -> cflag c F_TREEFILES = false -> sysK c base_untouched s;
  tm_tree : cflag c F_TREEFILES = true -> sysK c files_kept s
}.
Lemma tame_init lg c n inp w : tame lg c (sys_init n inp w).
Proof. constructor; intros; apply sk_init. Qed.
Lemma tame_setw lg c w s : tame lg c s -> tame lg c (y_setw w s).
Proof. intros []. constructor; intros; apply sk_setw; auto. Qed.

Lemma step_own lg c x s : sysK c (confined c) s -> soutK c (confined c) s (sys_step lg c x s).
Proof.
  apply (sk_step c (confined c) (own c) lg).
  - apply cf_tick.
  - apply cf_errno.
  - intros w0 e w1 Hf. apply cf_emit. destruct e; cbn in *; tauto.
  - apply cf_file.
  - intros w0 p w1 (H1 & H2 & H3). repeat split; auto.
  - intros w0 i v w1 (H1 & H2 & H3). repeat split; auto.
  - intros w0 k w1 (H1 & H2 & H3). repeat split; auto.
  - intros a w0. apply kq_get.
  - intros a _ _ Ht w0. apply k_delete, Ht.
  - intros k fi _ _ _ Hl Hi. left. eauto.
  - intros _ [K|K]; right; [left; exact K|right]. unfold waiting in K. destruct (cflag c F_WAIT); [reflexivity|discriminate].
  - intros w. split; [auto|]. split; [auto|]. exists []. split; [reflexivity|constructor].
Qed.

Lemma step_ro lg c x s : bad_write c = true -> (cflag c F_READONLY = true \/ cflag c F_TREEFILES = false) ->
  sysK c untouched s -> soutK c untouched s (sys_step lg c x s).
Proof.
  intros Hb Hro.
  assert (Hg : forall a, L_FrameT.kq untouched (L_FrameT.gok c (fun _ => False)) (get_filepos c a)).
  { intros a. apply kt_of_keeps; [|intros [[[h o] m]|]; cbn; [intros [K _]; congruence|exact I]].
    intros w0. destruct Hro as [Hro|Ht]; [|apply keeps_get_array; exact Ht].
    apply keeps_get_tree_ro; [| | |exact Hro].
    - intros w1 (H1 & H2 & H3). repeat split; auto.
    - intros e w1 (H1 & H2 & H3). repeat split; auto.
    - intros f w1 (H1 & H2 & H3). split; [|split; auto]. intros h Hh. cbn. unfold upd_file.
      destruct (fref_eq_dec h FDummy); [contradiction|auto]. }
  apply (sk_step c untouched (fun _ => False) lg); try congruence.
  - intros w0 w1 (H1 & H2 & H3). repeat split; auto.
  - intros w0 e w1 (H1 & H2 & H3). repeat split; auto.
  - intros w0 e w1 Hf (H1 & H2 & k & H3 & H4). split; [exact H1|]. split; [exact H2|].
    exists (e :: k). split; [cbn; rewrite H3; reflexivity|]. constructor; [|exact H4].
    destruct e; cbn in *; tauto.
  - intros w0 h f w1 [].
  - intros w0 p w1 (H1 & H2 & H3). repeat split; auto.
  - intros w0 i v w1 (H1 & H2 & H3). repeat split; auto.
  - intros w0 k w1 (H1 & H2 & H3). repeat split; auto.
  - exact Hg.
  - intros w. split; [auto|]. split; [auto|]. exists []. split; [reflexivity|constructor].
Qed.

Lemma step_cow lg c x s : cflag c F_COPYONWRITE = true -> cflag c F_SPLICE = false -> cflag c F_TREEFILES = false ->
  sysK c base_untouched s -> soutK c base_untouched s (sys_step lg c x s).
Proof.
  intros Hc Hs Ht.
  assert (Hg : forall a, L_FrameT.kq base_untouched (L_FrameT.gok c (fun h => h = FDiff)) (get_filepos c a)).
  { intros a. apply kt_of_keeps; [intros w0; apply keeps_get_array; exact Ht|].
    intros [[[h o] m]|]; cbn; [|exact I]. intros [_ [K|K]]; congruence. }
  apply (sk_step c base_untouched (fun h => h = FDiff) lg); try congruence.
  - intros w0 w1 (H1 & H2 & H3). repeat split; auto.
  - intros w0 e w1 (H1 & H2 & H3). repeat split; auto.
  - intros w0 e w1 Hf (H1 & H2 & k & H3 & H4). split; [exact H1|]. split; [exact H2|].
    exists (e :: k). split; [cbn; rewrite H3; reflexivity|]. constructor; [|exact H4].
    destruct e; cbn in *; tauto.
  - intros w0 h f w1 -> (H1 & H2 & H3). split; [|split; auto]. intros h Hh. cbn. unfold upd_file.
    destruct (fref_eq_dec h FDiff); [contradiction|auto].
  - intros w0 p w1 (H1 & H2 & H3). repeat split; auto.
  - intros w0 i v w1 (H1 & H2 & H3). repeat split; auto.
  - intros w0 k w1 (H1 & H2 & H3). repeat split; auto.
  - exact Hg.
  - intros w. split; [auto|]. split; [auto|]. exists []. split; [reflexivity|constructor].
Qed.

Lemma fk_set w0 h f w : not_exp h -> files_kept w0 w -> files_kept w0 (set_file h f w).
Proof. intros Hh H g. cbn. unfold upd_file. destruct (fref_eq_dec (FExp g) h) as [<-|]; [destruct Hh|apply H]. Qed.

Section Tree.
  Variable w : world.
  Notation I := (files_kept w).
  Lemma wbind {A B} (Q : A -> Prop) (QB : B -> Prop) (m : M A) (k : A -> M B) :
    L_FrameP.kq I Q m -> (forall a, Q a -> L_FrameP.kq I QB (k a)) -> L_FrameP.kq I QB (bind m k).
  Proof. intros H1 H2 w1 Hw. apply wlp_bind. eapply wlp_mono; [apply H1; exact Hw| |auto]. intros a w' [Hw' Ha]. apply H2; auto. Qed.
  Ltac kstep :=
    match goal with
    | |- L_FrameP.kq _ _ (ret _) => intros ? ?; split; [assumption|solve [auto]]
    | |- L_FrameP.kq _ _ die => intros ? ?; assumption
    | |- L_FrameP.kq _ _ ub => intros ? ?; exact Logic.I
    | |- L_FrameP.kq _ _ (bind pull _) => apply wbind with (Q := fun _ => True); [intros ? Hw; split; [exact Hw|exact Logic.I]|intros ? _]
    | |- L_FrameP.kq _ _ (bind (modify (set_file _ _)) _) =>
        apply wbind with (Q := fun _ => True); [intros ? Hw; split; [apply fk_set; [exact Logic.I|exact Hw]|exact Logic.I]|intros ? _]
    | |- L_FrameP.kq _ _ (bind (modify _) _) => apply wbind with (Q := fun _ => True); [intros ? Hw; split; [exact Hw|exact Logic.I]|intros ? _]
    | |- L_FrameP.kq _ _ (bind (get _) _) => apply wbind with (Q := fun _ => True); [intros ? Hw; split; [exact Hw|exact Logic.I]|intros ? _]
    | |- L_FrameP.kq _ _ (match ?x with _ => _ end) => destruct x
    end.
  Lemma tree_open n b s p : L_FrameP.kq I (fun h => h = FBad \/ not_exp h) (open_treefile n b s p).
  Proof.
    unfold open_treefile. apply wbind with (Q := fun _ => True).
    { unfold get_path. destruct (tree_path n s p); repeat kstep. intros ? ?; exact Logic.I. }
    intros q _. assert (A1 : not_exp FDummy) by exact Logic.I. assert (A2 : not_exp (FTree q)) by exact Logic.I. cbv zeta. repeat kstep.
  Qed.
  Lemma tree_get c a : cflag c F_TREEFILES = true -> L_FrameP.kq I (L_FrameT.gok c not_exp) (get_filepos c a).
  Proof.
    intros Ht. unfold get_filepos. destruct (a <? 0); [intros ? ?; split; [assumption|exact Logic.I]|]. rewrite Ht.
    eapply wbind; [apply tree_open|]. intros h Hh w1 Hw. split; [exact Hw|]. intros _. exact Hh.
  Qed.
  Lemma tree_delete n s a : L_Frame.keeps I (delete_treefile n s a).
  Proof.
    unfold delete_treefile. apply L_Frame.keeps_bind.
    { unfold get_path. destruct (tree_path n s a); [apply L_Frame.keeps_ret|apply L_Frame.keeps_die|intros w1 _; exact Logic.I]. }
    intros p. apply L_Frame.keeps_bind; [apply L_Frame.keeps_pull; auto|]. intros r. apply L_Frame.keeps_bind; [apply L_Frame.keeps_get|]. intros e.
    assert (K : L_Frame.keeps I (modify (set_exists p false) ;;; modify (emit (EUnlink p)))).
    { apply L_Frame.keeps_bind; [apply L_Frame.keeps_modify; auto|]. intros _. apply L_Frame.keeps_modify. auto. }
    destruct e, r; try exact K; apply L_Frame.keeps_modify; auto.
  Qed.
End Tree.

Lemma step_tree lg c x s : cflag c F_TREEFILES = true -> sysK c files_kept s -> soutK c files_kept s (sys_step lg c x s).
Proof.
  intros Ht. apply (sk_step c files_kept not_exp lg); try congruence; auto.
  - intros w0 h f w1. apply fk_set.
  - intros a w0. apply tree_get, Ht.
  - intros a _ _ _ w0. apply tree_delete.
  - intros _ _. exact I.
Qed.

(** one step leaves the threads as they have to be, and changes only what the
    connection may change *)
Definition modest (c : client) (w w' : world) : Prop :=
  (forall g, ~ changes_file c g -> w_file w' (FExp g) = w_file w (FExp g)) /\
  (~ changes_tree c -> (forall p, w_file w' (FTree p) = w_file w (FTree p)) /\ forall p, w_exists w' p = w_exists w p).

Lemma tame_step lg c x s : proper c -> tame lg c s ->
  match sys_step lg c x s with SGo s' | SExit s' => tame lg c s' /\ modest c (y_w s) (y_w s') | _ => True end.
Proof.
  intros Hp [K1 K2 K3 K4].
  pose proof (step_own lg c x s K1) as S1.
  assert (S2 := fun A B => step_ro lg c x s A B (K2 A B)).
  assert (S3 := fun A B C => step_cow lg c x s A B C (K3 A B C)).
  assert (S4 := fun A => step_tree lg c x s A (K4 A)).
  assert (Hall : forall s', (sysK c (confined c) s' /\ confined c (y_w s) (y_w s')) ->
     (bad_write c = true -> (cflag c F_READONLY = true \/ cflag c F_TREEFILES = false) -> sysK c untouched s' /\ untouched (y_w s) (y_w s')) ->
     (cflag c F_COPYONWRITE = true -> cflag c F_SPLICE = false -> cflag c F_TREEFILES = false -> sysK c base_untouched s' /\ base_untouched (y_w s) (y_w s')) ->
     (cflag c F_TREEFILES = true -> sysK c files_kept s' /\ files_kept (y_w s) (y_w s')) ->
     tame lg c s' /\ modest c (y_w s) (y_w s')).
  { intros s' [A1 B1] H2 H3 H4. split.
    - constructor; [exact A1|..]; intros; [apply H2|apply H3|apply H4]; assumption.
    - destruct B1 as (C1 & C2 & _). split.
      + intros g Hg. destruct (cflag c F_TREEFILES) eqn:Et; [apply (proj2 (H4 eq_refl))|].
        destruct (bad_write c) eqn:Eb; [apply (proj2 (H2 eq_refl (or_intror eq_refl))); discriminate|].
        assert (E : cflag c F_READONLY = false /\ cflag c F_AUTOREADONLY = false) by (unfold bad_write in Eb; apply orb_false_iff; exact Eb).
        destruct (cflag c F_COPYONWRITE) eqn:Ec, (cflag c F_SPLICE) eqn:Es;
          try (apply (proj2 (H3 eq_refl eq_refl eq_refl)); discriminate);
          (apply C1; intros Ho; apply Hg; unfold changes_file; rewrite ?Ec, ?Es; tauto).
      + intros Hn. destruct (cflag c F_TREEFILES) eqn:Et.
        * destruct (cflag c F_READONLY) eqn:Er; [|exfalso; apply Hn; split; assumption].
          assert (Eb : bad_write c = true) by (unfold bad_write; rewrite Er; reflexivity).
          destruct (proj2 (H2 Eb (or_introl eq_refl))) as (D1 & D2 & _). split; [intros p; apply D1; discriminate|exact D2].
        * split; [|apply C2; reflexivity]. intros p. apply C1. intros [(l & fi & E1 & E2 & E)|E]; [destruct (Hp l fi E1 E2) as [g Eg]; congruence|].
          congruence. }
  unfold soutK in *. destruct (sys_step lg c x s); auto.
Qed.

(** ** The crowd *)
Lemma nth_set_same l b x t : nth_error l b = Some t -> nth_error (set_task l b x) b = Some x.
Proof.
  intros H. unfold set_task. assert (L : (b < length l)%nat) by (apply nth_error_Some; congruence).
  rewrite nth_error_app2; rewrite firstn_length_le by lia; [|lia]. rewrite Nat.sub_diag. reflexivity.
Qed.
Lemma nth_set_other : forall l b x a, a <> b -> (b < length l)%nat -> nth_error (set_task l b x) a = nth_error l a.
Proof.
  unfold set_task. induction l as [|y l IH]; intros b x a Hn Hl; [cbn in Hl; lia|].
  destruct b as [|b]; [destruct a; [lia|reflexivity]|]. destruct a as [|a]; [reflexivity|]. cbn in *. apply IH; lia.
Qed.
Lemma turns_app b l1 l2 : turns_of b (l1 ++ l2) = turns_of b l1 ++ turns_of b l2.
Proof. induction l1 as [|[a x] l IH]; [reflexivity|]. cbn. destruct (a =? b)%nat; rewrite IH; reflexivity. Qed.
Lemma sys_run_app lg c l1 l2 : forall s,
  sys_run lg c (l1 ++ l2) s =
  match sys_run lg c l1 s with SGo s' => sys_run lg c l2 s' | o => o end.
Proof.
  induction l1 as [|x l1 IH]; intros s; [reflexivity|]. cbn [app sys_run]. destruct (sys_step lg c x s); auto.
Qed.
Lemma sys_run_not lg c l : forall s, sys_run lg c l s <> SNot.
Proof. induction l as [|x l IH]; intros s; cbn [sys_run]; [discriminate|]. destruct (sys_step lg c x s); auto; discriminate. Qed.

Section Crowd.
  Variable es : list entry.
  Variable D0 : disks.
  Hypothesis Hproper : forall e, In e es -> proper (en_client e).

  Definition Rb (e : entry) := L_Rel.R (own (en_client e)) true.
  Definition SRb (e : entry) := sysR (own (en_client e)) true.
  Definition at_disks (e : entry) (D : disks) (s : sys) : sys := y_setw (look (en_export e) D (y_w s)) s.

  Definition members (k : crowd) : Prop :=
    length (cd_tasks k) = length es /\
    forall b t, nth_error (cd_tasks k) b = Some t ->
      nth_error es b = Some (tk_entry t) /\ tame (en_lg (tk_entry t)) (en_client (tk_entry t)) (tk_sys t).

  Definition traffic (s s' : sys) : Prop := y_out s = y_out s' /\ y_log s = y_log s' /\ y_in s = y_in s' /\ y_rd s = y_rd s'.
  Definition sim (k : crowd) (L : list (nat * choice)) (b : nat) : Prop :=
    match nth_error (cd_tasks k) b with
    | None => True
    | Some t =>
        match alone (tk_entry t) (turns_of b L) D0 with
        | SGo s => tk_gone t = false /\ SRb (tk_entry t) (at_disks (tk_entry t) (cd_disks k) (tk_sys t)) s
        | SExit s => tk_gone t = true /\ traffic (tk_sys t) s
        | _ => False
        end
    end.

  Lemma R_own e i D w w' : Rb e w w' -> Rb e (look i (disks_after i D w) w) w'.
  Proof.
    unfold Rb. intros []. constructor; try assumption.
    - intros h Hh. specialize (r_file h Hh). unfold look, disks_after. cbn [w_file d_file d_block].
      destruct h; try exact r_file. rewrite Nat.eqb_refl. exact r_file.
    - intros p Hp. unfold look, disks_after. cbn [w_exists d_there]. rewrite Nat.eqb_refl. apply r_exists, Hp.
  Qed.
  Lemma R_disks e i D D' w w' :
    (forall g, own (en_client e) (FExp g) -> d_file D' g = d_file D g) ->
    (forall p, d_block D' i p = d_block D i p) -> (forall p, d_there D' i p = d_there D i p) ->
    Rb e (look i D w) w' -> Rb e (look i D' w) w'.
  Proof.
    unfold Rb. intros H1 H2 H3 []. constructor; try assumption.
    - intros h Hh. specialize (r_file h Hh). unfold look in *. cbn [w_file] in *.
      destruct h; try exact r_file; [rewrite H1 by exact Hh|rewrite H2]; exact r_file.
    - intros p Hp. unfold look in *. cbn [w_exists] in *. rewrite H3. apply r_exists, Hp.
  Qed.
  Lemma R_same e w : Rb e w w.
  Proof. constructor; auto; intros; try reflexivity; split; [reflexivity|intros ?; reflexivity]. Qed.
  Lemma setw_sys e w s s' : SRb e s s' -> Rb e w (y_w s') -> SRb e (y_setw w s) s'.
  Proof. intros [] H. constructor; assumption. Qed.

  Lemma rel_step e x s s' : SRb e s s' ->
    soutR (own (en_client e)) true (sys_step (en_lg e) (en_client e) x s) (sys_step (en_lg e) (en_client e) x s').
  Proof.
    apply s_step.
    - intros _ k fi E1 E2. left. eauto.
    - intros E. split; [right; exact E|]. intros p. right. exact E.
    - intros E. split; [reflexivity|]. right. destruct E as [E|E]; [left; exact E|right].
      unfold waiting in E. destruct (cflag (en_client e) F_WAIT); [reflexivity|discriminate].
  Qed.

  Lemma alone_snoc e b L x : alone e (turns_of b (L ++ [(b, x)])) D0 =
    match alone e (turns_of b L) D0 with
    | SGo s => match sys_step (en_lg e) (en_client e) x s with SNot => SGo s | o => o end
    | o => o
    end.
  Proof.
    unfold alone. rewrite turns_app. cbn [turns_of]. rewrite Nat.eqb_refl. rewrite sys_run_app.
    match goal with |- match ?o with _ => _ end = _ => destruct o as [s| | |s] end; try reflexivity.
  Qed.
  Lemma turns_other a b L x : a <> b -> turns_of b (L ++ [(a, x)]) = turns_of b L.
  Proof. intros H. rewrite turns_app. cbn [turns_of]. apply Nat.eqb_neq in H. rewrite H. apply app_nil_r. Qed.

  (** a step of [a] goes through to the state [s']: the other tasks *)
  Lemma step_frame a t x s' k gone :
    members k -> nth_error (cd_tasks k) a = Some t ->
    (sys_step (en_lg (tk_entry t)) (en_client (tk_entry t)) x (at_disks (tk_entry t) (cd_disks k) (tk_sys t)) = SGo s' \/
     sys_step (en_lg (tk_entry t)) (en_client (tk_entry t)) x (at_disks (tk_entry t) (cd_disks k) (tk_sys t)) = SExit s') ->
    let k' := mkCd (disks_after (en_export (tk_entry t)) (cd_disks k) (y_w s')) (set_task (cd_tasks k) a (mkTk (tk_entry t) s' gone)) in
    members k' /\
    (forall g, ~ changes_file (en_client (tk_entry t)) g -> d_file (cd_disks k') g = d_file (cd_disks k) g) /\
    (forall j, (en_export (tk_entry t) = j -> ~ changes_tree (en_client (tk_entry t))) ->
      (forall p, d_block (cd_disks k') j p = d_block (cd_disks k) j p) /\ (forall p, d_there (cd_disks k') j p = d_there (cd_disks k) j p)).
  Proof.
    intros [Hl Hm] Ht Hs k'. destruct (Hm a t Ht) as [He Htm].
    set (e := tk_entry t) in *.
    assert (HA : (a < length (cd_tasks k))%nat) by (apply nth_error_Some; congruence).
    pose proof (tame_step (en_lg e) (en_client e) x (at_disks e (cd_disks k) (tk_sys t))
                 (Hproper e (nth_error_In _ _ He)) (tame_setw _ _ _ _ Htm)) as Q.
    assert (Q' : tame (en_lg e) (en_client e) s' /\ modest (en_client e) (y_w (at_disks e (cd_disks k) (tk_sys t))) (y_w s')).
    { destruct Hs as [E|E]; rewrite E in Q; exact Q. }
    destruct Q' as [Q1 [Q2 Q3]]. cbn [at_disks y_w y_setw] in Q2, Q3. split; [|split].
    - split.
      + cbn [k' cd_tasks]. unfold set_task. rewrite app_length. cbn [length]. rewrite firstn_length_le, skipn_length by lia. lia.
      + intros b tb Hb. cbn [k' cd_tasks] in Hb. destruct (Nat.eq_dec b a) as [->|Hn].
        * rewrite (nth_set_same _ _ _ _ Ht) in Hb. injection Hb as <-. split; assumption.
        * rewrite nth_set_other in Hb by assumption. apply Hm, Hb.
    - intros g Hg. exact (Q2 g Hg).
    - intros j Hj. cbn [k' cd_disks disks_after d_block d_there]. destruct (j =? en_export e)%nat eqn:Ej; [|split; reflexivity].
      apply Nat.eqb_eq in Ej. subst j. destruct (Q3 (Hj eq_refl)) as [A B]. split; [exact A|exact B].
  Qed.

  Lemma sim_step k L a x : members k -> (forall b, undisturbed es b -> sim k L b) ->
    match c_step a x k with
    | KGo k' => members k' /\ forall b, undisturbed es b -> sim k' (L ++ [(a, x)]) b
    | KNot => forall b, undisturbed es b -> sim k (L ++ [(a, x)]) b
    | KUb => exists e, nth_error es a = Some e /\ (undisturbed es a -> alone e (turns_of a (L ++ [(a, x)])) D0 = SUb)
    end.
  Proof.
    intros Hm Hsim. unfold c_step.
    assert (Hnot : forall b, b <> a -> undisturbed es b -> sim k (L ++ [(a, x)]) b).
    { intros b Hb Hu. specialize (Hsim b Hu). unfold sim in *. destruct (nth_error (cd_tasks k) b); [|exact I].
      rewrite turns_other by congruence. exact Hsim. }
    destruct (nth_error (cd_tasks k) a) as [t|] eqn:Et.
    2:{ intros b Hu. destruct (Nat.eq_dec b a) as [->|Hn]; [|auto]. unfold sim. rewrite Et. exact I. }
    destruct (tk_gone t) eqn:Eg.
    { intros b Hu. destruct (Nat.eq_dec b a) as [->|Hn]; [|auto]. specialize (Hsim a Hu). unfold sim in *. rewrite Et in *.
      rewrite alone_snoc. destruct (alone (tk_entry t) (turns_of a L) D0); try contradiction; [|exact Hsim].
      destruct Hsim; congruence. }
    cbv zeta. pose proof (proj2 Hm a t Et) as [He _]. set (e := tk_entry t) in *.
    fold (at_disks e (cd_disks k) (tk_sys t)).
    set (o := sys_step (en_lg e) (en_client e) x (at_disks e (cd_disks k) (tk_sys t))).
    (* what happens to [a] itself *)
    assert (Ha : undisturbed es a ->
       exists s, alone e (turns_of a L) D0 = SGo s /\
       soutR (own (en_client e)) true o (sys_step (en_lg e) (en_client e) x s)).
    { intros Hu. specialize (Hsim a Hu). unfold sim in Hsim. rewrite Et in Hsim. fold e in Hsim.
      destruct (alone e (turns_of a L) D0) as [s| | |s] eqn:Ea; try contradiction.
      - exists s. split; [reflexivity|]. apply rel_step, Hsim.
      - destruct Hsim; congruence. }
    assert (Hgo : forall s' (gone : bool), (o = SGo s' /\ gone = false) \/ (o = SExit s' /\ gone = true) ->
       let k' := mkCd (disks_after (en_export e) (cd_disks k) (y_w s')) (set_task (cd_tasks k) a (mkTk e s' gone)) in
       members k' /\ forall b, undisturbed es b -> sim k' (L ++ [(a, x)]) b).
    { intros s' gone Ho k'.
      destruct (step_frame a t x s' k gone Hm Et) as (F1 & F2 & F3); [destruct Ho as [[Ho _]|[Ho _]]; auto|].
      fold e in F1, F2, F3. fold k' in F1, F2, F3. split; [exact F1|]. intros b Hu.
      destruct (Nat.eq_dec b a) as [->|Hn].
      - destruct (Ha Hu) as (s & Ea & Hr). unfold sim. cbn [k' cd_tasks]. rewrite (nth_set_same _ _ _ _ Et). cbn [tk_entry tk_gone tk_sys].
        rewrite alone_snoc, Ea.
        destruct Ho as [[Ho ->]|[Ho ->]]; rewrite Ho in Hr; unfold soutR in Hr;
          destruct (sys_step (en_lg e) (en_client e) x s) as [s2| | |s2]; try contradiction.
        + split; [reflexivity|]. unfold at_disks. apply setw_sys; [exact Hr|]. apply R_own. apply (sr_w _ _ _ _ Hr).
        + split; [reflexivity|]. destruct Hr. unfold traffic. auto.
      - specialize (Hsim b Hu). unfold sim in *. cbn [k' cd_tasks].
        assert (HA : (a < length (cd_tasks k))%nat) by (apply nth_error_Some; congruence).
        rewrite nth_set_other by assumption. destruct (nth_error (cd_tasks k) b) as [tb|] eqn:Eb; [|exact I].
        rewrite turns_other by congruence. destruct (alone (tk_entry tb) (turns_of b L) D0); try contradiction; [|exact Hsim].
        destruct Hsim as [G S]. split; [exact G|].
        pose proof (proj2 Hm b tb Eb) as [Heb _].
        destruct (Hu _ _ _ Heb He ltac:(congruence)) as [U1 U2].
        destruct (F3 (en_export (tk_entry tb)) U2) as [F4 F5].
        unfold at_disks in *. destruct S. constructor; try assumption.
        cbn [y_setw y_w] in sr_w |- *. eapply R_disks; [| |intros p; apply F5|exact sr_w].
        + intros g Hg. apply F2, U1, Hg.
        + intros p. apply F4. }
    destruct o as [s'| | |s'] eqn:Eo.
    - exact (Hgo s' false (or_introl (conj eq_refl eq_refl))).
    - intros b Hu. destruct (Nat.eq_dec b a) as [->|Hn]; [|auto]. destruct (Ha Hu) as (s & Ea & Hr).
      specialize (Hsim a Hu). unfold sim in *. rewrite Et in *. fold e in Hsim |- *. rewrite alone_snoc, Ea in *.
      unfold soutR in Hr. destruct (sys_step (en_lg e) (en_client e) x s); try contradiction. exact Hsim.
    - exists e. split; [exact He|]. intros Hu. destruct (Ha Hu) as (s & Ea & Hr). rewrite alone_snoc, Ea.
      unfold soutR in Hr. destruct (sys_step (en_lg e) (en_client e) x s); try contradiction. reflexivity.
    - exact (Hgo s' true (or_intror (conj eq_refl eq_refl))).
  Qed.

  Lemma sim_run l : forall k L, members k -> (forall b, undisturbed es b -> sim k L b) ->
    match c_run l k with
    | KGo k' => members k' /\ forall b, undisturbed es b -> sim k' (L ++ l) b
    | KNot => False
    | KUb => exists a e, nth_error es a = Some e /\ (undisturbed es a -> alone e (turns_of a (L ++ l)) D0 = SUb)
    end.
  Proof.
    induction l as [|ax l IH]; intros k L Hm Hs.
    { cbn [c_run]. rewrite app_nil_r. auto. }
    destruct ax as [a x]. cbn [c_run].
    pose proof (sim_step k L a x Hm Hs) as Q.
    assert (E : L ++ (a, x) :: l = (L ++ [(a, x)]) ++ l) by (rewrite <- app_assoc; reflexivity). rewrite E.
    destruct (c_step a x k) as [k'| |].
    - destruct Q as [Q1 Q2]. exact (IH k' _ Q1 Q2).
    - exact (IH k _ Hm Q).
    - destruct Q as (e & He & Q). exists a, e. split; [exact He|]. intros Hu. specialize (Q Hu).
      rewrite turns_app. unfold alone in *. rewrite sys_run_app, Q. reflexivity.
  Qed.

  Lemma sim_init : members (c_init es D0) /\ forall b, undisturbed es b -> sim (c_init es D0) [] b.
  Proof.
    split.
    - split; [cbn; apply map_length|]. intros b t Hb. cbn [c_init cd_tasks] in Hb.
      destruct (nth_error es b) as [e|] eqn:E; [|rewrite nth_error_map, E in Hb; discriminate].
      rewrite (map_nth_error _ _ _ E) in Hb. injection Hb as <-. split; [reflexivity|]. apply tame_init.
    - intros b _. unfold sim. cbn [c_init cd_tasks cd_disks]. rewrite nth_error_map. destruct (nth_error es b) as [e|]; [|exact I].
      cbn [option_map tk_entry tk_gone tk_sys turns_of alone sys_run]. split; [reflexivity|].
      unfold SRb, at_disks. apply setw_sys; [|].
      + apply s_init. apply R_same.
      + cbn [sys_init y_w]. destruct (R_same e (look (en_export e) D0 (en_own e))). constructor; try assumption.
        intros h Hh. specialize (r_file h Hh). destruct h; exact r_file.
  Qed.

  (** the disks: only what some connection may change *)
  Lemma run_disks l : forall k, members k ->
    match c_run l k with
    | KGo k' =>
        (forall g, (forall e, In e es -> ~ changes_file (en_client e) g) -> d_file (cd_disks k') g = d_file (cd_disks k) g) /\
        (forall j, (forall e, In e es -> en_export e = j -> ~ changes_tree (en_client e)) ->
           (forall p, d_block (cd_disks k') j p = d_block (cd_disks k) j p) /\ (forall p, d_there (cd_disks k') j p = d_there (cd_disks k) j p))
    | _ => True
    end.
  Proof.
    induction l as [|[a x] l IH]; intros k Hm; [cbn; auto|]. cbn [c_run].
    unfold c_step. destruct (nth_error (cd_tasks k) a) as [t|] eqn:Et; [|apply IH, Hm].
    destruct (tk_gone t); [apply IH, Hm|]. cbv zeta. pose proof (proj2 Hm a t Et) as [He _].
    fold (at_disks (tk_entry t) (cd_disks k) (tk_sys t)).
    set (o := sys_step (en_lg (tk_entry t)) (en_client (tk_entry t)) x (at_disks (tk_entry t) (cd_disks k) (tk_sys t))).
    assert (G : forall s' gone, o = SGo s' \/ o = SExit s' ->
      match c_run l (mkCd (disks_after (en_export (tk_entry t)) (cd_disks k) (y_w s')) (set_task (cd_tasks k) a (mkTk (tk_entry t) s' gone))) with
      | KGo k' =>
          (forall g, (forall e, In e es -> ~ changes_file (en_client e) g) -> d_file (cd_disks k') g = d_file (cd_disks k) g) /\
          (forall j, (forall e, In e es -> en_export e = j -> ~ changes_tree (en_client e)) ->
             (forall p, d_block (cd_disks k') j p = d_block (cd_disks k) j p) /\ (forall p, d_there (cd_disks k') j p = d_there (cd_disks k) j p))
      | _ => True
      end).
    { intros s' gone Ho. destruct (step_frame a t x s' k gone Hm Et Ho) as (F1 & F2 & F3).
      set (k1 := mkCd _ _) in *. specialize (IH k1 F1). destruct (c_run l k1); auto. destruct IH as [I1 I2]. split.
      - intros g Hg. rewrite I1 by exact Hg. apply F2, Hg, (nth_error_In _ _ He).
      - intros j Hj. destruct (I2 j Hj) as [J1 J2]. destruct (F3 j (Hj _ (nth_error_In _ _ He))) as [J3 J4].
        split; intros p; [rewrite J1; apply J3|rewrite J2; apply J4]. }
    destruct o as [s'| | |s']; [apply G; auto|apply IH, Hm|exact I|apply G; auto].
  Qed.
End Crowd.
