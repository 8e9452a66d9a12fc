(** Instances of the threaded frame: read-only, copy-on-write, and everything. *)
From Verif Require Import Base M_Const M_Disk M_Tree M_Raw M_Par L_Wp S_Wire S_Disk L_Wire L_Session L_Props L_Frame L_FrameP S_Leak.

Lemma kq_of_keeps {A} I (Q : A -> Prop) (m : M A) : keeps I m -> (forall a, Q a) -> kq I Q m.
Proof. intros H HQ w Hw. eapply wlp_mono; [apply H, Hw| |auto]. auto. Qed.

Lemma readonly_threads lg c n inp l w :
  bad_write c = true -> (cflag c F_READONLY = true \/ cflag c F_TREEFILES = false) ->
  after (sys_run lg c l (sys_init n inp w)) (untouched w).
Proof.
  intros Hb Hro.
  assert (Hg : forall a, kq (untouched w) (gok c (fun _ => False)) (get_filepos c a)).
  { intros a. apply kq_of_keeps; [|intros [[[h o] m]|]; cbn; [intros [K _]; congruence|exact I]].
    destruct Hro as [Hro|Ht]; [|apply keeps_get_array; exact Ht].
    apply keeps_get_tree_ro; [| | |exact Hro].
    - intros w1 (H1 & H2 & H3). repeat split; auto.
    - intros e w1 (H1 & H2 & H3). repeat split; auto.
    - intros f w1 (H1 & H2 & H3). split; [|split; auto]. intros h Hh. cbn. unfold upd_file.
      destruct (fref_eq_dec h FDummy); [contradiction|auto]. }
  pose proof (threads_keep c (untouched w) (fun _ => False) lg) as T. unfold after.
  apply T; clear T; try congruence.
  - intros w1 (H1 & H2 & H3). repeat split; auto.
  - intros e w1 (H1 & H2 & H3). repeat split; auto.
  - intros e w1 Hf (H1 & H2 & k & H3 & H4). split; [exact H1|]. split; [exact H2|].
    exists (e :: k). split; [cbn; rewrite H3; reflexivity|]. constructor; [|exact H4].
    destruct e; cbn in *; tauto.
  - intros h f w1 [].
  - intros p w1 (H1 & H2 & H3). repeat split; auto.
  - intros i v w1 (H1 & H2 & H3). repeat split; auto.
  - intros k w1 (H1 & H2 & H3). repeat split; auto.
  - exact Hg.
  - split; [auto|]. split; [auto|]. exists []. split; [reflexivity|constructor].
Qed.

Lemma cow_threads lg c n inp l w :
  cflag c F_COPYONWRITE = true -> cflag c F_SPLICE = false -> cflag c F_TREEFILES = false ->
  after (sys_run lg c l (sys_init n inp w)) (base_untouched w).
Proof.
  intros Hc Hs Ht.
  assert (Hg : forall a, kq (base_untouched w) (gok c (fun h => h = FDiff)) (get_filepos c a)).
  { intros a. apply kq_of_keeps; [apply keeps_get_array; exact Ht|].
    intros [[[h o] m]|]; cbn; [|exact I]. intros [_ [K|K]]; congruence. }
  pose proof (threads_keep c (base_untouched w) (fun h => h = FDiff) lg) as T. unfold after.
  apply T; clear T; try congruence.
  - intros w1 (H1 & H2 & H3). repeat split; auto.
  - intros e w1 (H1 & H2 & H3). repeat split; auto.
  - intros e w1 Hf (H1 & H2 & k & H3 & H4). split; [exact H1|]. split; [exact H2|].
    exists (e :: k). split; [cbn; rewrite H3; reflexivity|]. constructor; [|exact H4].
    destruct e; cbn in *; tauto.
  - intros h f w1 -> (H1 & H2 & H3). split; [|split; auto]. intros h Hh. cbn. unfold upd_file.
    destruct (fref_eq_dec h FDiff); [contradiction|auto].
  - intros p w1 (H1 & H2 & H3). repeat split; auto.
  - intros i v w1 (H1 & H2 & H3). repeat split; auto.
  - intros k w1 (H1 & H2 & H3). repeat split; auto.
  - exact Hg.
  - split; [auto|]. split; [auto|]. exists []. split; [reflexivity|constructor].
Qed.

Section Own.
  Variable c : client.
  Variable w : world.
  Notation I := (confined c w).
  Lemma cf_tick w1 : I w1 -> I (tick w1). Proof. intros (H1 & H2 & H3). repeat split; auto. Qed.
  Lemma cf_errno e w1 : I w1 -> I (set_errno e w1). Proof. intros (H1 & H2 & H3). repeat split; auto. Qed.
  Lemma cf_emit e w1 : own_event c e -> I w1 -> I (emit e w1).
  Proof.
    intros Hf (H1 & H2 & k & H3 & H4). split; [exact H1|]. split; [exact H2|].
    exists (e :: k). split; [cbn; rewrite H3; reflexivity|]. constructor; assumption.
  Qed.
  Lemma cf_file h f w1 : own c h -> I w1 -> I (set_file h f w1).
  Proof.
    intros Ho (H1 & H2 & H3). split; [|split; auto]. intros h' Hh. cbn. unfold upd_file.
    destruct (fref_eq_dec h' h) as [->|]; [contradiction|auto].
  Qed.
  Lemma cf_exists p b w1 : cflag c F_TREEFILES = true -> I w1 -> I (set_exists p b w1).
  Proof. intros Ht (H1 & H2 & H3). split; [exact H1|]. split; [congruence|exact H3]. Qed.

  Lemma kq_bind {A B} (Q : A -> Prop) (QB : B -> Prop) (m : M A) (k : A -> M B) :
    kq I Q m -> (forall a, Q a -> kq I QB (k a)) -> kq I QB (bind m k).
  Proof. intros H1 H2 w1 Hw. apply wlp_bind. eapply wlp_mono; [apply H1; exact Hw| |auto]. intros a w' [Hw' Ha]. apply H2; auto. Qed.
  Lemma kq_ret {A} (Q : A -> Prop) a : Q a -> kq I Q (ret a).
  Proof. intros H w1 Hw. split; assumption. Qed.
  Lemma kq_pull : kq I (fun _ => True) pull.
  Proof. apply kq_keeps, keeps_pull, cf_tick. Qed.
  Lemma kq_modify f : (forall w1, I w1 -> I (f w1)) -> kq I (fun _ => True) (modify f).
  Proof. intros H. apply kq_keeps, keeps_modify, H. Qed.
  Lemma kq_die {A} (Q : A -> Prop) : kq I Q die.
  Proof. intros w1 Hw. exact Hw. Qed.

  Definition tree_handle (h : fref) : Prop := h = FBad \/ h = FDummy \/ exists p, h = FTree p.
  Lemma kq_open n b s p : cflag c F_TREEFILES = true -> kq I tree_handle (open_treefile n b s p).
  Proof.
    intros Ht. unfold open_treefile. apply kq_bind with (Q := fun _ => True).
    { unfold get_path. destruct (tree_path n s p); [apply kq_ret; exact Logic.I|apply kq_die|intros w1 _; exact Logic.I]. }
    intros q _. apply kq_bind with (Q := fun _ => True); [apply kq_pull|]. intros r _.
    apply kq_bind with (Q := fun _ => True); [apply kq_keeps, keeps_get|]. intros e _. cbv zeta.
    assert (TB : tree_handle FBad) by (left; reflexivity).
    assert (TD : tree_handle FDummy) by (right; left; reflexivity).
    assert (TT : tree_handle (FTree q)) by (right; right; eauto).
    assert (OD : own c FDummy) by (right; exact Ht).
    assert (OT : own c (FTree q)) by (right; exact Ht).
    destruct e, r as [|kk|er]; try (destruct (er =? ENOENT)); destruct b; cbn [negb];
      repeat match goal with
      | |- kq _ _ (ret _) => apply kq_ret; assumption
      | |- kq _ _ die => apply kq_die
      | |- kq _ _ (bind pull _) => apply kq_bind with (Q := fun _ => True); [apply kq_pull|intros ? _]
      | |- kq _ _ (bind (modify (set_errno _)) _) => apply kq_bind with (Q := fun _ => True); [apply kq_modify; intros; apply cf_errno; assumption|intros ? _]
      | |- kq _ _ (bind (modify (set_exists _ _)) _) => apply kq_bind with (Q := fun _ => True); [apply kq_modify; intros; apply cf_exists; assumption|intros ? _]
      | |- kq _ _ (bind (modify (emit _)) _) => apply kq_bind with (Q := fun _ => True); [apply kq_modify; intros; apply cf_emit; [exact Ht|assumption]|intros ? _]
      | |- kq _ _ (bind (modify (set_file _ _)) _) => apply kq_bind with (Q := fun _ => True); [apply kq_modify; intros; apply cf_file; assumption|intros ? _]
      | |- kq _ _ (match ?x with _ => _ end) => destruct x
      end.
  Qed.
  Lemma kq_get a : kq I (gok c (own c)) (get_filepos c a).
  Proof.
    unfold get_filepos. destruct (a <? 0); [apply kq_ret; exact Logic.I|]. destruct (cflag c F_TREEFILES) eqn:Et.
    - eapply kq_bind; [apply kq_open, Et|]. intros h Hh. apply kq_ret. intros _.
      destruct Hh as [->|[->|[q ->]]]; [left; reflexivity| |]; right; right; exact Et.
    - destruct (c_export c) as [l|] eqn:El; [|intros w1 _; exact Logic.I]. apply kq_bind with (Q := fun _ => True).
      + apply kq_keeps, keeps_mloop. intros [s e]. unfold search_body. destruct (s <=? e); [|apply keeps_ret].
        destruct (nth_error l (Z.to_nat ((s + e) / 2))) as [fi|]; [|apply keeps_ub].
        destruct (fi_start fi <? a); [apply keeps_ret|]. destruct (a <? fi_start fi); apply keeps_ret.
      + intros e _. apply kq_bind with (Q := fun _ => True); [apply kq_keeps, keeps_assert|]. intros _ _.
        destruct (nth_error l (Z.to_nat e)) as [fi|] eqn:En; [|intros w1 _; exact Logic.I].
        apply kq_ret. intros _. right. left. exists l, fi. split; [exact El|]. split; [eapply nth_error_In; exact En|reflexivity].
  Qed.
  Lemma k_delete a : cflag c F_TREEFILES = true -> keeps I (delete_treefile (c_namelen c) (i64 (c_size c)) a).
  Proof.
    intros Ht. unfold delete_treefile. apply keeps_bind.
    { unfold get_path. destruct (tree_path _ _ a); [apply keeps_ret|apply keeps_die|intros w1 _; exact Logic.I]. }
    intros p. apply keeps_bind; [apply keeps_pull, cf_tick|]. intros r. apply keeps_bind; [apply keeps_get|]. intros e.
    assert (K : keeps I (modify (set_exists p false) ;;; modify (emit (EUnlink p)))).
    { apply keeps_bind; [apply keeps_modify; intros; apply cf_exists; assumption|]. intros _. apply keeps_modify. intros. apply cf_emit; assumption. }
    destruct e, r; try exact K; apply keeps_modify; intros; apply cf_errno; assumption.
  Qed.
End Own.

Lemma own_threads lg c n inp l w : after (sys_run lg c l (sys_init n inp w)) (confined c w).
Proof.
  pose proof (threads_keep c (confined c w) (own c) lg) as T. unfold after.
  apply T; clear T.
  - apply cf_tick.
  - apply cf_errno.
  - intros e w1 Hf. apply cf_emit. destruct e; cbn in *; tauto.
  - apply cf_file.
  - intros p w1 (H1 & H2 & H3). repeat split; auto.
  - intros i v w1 (H1 & H2 & H3). repeat split; auto.
  - intros k w1 (H1 & H2 & H3). repeat split; auto.
  - apply kq_get.
  - intros a _ _ Ht. apply k_delete, Ht.
  - intros k fi _ _ _ Hl Hi. left. eauto.
  - intros _ [K|K]; right; [left; exact K|right]. unfold waiting in K. destruct (cflag c F_WAIT); [reflexivity|discriminate].
  - split; [auto|]. split; [auto|]. exists []. split; [reflexivity|constructor].
Qed.
