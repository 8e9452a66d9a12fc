(** Lemmas about the names of block files. *)
From Verif Require Import Base M_Nego M_Conf M_Virt M_Hook S_Virt S_Hook L_Hook M_Const M_Disk M_Tree M_Raw M_Par M_TreeName L_Wp S_Wire S_Disk L_Wire L_Session L_Props L_Frame L_FrameP S_Leak L_Own L_Rel L_RelP S_Tree L_Tree S_TreeName.
Open Scope list_scope.

Lemma below_app dir p : below dir (dir ++ p) = Some p.
Proof. induction dir as [|a d IH]; cbn; [reflexivity|]. rewrite Z.eqb_refl. exact IH. Qed.
Lemma below_some dir : forall q p, below dir q = Some p -> q = dir ++ p.
Proof.
  induction dir as [|a d IH]; intros q p H; cbn in H; [injection H as ->; reflexivity|].
  destruct q as [|b t]; [discriminate|]. destruct (a =? b) eqn:E; [|discriminate]. apply Z.eqb_eq in E. subst b.
  cbn. f_equal. apply IH, H.
Qed.

Lemma construct_path_form d : forall fuel lenmax size pos s r,
  0 <= size -> is_depth size d -> construct_path fuel lenmax size pos = PathOk s r ->
  s = block_path d (pos / 4096) /\ r = pos / 4096 / 1024 ^ (Z.of_nat d + 1).
Proof.
  induction d as [|d IH]; intros fuel lenmax size pos s r Hs [Hd1 Hd2] H;
    (destruct fuel as [|fuel]; [discriminate|]); cbn [construct_path] in H; (destruct (lenmax <? 10); [discriminate|]).
  - unfold TREEDIRSIZE, TREEPAGESIZE in H. change (1024 ^ (Z.of_nat 0 + 1)) with 1024 in *.
    replace (size <? 1024 * 4096) with true in H by lia. injection H as <- <-.
    unfold block_path, block_dirs, digit. cbn [app]. change (1024 ^ Z.of_nat 0) with 1. rewrite Z.div_1_r.
    unfold file_comp. rewrite hex4_name. rewrite <- Zdiv_Zdiv by lia. split; reflexivity.
  - unfold TREEDIRSIZE, TREEPAGESIZE in *. specialize (Hd2 ltac:(lia)).
    replace (Z.of_nat (S d) + 1) with (Z.of_nat (S (S d))) in * by lia.
    rewrite !pow1024_S in *. pose proof (pow1024_pos d) as Hk.
    replace (size <? 1024 * 4096) with false in H by nia.
    destruct (construct_path fuel (lenmax - 9) (size / 1024) pos) as [s0 r0| |] eqn:E; try discriminate.
    assert (s = tree_comp (r0 mod 1024) ++ s0) as -> by congruence. assert (r = r0 / 1024) as -> by congruence. clear H.
    apply IH in E; [|apply Z.div_pos; lia|].
    2:{ split.
        - replace (Z.of_nat d + 1) with (Z.of_nat (S d)) by lia. rewrite pow1024_S.
          apply Z.div_lt_upper_bound; lia.
        - intros Hd. apply Z.div_le_lower_bound; lia. }
    destruct E as [-> ->].
    replace (Z.of_nat d + 1) with (Z.of_nat (S d)) by lia. rewrite pow1024_S.
    unfold tree_comp. rewrite hex4_name. split.
    + unfold block_path. cbn [block_dirs]. unfold digit at 2. rewrite pow1024_S. rewrite <- !app_assoc. reflexivity.
    + rewrite Z.div_div by nia. f_equal. lia.
Qed.
Lemma block_path_length d b : length (block_path d b) = (9 * d + 9)%nat.
Proof. unfold block_path. rewrite !app_length, block_dirs_length, hex_name_length. cbn. lia. Qed.

(** the paths a client of the tree reaches *)
Lemma reaches_form c p : 0 <= i64 (c_size c) -> reaches c p -> exists d b, is_depth (i64 (c_size c)) d /\ p = block_path d b.
Proof.
  intros Hs (pos & r & H). destruct (depth_exists (i64 (c_size c))) as (d & Hd & _).
  { split; [exact Hs|]. unfold i64. destruct (u64 (c_size c) <? 9223372036854775808) eqn:E; [lia|]. unfold u64. pose proof (Z.mod_pos_bound (c_size c) 18446744073709551616 ltac:(lia)). lia. }
  unfold tree_path in H. destruct (construct_path_form _ _ _ _ _ _ _ Hs Hd H) as [-> _]. eauto.
Qed.

Section Tree.
  Variable c : client.
  Hypothesis Ht : cflag c F_TREEFILES = true.
  Variable w0 : world.
  (** paths that are not block files are as they were *)
  Definition fixed (w : world) : Prop :=
    forall p, ~ reaches c p -> w_exists w p = w_exists w0 p /\ w_file w (FTree p) = w_file w0 (FTree p).
  Definition okt (h : fref) : Prop := match h with FTree p => reaches c p | _ => True end.
  Lemma fx_file h f w : okt h -> fixed w -> fixed (set_file h f w).
  Proof.
    intros Ho H p Hp. destruct (H p Hp) as [H1 H2]. split; [exact H1|]. cbn. unfold upd_file.
    destruct (fref_eq_dec (FTree p) h) as [<-|]; [contradiction|exact H2].
  Qed.
  Lemma fx_exists p b w : reaches c p -> fixed w -> fixed (set_exists p b w).
  Proof.
    intros Ho H q Hq. destruct (H q Hq) as [H1 H2]. split; [|exact H2]. cbn.
    destruct (list_eq_dec Z.eq_dec q p) as [->|]; [contradiction|exact H1].
  Qed.
  Notation I := fixed.
  Lemma tkq_bind {A B} (Q : A -> Prop) (QB : B -> Prop) (m : M A) (k : A -> M B) :
    kq I Q m -> (forall a, Q a -> kq I QB (k a)) -> kq I QB (bind m k).
  Proof. intros H1 H2 w1 Hw. apply wlp_bind. eapply wlp_mono; [apply H1; exact Hw| |auto]. intros a w' [Hw' Ha]. apply H2; auto. Qed.
  Lemma tkq_ret {A} (Q : A -> Prop) a : Q a -> kq I Q (ret a).
  Proof. intros H w1 Hw. split; assumption. Qed.
  Lemma fx_tick w : I w -> I (tick w). Proof. intros H p Hp. exact (H p Hp). Qed.
  Lemma fx_errno e w : I w -> I (set_errno e w). Proof. intros H p Hp. exact (H p Hp). Qed.
  Lemma fx_emit e w : I w -> I (emit e w). Proof. intros H p Hp. exact (H p Hp). Qed.
  Lemma tkq_modify f : (forall w1, I w1 -> I (f w1)) -> kq I (fun _ => True) (modify f).
  Proof. intros H. apply kq_keeps, keeps_modify, H. Qed.
  Lemma tkq_pull : kq I (fun _ => True) pull.
  Proof. apply kq_keeps, keeps_pull, fx_tick. Qed.
  Lemma tkq_path pos : kq I (reaches c) (get_path (c_namelen c) (i64 (c_size c)) pos).
  Proof.
    unfold get_path. destruct (tree_path (c_namelen c) (i64 (c_size c)) pos) as [s r| |] eqn:E.
    - apply tkq_ret. exists pos, r. exact E.
    - intros w1 Hw. exact Hw.
    - intros w1 _. exact Logic.I.
  Qed.
  Lemma tkq_open b pos : kq I okt (open_treefile (c_namelen c) b (i64 (c_size c)) pos).
  Proof.
    unfold open_treefile. eapply tkq_bind; [apply tkq_path|]. intros q Hq.
    apply tkq_bind with (Q := fun _ => True); [apply tkq_pull|]. intros r _.
    apply tkq_bind with (Q := fun _ => True); [apply kq_keeps, keeps_get|]. intros e _. cbv zeta.
    assert (TB : okt FBad) by exact Logic.I. assert (TD : okt FDummy) by exact Logic.I.
    assert (TT : okt (FTree q)) by exact Hq.
    destruct e, r as [|kk|er]; try (destruct (er =? ENOENT)); destruct b; cbn [negb];
      repeat match goal with
      | |- kq _ _ (ret _) => apply tkq_ret; assumption
      | |- kq _ _ die => intros w1 Hw; exact Hw
      | |- kq _ _ (bind pull _) => apply tkq_bind with (Q := fun _ => True); [apply tkq_pull|intros ? _]
      | |- kq _ _ (bind (modify (set_errno _)) _) => apply tkq_bind with (Q := fun _ => True); [apply tkq_modify; intros; apply fx_errno; assumption|intros ? _]
      | |- kq _ _ (bind (modify (set_exists _ _)) _) => apply tkq_bind with (Q := fun _ => True); [apply tkq_modify; intros; apply fx_exists; assumption|intros ? _]
      | |- kq _ _ (bind (modify (emit _)) _) => apply tkq_bind with (Q := fun _ => True); [apply tkq_modify; intros; apply fx_emit; assumption|intros ? _]
      | |- kq _ _ (bind (modify (set_file _ _)) _) => apply tkq_bind with (Q := fun _ => True); [apply tkq_modify; intros; apply fx_file; assumption|intros ? _]
      | |- kq _ _ (match ?x with _ => _ end) => destruct x
      end.
  Qed.
  Lemma tkq_get a : kq I (gok c okt) (get_filepos c a).
  Proof.
    unfold get_filepos. destruct (a <? 0); [apply tkq_ret; exact Logic.I|]. rewrite Ht.
    eapply tkq_bind; [apply tkq_open|]. intros h Hh. apply tkq_ret. intros _. right. exact Hh.
  Qed.
  Lemma tk_delete a : keeps I (delete_treefile (c_namelen c) (i64 (c_size c)) a).
  Proof.
    assert (K : kq I (fun _ => True) (delete_treefile (c_namelen c) (i64 (c_size c)) a)).
    { unfold delete_treefile. eapply tkq_bind; [apply tkq_path|]. intros p Hp.
      apply tkq_bind with (Q := fun _ => True); [apply tkq_pull|]. intros r _.
      apply tkq_bind with (Q := fun _ => True); [apply kq_keeps, keeps_get|]. intros e _.
      assert (K : kq I (fun _ => True) (modify (set_exists p false) ;;; modify (emit (EUnlink p)))).
      { apply tkq_bind with (Q := fun _ => True); [apply tkq_modify; intros; apply fx_exists; assumption|].
        intros _ _. apply tkq_modify. intros. apply fx_emit. assumption. }
      destruct e, r; try exact K; apply tkq_modify; intros; apply fx_errno; assumption. }
    intros w Hw. eapply wlp_mono; [apply K, Hw| |auto]. intros x w' [H _]. exact H.
  Qed.
  Lemma tree_fixed lg n inp l : after (sys_run lg c l (sys_init n inp w0)) fixed.
  Proof.
    pose proof (threads_keep c fixed okt lg) as T. unfold after. apply T; clear T.
    - apply fx_tick.
    - apply fx_errno.
    - intros e w1 _. apply fx_emit.
    - apply fx_file.
    - intros p w H q Hq. exact (H q Hq).
    - intros i v w H q Hq. exact (H q Hq).
    - intros k w H q Hq. exact (H q Hq).
    - apply tkq_get.
    - intros a _ _ _. apply tk_delete.
    - congruence.
    - intros _ _. exact Logic.I.
    - intros p _. split; reflexivity.
  Qed.
End Tree.

(** two file systems that agree on the block files of the tree *)
Definition tvis (c : client) (h : fref) : Prop := match h with FTree p => reaches c p | _ => True end.
Lemma tree_alike c lg n inp l w w' : cflag c F_TREEFILES = true -> R (tvis c) true w w' ->
  same_traffic (sys_run lg c l (sys_init n inp w)) (sys_run lg c l (sys_init n inp w')).
Proof.
  intros Ht HR.
  assert (H : soutR (tvis c) true (sys_run lg c l (sys_init n inp w)) (sys_run lg c l (sys_init n inp w'))).
  { apply (s_run c (tvis c) true lg).
    - congruence.
    - intros _. split; [exact Logic.I|]. auto.
    - intros _. split; [reflexivity|exact Logic.I].
    - apply s_init, HR. }
  unfold soutR, same_traffic in *. destruct (sys_run lg c l (sys_init n inp w)), (sys_run lg c l (sys_init n inp w')); try contradiction; try exact H.
  - destruct H. auto.
  - destruct H. auto.
Qed.

(** ** the name commit_client leaves *)
Lemma commit_name pid a s s' : commit pid a s = HGo true s' ->
  s_name s' = let '(_, _, n2) := diff_parts (a_conf a) (a_name a) in if cow_like (a_conf a) then n2 else a_name a.
Proof.
  unfold commit. intros H. destruct (a_named a && a_allowed a) eqn:En; cbn [negb] in H; [|discriminate].
  apply andb_true_iff in En. destruct En as [En _]. rewrite En in H.
  assert (Ha : forall s2, s_name s2 = a_name a -> open_export pid a s2 = HGo true s' ->
    s_name s' = let '(_, _, n2) := diff_parts (a_conf a) (a_name a) in if cow_like (a_conf a) then n2 else a_name a).
  { intros s2 E2. unfold open_export. destruct (negb (a_setup a)); [discriminate|].
    change (flag (h_flags (a_conf a)) F_COPYONWRITE || flag (h_flags (a_conf a)) F_WAIT) with (cow_like (a_conf a)).
    unfold prepare_diff, diff_parts. cbn [s_name]. rewrite E2.
    destruct (match h_cowdir (a_conf a) with Some d => (d, a_name a) | None => dirname (a_name a) end) as [dir n1].
    destruct (basename n1) as [base n2]. destruct (cow_like (a_conf a)); [destruct (a_make a); [|discriminate]|];
      intros [= <-]; cbn; auto. }
  destruct (do_run _ _) as [|cmd| |]; try discriminate; [refine (Ha _ _ H); reflexivity|].
  destruct (a_pre a); [refine (Ha _ _ H); reflexivity|discriminate].
Qed.
Lemma name_kept pid a s s' : keeps_name a -> commit pid a s = HGo true s' -> s_name s' = a_name a.
Proof.
  intros Hk H. rewrite (commit_name _ _ _ _ H). unfold diff_parts, cow_like. destruct Hk as [[H1 H2]|[H1 H2]].
  - rewrite H1, H2. cbn [orb].
    destruct (match h_cowdir (a_conf a) with Some d => (d, a_name a) | None => dirname (a_name a) end) as [dir n1].
    destruct (basename n1); reflexivity.
  - destruct (h_cowdir (a_conf a)); [|congruence]. pose proof (basename_keeps _ H2) as K.
    destruct (basename (a_name a)); cbn in K |- *. subst. destruct (_ || _); reflexivity.
Qed.
Lemma name_cut pid a s s' d b : (flag (h_flags (a_conf a)) F_COPYONWRITE = true \/ flag (h_flags (a_conf a)) F_WAIT = true) ->
  h_cowdir (a_conf a) = None -> in_dir (a_name a) d b -> commit pid a s = HGo true s' -> s_name s' = d.
Proof.
  intros Hc Hd Hi H. rewrite (commit_name _ _ _ _ H). unfold diff_parts, cow_like. rewrite Hd, (dirname_in _ _ _ Hi).
  pose proof Hi as (_ & _ & Hl & _). pose proof (basename_keeps d Hl) as K. destruct (basename d) as [x y]. cbn in K. subst y.
  destruct Hc as [-> | ->]; [reflexivity|]. rewrite orb_true_r. reflexivity.
Qed.

(** ** a connection *)
Section Conn.
  Variables (pid : list Z) (a : attempt) (s s' : hst) (size : Z) (st tls lg : bool) (n : nat) (inp : list Z) (turns : list choice).
  Hypothesis Hc : commit pid a s = HGo true s'.
  Hypothesis Ht : flag (h_flags (a_conf a)) F_TREEFILES = true.
  Hypothesis Hs : 0 <= size < 9223372036854775808.
  Let c := mkC (h_flags (a_conf a)) size None (zlen (s_name s')) st tls.
  Lemma size_same : i64 (c_size c) = size.
  Proof. cbn. apply i64_small. lia. Qed.
  Lemma reach_block p : reaches c p -> block_file (s_name s') size (s_name s' ++ p).
  Proof.
    intros H. apply reaches_form in H; [|rewrite size_same; lia]. rewrite size_same in H.
    destruct H as (d & b & Hd & ->). exists d, b. auto.
  Qed.
  Lemma conn_stays fs w fs' o l : tree_connection pid a s size st tls lg n inp turns fs w = TEnd fs' o l ->
    only_tree (s_name s') size fs fs'.
  Proof.
    unfold tree_connection. rewrite Hc. fold c. intros H q Hq.
    pose proof (tree_fixed c Ht (tree_world (s_name s') fs w) lg n inp turns) as F. unfold after in F.
    assert (K : forall y, fixed c (tree_world (s_name s') fs w) (y_w y) -> names_after (s_name s') fs (y_w y) q = fs q).
    { intros y Fy. unfold names_after. destruct (below (s_name s') q) as [p|] eqn:E; [|reflexivity]. apply below_some in E. subst q.
      destruct (Fy p) as [F1 F2].
      { intros Hr. apply Hq, reach_block, Hr. }
      rewrite F1, F2. cbn. destruct (fs (s_name s' ++ p)); reflexivity. }
    destruct (sys_run lg c turns (sys_init n inp (tree_world (s_name s') fs w))); try discriminate; injection H as <- _ _; apply K, F.
  Qed.
  Lemma conn_sees fs fs2 w : same_tree (s_name s') size fs fs2 ->
    same_end (tree_connection pid a s size st tls lg n inp turns fs w) (tree_connection pid a s size st tls lg n inp turns fs2 w).
  Proof.
    intros Hf. unfold tree_connection. rewrite Hc. fold c.
    assert (HR : R (tvis c) true (tree_world (s_name s') fs w) (tree_world (s_name s') fs2 w)).
    { constructor; try reflexivity.
      - intros h Hh. destruct h as [g|p| | |]; try (split; [reflexivity|intros ?; reflexivity]). cbn in Hh |- *.
        specialize (Hf _ (reach_block _ Hh)). unfold same_opt in Hf.
        destruct (fs (s_name s' ++ p)), (fs2 (s_name s' ++ p)); try contradiction; [exact Hf|split; [reflexivity|intros ?; reflexivity]].
      - intros p Hp. cbn in Hp |- *. specialize (Hf _ (reach_block _ Hp)). unfold same_opt in Hf.
        destruct (fs (s_name s' ++ p)), (fs2 (s_name s' ++ p)); try contradiction; reflexivity.
      - intros _ i. reflexivity.
      - intros i. reflexivity. }
    pose proof (tree_alike c lg n inp turns _ _ Ht HR) as T. unfold same_traffic in T.
    destruct (sys_run lg c turns (sys_init n inp (tree_world (s_name s') fs w))), (sys_run lg c turns (sys_init n inp (tree_world (s_name s') fs2 w)));
      try contradiction; try exact Logic.I; destruct T as (T1 & T2 & _); split; assumption.
  Qed.
End Conn.

Lemma apart d1 d2 size q : block_file d1 size q -> block_file d2 size q -> d1 = d2.
Proof.
  intros (k1 & b1 & D1 & E1) (k2 & b2 & D2 & E2). rewrite (is_depth_unique _ _ _ D2 D1) in E2. subst q.
  pose proof (f_equal (@length Z) E2) as L. rewrite !app_length, !block_path_length in L.
  apply (f_equal (firstn (length d1))) in E2. rewrite firstn_app, firstn_all, Nat.sub_diag in E2. cbn in E2. rewrite app_nil_r in E2.
  replace (length d1) with (length d2) in E2 by lia. rewrite firstn_app, firstn_all, Nat.sub_diag in E2. cbn in E2. rewrite app_nil_r in E2. exact E2.
Qed.
Lemma parent_other p d b size q : in_dir p d b -> block_file d size q -> ~ block_file p size q.
Proof.
  intros (-> & _) H1 H2. pose proof (apart _ _ _ _ H1 H2) as E. apply (f_equal (@length Z)) in E. rewrite !app_length in E. cbn in E. lia.
Qed.
