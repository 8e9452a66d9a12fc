(** C71 for tree exports: a FLUSH on one connection covers the writes of all. *)
From Verif Require Import Base M_Const M_Disk M_TreeMulti S_TreeMulti L_TreeMulti P_TreeMulti M_TreeSync S_TreeSync L_TreeSync.
Local Open Scope list_scope.

(** what a crash brings back, at any time after a FLUSH of connection [k], is what
    the requests finished when it was sent made of the export, or those and some
    finished since *)
Theorem C71_tree_flush_covers_partial : forall b qs s0 l1 l2 l3 k,
  sane b -> holds b s0 -> Forall (Forall in_page) qs -> (forall p, (exists j, only_by p j qs) \/ settled b p qs) ->
  Forall (fun c => c <> VBegin k /\ c <> VEnd k) l2 ->
  let g := t_log (v_sys (v_run l1 (v_init b qs))) in
  let v := v_run (l1 ++ VBegin k :: l2 ++ VEnd k :: l3) (v_init b qs) in
  forall p i x, 0 <= i < 4096 -> after_crash v p i x ->
  exists r1 r2, t_log (v_sys v) = (g ++ r1) ++ r2 /\ x = final s0 (g ++ r1) p i.
Proof.
  intros b qs s0 l1 l2 l3 k H1 H2 H3 H4 N g v p i x Hi C.
  destruct (flush_covers b qs s0 l1 l2 l3 k H1 H2 H3 H4 N p i x Hi C) as (g' & [r1 A] & [r2 B] & E). exists r1, r2. fold g in A. subst g'. auto.
Qed.
Print Assumptions C71_tree_flush_covers_partial.

(** a WRITE acknowledged on any connection before the FLUSH was sent survives,
    unless somebody changes the byte afterwards *)
Theorem C71_tree_write_survives_partial : forall b qs s0 l1 l2 l3 k,
  sane b -> holds b s0 -> Forall (Forall in_page) qs -> (forall p, (exists j, only_by p j qs) \/ settled b p qs) ->
  Forall (fun c => c <> VBegin k /\ c <> VEnd k) l2 ->
  let g := t_log (v_sys (v_run l1 (v_init b qs))) in
  let v := v_run (l1 ++ VBegin k :: l2 ++ VEnd k :: l3) (v_init b qs) in
  forall j p off d g1 g2 r i x, g = g1 ++ (j, TWrite p off d, TDone) :: g2 -> t_log (v_sys v) = g ++ r ->
  off <= i < off + zlen d -> 0 <= i < 4096 -> (forall j' o a, In (j', o, a) (g2 ++ r) -> ~ changes o p i) ->
  after_crash v p i x -> x = znth 0 d (i - off).
Proof.
  intros b qs s0 l1 l2 l3 k H1 H2 H3 H4 N g v j p off d g1 g2 r i x Eg Ev Hi Hp Q C.
  rewrite (flush_keeps b qs s0 l1 l2 l3 k H1 H2 H3 H4 N p i x r Hp Ev ltac:(intros j' o a I; apply (Q j' o a); apply in_or_app; now right) C).
  fold g. rewrite Eg. change ((j, TWrite p off d, TDone) :: g2) with ([(j, TWrite p off d, TDone)] ++ g2). rewrite !final_app.
  rewrite unchanged_final by (intros j' o a I; apply (Q j' o a); apply in_or_app; now left).
  unfold final at 1. cbn [fold_left fst snd effect]. rewrite Z.eqb_refl. replace ((off <=? i) && (i <? off + zlen d)) with true by lia.
  cbn [andb]. replace (off <=? i) with true by lia. replace (i <? off + zlen d) with true by lia. reflexivity.
Qed.
Print Assumptions C71_tree_write_survives_partial.

(** connection 0 makes page 1 and writes to it; connection 1 flushes while
    connection 0 writes again; before the FLUSH is answered a crash may undo the
    first write, afterwards it cannot *)
Definition sync_qs : list (list top) := [[TWrite 1 5 [7; 8]; TWrite 1 6 [9]]; [TRead 0 0 1]].
Definition sync_l1 : list vchoice := [VStep 0; VStep 0; VStep 0; VStep 0].
Definition sync_l2 : list vchoice := [VStep 0; VStep 0; VStep 1].
Definition crash_bytes (l : list vchoice) (p i : Z) : list Z :=
  let v := v_run l (v_init demo_blocks sync_qs) in map (fun b => page_byte b p i) (firstn (v_n v) (v_hist v)).
Lemma crash_bytes_ok l p i x : In x (crash_bytes l p i) <-> after_crash (v_run l (v_init demo_blocks sync_qs)) p i x.
Proof.
  unfold crash_bytes, after_crash. cbv zeta. rewrite in_map_iff. split; intros (b & A & B); exists b; auto.
Qed.
Example C71_tree_flush_covers_ex :
  sane demo_blocks /\ holds demo_blocks demo_store /\ Forall (Forall in_page) sync_qs /\
  (forall p, (exists j, only_by p j sync_qs) \/ settled demo_blocks p sync_qs) /\
  Forall (fun c => c <> VBegin 1 /\ c <> VEnd 1) sync_l2 /\
  t_log (v_sys (v_run sync_l1 (v_init demo_blocks sync_qs))) = [(0%nat, TWrite 1 5 [7; 8], TDone)] /\
  crash_bytes (sync_l1 ++ VBegin 1 :: sync_l2) 1 5 = [7; 7; 7; 7; 0; 0; 0; 0] /\
  crash_bytes (sync_l1 ++ VBegin 1 :: sync_l2 ++ [VEnd 1]) 1 5 = [7; 7; 7; 7] /\
  crash_bytes (sync_l1 ++ VBegin 1 :: sync_l2 ++ [VEnd 1]) 1 6 = [9; 9; 8; 8].
Proof.
  split; [split; [intros p n|intros p q n]; unfold demo_blocks; cbn [d_dir d_next]; [destruct (p =? 0); [intros H; injection H as <-; lia|discriminate]|
    destruct (Z.eqb_spec p 0); [|discriminate]; destruct (Z.eqb_spec q 0); [congruence|discriminate]]|].
  split; [intros p; unfold holds_page, demo_blocks, demo_store; cbn [d_dir d_ino]; destruct (p =? 0)|].
  - cbn [fsize]. split; [lia|]. intros i Hi. unfold frd. cbn [fsize fdata]. replace (0 <=? i) with true by lia. replace (i <? 4096) with true by lia. reflexivity.
  - intros i _. reflexivity.
  - split; [repeat constructor; vm_compute; try discriminate; auto|].
    split. { intros p. destruct (Z.eq_dec p 0) as [->|N0]; [left; exists 1%nat|left; exists 0%nat]; intros j q o Hj Ho Hp;
      (destruct j as [|[|j]]; [| |destruct j; discriminate]); injection Hj as <-; cbn in Ho;
      repeat (destruct Ho as [<-|Ho]); try contradiction; cbn in Hp; congruence. }
    split; [repeat constructor; discriminate|]. vm_compute. repeat split.
Qed.

(** What a crash may bring back is not understated: always what is in the files now,
    and, as long as no sync() has returned, what was there at any moment before. *)
Theorem C71_tree_crash_outcomes : forall b qs l,
  let v := v_run l (v_init b qs) in
  (forall p i, after_crash v p i (page_byte (t_blk (v_sys v)) p i)) /\
  ((forall k, ~ In (VEnd k) l) -> forall l1 l2, l = l1 ++ l2 -> forall p i, after_crash v p i (page_byte (t_blk (v_sys (v_run l1 (v_init b qs)))) p i)).
Proof. exact crash_outcomes. Qed.
Print Assumptions C71_tree_crash_outcomes.
(** without the FLUSH the acknowledged bytes of the example can be lost *)
Example C71_tree_crash_outcomes_ex :
  (forall k, ~ In (VEnd k) (sync_l1 ++ VBegin 1 :: sync_l2)) /\
  t_log (v_sys (v_run sync_l1 (v_init demo_blocks sync_qs))) = [(0%nat, TWrite 1 5 [7; 8], TDone)] /\
  after_crash (v_run (sync_l1 ++ VBegin 1 :: sync_l2) (v_init demo_blocks sync_qs)) 1 5 0.
Proof.
  split; [intros k H; vm_compute in H; repeat (destruct H as [H|H]; [discriminate H|]); exact H|]. split; [vm_compute; reflexivity|].
  exact (proj2 (crash_outcomes demo_blocks sync_qs (sync_l1 ++ VBegin 1 :: sync_l2)) ltac:(intros k H; vm_compute in H; repeat (destruct H as [H|H]; [discriminate H|]); exact H) [] _ eq_refl 1 5).
Qed.
