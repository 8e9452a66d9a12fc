(** C98: several connections to one waitfile export. *)
From Verif Require Import Base M_Const M_Wait S_Wait L_Wait L_WaitS L_WaitR L_WaitP P_Wait M_WaitMulti S_WaitMulti L_WaitMulti.

(** ** demo: three pages, a file of two pages of 9s, two connections *)
Definition reqs98a : list (list wreq) :=
  [[WWrite 4096 4096 (fill 1) false; WRead 4100 3]; [WWrite 8192 4096 (fill 2) false; WRead 8192 2; WRead 0 2]].
Definition on (k : nat) (n : nat) (c : wchoice) : list (nat * wchoice) := repeat (k, c) n.
(** both write, both see the file, their threads take turns, then the reads *)
Definition sched98 : list (nat * wchoice) :=
  on 0 2 WReq ++ on 1 2 WReq ++ on 0 3 (WCom 4096) ++ on 1 20 (WCom 4096) ++ on 0 20 (WCom 4096) ++ on 0 2 WReq ++ on 1 4 WReq.
Definition steadyb (e : wenv) := fix go (l : list (nat * wchoice)) (g : wgroup) : bool :=
  match l with
  | [] => true
  | (k, c) :: l =>
      match nth_error (wg_conns g) k with
      | Some s => match conn_step e c (lend g s) with
                  | WGo s' => w_export s || negb (w_export s') || match w_rpc s with RMapW _ _ _ _ _ => false | _ => true end
                  | _ => true end
      | None => true end && match wg_step e k c g with WgGo g' => go l g' | WgUb => true end
  end.
Lemma steadyb_ok e l : forall g, steadyb e l g = true -> all_steady e l g.
Proof.
  induction l as [|[k c] l IH]; intros g; cbn [steadyb all_steady]; [auto|]. rewrite andb_true_iff. intros [A B]. split.
  - intros s s' E1 E2 X1 X2. rewrite E1, E2, X1, X2 in A. cbn [negb orb] in A. unfold in_write. destruct (w_rpc s); auto. discriminate.
  - destruct (wg_step e k c g); auto.
Qed.
Definition results (r : wgout) : list (list wres) := match r with WgGo g => map (fun s => map snd (w_log s)) (wg_conns g) | WgUb => [] end.
Definition group (r : wgout) : wgroup := match r with WgGo g => g | WgUb => wg_start we3 [] end.
Definition is_gg (r : wgout) : bool := match r with WgGo _ => true | WgUb => false end.
Lemma gg_group r : is_gg r = true -> r = WgGo (group r).
Proof. destruct r; [reflexivity|discriminate]. Qed.
Ltac gruns := match goal with |- exists g, wg_run ?e ?l ?q = WgGo g /\ _ => exists (group (wg_run e l q)) end; split; [apply gg_group; vm_compute; reflexivity|].

Definition overlap (x y : wreq) : bool := (* do [x] and a write [y] share a page *)
  match y with
  | WWrite a' n' _ _ =>
      match x with
      | WRead a n | WWrite a n _ _ => (a / 4096 <=? (a' + n' - 1) / 4096) && (a' / 4096 <=? (a + n - 1) / 4096)
      | WFlush => false
      end
  | _ => false
  end.
Lemma overlap_ok x y p : overlap x y = false -> touches x p -> rewrites y p -> False.
Proof.
  destruct y as [|a' n' d' f'|]; cbn [rewrites]; try (intros _ _ []; fail). intros H T [b' [B' E']].
  destruct x as [a n|a n d f|]; cbn [touches overlap] in *; [| |contradiction]; destruct T as [b [B E]];
    assert (a / 4096 <= b / 4096 <= (a + n - 1) / 4096) by (split; apply Z.div_le_mono; lia);
    assert (a' / 4096 <= b' / 4096 <= (a' + n' - 1) / 4096) by (split; apply Z.div_le_mono; lia); lia.
Qed.
Lemma apart_two r0 r1 : forallb (fun x => forallb (fun y => negb (overlap x y) && negb (overlap y x)) r1) r0 = true -> apart [r0; r1].
Proof.
  intros H i j ri rj x y p N Hi Hj Ix Iy T W. rewrite forallb_forall in H.
  destruct i as [|[|i]]; destruct j as [|[|j]]; cbn in Hi, Hj; try congruence; try (destruct i; discriminate); try (destruct j; discriminate).
  - injection Hi as <-. injection Hj as <-. specialize (H x Ix). rewrite forallb_forall in H. specialize (H y Iy).
    rewrite andb_true_iff, !negb_true_iff in H. exact (overlap_ok x y p (proj1 H) T W).
  - injection Hi as <-. injection Hj as <-. specialize (H y Iy). rewrite forallb_forall in H. specialize (H x Ix).
    rewrite andb_true_iff, !negb_true_iff in H. exact (overlap_ok x y p (proj2 H) T W).
Qed.
Lemma apart98 : apart reqs98a.
Proof. apply apart_two. vm_compute. reflexivity. Qed.
Lemma modest98 : forall reqs, In reqs reqs98a -> modest we3 reqs.
Proof.
  intros reqs [<-|[<-|[]]]; (split; [reflexivity|]; split; [vm_compute; discriminate|]; split; [vm_compute; discriminate|]; repeat constructor; cbn; lia).
Qed.
Lemma steady98 : all_steady we3 sched98 (wg_start we3 reqs98a).
Proof. apply steadyb_ok. vm_compute. reflexivity. Qed.
Example sched98_runs : results (wg_run we3 sched98 (wg_start we3 reqs98a)) =
  [[WOk []; WOk [1;1;1]]; [WOk []; WOk [2;2]; WOk [9;9]]].
Proof. vm_compute. reflexivity. Qed.

(** connections that use none of the pages another one writes see what they wrote,
    and all their writes are acknowledged, whatever the order of steps of all
    processes and their threads *)
Theorem C98_apart_reads_latest_partial : forall e reqss l g k s,
  (forall reqs, In reqs reqss -> modest e reqs) -> apart reqss -> all_steady e l (wg_start e reqss) ->
  wg_run e l (wg_start e reqss) = WgGo g -> nth_error (wg_conns g) k = Some s ->
  reads_right e (w_log s) /\ writes_ok (w_log s).
Proof.
  intros e reqss l g k s M A C E K. destruct (group_inv e reqss l g M A C E) as [G1 G2 _].
  destruct (nth_error reqss k) as [reqs|] eqn:R; [|apply nth_error_None in R; assert (k < length (wg_conns g))%nat by (apply nth_error_Some; congruence); lia].
  destruct (G2 k reqs s R K) as [_ [t [I S]]]. pose proof (m_log _ _ _ _ S) as EL. change (w_log (lend g s)) with (w_log s) in EL. rewrite EL.
  split; [apply reads_wide; apply (i_reads _ _ I)|apply (i_writes _ _ I)].
Qed.
Print Assumptions C98_apart_reads_latest_partial.
Example C98_apart_reads_latest_ex : (forall reqs, In reqs reqs98a -> modest we3 reqs) /\ apart reqs98a /\ all_steady we3 sched98 (wg_start we3 reqs98a) /\
  exists g, wg_run we3 sched98 (wg_start we3 reqs98a) = WgGo g /\
    results (WgGo g) = [[WOk []; WOk [1;1;1]]; [WOk []; WOk [2;2]; WOk [9;9]]] /\ map w_export (wg_conns g) = [true; true].
Proof.
  split; [exact modest98|]. split; [exact apart98|]. split; [exact steady98|]. gruns. split; vm_compute; reflexivity.
Qed.

(** once such a connection has switched, the pages it uses are in the one file as
    it wrote them last; pages nobody writes stay as found *)
Theorem C98_apart_file_partial : forall e reqss l g k s reqs,
  (forall reqs, In reqs reqss -> modest e reqs) -> apart reqss -> all_steady e l (wg_start e reqss) ->
  wg_run e l (wg_start e reqss) = WgGo g -> nth_error reqss k = Some reqs -> nth_error (wg_conns g) k = Some s -> w_export s = true ->
  forall b, (exists rq, In rq reqs /\ touches rq (b / 4096)) -> wg_file g b = latest e (w_log s) b.
Proof.
  intros e reqss l g k s reqs M A C E R K X b U. destruct (group_inv e reqss l g M A C E) as [G1 G2 _].
  destruct (G2 k reqs s R K) as [_ [t [I S]]]. pose proof (m_log _ _ _ _ S) as EL. pose proof (m_export _ _ _ _ S) as EX.
  change (w_log (lend g s)) with (w_log s) in EL. change (w_export (lend g s)) with (w_export s) in EX. rewrite EL, <- latest_wide.
  rewrite X in EX. symmetry in EX. rewrite <- (file_latest _ _ I EX).
  apply (m_file _ _ _ _ S); [|exact U]. rewrite (proj1 (i_exp _ _ I) EX). discriminate.
Qed.
Print Assumptions C98_apart_file_partial.
Theorem C98_apart_rest_partial : forall e reqss l g b,
  (forall reqs, In reqs reqss -> modest e reqs) -> apart reqss -> all_steady e l (wg_start e reqss) ->
  wg_run e l (wg_start e reqss) = WgGo g ->
  (forall reqs rq, In reqs reqss -> In rq reqs -> ~ rewrites rq (b / 4096)) -> wg_file g b = found e b.
Proof.
  intros e reqss l g b M A C E H. apply (g_rest _ _ _ (group_inv e reqss l g M A C E)). intros reqs I [rq [I2 W]]. exact (H reqs rq I I2 W).
Qed.
Print Assumptions C98_apart_rest_partial.
Example C98_apart_rest_ex : forall reqs rq, In reqs reqs98a -> In rq reqs -> ~ rewrites rq (5 / 4096).
Proof. intros reqs rq [<-|[<-|[]]]; cbn; intros H W; repeat destruct H as [<-|H]; cbn in W; try contradiction; destruct W as [b [B E]]; lia. Qed.
Example C98_apart_file_ex : exists g, wg_run we3 sched98 (wg_start we3 reqs98a) = WgGo g /\ map w_export (wg_conns g) = [true; true] /\
  slice (wg_file g) 4094 4 = [9;9;1;1] /\ slice (wg_file g) 8190 4 = [1;1;2;2].
Proof. gruns. split; vm_compute; auto. Qed.

(** such a group stays within its tables *)
Theorem C98_apart_no_ub_partial : forall e reqss l, reqss <> [] ->
  (forall reqs, In reqs reqss -> modest e reqs) -> apart reqss -> all_steady e l (wg_start e reqss) ->
  wg_run e l (wg_start e reqss) <> WgUb.
Proof.
  intros e reqss l NE M A C E. destruct reqss as [|reqs reqss]; [congruence|].
  assert (L : limits e) by (eapply modest_limits; apply M; now left).
  pose proof (ginv_run e _ L A l _ (ginv_start e _ M) C) as K. rewrite E in K. exact K.
Qed.
Print Assumptions C98_apart_no_ub_partial.
Example C98_apart_no_ub_ex : reqs98a <> [] /\ (forall reqs, In reqs reqs98a -> modest we3 reqs) /\ apart reqs98a /\
  all_steady we3 sched98 (wg_start we3 reqs98a) /\ length sched98 = 53%nat.
Proof. split; [discriminate|]. split; [exact modest98|]. split; [exact apart98|]. split; [exact steady98|reflexivity]. Qed.

(** ** what CAN_MULTI_CONN promises and does not hold *)
(** before the file is there, data written and acknowledged on one connection cannot
    be read on another *)
Definition cross98 : list (list wreq) := [[WWrite 4096 4096 (fill 1) true; WFlush]; [WRead 4096 4]].
Theorem C98_unseen_refuted : exists l g, (forall reqs, In reqs cross98 -> modest we3 reqs) /\ all_steady we3 l (wg_start we3 cross98) /\
  results (wg_run we3 (firstn 3 l) (wg_start we3 cross98)) = [[WOk []; WOk []]; []] /\
  wg_run we3 l (wg_start we3 cross98) = WgGo g /\ results (WgGo g) = [[WOk []; WOk []]; [WErr]].
Proof.
  exists (on 0 3 WReq ++ on 1 2 WReq), (group (wg_run we3 (on 0 3 WReq ++ on 1 2 WReq) (wg_start we3 cross98))).
  split; [intros reqs [<-|[<-|[]]]; (split; [reflexivity|]; split; [vm_compute; discriminate|]; split; [vm_compute; discriminate|]; repeat constructor; cbn; lia)|].
  split; [apply steadyb_ok; vm_compute; reflexivity|]. split; [vm_compute; reflexivity|]. split; [apply gg_group; vm_compute; reflexivity|vm_compute; reflexivity].
Qed.
Print Assumptions C98_unseen_refuted.

(** one connection that switched reads old data, with no error, after another one
    wrote and flushed: the page is still in the other's diff file *)
Definition stale98 : list (list wreq) := [[WWrite 4096 4096 (fill 1) true; WFlush]; [WRead 4096 4]].
Theorem C98_stale_read_refuted : exists l g, all_steady we3 l (wg_start we3 stale98) /\
  results (wg_run we3 (firstn 13 l) (wg_start we3 stale98)) = [[WOk []; WOk []]; []] /\
  wg_run we3 l (wg_start we3 stale98) = WgGo g /\ results (WgGo g) = [[WOk []; WOk []]; [WOk [9;9;9;9]]].
Proof.
  exists (on 1 10 (WCom 4096) ++ on 0 3 WReq ++ on 1 2 WReq), (group (wg_run we3 (on 1 10 (WCom 4096) ++ on 0 3 WReq ++ on 1 2 WReq) (wg_start we3 stale98))).
  split; [apply steadyb_ok; vm_compute; reflexivity|]. split; [vm_compute; reflexivity|]. split; [apply gg_group; vm_compute; reflexivity|vm_compute; reflexivity].
Qed.
Print Assumptions C98_stale_read_refuted.

(** a write acknowledged and read back is undone by an older write of another
    connection, whose process gets to its switch later *)
Definition undo98 : list (list wreq) := [[WWrite 4096 4096 (fill 1) true]; [WWrite 4096 4096 (fill 2) true; WRead 4096 4; WRead 4096 4]].
Definition undo_sched : list (nat * wchoice) :=
  on 0 2 WReq ++ on 1 2 WReq ++ on 1 13 (WCom 4096) ++ on 1 2 WReq ++ on 0 13 (WCom 4096) ++ on 1 2 WReq.
Theorem C98_undone_refuted : exists l g, all_steady we3 l (wg_start we3 undo98) /\
  results (wg_run we3 (firstn 2 l) (wg_start we3 undo98)) = [[WOk []]; []] /\
  wg_run we3 l (wg_start we3 undo98) = WgGo g /\ map w_export (wg_conns g) = [true; true] /\
  results (WgGo g) = [[WOk []]; [WOk []; WOk [2;2;2;2]; WOk [1;1;1;1]]] /\ wg_file g 4096 = 1.
Proof.
  exists undo_sched, (group (wg_run we3 undo_sched (wg_start we3 undo98))).
  split; [apply steadyb_ok; vm_compute; reflexivity|]. split; [vm_compute; reflexivity|]. split; [apply gg_group; vm_compute; reflexivity|].
  split; [vm_compute; reflexivity|]. split; vm_compute; reflexivity.
Qed.
Print Assumptions C98_undone_refuted.
