(** Invariants of the machine of M_Par.v under every schedule. *)
From Verif Require Import Base M_Const M_Disk M_Tree M_Raw M_Par L_Wp L_Raw S_Wire S_Disk L_Wire L_Req L_Plain L_Session L_PlainS S_Par L_Msg L_LogMsg.

(** ** Lists of threads *)
Lemma nth_set_th l t x t' : (t < length l)%nat ->
  nth_error (set_th l t x) t' = if Nat.eqb t' t then Some x else nth_error l t'.
Proof.
  intros Ht. unfold set_th. assert (Hf : length (firstn t l) = t) by (rewrite firstn_length; lia).
  destruct (Nat.eqb t' t) eqn:E.
  - apply Nat.eqb_eq in E. subst t'. rewrite nth_error_app2 by lia. rewrite Hf, Nat.sub_diag. reflexivity.
  - apply Nat.eqb_neq in E. destruct (Nat.lt_ge_cases t' t).
    + rewrite nth_error_app1 by lia.
      rewrite <- (firstn_skipn t l) at 2. rewrite nth_error_app1 by lia. reflexivity.
    + rewrite nth_error_app2 by lia. rewrite Hf. destruct (t' - t)%nat as [|d] eqn:Ed; [lia|]. cbn [nth_error].
      rewrite <- (firstn_skipn (S t) l) at 2. rewrite nth_error_app2; rewrite firstn_length; [|lia].
      f_equal. lia.
Qed.
Lemma set_th_length l t x : (t < length l)%nat -> length (set_th l t x) = length l.
Proof. intros H. unfold set_th. rewrite app_length. cbn [length]. rewrite firstn_length, skipn_length. lia. Qed.
Lemma nth_lt {A} (l : list A) t x : nth_error l t = Some x -> (t < length l)%nat.
Proof. intros E. apply nth_error_Some. congruence. Qed.

Definition none (f : worker -> bool) (th : list worker) : Prop :=
  forall t x, nth_error th t = Some x -> f x = false.
Definition only (f : worker -> bool) (th : list worker) (t : nat) : Prop :=
  forall t' x, nth_error th t' = Some x -> f x = true -> t' = t.
Lemma none_existsb f th : existsb f th = false <-> none f th.
Proof.
  split.
  - intros H t x E. destruct (f x) eqn:Ef; [|reflexivity]. rewrite <- H. symmetry. apply existsb_exists.
    exists x. split; [eapply nth_error_In; eauto|exact Ef].
  - intros H. destruct (existsb f th) eqn:E; [|reflexivity]. apply existsb_exists in E. destruct E as (x & Hi & Hx).
    apply In_nth_error in Hi. destruct Hi as [t Et]. rewrite (H t x Et) in Hx. discriminate.
Qed.

(** What was written so far, given the messages whose turn has begun: all of
    them, or all but the rest the holder still has to write. *)
Definition bytes_ok (f : worker -> bool) (r : worker -> option (list Z)) (th : list worker)
    (out : list Z) (ms : list (list Z)) : Prop :=
  (none f th /\ out = concat ms) \/
  (exists t x rest init m pre, nth_error th t = Some x /\ f x = true /\ only f th t /\
     ms = init ++ [m] /\ m = pre ++ rest /\ out = concat init ++ pre /\
     (forall z, r x = Some z -> z = rest)).

Section Bytes.
  Variables (f : worker -> bool) (r : worker -> option (list Z)).
  Variables (th : list worker) (out : list Z) (ms : list (list Z)) (t : nat) (x x' : worker).
  Hypothesis Hx : nth_error th t = Some x.

  Lemma none_keep : none f th -> f x' = false -> none f (set_th th t x').
  Proof.
    intros H Hf t' y E. rewrite nth_set_th in E by (eapply nth_lt; eauto).
    destruct (Nat.eqb t' t); [injection E as <-; exact Hf|eapply H; eauto].
  Qed.
  Lemma bytes_keep : bytes_ok f r th out ms -> f x = false -> f x' = false -> bytes_ok f r (set_th th t x') out ms.
  Proof.
    intros H H1 H2. pose proof (nth_lt _ _ _ Hx) as Hl. destruct H as [[Hn Ho]|(t0 & x0 & rest & init & m & pre & E & F & O & R)].
    - left. split; [apply none_keep; auto|exact Ho].
    - right. exists t0, x0, rest, init, m, pre. assert (t0 <> t) by congruence.
      rewrite nth_set_th by exact Hl. replace (Nat.eqb t0 t) with false by (symmetry; apply Nat.eqb_neq; assumption).
      split; [exact E|]. split; [exact F|]. split; [|exact R].
      intros t' y E' F'. rewrite nth_set_th in E' by exact Hl. destruct (Nat.eqb t' t) eqn:Et; [congruence|]. eapply O; eauto.
  Qed.
  Lemma bytes_start m : bytes_ok f r th out ms -> none f th -> f x' = true -> r x' = Some m ->
    bytes_ok f r (set_th th t x') out (ms ++ [m]).
  Proof.
    intros H Hn Hf Hr. pose proof (nth_lt _ _ _ Hx) as Hl. right. exists t, x', m, ms, m, [].
    rewrite nth_set_th, Nat.eqb_refl by exact Hl. repeat split; auto.
    - intros t' y E F. rewrite nth_set_th in E by exact Hl. destruct (Nat.eqb t' t) eqn:Et; [apply Nat.eqb_eq, Et|].
      rewrite (Hn _ _ E) in F. discriminate.
    - destruct H as [[_ Ho]|(t0 & x0 & rest & init & m0 & pre & E & F & _)]; [rewrite app_nil_r; exact Ho|].
      rewrite (Hn _ _ E) in F. discriminate.
    - congruence.
  Qed.
  Lemma bytes_holder z : bytes_ok f r th out ms -> f x = true -> r x = Some z ->
    exists init m pre, only f th t /\ ms = init ++ [m] /\ m = pre ++ z /\ out = concat init ++ pre.
  Proof.
    intros H Hf Hr. destruct H as [[Hn _]|(t0 & x0 & rest & init & m & pre & E & F & O & R)].
    - rewrite (Hn _ _ Hx) in Hf. discriminate.
    - assert (t = t0) by (eapply O; eauto). subst t0. assert (x0 = x) by congruence. subst x0.
      destruct R as (R1 & R2 & R3 & R4). rewrite <- (R4 z Hr) in *. exists init, m, pre. auto.
  Qed.
  Lemma only_set f0 : only f0 th t -> only f0 (set_th th t x') t.
  Proof.
    intros O t' y E F. rewrite nth_set_th in E by (eapply nth_lt; eauto).
    destruct (Nat.eqb t' t) eqn:Et; [apply Nat.eqb_eq, Et|]. eapply O; eauto.
  Qed.
  Lemma bytes_put n z : bytes_ok f r th out ms -> f x = true -> r x = Some z ->
    f x' = true -> r x' = Some (skipn n z) -> bytes_ok f r (set_th th t x') (out ++ firstn n z) ms.
  Proof.
    intros H Hf Hr Hf' Hr'. destruct (bytes_holder z H Hf Hr) as (init & m & pre & O & -> & -> & ->).
    right. exists t, x', (skipn n z), init, (pre ++ z), (pre ++ firstn n z).
    rewrite nth_set_th, Nat.eqb_refl by (eapply nth_lt; eauto). split; [reflexivity|]. split; [exact Hf'|].
    split; [apply only_set, O|]. split; [reflexivity|].
    split; [rewrite <- app_assoc, firstn_skipn; reflexivity|]. split; [rewrite app_assoc; reflexivity|congruence].
  Qed.
  Lemma bytes_end : bytes_ok f r th out ms -> f x = true -> r x = Some [] -> f x' = false ->
    bytes_ok f r (set_th th t x') out ms.
  Proof.
    intros H Hf Hr Hf'. destruct (bytes_holder [] H Hf Hr) as (init & m & pre & O & -> & -> & ->).
    left. split.
    - intros t' y E. rewrite nth_set_th in E by (eapply nth_lt; eauto). destruct (Nat.eqb t' t) eqn:Et; [congruence|].
      destruct (f y) eqn:Ey; [|reflexivity]. apply Nat.eqb_neq in Et. exfalso. apply Et. eapply O; eauto.
    - rewrite concat_app. cbn [concat]. rewrite !app_nil_r. reflexivity.
  Qed.
  Lemma bytes_hang z : bytes_ok f r th out ms -> f x = true -> r x = Some z -> f x' = true -> r x' = None ->
    bytes_ok f r (set_th th t x') out ms.
  Proof.
    intros H Hf Hr Hf' Hr'. destruct (bytes_holder z H Hf Hr) as (init & m & pre & O & -> & -> & ->).
    right. exists t, x', z, init, (pre ++ z), pre.
    rewrite nth_set_th, Nat.eqb_refl by (eapply nth_lt; eauto). split; [reflexivity|]. split; [exact Hf'|].
    split; [apply only_set, O|]. split; [reflexivity|]. split; [reflexivity|]. split; [reflexivity|congruence].
  Qed.
End Bytes.
Lemma bytes_add f r th out ms m : bytes_ok f r th out ms -> none f th -> bytes_ok f r th (out ++ m) (ms ++ [m]).
Proof.
  intros H Hn. left. split; [exact Hn|]. rewrite concat_app. cbn [concat]. rewrite app_nil_r.
  destruct H as [[_ ->]|(t0 & x0 & rest & init & m0 & pre & E & F & _)]; [reflexivity|].
  rewrite (Hn _ _ E) in F. discriminate.
Qed.
Lemma bytes_none f r th out ms : bytes_ok f r th out ms -> none f th -> out = concat ms.
Proof.
  intros [[_ ->]|(t0 & x0 & rest & init & m0 & pre & E & F & _)] Hn; [reflexivity|].
  rewrite (Hn _ _ E) in F. discriminate.
Qed.

Definition rest_send (x : worker) : option (list Z) := match x with WSend _ _ r _ => Some r | _ => None end.
Definition rest_log (x : worker) : option (list Z) := match x with WLog _ _ r _ => Some r | _ => None end.
(** the request a thread works on, and the code it has still to run *)
Definition wid (x : worker) : option nat :=
  match x with WIdle => None | WRun i _ _ | WSend i _ _ _ | WLog i _ _ _ | WHung i => Some i end.
Definition wcode (x : worker) : option (P unit) :=
  match x with WRun _ _ p | WSend _ _ _ p | WLog _ _ _ p => Some p | _ => None end.

(** messages and records of request number [i] *)
Definition of_id (i : nat) (l : list (nat * list Z)) : list (list Z) :=
  map snd (filter (fun x => Nat.eqb (fst x) i) l).
Definition is_some (i : nat) (o : option nat) : bool := match o with Some j => Nat.eqb j i | None => false end.
Definition of_rec (i : nat) (l : list (option nat * list Z)) : list (list Z) :=
  map snd (filter (fun x => is_some i (fst x)) l).
Lemma of_id_app i l l' : of_id i (l ++ l') = of_id i l ++ of_id i l'.
Proof. unfold of_id. rewrite filter_app, map_app. reflexivity. Qed.
Lemma of_rec_app i l l' : of_rec i (l ++ l') = of_rec i l ++ of_rec i l'.
Proof. unfold of_rec. rewrite filter_app, map_app. reflexivity. Qed.
Lemma of_id_same i m : of_id i [(i, m)] = [m].
Proof. unfold of_id. cbn. rewrite Nat.eqb_refl. reflexivity. Qed.
Lemma of_id_other i j m : i <> j -> of_id i [(j, m)] = [].
Proof. intros H. unfold of_id. cbn. replace (Nat.eqb j i) with false by (symmetry; apply Nat.eqb_neq; auto). reflexivity. Qed.
Lemma of_rec_same i m : of_rec i [(Some i, m)] = [m].
Proof. unfold of_rec. cbn. rewrite Nat.eqb_refl. reflexivity. Qed.
Lemma of_rec_other i j m : i <> j -> of_rec i [(Some j, m)] = [].
Proof. intros H. unfold of_rec. cbn. replace (Nat.eqb j i) with false by (symmetry; apply Nat.eqb_neq; auto). reflexivity. Qed.
Lemma of_rec_reader i m : of_rec i [(None, m)] = [].
Proof. reflexivity. Qed.

Section Sched.
  Variable st lg : bool.
  Variable c : client.
  Hypothesis Hpos : st = true -> forall a, 0 <= a < c_size c -> forall w,
    exists h o mb, get_filepos c a w = Ret (Some (h, o, mb)) w /\ 0 <= mb.
  Hypothesis Hplain : st = true ->
    cflag c F_TREEFILES = false /\ cflag c F_WAIT = false /\ cflag c F_COPYONWRITE = false.
  Hypothesis Hexp : st = true -> exists fi fis, c_export c = Some (fi :: fis).
  Hypothesis Hrx : st = true -> no_splice_tls c.
  Hypothesis Hsz : 0 <= c_size c <= 9223372036854775807.
  Variables (qs : list wreq) (tail : list Z) (e : stream_end).
  Hypothesis Hqs : Forall wreq_ok qs.
  Hypothesis Hnd : Forall (fun q => q_type q <> 2) qs.
  Hypothesis Hstop : stops tail e.

  (** ** Requests and answers *)
  Definition finished (q : wreq) (i : nat) (s : sys) : Prop :=
    complete q (of_id i (y_msgs s)) /\
    (lg = true -> of_rec i (y_recs s) = map head_of (of_id i (y_msgs s))).
  Definition underway (q : wreq) (i : nat) (p : P unit) (s : sys) : Prop :=
    pspec (said q) st p (of_id i (y_msgs s)) (fun _ ms => complete q ms) /\
    (lg = true -> lspec p (of_id i (y_msgs s)) (of_rec i (y_recs s)) balanced).

  Definition taken (s : sys) : nat := (y_next s - length (y_q s))%nat.
  Record core (s : sys) : Prop := mkCore {
    k_len : length (y_hist s) = y_next s;
    k_hist : forall i rq p, nth_error (y_hist s) i = Some (rq, p) ->
        exists q, nth_error qs i = Some q /\ rq = mreq q /\ payload_ok q p;
    k_q : map (fun x => fst (fst x)) (y_q s) = seq (taken s) (length (y_q s));
    k_qlen : (length (y_q s) <= y_next s)%nat;
    k_qh : forall i rq p, In (i, rq, p) (y_q s) -> nth_error (y_hist s) i = Some (rq, p);
    k_new : forall i, (taken s <= i)%nat -> of_id i (y_msgs s) = [] /\ of_rec i (y_recs s) = [];
    k_th : forall t x i, nth_error (y_th s) t = Some x -> wid x = Some i -> (i < taken s)%nat;
    k_code : forall t x i p q, nth_error (y_th s) t = Some x -> wid x = Some i -> wcode x = Some p ->
        nth_error qs i = Some q -> underway q i p s;
    k_dis : forall t1 t2 x1 x2 i, nth_error (y_th s) t1 = Some x1 -> nth_error (y_th s) t2 = Some x2 ->
        wid x1 = Some i -> wid x2 = Some i -> t1 = t2;
    k_done : forall i q, (i < taken s)%nat -> nth_error qs i = Some q ->
        (forall t x, nth_error (y_th s) t = Some x -> wid x <> Some i) -> finished q i s
  }.

  (** nothing that [core] speaks about has changed *)
  Lemma core_same s s' : core s -> y_hist s' = y_hist s -> y_next s' = y_next s -> y_q s' = y_q s ->
    y_th s' = y_th s -> y_msgs s' = y_msgs s -> (forall i, of_rec i (y_recs s') = of_rec i (y_recs s)) -> core s'.
  Proof.
    intros K H1 H2 H3 H4 H5 H6. destruct K as [K1 K2 K3 K4 K5 K6 K7 K8 K9 K10].
    constructor; unfold finished, underway, taken in *; rewrite ?H1, ?H2, ?H3, ?H4, ?H5; auto.
    - intros i Hi. rewrite H6. auto.
    - intros t x i p q. rewrite H6. eauto.
    - intros i q. rewrite H6. eauto.
  Qed.

  (** thread [t], working on request [i], goes on *)
  Lemma core_move s s' t x x' i : core s -> nth_error (y_th s) t = Some x -> wid x = Some i ->
    y_hist s' = y_hist s -> y_next s' = y_next s -> y_q s' = y_q s -> y_th s' = set_th (y_th s) t x' ->
    (forall j, j <> i -> of_id j (y_msgs s') = of_id j (y_msgs s)) ->
    (forall j, j <> i -> of_rec j (y_recs s') = of_rec j (y_recs s)) ->
    (wid x' = Some i /\ forall p q, wcode x' = Some p -> nth_error qs i = Some q -> underway q i p s') \/
    (wid x' = None /\ forall q, nth_error qs i = Some q -> finished q i s') ->
    core s'.
  Proof.
    intros K Hx Hi H1 H2 H3 H4 H5 H6 Hc. destruct K as [K1 K2 K3 K4 K5 K6 K7 K8 K9 K10].
    pose proof (K7 _ _ _ Hx Hi) as Hlt. pose proof (nth_lt _ _ _ Hx) as Ht.
    assert (Hn : forall t', nth_error (y_th s') t' = if Nat.eqb t' t then Some x' else nth_error (y_th s) t').
    { intros t'. rewrite H4. apply nth_set_th, Ht. }
    assert (Htk : taken s' = taken s) by (unfold taken; rewrite H2, H3; reflexivity).
    assert (Hu : forall q j p, j <> i -> underway q j p s -> underway q j p s').
    { intros q j p Hj. unfold underway. rewrite H5, H6 by exact Hj. auto. }
    constructor; rewrite ?Htk, ?H1, ?H2, ?H3; auto.
    - intros j Hj. assert (j <> i) by lia. rewrite H5, H6 by assumption. auto.
    - intros t' y j E Ej. rewrite Hn in E. destruct (Nat.eqb t' t); [|eauto]. injection E as <-.
      destruct Hc as [[Hw _]|[Hw _]]; [|congruence]. assert (j = i) by congruence. subst j. exact Hlt.
    - intros t' y j p q E Ej Ep Eq. rewrite Hn in E. destruct (Nat.eqb t' t) eqn:Et.
      + injection E as <-. destruct Hc as [[Hw Hc]|[Hw _]]; [|congruence]. assert (j = i) by congruence. subst j. auto.
      + apply Nat.eqb_neq in Et. apply Hu; [|eauto]. intros ->. apply Et. eapply K9; eauto.
    - intros t1 t2 x1 x2 j E1 E2 W1 W2. rewrite Hn in E1, E2.
      assert (Hold : forall t0 x0, nth_error (y_th s) t0 = Some x0 -> wid x0 = Some i -> t0 = t) by (intros; eapply K9; eauto).
      assert (Hx' : wid x' = Some j -> j = i) by (destruct Hc as [[Hw _]|[Hw _]]; congruence).
      destruct (Nat.eqb t1 t) eqn:Q1, (Nat.eqb t2 t) eqn:Q2.
      + apply Nat.eqb_eq in Q1, Q2. congruence.
      + injection E1 as <-. rewrite (Hx' W1) in *. apply Nat.eqb_neq in Q2. exfalso. apply Q2. eapply Hold; eauto.
      + injection E2 as <-. rewrite (Hx' W2) in *. apply Nat.eqb_neq in Q1. exfalso. apply Q1. eapply Hold; eauto.
      + eapply K9; eauto.
    - intros j q Hj Eq Hno. destruct (Nat.eq_dec j i) as [->|Hne].
      + destruct Hc as [[Hw _]|[_ Hc]]; [|auto]. exfalso.
        apply (Hno t x'); [rewrite Hn, Nat.eqb_refl; reflexivity|exact Hw].
      + unfold finished. rewrite H5, H6 by exact Hne. apply K10; auto. intros t' y E.
        intros Ey. destruct (Nat.eq_dec t' t) as [->|Ht'].
        * congruence.
        * apply (Hno t' y); [|exact Ey]. rewrite Hn. replace (Nat.eqb t' t) with false by (symmetry; apply Nat.eqb_neq, Ht'). exact E.
  Qed.

  (** a thread takes the first package *)
  Lemma core_take s t i rq p q0 : core s -> nth_error (y_th s) t = Some WIdle -> y_q s = (i, rq, p) :: q0 ->
    forall er, core (y_setth t (WRun i er (p_handle_request lg c rq p)) (y_setq q0 s)).
  Proof.
    intros K Hx Eq er. destruct K as [K1 K2 K3 K4 K5 K6 K7 K8 K9 K10].
    rewrite Eq in *. cbn [map length fst] in *. 
    assert (Hi : i = taken s). { cbn [seq] in K3. injection K3 as E _. exact E. }
    pose proof (nth_lt _ _ _ Hx) as Ht.
    set (s' := y_setth t (WRun i er (p_handle_request lg c rq p)) (y_setq q0 s)).
    assert (Htk : taken s' = S (taken s)).
    { unfold taken, s'. cbn [y_setth y_setq y_next y_q]. rewrite Eq. cbn [length]. lia. }
    assert (Hn : forall t', nth_error (y_th s') t' = if Nat.eqb t' t then Some (WRun i er (p_handle_request lg c rq p)) else nth_error (y_th s) t').
    { intros t'. unfold s'. cbn [y_setth y_setq y_th]. apply nth_set_th, Ht. }
    pose proof (K6 i ltac:(lia)) as [M0 R0].
    assert (Hh : nth_error (y_hist s) i = Some (rq, p)) by (apply K5; left; reflexivity).
    constructor; rewrite ?Htk; unfold s' in *; cbn [y_setth y_setq y_hist y_next y_q y_msgs y_recs] in *; auto.
    - cbn [seq] in K3. injection K3 as _ E. exact E.
    - lia.
    - intros j rq' p' Hin. apply K5. right. exact Hin.
    - intros j Hj. apply K6. lia.
    - intros t' y j E Ej. rewrite Hn in E. destruct (Nat.eqb t' t); [injection E as <-; cbn in Ej; injection Ej as <-; lia|].
      specialize (K7 _ _ _ E Ej). lia.
    - intros t' y j p' q E Ej Ep Eqq. rewrite Hn in E. destruct (Nat.eqb t' t) eqn:Et.
      + injection E as <-. cbn in Ej, Ep. injection Ej as <-. injection Ep as <-.
        destruct (K2 _ _ _ Hh) as (q' & Eq' & -> & Hp). assert (q' = q) by congruence. subst q'.
        assert (Hq : wreq_ok q) by (rewrite Forall_forall in Hqs; apply Hqs; eapply nth_error_In; eauto).
        unfold underway. cbn [y_setth y_setq y_msgs y_recs]. rewrite M0, R0. split.
        * apply sp_handle_request; auto. intros _ Hc1 Hp0. destruct (Hp Hc1); congruence.
        * intros Hlg. rewrite Hlg. apply bal_handle_request; [|reflexivity]. apply Hq.
      + change (underway q j p' s). eapply K8; eauto.
    - intros t1 t2 x1 x2 j E1 E2 W1 W2. rewrite Hn in E1, E2.
      assert (Hold : forall t0 x0, nth_error (y_th s) t0 = Some x0 -> wid x0 <> Some i).
      { intros t0 x0 E0 W0. specialize (K7 _ _ _ E0 W0). lia. }
      destruct (Nat.eqb t1 t) eqn:Q1, (Nat.eqb t2 t) eqn:Q2.
      + apply Nat.eqb_eq in Q1, Q2. congruence.
      + injection E1 as <-. injection W1 as <-. exfalso. eapply Hold; eauto.
      + injection E2 as <-. injection W2 as <-. exfalso. eapply Hold; eauto.
      + eapply K9; eauto.
    - intros j q Hj Eqq Hno. destruct (Nat.eq_dec j i) as [->|Hne].
      + exfalso. apply (Hno t (WRun i er (p_handle_request lg c rq p))); [rewrite Hn, Nat.eqb_refl|]; reflexivity.
      + change (finished q j s). apply K10; [lia|exact Eqq|]. intros t' y E Ey. apply (Hno t' y); [|exact Ey].
        rewrite Hn. destruct (Nat.eqb t' t) eqn:Et; [|exact E]. apply Nat.eqb_eq in Et. subst t'.
        assert (y = WIdle) by congruence. subst y. discriminate.
  Qed.

  (** the reading thread queues a package *)
  Lemma core_push s q p : core s -> nth_error qs (y_next s) = Some q -> payload_ok q p ->
    core (y_push (mreq q) p s).
  Proof.
    intros K Eq Hp. destruct K as [K1 K2 K3 K4 K5 K6 K7 K8 K9 K10].
    set (s' := y_push (mreq q) p s).
    assert (Htk : taken s' = taken s).
    { unfold taken, s'. cbn [y_push y_next y_q]. rewrite app_length. cbn [length]. lia. }
    constructor; rewrite ?Htk; unfold s' in *; cbn [y_push y_hist y_next y_q y_msgs y_recs y_th] in *; auto.
    - rewrite app_length. cbn [length]. lia.
    - intros i rq p' E. destruct (Nat.lt_ge_cases i (length (y_hist s))) as [Hlt|Hge].
      + rewrite nth_error_app1 in E by exact Hlt. eauto.
      + rewrite nth_error_app2 in E by exact Hge. destruct (i - length (y_hist s))%nat as [|d] eqn:Ed; [|destruct d; discriminate].
        cbn in E. injection E as <- <-. exists q. replace i with (y_next s) by lia. auto.
    - rewrite map_app, app_length, K3. cbn [map length fst]. rewrite seq_app. cbn [seq].
      replace (taken s + length (y_q s))%nat with (y_next s) by (unfold taken; lia). reflexivity.
    - rewrite app_length. cbn [length]. lia.
    - intros i rq p' Hin. apply in_app_iff in Hin. destruct Hin as [Hin|[E|[]]].
      + pose proof (K5 _ _ _ Hin) as E. rewrite nth_error_app1 by (eapply nth_lt; eauto). exact E.
      + injection E as <- <- <-. rewrite nth_error_app2 by lia. rewrite K1, Nat.sub_diag. reflexivity.
  Qed.

  (** ** The reading thread *)
  Definition held (hdr : list Z) : bool :=
    lg && ((cmd_of (snd (decode_request hdr)) =? NBD_CMD_WRITE) && cflag c F_DATALOG && negb (cflag c F_SPLICE)).
  Definition todo (s : sys) : list wreq := skipn (y_next s) qs.
  Definition rest_of (l : list wreq) : list Z := concat (map encode l) ++ tail.
  Definition at_header (s : sys) (hdr : list Z) : Prop :=
    (exists q l, todo s = q :: l /\ hdr = header q /\ y_in s = q_data q ++ rest_of l) \/
    (todo s = [] /\ tail = hdr ++ y_in s /\ length hdr = 28%nat).
  Definition rd_ok (s : sys) : Prop :=
    (y_next s <= length qs)%nat /\
    match y_rd s with
    | RHead => y_in s = rest_of (todo s)
    | RLog hdr => at_header s hdr
    | RDecode hdr h => h = held hdr /\ at_header s hdr
    | RPayload rq h =>
        exists q, rq = mreq q /\ q_cmd q = 1 /\ h = held (header q) /\
          ((exists l, todo s = q :: l /\ y_in s = q_data q ++ rest_of l) \/
           (todo s = [] /\ tail = header q ++ y_in s /\ length (q_cookie q) = 8%nat /\ zlen (y_in s) < q_len q /\ e = StopCut))
    | RLogData rq p d h =>
        exists q l, todo s = q :: l /\ rq = mreq q /\ q_cmd q = 1 /\ h = held (header q) /\
          payload_ok q p /\ d = q_data q /\ y_in s = rest_of l
    | RPush rq p => exists q l, todo s = q :: l /\ rq = mreq q /\ payload_ok q p /\ y_in s = rest_of l
    | RJoin d h => todo s = [] /\ (d = true -> h = false /\ e = StopDisc (y_in s)) /\ (d = false -> e = StopCut) /\
                   (h = true -> lg = true /\ cflag c F_DATALOG = true /\ e = StopCut)
    | RDone d => todo s = [] /\ (d = true -> e = StopDisc (y_in s)) /\ (d = false -> e = StopCut)
    end.

  (** ** The log *)
  Inductive lent := LReq (q : wreq) | LLast (hdr : list Z) | LRep (i : nat) (m : list Z).
  Definition ent_recs (x : lent) : list (option nat * list Z) :=
    match x with
    | LReq q => (None, header q) :: (if held (header q) then [(None, q_data q)] else [])
    | LLast hdr => [(None, hdr)]
    | LRep i m => [(Some i, m)]
    end.
  Definition hdr_of (rq : request) : list Z := header (mkWreq (rq_type rq) (rq_cookie rq) (rq_from rq) (rq_len rq) []).
  Definition is_item (x : lent) : bool := match x with LRep _ _ => false | _ => true end.
  Definition last_items : list lent := if zlen tail <? 28 then [] else [LLast (firstn 28 tail)].
  Definition items_now (s : sys) (open : list (option nat * list Z)) (cur : list lent) : Prop :=
    match y_rd s with
    | RHead | RLog _ => open = [] /\ cur = []
    | RDecode hdr h =>
        if h then open = [(None, hdr)] /\ cur = []
        else open = [] /\ cur = match todo s with q :: _ => [LReq q] | [] => [LLast hdr] end
    | RPayload rq h =>
        if h then open = [(None, hdr_of rq)] /\ cur = []
        else open = [] /\ cur = match todo s with q :: _ => [LReq q] | [] => [LLast (hdr_of rq)] end
    | RLogData rq _ _ h =>
        if h then open = match todo s with q :: _ => [(None, header q)] | [] => [] end /\ cur = []
        else open = [] /\ cur = match todo s with q :: _ => [LReq q] | [] => [] end
    | RPush _ _ => open = [] /\ cur = match todo s with q :: _ => [LReq q] | [] => [] end
    | RJoin _ _ | RDone _ => open = [] /\ cur = last_items
    end.
  Definition log_ok (s : sys) : Prop :=
    bytes_ok holds_sem rest_log (y_th s) (y_log s) (map snd (y_recs s)) /\
    (rd_sem (y_rd s) = true -> none holds_sem (y_th s)) /\
    (lg = true -> exists es open cur, y_recs s = concat (map ent_recs es) ++ open /\
       filter is_item es = map LReq (firstn (y_next s) qs) ++ cur /\ items_now s open cur).

  Record good (s : sys) : Prop := mkGood {
    g_core : core s;
    g_out : bytes_ok holds_lock rest_send (y_th s) (y_out s) (map snd (y_msgs s));
    g_rd : rd_ok s;
    g_log : log_ok s;
    g_done : forall d, y_rd s = RDone d -> y_q s = [] /\ none (fun x => negb (is_idle x)) (y_th s)
  }.

  (** ** Pool threads *)
  Lemma items_open s open cur : rd_sem (y_rd s) = false -> items_now s open cur -> open = [].
  Proof.
    unfold items_now. destruct (y_rd s); cbn [rd_sem]; intros E H; try (rewrite E in H); apply H.
  Qed.

  (** thread [t] changes to [x'], everything else as given *)
  Lemma good_move s s' t x x' i :
    good s -> nth_error (y_th s) t = Some x -> wid x = Some i ->
    y_in s' = y_in s -> y_rd s' = y_rd s ->
    y_hist s' = y_hist s -> y_next s' = y_next s -> y_q s' = y_q s -> y_th s' = set_th (y_th s) t x' ->
    core s' -> bytes_ok holds_lock rest_send (y_th s') (y_out s') (map snd (y_msgs s')) ->
    bytes_ok holds_sem rest_log (y_th s') (y_log s') (map snd (y_recs s')) ->
    (holds_sem x = false -> holds_sem x' = true -> rd_sem (y_rd s) = false) ->
    (y_recs s' = y_recs s \/ (rd_sem (y_rd s) = false /\ exists m, y_recs s' = y_recs s ++ [(Some i, m)])) ->
    good s'.
  Proof.
    intros G Hx Hi Ein Erd Eh En Eq Eth K Bo Bl Hsem Hrec. destruct G as [_ _ Gr (L1 & L2 & L3) Gd].
    assert (Htodo : todo s' = todo s) by (unfold todo; rewrite En; reflexivity).
    constructor; auto.
    - unfold rd_ok, at_header in *. rewrite Erd, En, Ein, Htodo. exact Gr.
    - split; [exact Bl|]. rewrite Erd, En. split.
      + intros Hr. rewrite Eth. apply none_keep with (x := x); [exact Hx|auto|].
        pose proof (L2 Hr _ _ Hx) as Hf. destruct (holds_sem x') eqn:E'; [|reflexivity].
        rewrite (Hsem Hf eq_refl) in Hr. discriminate.
      + intros Hlg. destruct (L3 Hlg) as (es & open & cur & E1 & E2 & E3).
        assert (HI : forall o k, items_now s o k -> items_now s' o k).
        { intros o k. unfold items_now. rewrite Erd, Htodo. auto. }
        destruct Hrec as [->|(Hr & m & ->)].
        * exists es, open, cur. auto.
        * pose proof (items_open _ _ _ Hr E3) as ->. exists (es ++ [LRep i m]), [], cur.
          rewrite map_app, concat_app, filter_app. cbn. rewrite !app_nil_r in *. rewrite E1. auto.
    - intros d Ed. rewrite Erd in Ed. destruct (Gd d Ed) as [_ Hidle]. specialize (Hidle _ _ Hx).
      destruct x; try discriminate.
  Qed.

  Lemma th_wid s t x i : core s -> nth_error (y_th s) t = Some x -> wid x = Some i -> exists q, nth_error qs i = Some q.
  Proof.
    intros K Hx Hi. destruct K as [K1 K2 K3 K4 K5 K6 K7 K8 K9 K10]. specialize (K7 _ _ _ Hx Hi). unfold taken in K7.
    destruct (nth_error (y_hist s) i) as [[rq p]|] eqn:E.
    - destruct (K2 _ _ _ E) as (q & Eq & _). eauto.
    - apply nth_error_None in E. lia.
  Qed.

  Definition after (r : sout) : Prop :=
    match r with
    | SGo s' => good s'
    | SNot => True
    | SUb => st = false
    | SExit s' => good s'
    end.

  Lemma lock_free_none s : lock_free s = true -> none holds_lock (y_th s).
  Proof. intros H. apply none_existsb. apply negb_true_iff, H. Qed.
  Lemma sem_free_none s : sem_free s = true -> none holds_sem (y_th s) /\ rd_sem (y_rd s) = false.
  Proof.
    intros H. unfold sem_free in H. apply andb_true_iff in H. destruct H as [H1 H2].
    split; [apply none_existsb, negb_true_iff, H1|apply negb_true_iff, H2].
  Qed.

  Lemma good_w w' s : good s -> good (y_setw w' s).
  Proof.
    intros [K B R L D]. constructor; try assumption.
    apply core_same with (s := s); auto.
  Qed.

  Theorem worker_good t n s : good s -> after (worker_step lg c t n s).
  Proof.
    intros G. pose proof (g_core _ G) as K. pose proof (g_out _ G) as Bo. pose proof (proj1 (g_log _ G)) as Bl.
    unfold worker_step. destruct (nth_error (y_th s) t) as [x|] eqn:Hx; [|exact I].
    destruct x as [|i er p|i er rest p|i er rest p|i].
    - (* takes a package *)
      destruct (y_q s) as [|[[i rq] p] q0] eqn:Eq; [exact I|]. cbn [after].
      destruct G as [_ _ Gr (L1 & L2 & L3) Gd].
      constructor.
      + apply core_take; auto.
      + apply (bytes_keep holds_lock rest_send _ _ _ t WIdle _ Hx Bo); reflexivity.
      + exact Gr.
      + split; [apply (bytes_keep holds_sem rest_log _ _ _ t WIdle _ Hx Bl); reflexivity|]. split; [|exact L3].
        intros Hr. apply none_keep with (x := WIdle); auto.
      + intros d Ed. change (y_rd s = RDone d) in Ed. destruct (Gd d Ed) as [Hq _]. congruence.
    - destruct (th_wid _ _ _ _ K Hx eq_refl) as [q Hq].
      pose proof (k_code _ K _ _ _ _ _ Hx eq_refl eq_refl Hq) as [U1 U2].
      destruct p as [a|X m k|m k|m k]; cbn [pspec lspec] in U1, U2.
      + (* ends *)
        cbn [after]. match goal with |- good ?s' => refine (good_move s s' t (WRun i er (PRet a)) (WIdle) i G Hx eq_refl eq_refl eq_refl eq_refl eq_refl eq_refl eq_refl _ _ _ _ _) end.
        * match goal with |- core ?s' => refine (core_move s s' t (WRun i er (PRet a)) (WIdle) i K Hx eq_refl eq_refl eq_refl eq_refl eq_refl (fun _ _ => eq_refl) (fun _ _ => eq_refl) _) end.
          right. split; [reflexivity|]. intros q' Hq'. assert (q' = q) by congruence. subst q'. split; [exact U1|exact U2].
        * apply (bytes_keep _ _ _ _ _ t (WRun i er (PRet a)) _ Hx Bo); reflexivity.
        * apply (bytes_keep _ _ _ _ _ t (WRun i er (PRet a)) _ Hx Bl); reflexivity.
        * intros _ E. discriminate.
        * left. reflexivity.
      + (* one step *)
        specialize (U1 (set_errno er (y_w s))).
        assert (U2' : lg = true -> match m (set_errno er (y_w s)) with Ret a _ => lspec (k a) (of_id i (y_msgs s)) (of_rec i (y_recs s)) balanced | _ => True end)
          by (intros Hl; apply (U2 Hl)).
        destruct (m (set_errno er (y_w s))) as [a w'| |w'|]; cbn [after].
        * match goal with |- good ?s' => refine (good_move s s' t (WRun i er (PAct X m k)) (WRun i (w_errno w') (k a)) i G Hx eq_refl eq_refl eq_refl eq_refl eq_refl eq_refl eq_refl _ _ _ _ _) end.
          -- match goal with |- core ?s' => refine (core_move s s' t (WRun i er (PAct X m k)) (WRun i (w_errno w') (k a)) i K Hx eq_refl eq_refl eq_refl eq_refl eq_refl (fun _ _ => eq_refl) (fun _ _ => eq_refl) _) end.
             left. split; [reflexivity|]. intros p' q' E Hq'. injection E as <-. assert (q' = q) by congruence. subst q'.
             split; [exact U1|exact U2'].
          -- apply (bytes_keep _ _ _ _ _ t (WRun i er (PAct X m k)) _ Hx Bo); reflexivity.
          -- apply (bytes_keep _ _ _ _ _ t (WRun i er (PAct X m k)) _ Hx Bl); reflexivity.
          -- intros _ E. discriminate.
          -- left. reflexivity.
        * exact U1.
        * apply good_w, G.
        * exact G.
      + (* takes client->lock *)
        destruct (lock_free s) eqn:El; [|exact I]. apply lock_free_none in El. cbn [after].
        match goal with |- good ?s' => refine (good_move s s' t (WRun i er (PSend m k)) (WSend i er m k) i G Hx eq_refl eq_refl eq_refl eq_refl eq_refl eq_refl eq_refl _ _ _ _ _) end.
        * match goal with |- core ?s' => refine (core_move s s' t (WRun i er (PSend m k)) (WSend i er m k) i K Hx eq_refl eq_refl eq_refl eq_refl eq_refl _ _ _) end.
          -- intros j Hj. cbn [y_addmsg y_setth y_msgs]. rewrite of_id_app, of_id_other by exact Hj. apply app_nil_r.
          -- intros j Hj. reflexivity.
          -- left. split; [reflexivity|]. intros p' q' E Hq'. injection E as <-. assert (q' = q) by congruence. subst q'.
             unfold underway. cbn [y_addmsg y_setth y_msgs y_recs]. rewrite of_id_app, of_id_same. split; [exact (proj2 U1)|exact U2].
        * cbn [y_addmsg y_setth y_msgs y_th y_out]. rewrite map_app.
          apply (bytes_start _ _ _ _ _ t (WRun i er (PSend m k)) _ Hx m Bo El); reflexivity.
        * apply (bytes_keep _ _ _ _ _ t (WRun i er (PSend m k)) _ Hx Bl); reflexivity.
        * intros _ E. discriminate.
        * left. reflexivity.
      + (* takes the log semaphore *)
        destruct (sem_free s) eqn:El; [|exact I]. apply sem_free_none in El. destruct El as [El Er]. cbn [after].
        match goal with |- good ?s' => refine (good_move s s' t (WRun i er (PLog m k)) (WLog i er m k) i G Hx eq_refl eq_refl eq_refl eq_refl eq_refl eq_refl eq_refl _ _ _ _ _) end.
        * match goal with |- core ?s' => refine (core_move s s' t (WRun i er (PLog m k)) (WLog i er m k) i K Hx eq_refl eq_refl eq_refl eq_refl eq_refl _ _ _) end.
          -- intros j Hj. reflexivity.
          -- intros j Hj. cbn [y_addrec y_setth y_recs]. rewrite of_rec_app, of_rec_other by exact Hj. apply app_nil_r.
          -- left. split; [reflexivity|]. intros p' q' E Hq'. injection E as <-. assert (q' = q) by congruence. subst q'.
             unfold underway. cbn [y_addrec y_setth y_msgs y_recs]. rewrite of_rec_app, of_rec_same. split; [exact U1|exact U2].
        * apply (bytes_keep _ _ _ _ _ t (WRun i er (PLog m k)) _ Hx Bo); reflexivity.
        * cbn [y_addrec y_setth y_recs y_th y_log]. rewrite map_app.
          apply (bytes_start _ _ _ _ _ t (WRun i er (PLog m k)) _ Hx m Bl El); reflexivity.
        * intros _ _. exact Er.
        * right. split; [exact Er|]. exists m. reflexivity.
    - (* writes to the socket *)
      destruct (th_wid _ _ _ _ K Hx eq_refl) as [q Hq].
      pose proof (k_code _ K _ _ _ _ _ Hx eq_refl eq_refl Hq) as U.
      destruct rest as [|b rest]; cbn [after].
      + match goal with |- good ?s' => refine (good_move s s' t (WSend i er [] p) (WRun i er p) i G Hx eq_refl eq_refl eq_refl eq_refl eq_refl eq_refl eq_refl _ _ _ _ _) end.
        * match goal with |- core ?s' => refine (core_move s s' t (WSend i er [] p) (WRun i er p) i K Hx eq_refl eq_refl eq_refl eq_refl eq_refl (fun _ _ => eq_refl) (fun _ _ => eq_refl) _) end.
          left. split; [reflexivity|]. intros p' q' E Hq'. injection E as <-. assert (q' = q) by congruence. subst q'. exact U.
        * apply (bytes_end _ _ _ _ _ t (WSend i er [] p) _ Hx Bo); reflexivity.
        * apply (bytes_keep _ _ _ _ _ t (WSend i er [] p) _ Hx Bl); reflexivity.
        * intros _ E. discriminate.
        * left. reflexivity.
      + set (k := Nat.max 1 (Nat.min n (length (b :: rest)))). set (r := b :: rest) in *.
        match goal with |- good ?s' => refine (good_move s s' t (WSend i er r p) (WSend i er (skipn k r) p) i G Hx eq_refl eq_refl eq_refl eq_refl eq_refl eq_refl eq_refl _ _ _ _ _) end.
        * match goal with |- core ?s' => refine (core_move s s' t (WSend i er r p) (WSend i er (skipn k r) p) i K Hx eq_refl eq_refl eq_refl eq_refl eq_refl (fun _ _ => eq_refl) (fun _ _ => eq_refl) _) end.
          left. split; [reflexivity|]. intros p' q' E Hq'. injection E as <-. assert (q' = q) by congruence. subst q'. exact U.
        * apply (bytes_put _ _ _ _ _ t (WSend i er r p) _ Hx k r Bo); reflexivity.
        * apply (bytes_keep _ _ _ _ _ t (WSend i er r p) _ Hx Bl); reflexivity.
        * intros _ E. discriminate.
        * left. reflexivity.
    - (* writes to the log *)
      destruct (th_wid _ _ _ _ K Hx eq_refl) as [q Hq].
      pose proof (k_code _ K _ _ _ _ _ Hx eq_refl eq_refl Hq) as U.
      destruct rest as [|b rest]; cbn [after].
      + match goal with |- good ?s' => refine (good_move s s' t (WLog i er [] p) (WRun i er p) i G Hx eq_refl eq_refl eq_refl eq_refl eq_refl eq_refl eq_refl _ _ _ _ _) end.
        * match goal with |- core ?s' => refine (core_move s s' t (WLog i er [] p) (WRun i er p) i K Hx eq_refl eq_refl eq_refl eq_refl eq_refl (fun _ _ => eq_refl) (fun _ _ => eq_refl) _) end.
          left. split; [reflexivity|]. intros p' q' E Hq'. injection E as <-. assert (q' = q) by congruence. subst q'. exact U.
        * apply (bytes_keep _ _ _ _ _ t (WLog i er [] p) _ Hx Bo); reflexivity.
        * apply (bytes_end _ _ _ _ _ t (WLog i er [] p) _ Hx Bl); reflexivity.
        * intros _ E. discriminate.
        * left. reflexivity.
      + set (k := Nat.max 1 (Nat.min n (length (b :: rest)))). set (r := b :: rest) in *.
        match goal with |- good ?s' => refine (good_move s s' t (WLog i er r p) (WLog i er (skipn k r) p) i G Hx eq_refl eq_refl eq_refl eq_refl eq_refl eq_refl eq_refl _ _ _ _ _) end.
        * match goal with |- core ?s' => refine (core_move s s' t (WLog i er r p) (WLog i er (skipn k r) p) i K Hx eq_refl eq_refl eq_refl eq_refl eq_refl (fun _ _ => eq_refl) (fun _ _ => eq_refl) _) end.
          left. split; [reflexivity|]. intros p' q' E Hq'. injection E as <-. assert (q' = q) by congruence. subst q'. exact U.
        * apply (bytes_keep _ _ _ _ _ t (WLog i er r p) _ Hx Bo); reflexivity.
        * apply (bytes_put _ _ _ _ _ t (WLog i er r p) _ Hx k r Bl); reflexivity.
        * intros E. discriminate.
        * left. reflexivity.
    - exact I.
  Qed.

  Lemma fail_good t s : good s -> after (sys_step lg c (CFail t) s).
  Proof.
    intros G. pose proof (g_core _ G) as K. pose proof (g_out _ G) as Bo. pose proof (proj1 (g_log _ G)) as Bl.
    cbn [sys_step]. destruct (nth_error (y_th s) t) as [x|] eqn:Hx; [|exact I].
    destruct x as [|i er p|i er [|b rest] p|i er rest p|i]; try exact I. cbn [after].
    match goal with |- good ?s' => refine (good_move s s' t (WSend i er (b :: rest) p) (WHung i) i G Hx eq_refl eq_refl eq_refl eq_refl eq_refl eq_refl eq_refl _ _ _ _ _) end.
    - match goal with |- core ?s' => refine (core_move s s' t (WSend i er (b :: rest) p) (WHung i) i K Hx eq_refl eq_refl eq_refl eq_refl eq_refl (fun _ _ => eq_refl) (fun _ _ => eq_refl) _) end.
      left. split; [reflexivity|]. intros p' q' E. discriminate.
    - apply (bytes_hang _ _ _ _ _ t (WSend i er (b :: rest) p) _ Hx (b :: rest) Bo); reflexivity.
    - apply (bytes_keep _ _ _ _ _ t (WSend i er (b :: rest) p) _ Hx Bl); reflexivity.
    - intros _ E. discriminate.
    - left. reflexivity.
  Qed.

  (** ** The reading thread moves *)
  Lemma skipn_cons {A} n (l : list A) x t : skipn n l = x :: t ->
    nth_error l n = Some x /\ skipn (S n) l = t /\ firstn (S n) l = firstn n l ++ [x] /\ (n < length l)%nat.
  Proof.
    revert l. induction n as [|n IH]; intros l E.
    - destruct l; [discriminate|]. cbn [skipn] in E. injection E as -> ->. cbn. repeat split; lia.
    - destruct l as [|y l]; [discriminate|]. cbn [skipn] in E. destruct (IH _ E) as (H1 & H2 & H3 & H4).
      cbn [nth_error length]. split; [exact H1|]. split; [exact H2|]. split; [|lia].
      change (firstn (S (S n)) (y :: l)) with (y :: firstn (S n) l). rewrite H3. reflexivity.
  Qed.
  Lemma todo_ok s q l : todo s = q :: l -> wreq_ok q /\ q_type q <> 2.
  Proof.
    intros E. apply skipn_cons in E. destruct E as (E & _). apply nth_error_In in E.
    rewrite Forall_forall in Hqs, Hnd. auto.
  Qed.
  Lemma mreq_hdr q : hdr_of (mreq q) = header q.
  Proof. reflexivity. Qed.
  Lemma zlen_nat (l : list Z) n : zlen l < Z.of_nat n <-> (length l < n)%nat.
  Proof. unfold zlen. lia. Qed.

  Lemma good_read s s' : good s -> y_th s' = y_th s -> y_q s' = y_q s -> y_out s' = y_out s ->
    y_msgs s' = y_msgs s -> y_hist s' = y_hist s -> y_next s' = y_next s ->
    (forall i, of_rec i (y_recs s') = of_rec i (y_recs s)) -> rd_ok s' -> log_ok s' ->
    (forall d, y_rd s' = RDone d -> y_q s = [] /\ none (fun x => negb (is_idle x)) (y_th s)) -> good s'.
  Proof.
    intros [K B R L D] E1 E2 E3 E4 E5 E6 E7 Hr Hl Hd. constructor; auto.
    - apply core_same with (s := s); auto.
    - rewrite E1, E3, E4. exact B.
    - rewrite E1, E2. exact Hd.
  Qed.

  Lemma held_write q : length (q_cookie q) = 8%nat -> wreq_ok q ->
    held (header q) = lg && ((q_cmd q =? 1) && cflag c F_DATALOG && negb (cflag c F_SPLICE)).
  Proof.
    intros Hc (H1 & _ & H3 & H4 & _). destruct (decode_header q [] H1 Hc H3 H4) as (D & _).
    rewrite app_nil_r, firstn_all2 in D by (rewrite header_length by exact Hc; lia).
    unfold held. rewrite D. reflexivity.
  Qed.

  (** what the stream's end allows when the next header is complete *)
  Lemma tail_header0 t e0 : stops t e0 -> forall hdr rest, t = hdr ++ rest -> length hdr = 28%nat ->
    let '(magic, rq) := decode_request hdr in
    (magic <> NBD_REQUEST_MAGIC /\ e0 = StopMagic) \/
    (magic = NBD_REQUEST_MAGIC /\ exists q, hdr = header q /\ rq = mreq q /\ length (q_cookie q) = 8%nat /\ is_u32 (q_type q) /\
       ((q_cmd q = 1 /\ zlen rest < q_len q /\ e0 = StopCut) \/ (q_type q = 2 /\ e0 = StopDisc rest))).
  Proof.
    intros Hst hdr rest Et Hl.
    assert (Hm : fst (decode_request hdr) = unbe (firstn 4 t)).
    { rewrite Et, firstn_app. replace (4 - length hdr)%nat with O by lia. cbn [firstn]. rewrite app_nil_r. reflexivity. }
    destruct (decode_request hdr) as [magic rq] eqn:Ed. cbn [fst] in Hm.
    destruct Hst as [s Hs|s Hs Hne|q s Q1 Q2 Q3 Q4 Q5 Q6|q rest0 Q1 Q2]; subst magic.
    - exfalso. subst s. rewrite zlen_app in Hs. pose proof (zlen_nonneg rest). unfold zlen in *. lia.
    - left. split; [exact Hne|reflexivity].
    - right. assert (Es := Et). apply app_eq_len in Et; [|rewrite header_length by exact Q2; symmetry; exact Hl]. destruct Et as [<- <-].
      destruct (decode_header q [] Q1 Q2 Q3 Q4) as (D & _).
      rewrite app_nil_r, firstn_all2 in D by (rewrite header_length by exact Q2; lia). rewrite Ed in D. pose proof (f_equal fst D) as D1; pose proof (f_equal snd D) as D2; cbn [fst snd] in D1, D2; subst rq.
      split; [exact D1|]. exists q. repeat split; auto; try apply Q1.
    - right. pose proof Q1 as (W1 & W2 & W3 & W4 & W5). rewrite encode_header, <- app_assoc in Et.
      apply app_eq_len in Et; [|rewrite header_length by exact W2; symmetry; exact Hl]. destruct Et as [<- Er].
      assert (Hc : q_cmd q = 2) by (unfold q_cmd; rewrite Q2; reflexivity). rewrite Hc in W5. change (2 =? 1) with false in W5. cbv iota in W5.
      assert (Hn : q_data q = []) by (destruct (q_data q); [reflexivity|unfold zlen in W5; cbn [length] in W5; lia]).
      rewrite Hn in Er. cbn [app] in Er. subst rest0.
      destruct (decode_header q [] W1 W2 W3 W4) as (D & _).
      rewrite app_nil_r, firstn_all2 in D by (rewrite header_length by exact W2; lia). rewrite Ed in D. pose proof (f_equal fst D) as D1; pose proof (f_equal snd D) as D2; cbn [fst snd] in D1, D2; subst rq.
      split; [exact D1|]. exists q. repeat split; auto; try apply W1.
  Qed.
  Lemma stops_short t e0 : stops t e0 -> (length t < 28)%nat -> e0 = StopCut.
  Proof.
    intros H El. destruct H as [s Hs|s Hs Hne|q s Q1 Q2 Q3 Q4 Q5 Q6|q rest0 Q1 Q2]; auto.
    - unfold zlen in Hs. lia.
    - rewrite encode_header, <- app_assoc, app_length, header_length in El by apply Q1. lia.
  Qed.

  Lemma decode_q q : wreq_ok q -> decode_request (header q) = (NBD_REQUEST_MAGIC, mreq q).
  Proof.
    intros (H1 & H2 & H3 & H4 & _). destruct (decode_header q [] H1 H2 H3 H4) as (D & _).
    rewrite app_nil_r, firstn_all2 in D by (rewrite header_length by exact H2; lia). exact D.
  Qed.

  Lemma last_items_hdr hdr rest : tail = hdr ++ rest -> length hdr = 28%nat -> last_items = [LLast hdr].
  Proof.
    intros Et Hl. unfold last_items. rewrite Et, zlen_app. pose proof (zlen_nonneg rest).
    replace (zlen hdr + zlen rest <? 28) with false by (unfold zlen in *; lia).
    rewrite firstn_pre by exact Hl. reflexivity.
  Qed.

  Lemma log_keep s s' : log_ok s -> y_th s' = y_th s -> y_log s' = y_log s -> y_recs s' = y_recs s ->
    y_next s' = y_next s ->
    (rd_sem (y_rd s') = true -> rd_sem (y_rd s) = true) ->
    (forall es open cur, lg = true -> items_now s open cur -> exists es' open' cur', 
        concat (map ent_recs es) ++ open = concat (map ent_recs (es ++ es')) ++ open' /\
        cur ++ filter is_item es' = cur' /\ items_now s' open' cur') -> log_ok s'.
  Proof.
    intros (L1 & L2 & L3) E1 E2 E3 E4 Hs HI. unfold log_ok. rewrite E1, E2, E3, E4.
    split; [exact L1|]. split; [auto|]. intros Hl. destruct (L3 Hl) as (es & open & cur & R1 & R2 & R3).
    destruct (HI es open cur Hl R3) as (es' & open' & cur' & I1 & I2 & I3).
    exists (es ++ es'), open', cur'. rewrite R1, I1. split; [reflexivity|]. split; [|exact I3].
    rewrite filter_app, R2, <- app_assoc, I2. reflexivity.
  Qed.
  (** the same when only the reading thread's position changes *)
  Lemma log_same s s' : log_ok s -> y_th s' = y_th s -> y_log s' = y_log s -> y_recs s' = y_recs s ->
    y_next s' = y_next s ->
    (rd_sem (y_rd s') = true -> rd_sem (y_rd s) = true) ->
    (forall open cur, lg = true -> items_now s open cur -> items_now s' open cur) -> log_ok s'.
  Proof.
    intros L E1 E2 E3 E4 Hs HI. apply (log_keep s s' L E1 E2 E3 E4 Hs).
    intros es open cur Hl R. exists [], open, cur. rewrite app_nil_r. cbn. rewrite app_nil_r. auto.
  Qed.

  Theorem reader_good s : good s ->
    after (reader_step lg c s) /\
    (st = true -> forall s', reader_step lg c s = SExit s' -> e = StopMagic).
  Proof.
    intros G. pose proof (g_rd _ G) as R. pose proof (g_log _ G) as L. unfold rd_ok in R. destruct R as [Hle R].
    unfold reader_step. destruct (y_rd s) as [|hdr|hdr h|rq h|rq p d h|rq p|d h|d] eqn:Erd.
    - (* reads a header *)
      destruct (length (y_in s) <? 28)%nat eqn:El; (split; [cbn [after]|discriminate]).
      + apply Nat.ltb_lt in El.
        assert (Ht : todo s = []).
        { destruct (todo s) as [|q l] eqn:Et; [reflexivity|]. destruct (todo_ok _ _ _ Et) as [Hq _].
          exfalso. rewrite R in El. unfold rest_of in El. cbn [map concat] in El. rewrite encode_header, <- !app_assoc in El.
          rewrite app_length, header_length in El by apply Hq. lia. }
        rewrite Ht in R. unfold rest_of in R. cbn [map concat app] in R.
        assert (He : e = StopCut).
        { rewrite R in El. exact (stops_short _ _ Hstop El). }
        apply (good_read s); auto; try reflexivity; try discriminate.
        * split; [exact Hle|]. cbn [y_setrd y_rd]. split; [exact Ht|]. split; [discriminate|]. split; [auto|discriminate].
        * apply (log_same s); auto; try reflexivity; try discriminate. unfold items_now. rewrite Erd. cbn [y_setrd y_rd].
          intros open cur _ [-> ->]. split; [reflexivity|]. unfold last_items. rewrite <- R.
          replace (zlen (y_in s) <? 28) with true by (unfold zlen; lia). reflexivity.
      + apply Nat.ltb_ge in El. apply (good_read s); auto; try reflexivity; try discriminate.
        * split; [exact Hle|]. cbn [y_setrd y_rd y_setin y_in]. unfold at_header. cbn [y_setin y_setrd y_in].
          change (todo (y_setin (skipn 28 (y_in s)) (y_setrd (RLog (firstn 28 (y_in s))) s))) with (todo s).
          destruct (todo s) as [|q l] eqn:Et.
          -- right. split; [reflexivity|]. rewrite firstn_skipn. split; [exact (eq_sym R)|].
             rewrite firstn_length. lia.
          -- left. exists q, l. destruct (todo_ok _ _ _ Et) as [Hq _]. split; [reflexivity|].
             rewrite R. unfold rest_of. cbn [map concat]. rewrite encode_header, <- !app_assoc.
             split; [apply firstn_pre|apply skipn_pre]; apply header_length, Hq.
        * apply (log_same s); auto; try reflexivity; try discriminate. unfold items_now. rewrite Erd. cbn [y_setrd y_rd y_setin]. auto.
    - (* logs it *)
      destruct lg eqn:Elg.
      2:{ split; [cbn [after]|discriminate]. apply (good_read s); auto; try reflexivity; try discriminate.
          - split; [exact Hle|]. cbn [y_setrd y_rd]. split; [unfold held; rewrite Elg; reflexivity|]. exact R.
          - apply (log_same s); auto; try reflexivity; try discriminate; intros; congruence. }
      destruct (sem_free s) eqn:Es; [|split; [exact I|discriminate]]. split; [cbn [after]|discriminate].
      apply sem_free_none in Es. destruct Es as [Es _].
      set (h := (cmd_of (snd (decode_request hdr)) =? NBD_CMD_WRITE) && cflag c F_DATALOG && negb (cflag c F_SPLICE)).
      assert (Hh : h = held hdr) by (unfold held; rewrite Elg; reflexivity).
      apply (good_read s); auto; try reflexivity; try discriminate.
      + intros i. cbn [y_putlog y_addrec y_setrd y_recs]. rewrite of_rec_app, of_rec_reader. apply app_nil_r.
      + split; [exact Hle|]. cbn [y_putlog y_addrec y_setrd y_rd]. split; [exact Hh|exact R].
      + destruct L as (L1 & L2 & L3). unfold log_ok. cbn [y_putlog y_addrec y_setrd y_th y_log y_recs y_rd y_next].
        split; [rewrite map_app; apply bytes_add; assumption|]. split; [auto|].
        intros _. destruct (L3 Elg) as (es & open & cur & R1 & R2 & R3).
        unfold items_now in R3. rewrite Erd in R3. destruct R3 as [-> ->]. rewrite app_nil_r in R1. rewrite app_nil_r in R2.
        unfold items_now. cbn [y_putlog y_addrec y_setrd y_rd].
        change (todo _) with (todo s). destruct h eqn:Eh0.
        * exists es, [(None, hdr)], []. rewrite R1, app_nil_r. auto.
        * destruct R as [(q & l & Et & -> & _)|(Et & _ & _)]; rewrite Et.
          -- exists (es ++ [LReq q]), [], [LReq q]. rewrite map_app, concat_app, filter_app, R1, R2. cbn [map concat ent_recs filter is_item].
             rewrite <- Hh. rewrite !app_nil_r. auto.
          -- exists (es ++ [LLast hdr]), [], [LLast hdr]. rewrite map_app, concat_app, filter_app, R1, R2. cbn [map concat ent_recs filter is_item].
             rewrite !app_nil_r. auto.
    - (* decodes it *)
      destruct R as [Hh R]. destruct R as [(q & l & Et & -> & Ein)|(Et & Etail & Hlen)].
      + destruct (todo_ok _ _ _ Et) as [Hq H2]. rewrite (decode_q q Hq). cbn [negb]. rewrite Z.eqb_refl. cbn [negb].
        change (cmd_of (mreq q)) with (q_cmd q). cbn [mreq rq_type]. unfold NBD_CMD_WRITE, NBD_CMD_DISC.
        destruct (q_cmd q =? 1) eqn:Ec.
        * split; [cbn [after]|discriminate]. apply (good_read s); auto; try reflexivity; try discriminate.
          -- split; [exact Hle|]. cbn [y_setrd y_rd]. exists q. split; [reflexivity|]. split; [lia|]. split; [exact Hh|]. left. eauto.
          -- apply (log_same s); auto; try reflexivity; [intros H; rewrite Erd; exact H|].
             unfold items_now. rewrite Erd. cbn [y_setrd y_rd]. change (todo (y_setrd _ s)) with (todo s). rewrite Et, mreq_hdr. auto.
        * replace (q_type q =? 2) with false by lia. split; [cbn [after]|discriminate].
          assert (Hf : h = false). { rewrite Hh, held_write by (try apply Hq; exact Hq). rewrite Ec. cbn [andb]. apply Bool.andb_false_r. }
          apply (good_read s); auto; try reflexivity; try discriminate.
          -- split; [exact Hle|]. cbn [y_setrd y_rd]. exists q, l. split; [exact Et|]. split; [reflexivity|].
             split; [intros Hx; lia|]. cbn [y_setrd y_in]. rewrite Ein.
             destruct Hq as (_ & _ & _ & _ & Hd). rewrite Ec in Hd. destruct (q_data q); [reflexivity|unfold zlen in Hd; cbn [length] in Hd; lia].
          -- apply (log_same s); auto; try reflexivity; try discriminate.
             unfold items_now. rewrite Erd, Hf. cbn [y_setrd y_rd]. change (todo (y_setrd _ s)) with (todo s). rewrite Et. auto.
      + pose proof (tail_header0 _ _ Hstop hdr (y_in s) Etail Hlen) as Ht. destruct (decode_request hdr) as [magic rq] eqn:Ed.
        destruct Ht as [[Hm He]|(Hm & q & Eh & -> & Hck & Hty & Hq)].
        * replace (magic =? NBD_REQUEST_MAGIC) with false by lia. cbn [negb]. split; [exact G|auto].
        * replace (magic =? NBD_REQUEST_MAGIC) with true by lia. cbn [negb].
          change (cmd_of (mreq q)) with (q_cmd q). cbn [mreq rq_type]. unfold NBD_CMD_WRITE, NBD_CMD_DISC.
          destruct Hq as [(Hc & Hz & He)|(Hd & He)].
          -- rewrite Hc. change (1 =? 1) with true. cbv iota. split; [cbn [after]|discriminate].
             apply (good_read s); auto; try reflexivity; try discriminate.
             ++ split; [exact Hle|]. cbn [y_setrd y_rd]. exists q. split; [reflexivity|]. split; [exact Hc|]. split; [congruence|].
                right. cbn [y_setrd y_in]. rewrite <- Eh. auto.
             ++ apply (log_same s); auto; try reflexivity; [intros H; rewrite Erd; exact H|].
                unfold items_now. rewrite Erd. cbn [y_setrd y_rd]. change (todo (y_setrd _ s)) with (todo s). rewrite Et, mreq_hdr, Eh. auto.
          -- assert (Hc : q_cmd q = 2) by (unfold q_cmd; rewrite Hd; reflexivity). rewrite Hc, Hd.
             change (2 =? 1) with false. change (2 =? 2) with true. cbv iota. split; [cbn [after]|discriminate].
             assert (Hf : h = false). { rewrite Hh. unfold held. rewrite Ed. cbn [snd]. change (cmd_of (mreq q)) with (q_cmd q). rewrite Hc. cbn [andb]. apply Bool.andb_false_r. }
             apply (good_read s); auto; try reflexivity; try discriminate.
             ++ split; [exact Hle|]. cbn [y_setrd y_rd]. split; [exact Et|]. split; [auto|]. split; [discriminate|]. rewrite Hf. discriminate.
             ++ apply (log_same s); auto; try reflexivity; [rewrite Erd; auto|].
                unfold items_now. rewrite Erd, Hf. cbn [y_setrd y_rd]. rewrite Et. rewrite (last_items_hdr _ _ Etail Hlen). auto.
    - (* reads the payload *)
      destruct R as (q & -> & Hc & Hh & R). cbn [mreq rq_len].
      destruct R as [(l & Et & Ein)|(Et & Etail & Hck & Hz & He)].
      + destruct (todo_ok _ _ _ Et) as [Hq H2]. pose proof Hq as (W1 & W2 & W3 & W4 & W5). rewrite Hc in W5. change (1 =? 1) with true in W5. cbv iota in W5.
        rewrite Ein, zlen_app. replace (zlen (q_data q) + zlen (rest_of l) <? q_len q) with false by (pose proof (zlen_nonneg (rest_of l)); lia).
        assert (Hln : length (q_data q) = Z.to_nat (q_len q)) by (unfold zlen in W5; lia).
        rewrite firstn_pre, skipn_pre by exact Hln.
        set (s1 := fun p w' => y_setw w' (y_setin (rest_of l) (y_setrd (RLogData (mreq q) p (q_data q) h) s))).
        assert (Hgo : forall p w', payload_ok q p -> good (s1 p w')).
        { intros p w' Hp. apply (good_read s); auto; try reflexivity; try discriminate.
          - split; [exact Hle|]. unfold s1. cbn [y_setw y_setin y_setrd y_rd y_in]. exists q, l. repeat split; auto.
          - apply (log_same s); auto; try reflexivity; [intros H; rewrite Erd; exact H|].
            unfold items_now, s1. rewrite Erd. cbn [y_setw y_setin y_setrd y_rd]. change (todo _) with (todo s) at 2. rewrite Et.
            change (todo _) with (todo s). rewrite Et, mreq_hdr. auto. }
        assert (Hrecv : match receive_payload c (mreq q) (q_data q) (y_w s) with
                        | Ret p w' => payload_ok q p | Ub => st = false | _ => False end).
        { unfold receive_payload. cbn [mreq rq_len]. destruct (cflag c F_SPLICE) eqn:Esp.
          2:{ cbn [ret]. left. reflexivity. }
          unfold mkpipe, bind, pull, ret. destruct (MAX_PIPE_SIZE <? q_len q); [left; reflexivity|].
          destruct (w_orc (y_w s) (w_tick (y_w s))); try (left; reflexivity);
            (destruct (c_tls c) eqn:Etl; [|right; reflexivity]; destruct (0 <? q_len q); [|right; reflexivity]);
            unfold ub; (destruct st; [|reflexivity]); destruct (Hrx eq_refl); congruence. }
        destruct (receive_payload c (mreq q) (q_data q) (y_w s)) as [p w'| |w'|]; (split; [|discriminate || tauto]); cbn [after]; try tauto.
        apply (Hgo p w' Hrecv).
      + replace (zlen (y_in s) <? q_len q) with true by lia. split; [cbn [after]|discriminate].
        assert (Hlen : length (header q) = 28%nat) by (apply header_length, Hck).
        apply (good_read s); auto; try reflexivity; try discriminate.
        * split; [exact Hle|]. cbn [y_setrd y_rd]. split; [exact Et|]. split; [discriminate|]. split; [auto|].
          intros Hht. rewrite Hh in Hht. unfold held in Hht. rewrite !andb_true_iff in Hht. tauto.
        * apply (log_keep s); auto; try reflexivity; [intros H; rewrite Erd; exact H|].
          intros es open cur Hl Hi. unfold items_now in Hi. rewrite Erd, Et, mreq_hdr in Hi.
          unfold items_now. cbn [y_setrd y_rd]. rewrite (last_items_hdr _ _ Etail Hlen).
          destruct h; destruct Hi as [-> ->].
          -- exists [LLast (header q)], [], [LLast (header q)]. rewrite map_app, concat_app. cbn. rewrite app_nil_r. auto.
          -- exists [], [], [LLast (header q)]. rewrite !app_nil_r. auto.
    - (* logs the payload *)
      destruct R as (q & l & Et & -> & Hc & Hh & Hp & -> & Ein). split; [cbn [after]|discriminate].
      assert (Hr' : rd_ok (y_setrd (RPush (mreq q) p) s)).
      { split; [exact Hle|]. cbn [y_setrd y_rd]. exists q, l. auto. }
      destruct h.
      + apply (good_read s); auto; try reflexivity; try discriminate.
        * intros i. cbn [y_putlog y_addrec y_setrd y_recs]. rewrite of_rec_app, of_rec_reader. apply app_nil_r.
        * destruct L as (L1 & L2 & L3). rewrite Erd in L2. specialize (L2 eq_refl).
          unfold log_ok. cbn [y_putlog y_addrec y_setrd y_th y_log y_recs y_rd y_next].
          split; [rewrite map_app; apply bytes_add; assumption|]. split; [discriminate|].
          intros Hl. destruct (L3 Hl) as (es & open & cur & R1 & R2 & R3).
          unfold items_now in R3. rewrite Erd, Et in R3. destruct R3 as [-> ->]. rewrite app_nil_r in R2.
          unfold items_now. cbn [y_putlog y_addrec y_setrd y_rd]. change (todo _) with (todo s). rewrite Et.
          exists (es ++ [LReq q]), [], [LReq q]. rewrite map_app, concat_app, filter_app, R1, R2. cbn [map concat ent_recs filter is_item].
          rewrite <- Hh. rewrite !app_nil_r, <- app_assoc. auto.
      + apply (good_read s); auto; try reflexivity; try discriminate.
        apply (log_same s); auto; try reflexivity; try discriminate.
        unfold items_now. rewrite Erd. cbn [y_setrd y_rd]. change (todo (y_setrd _ s)) with (todo s). auto.
    - (* queues the package *)
      destruct R as (q & l & Et & -> & Hp & Ein). split; [cbn [after]|discriminate].
      destruct (skipn_cons _ _ _ _ Et) as (N1 & N2 & N3 & N4).
      destruct G as [K B Rr _ D]. constructor.
      + apply core_same with (s := y_push (mreq q) p s); try reflexivity. apply core_push; auto.
      + exact B.
      + split; [cbn [y_setrd y_push y_next]; lia|]. cbn [y_setrd y_rd y_in y_push]. unfold todo. cbn [y_setrd y_push y_next]. rewrite N2. exact Ein.
      + destruct L as (L1 & L2 & L3). unfold log_ok. cbn [y_setrd y_push y_th y_log y_recs y_rd y_next].
        split; [exact L1|]. split; [discriminate|]. intros Hl. destruct (L3 Hl) as (es & open & cur & R1 & R2 & R3).
        unfold items_now in R3. rewrite Erd, Et in R3. destruct R3 as [-> ->].
        exists es, [], []. split; [exact R1|]. split; [|split; reflexivity].
        rewrite N3, map_app, app_nil_r. exact R2.
      + discriminate.
    - (* waits for the pool *)
      destruct R as (Et & R1 & R2 & R3).
      match goal with |- context [if ?b then _ else _] => destruct b eqn:Eb end; [|split; [exact I|discriminate]].
      apply andb_true_iff in Eb. destruct Eb as [Eq Eid]. split; [cbn [after]|discriminate].
      assert (Hq0 : y_q s = []) by (destruct (y_q s); [reflexivity|discriminate]).
      apply (good_read s); auto; try reflexivity.
      + split; [exact Hle|]. cbn [y_setrd y_rd]. split; [exact Et|]. split; [intros H; apply R1, H|exact R2].
      + apply (log_same s); auto; try reflexivity; try discriminate.
        unfold items_now. rewrite Erd. cbn [y_setrd y_rd]. auto.
      + intros _ _. split; [exact Hq0|]. intros t x E. apply nth_error_In in E. rewrite forallb_forall in Eid. rewrite (Eid _ E). reflexivity.
    - split; [exact I|discriminate].
  Qed.

  Theorem step_good x s : good s -> after (sys_step lg c x s).
  Proof.
    intros G. destruct x as [|t n|t|t].
    - apply reader_good, G.
    - apply worker_good, G.
    - apply fail_good, G.
    - cbn [sys_step]. destruct (nth_error (y_th s) t) as [[|? ? ?|? ? [|? ?] ?|? ? ? ?|?]|]; try exact I. exact G.
  Qed.

  Theorem run_good l : forall s, good s -> after (sys_run lg c l s).
  Proof.
    induction l as [|x l IH]; intros s G; cbn [sys_run]; [exact G|].
    pose proof (step_good x s G) as H. destruct (sys_step lg c x s); cbn [after] in H; auto.
  Qed.

  Theorem init_good n w : good (sys_init n (concat (map encode qs) ++ tail) w).
  Proof.
    assert (Hth : forall t x, nth_error (repeat WIdle n) t = Some x -> x = WIdle).
    { intros t x E. apply nth_error_In, repeat_spec in E. exact E. }
    assert (Hn : forall f, f WIdle = false -> none f (repeat WIdle n)).
    { intros f Hf t x E. rewrite (Hth _ _ E). exact Hf. }
    constructor.
    - constructor; cbn [sys_init y_hist y_next y_q y_th y_msgs y_recs]; unfold taken; cbn [sys_init y_next y_q]; auto.
      + intros i rq p E. destruct i; discriminate.
      + intros i rq p [].
      + intros t x i E W. rewrite (Hth _ _ E) in W. discriminate.
      + intros t x i p q E W. rewrite (Hth _ _ E) in W. discriminate.
      + intros t1 t2 x1 x2 i E1 E2 W. rewrite (Hth _ _ E1) in W. discriminate.
      + intros i q Hi. cbn in Hi. lia.
    - left. split; [apply Hn; reflexivity|reflexivity].
    - split; [cbn; lia|]. cbn [sys_init y_rd y_in]. reflexivity.
    - split; [left; split; [apply Hn; reflexivity|reflexivity]|]. split; [discriminate|].
      intros _. exists [], [], []. repeat split.
    - discriminate.
  Qed.
End Sched.
