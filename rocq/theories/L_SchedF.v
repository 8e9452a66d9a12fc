(** The connection always comes to its end. *)
From Verif Require Import Base M_Const M_Disk M_Tree M_Raw M_Par L_Wp L_Raw S_Wire S_Disk L_Wire L_Req L_Plain L_Session L_PlainS S_Par S_Run L_Msg L_LogMsg L_Sched L_SchedC L_SchedL.

(** ** One pool thread cannot go on for ever on one request *)
Definition wnext (x y : worker) : Prop :=
  match x with
  | WRun i e (PRet _) => y = WIdle
  | WRun i e (PAct X m k) => exists e' a, y = WRun i e' (k a)
  | WRun i e (PSend m k) => y = WSend i e m k
  | WRun i e (PLog m k) => y = WLog i e m k
  | WSend i e r k => y = WRun i e k \/ exists r', (length r' < length r)%nat /\ y = WSend i e r' k
  | WLog i e r k => y = WRun i e k \/ exists r', (length r' < length r)%nat /\ y = WLog i e r' k
  | _ => False
  end.
Definition wstep (y x : worker) : Prop := wnext x y.

Lemma acc_idle : Acc wstep WIdle.
Proof. constructor. intros y H. destruct H. Qed.
Lemma acc_hung i : Acc wstep (WHung i).
Proof. constructor. intros y H. destruct H. Qed.
Lemma acc_send i e k : Acc wstep (WRun i e k) -> forall n r, (length r <= n)%nat -> Acc wstep (WSend i e r k).
Proof.
  intros Hk. induction n as [|n IH]; intros r Hr; constructor; intros y [-> | (r' & H & ->)]; try exact Hk; try lia.
  apply IH. lia.
Qed.
Lemma acc_log i e k : Acc wstep (WRun i e k) -> forall n r, (length r <= n)%nat -> Acc wstep (WLog i e r k).
Proof.
  intros Hk. induction n as [|n IH]; intros r Hr; constructor; intros y [-> | (r' & H & ->)]; try exact Hk; try lia.
  apply IH. lia.
Qed.
Lemma acc_run (p : P unit) : forall i e, Acc wstep (WRun i e p).
Proof.
  induction p as [a|X m k IH|m k IH|m k IH]; intros i e; constructor; intros y H; unfold wstep in H; cbn [wnext] in H.
  - subst. apply acc_idle.
  - destruct H as (e' & a & ->). apply IH.
  - subst. eapply acc_send; [apply IH|reflexivity].
  - subst. eapply acc_log; [apply IH|reflexivity].
Qed.
Lemma acc_worker x : Acc wstep x.
Proof.
  destruct x as [|i e p|i e r p|i e r p|i].
  - apply acc_idle.
  - apply acc_run.
  - eapply acc_send; [apply acc_run|reflexivity].
  - eapply acc_log; [apply acc_run|reflexivity].
  - apply acc_hung.
Qed.

(** ** Nor can the pool *)
Definition lstep (l' l : list worker) : Prop :=
  exists t x x', nth_error l t = Some x /\ wstep x' x /\ l' = set_th l t x'.
Lemma acc_list l : Acc lstep l.
Proof.
  induction l as [|x l IH].
  - constructor. intros y (t & x & x' & H & _). destruct t; discriminate.
  - pose proof (acc_worker x) as Hx. revert x Hx.
    induction IH as [l _ IHl]. intros x Hx. induction Hx as [x Hx IHx].
    constructor. intros y (t & z & z' & H1 & H2 & ->). destruct t as [|t].
    + cbn in H1. injection H1 as <-. unfold set_th. cbn. apply IHx, H2.
    + cbn [nth_error] in H1. change (set_th (x :: l) (S t) z') with (x :: set_th l t z'). apply IHl.
      * exists t, z, z'. auto.
      * constructor. exact Hx.
Qed.

(** ** Moves of the reading thread *)
Definition phase (r : reader) : nat :=
  match r with
  | RLog _ => 7 | RDecode _ _ => 6 | RPayload _ _ => 5 | RLogData _ _ _ _ => 4 | RPush _ _ => 3
  | RHead => 2 | RJoin _ _ => 1 | RDone _ => 0
  end.
Definition rmeas (s : sys) : nat := (8 * length (y_in s) + phase (y_rd s))%nat.

Lemma sgo_inj s s' : SGo s = SGo s' -> s = s'.
Proof. intros H. exact (f_equal (fun x => match x with SGo z => z | _ => s end) H). Qed.
Lemma reader_down lg c s s' : reader_step lg c s = SGo s' -> (rmeas s' < rmeas s)%nat.
Proof.
  unfold reader_step, rmeas. destruct (y_rd s) as [|hdr|hdr h|rq h|rq p d h|rq p|d h|d] eqn:Erd; intros E.
  - destruct (length (y_in s) <? 28)%nat eqn:El; apply sgo_inj in E; subst s'; cbn [y_setin y_setrd y_in y_rd phase]; [lia|].
    apply Nat.ltb_ge in El. rewrite skipn_length. lia.
  - destruct lg; [destruct (sem_free s); [|discriminate]|]; apply sgo_inj in E; subst s'; cbn [y_putlog y_addrec y_setrd y_in y_rd phase]; lia.
  - destruct (decode_request hdr) as [magic rq]. destruct (negb (magic =? NBD_REQUEST_MAGIC)); [discriminate|].
    destruct (cmd_of rq =? NBD_CMD_WRITE); [|destruct (rq_type rq =? NBD_CMD_DISC)]; apply sgo_inj in E; subst s'; cbn [y_setrd y_in y_rd phase]; lia.
  - destruct (zlen (y_in s) <? rq_len rq); [apply sgo_inj in E; subst s'; cbn [y_setrd y_in y_rd phase]; lia|].
    destruct (receive_payload c rq (firstn (Z.to_nat (rq_len rq)) (y_in s)) (y_w s)); try discriminate. apply sgo_inj in E; subst s'.
    cbn [y_setw y_setin y_setrd y_in y_rd phase]. rewrite skipn_length. lia.
  - apply sgo_inj in E; subst s'. destruct h; cbn [y_putlog y_addrec y_setrd y_in y_rd phase]; lia.
  - apply sgo_inj in E; subst s'. cbn [y_push y_setrd y_in y_rd phase]. lia.
  - match type of E with (if ?b then _ else _) = _ => destruct b end; [|discriminate]. apply sgo_inj in E; subst s'. cbn [y_setrd y_in y_rd phase]. lia.
  - discriminate.
Qed.

(** ** Moves of a pool thread *)
Lemma worker_down lg c t n s s' : worker_step lg c t n s = SGo s' ->
  rmeas s' = rmeas s /\ ((length (y_q s') < length (y_q s))%nat \/ (y_q s' = y_q s /\ lstep (y_th s') (y_th s))).
Proof.
  unfold worker_step. destruct (nth_error (y_th s) t) as [x|] eqn:Hx; [|discriminate].
  assert (Hs : forall x', wstep x' x -> lstep (set_th (y_th s) t x') (y_th s)).
  { intros x' H. exists t, x, x'. auto. }
  destruct x as [|i e p|i e r k|i e r k|i]; intros E.
  - destruct (y_q s) as [|[[i rq] p] q] eqn:Eq; [discriminate|]. apply sgo_inj in E; subst s'. split; [reflexivity|]. left. cbn. lia.
  - destruct p as [a|X m k|m k|m k].
    + apply sgo_inj in E; subst s'. split; [reflexivity|]. right. split; [reflexivity|]. apply Hs. reflexivity.
    + destruct (m (set_errno e (y_w s))) as [a w'| | |]; try discriminate. apply sgo_inj in E; subst s'.
      split; [reflexivity|]. right. split; [reflexivity|]. apply Hs. exists (w_errno w'), a. reflexivity.
    + destruct (lock_free s); [|discriminate]. apply sgo_inj in E; subst s'. split; [reflexivity|]. right. split; [reflexivity|]. apply Hs. reflexivity.
    + destruct (sem_free s); [|discriminate]. apply sgo_inj in E; subst s'. split; [reflexivity|]. right. split; [reflexivity|]. apply Hs. reflexivity.
  - destruct r as [|b r].
    + apply sgo_inj in E; subst s'. split; [reflexivity|]. right. split; [reflexivity|]. apply Hs. left. reflexivity.
    + apply sgo_inj in E; subst s'. split; [reflexivity|]. right. split; [reflexivity|]. apply Hs. right. eexists. split; [|reflexivity].
      rewrite skipn_length. cbn [length]. lia.
  - destruct r as [|b r].
    + apply sgo_inj in E; subst s'. split; [reflexivity|]. right. split; [reflexivity|]. apply Hs. left. reflexivity.
    + apply sgo_inj in E; subst s'. split; [reflexivity|]. right. split; [reflexivity|]. apply Hs. right. eexists. split; [|reflexivity].
      rewrite skipn_length. cbn [length]. lia.
  - discriminate.
Qed.

Definition is_hung (x : worker) : bool := match x with WHung _ => true | _ => false end.
Lemma worker_shape lg c t n s s' : worker_step lg c t n s = SGo s' -> none is_hung (y_th s) ->
  none is_hung (y_th s') /\ length (y_th s') = length (y_th s).
Proof.
  intros E H. unfold worker_step in E. destruct (nth_error (y_th s) t) as [x|] eqn:Hx; [|discriminate].
  pose proof (nth_lt _ _ _ Hx) as Hl.
  assert (Hs : forall x', is_hung x' = false -> none is_hung (set_th (y_th s) t x') /\ length (set_th (y_th s) t x') = length (y_th s)).
  { intros x' Hf. split; [eapply none_keep; eauto|apply set_th_length, Hl]. }
  destruct x as [|i e p|i e r k|i e r k|i].
  - destruct (y_q s) as [|[[i rq] p] q] eqn:Eq; [discriminate|]. apply sgo_inj in E; subst s'. apply Hs. reflexivity.
  - destruct p as [a|X m k|m k|m k].
    + apply sgo_inj in E; subst s'. apply Hs. reflexivity.
    + destruct (m (set_errno e (y_w s))) as [a w'| | |]; try discriminate. apply sgo_inj in E; subst s'. apply Hs. reflexivity.
    + destruct (lock_free s); [|discriminate]. apply sgo_inj in E; subst s'. apply Hs. reflexivity.
    + destruct (sem_free s); [|discriminate]. apply sgo_inj in E; subst s'. apply Hs. reflexivity.
  - destruct r as [|b r]; apply sgo_inj in E; subst s'; apply Hs; reflexivity.
  - destruct r as [|b r]; apply sgo_inj in E; subst s'; apply Hs; reflexivity.
  - discriminate.
Qed.
Lemma reader_shape lg c s s' : reader_step lg c s = SGo s' -> y_th s' = y_th s.
Proof.
  unfold reader_step. destruct (y_rd s) as [|hdr|hdr h|rq h|rq p d h|rq p|d h|d] eqn:Erd; intros E.
  - destruct (length (y_in s) <? 28)%nat; apply sgo_inj in E; subst s'; reflexivity.
  - destruct lg; [destruct (sem_free s); [|discriminate]|]; apply sgo_inj in E; subst s'; reflexivity.
  - destruct (decode_request hdr) as [magic rq]. destruct (negb (magic =? NBD_REQUEST_MAGIC)); [discriminate|].
    destruct (cmd_of rq =? NBD_CMD_WRITE); [|destruct (rq_type rq =? NBD_CMD_DISC)]; apply sgo_inj in E; subst s'; reflexivity.
  - destruct (zlen (y_in s) <? rq_len rq); [apply sgo_inj in E; subst s'; reflexivity|].
    destruct (receive_payload c rq (firstn (Z.to_nat (rq_len rq)) (y_in s)) (y_w s)); try discriminate. apply sgo_inj in E; subst s'. reflexivity.
  - apply sgo_inj in E; subst s'. destruct h; reflexivity.
  - apply sgo_inj in E; subst s'. reflexivity.
  - match type of E with (if ?b then _ else _) = _ => destruct b end; [|discriminate]. apply sgo_inj in E; subst s'. reflexivity.
  - discriminate.
Qed.

Lemma existsb_nth {A} (f : A -> bool) l : existsb f l = true -> exists t x, nth_error l t = Some x /\ f x = true.
Proof.
  intros H. apply existsb_exists in H. destruct H as (x & Hin & Hf). apply In_nth_error in Hin. destruct Hin as [t Ht]. eauto.
Qed.

Section Finish.
  Variable lg : bool.
  Variable c : client.
  Hypothesis Hpos : forall a, 0 <= a < c_size c -> forall w,
    exists h o mb, get_filepos c a w = Ret (Some (h, o, mb)) w /\ 0 <= mb.
  Hypothesis Hplain : cflag c F_TREEFILES = false /\ cflag c F_WAIT = false /\ cflag c F_COPYONWRITE = false.
  Hypothesis Hexp : exists fi fis, c_export c = Some (fi :: fis).
  Hypothesis Hrx : no_splice_tls c.
  Hypothesis Hsz : 0 <= c_size c <= 9223372036854775807.
  Variables (qs : list wreq) (tail : list Z) (e : stream_end).
  Hypothesis Hqs : Forall wreq_ok qs.
  Hypothesis Hnd : Forall (fun q => q_type q <> 2) qs.
  Hypothesis Hstop : stops tail e.
  (** the stream does not end in garbage, nor inside a payload being logged *)
  Hypothesis Hmag : e <> StopMagic.
  Hypothesis Hlast : lg = false \/ cflag c F_DATALOG = false \/ zlen tail < 28 \/ exists r, e = StopDisc r.

  Local Notation good := (good true lg c qs tail e).

  Definition live (s : sys) : Prop :=
    good s /\ none is_hung (y_th s) /\ (0 < length (y_th s))%nat /\ (forall d h, y_rd s = RJoin d h -> h = false).

  Lemma step_after x s : good s -> after true lg c qs tail e (sys_step lg c x s).
  Proof.
    apply step_good; try (intros _; assumption); assumption.
  Qed.

  Lemma live_no_ub x s : live s -> sys_step lg c x s <> SUb.
  Proof. intros (G & _) E. pose proof (step_after x s G) as H. rewrite E in H. discriminate. Qed.

  Lemma live_no_exit x s s' : live s -> healthy x -> sys_step lg c x s <> SExit s'.
  Proof.
    intros (G & _) Hx E. destruct x as [|t n|t|t]; try contradiction; cbn [sys_step] in E.
    - destruct (reader_good true lg c (fun _ => Hpos) (fun _ => Hplain) (fun _ => Hexp) (fun _ => Hrx) Hsz qs tail e Hqs Hnd Hstop s G) as [_ H].
      apply Hmag. exact (H eq_refl s' E).
    - pose proof (g_core _ _ _ _ _ _ _ G) as K. unfold worker_step in E.
      destruct (nth_error (y_th s) t) as [x|] eqn:Ht; [|discriminate].
      destruct x as [|i er p|i er r k|i er r k|i]; try discriminate.
      + destruct (y_q s) as [|[[i rq] p] q]; discriminate.
      + destruct p as [a|X m k|m k|m k]; try discriminate.
        * destruct (th_wid true lg c (fun _ => Hpos) _ _ _ _ i K Ht eq_refl) as [q Hq].
          pose proof (k_code _ _ _ _ K _ _ _ _ _ Ht eq_refl eq_refl Hq) as [U _]. cbn [pspec] in U.
          specialize (U (set_errno er (y_w s))). destruct (m (set_errno er (y_w s))); discriminate.
        * destruct (lock_free s); discriminate.
        * destruct (sem_free s); discriminate.
      + destruct r; discriminate.
      + destruct r; discriminate.
  Qed.

  Lemma live_step x s s' : live s -> healthy x -> sys_step lg c x s = SGo s' -> live s'.
  Proof.
    intros (G & Hh & Hl & Hj) Hx E. pose proof (step_after x s G) as G'. rewrite E in G'. cbn [after] in G'.
    destruct x as [|t n|t|t]; try contradiction; cbn [sys_step] in E.
    - pose proof (reader_shape _ _ _ _ E) as Et. unfold live. rewrite Et. split; [exact G'|]. split; [exact Hh|]. split; [exact Hl|].
      intros d h Ed. destruct h; [|reflexivity]. exfalso.
      pose proof (g_rd _ _ _ _ _ _ _ G') as [_ R]. rewrite Ed in R. destruct R as (_ & _ & _ & R). destruct (R eq_refl) as (R1 & R2 & R3).
      destruct Hlast as [H|[H|[H|[r H]]]]; try congruence.
      pose proof (g_rd _ _ _ _ _ _ _ G) as [_ Rs]. unfold reader_step in E.
      destruct (y_rd s) as [|hdr|hdr h|rq h|rq p d0 h|rq p|d0 h|d0] eqn:Erd.
      + destruct (length (y_in s) <? 28)%nat; apply sgo_inj in E; subst s'; discriminate.
      + destruct lg; [destruct (sem_free s); [|discriminate]|]; apply sgo_inj in E; subst s'; discriminate.
      + destruct Rs as [_ [(q & l & Et0 & -> & Ein)|(Et0 & Etail & Hlen)]].
        * destruct (todo_ok true c qs Hqs Hnd _ _ _ Et0) as [Hq H2].
          rewrite (decode_q true c q Hq) in E. rewrite Z.eqb_refl in E. cbn [negb] in E.
          destruct (cmd_of (mreq q) =? NBD_CMD_WRITE); [apply sgo_inj in E; subst s'; discriminate|]. cbn [mreq rq_type] in E.
          replace (q_type q =? NBD_CMD_DISC) with false in E by (unfold NBD_CMD_DISC; lia). apply sgo_inj in E; subst s'. discriminate.
        * rewrite Etail, zlen_app in H. pose proof (zlen_nonneg (y_in s)). unfold zlen in *. lia.
      + destruct Rs as (q & -> & Hc & _ & [(l & Et0 & Ein)|(Et0 & Etail & Hck & _)]).
        * destruct (todo_ok true c qs Hqs Hnd _ _ _ Et0) as [Hq H2]. destruct Hq as (_ & _ & _ & _ & W5). rewrite Hc in W5. change (1 =? 1) with true in W5. cbv iota in W5.
          rewrite Ein, zlen_app in E. cbn [mreq rq_len] in E.
          replace (zlen (q_data q) + zlen (rest_of tail l) <? q_len q) with false in E by (pose proof (zlen_nonneg (rest_of tail l)); lia).
          match type of E with match ?m with _ => _ end = _ => destruct m end; try discriminate. apply sgo_inj in E; subst s'. discriminate.
        * rewrite Etail, zlen_app in H. pose proof (zlen_nonneg (y_in s)).
          assert (zlen (header q) = 28) by (unfold zlen; rewrite header_length by exact Hck; reflexivity). lia.
      + apply sgo_inj in E; subst s'. destruct h; discriminate.
      + apply sgo_inj in E; subst s'. discriminate.
      + match type of E with (if ?b then _ else _) = _ => destruct b end; [|discriminate]. apply sgo_inj in E; subst s'. discriminate.
      + discriminate.
    - destruct (worker_shape _ _ _ _ _ _ E Hh) as [H1 H2]. split; [exact G'|]. split; [exact H1|]. split; [lia|].
      intros d h Ed. apply (Hj d). rewrite <- Ed. symmetry.
      pose proof (worker_down _ _ _ _ _ _ E) as _. clear -E. unfold worker_step in E.
      destruct (nth_error (y_th s) t) as [[|i er [a|X m k|m k|m k]|i er [|b r] k|i er [|b r] k|i]|]; try discriminate;
        try (destruct (y_q s) as [|[[i rq] p] q]; [discriminate|]); try destruct (m (set_errno er (y_w s))); try discriminate;
        try destruct (lock_free s); try destruct (sem_free s); try discriminate; apply sgo_inj in E; subst s'; reflexivity.
  Qed.

  (** some move is always possible *)
  Lemma live_move s : live s -> (exists d, y_rd s = RDone d) \/ exists x s', healthy x /\ sys_step lg c x s = SGo s'.
  Proof.
    intros L. pose proof L as (G & Hh & Hl & Hj).
    assert (Hgo : forall x, healthy x -> sys_step lg c x s <> SNot -> exists x s', healthy x /\ sys_step lg c x s = SGo s').
    { intros x Hx Hn. pose proof (live_no_ub x s L) as H1. pose proof (fun s' => live_no_exit x s s' L Hx) as H2.
      destruct (sys_step lg c x s) as [s'| | |s'] eqn:E; [eauto|congruence|congruence|]. exfalso. apply (H2 s'). reflexivity. }
    (* a thread in the middle of a write can go on *)
    assert (Hmid : forall t x, nth_error (y_th s) t = Some x -> holds_lock x = true \/ holds_sem x = true -> exists x s', healthy x /\ sys_step lg c x s = SGo s').
    { intros t x Hx Hx'. apply (Hgo (CWork t 1)); [exact I|]. cbn [sys_step]. unfold worker_step. rewrite Hx.
      destruct x as [|i er p|i er r k|i er r k|i]; cbn [holds_lock holds_sem] in Hx'; try (destruct Hx'; discriminate).
      - destruct r; discriminate.
      - destruct r; discriminate.
      - specialize (Hh _ _ Hx). discriminate. }
    (* any busy thread means a move, unless the reading thread has the semaphore *)
    assert (Hbusy : rd_sem (y_rd s) = false -> forall t x, nth_error (y_th s) t = Some x -> is_idle x = false -> exists x s', healthy x /\ sys_step lg c x s = SGo s').
    { intros Hr t x Hx Hi. destruct x as [|i er p|i er r k|i er r k|i]; try discriminate; try (eapply Hmid; eauto; cbn; auto; fail).
      destruct p as [a|X m k|m k|m k].
      - apply (Hgo (CWork t 1)); [exact I|]. cbn [sys_step]. unfold worker_step. rewrite Hx. discriminate.
      - apply (Hgo (CWork t 1)); [exact I|]. cbn [sys_step]. unfold worker_step. rewrite Hx.
        destruct (m (set_errno er (y_w s))); discriminate.
      - destruct (lock_free s) eqn:Ef.
        + apply (Hgo (CWork t 1)); [exact I|]. cbn [sys_step]. unfold worker_step. rewrite Hx, Ef. discriminate.
        + unfold lock_free in Ef. apply negb_false_iff, existsb_nth in Ef. destruct Ef as (t' & x & Hx' & Hf). eapply Hmid; eauto.
      - destruct (sem_free s) eqn:Ef.
        + apply (Hgo (CWork t 1)); [exact I|]. cbn [sys_step]. unfold worker_step. rewrite Hx, Ef. discriminate.
        + unfold sem_free in Ef. rewrite Hr in Ef. cbn [negb] in Ef. rewrite andb_true_r in Ef. apply negb_false_iff, existsb_nth in Ef.
          destruct Ef as (t' & x & Hx' & Hf). eapply Hmid; eauto. }
    destruct (y_rd s) as [|hdr|hdr h|rq h|rq p d h|rq p|d h|d] eqn:Erd; [right..|left; eauto].
    - apply (Hgo CReader); [exact I|]. cbn [sys_step]. unfold reader_step. rewrite Erd. destruct (length (y_in s) <? 28)%nat; discriminate.
    - destruct lg eqn:Elg.
      + destruct (sem_free s) eqn:Ef.
        * apply (Hgo CReader); [exact I|]. cbn [sys_step]. unfold reader_step. rewrite Erd, Ef. discriminate.
        * unfold sem_free in Ef. rewrite Erd in Ef. cbn [rd_sem negb] in Ef. rewrite andb_true_r in Ef. apply negb_false_iff, existsb_nth in Ef.
          destruct Ef as (t' & x & Hx' & Hf). eapply Hmid; eauto.
      + apply (Hgo CReader); [exact I|]. cbn [sys_step]. unfold reader_step. rewrite Erd. discriminate.
    - apply (Hgo CReader); [exact I|]. cbn [sys_step]. unfold reader_step. rewrite Erd. destruct (decode_request hdr) as [magic rq].
      destruct (negb (magic =? NBD_REQUEST_MAGIC)); [discriminate|]. destruct (cmd_of rq =? NBD_CMD_WRITE); [discriminate|].
      destruct (rq_type rq =? NBD_CMD_DISC); discriminate.
    - apply (Hgo CReader); [exact I|]. cbn [sys_step]. unfold reader_step. rewrite Erd. destruct (zlen (y_in s) <? rq_len rq); [discriminate|].
      match goal with |- match ?m with _ => _ end <> _ => destruct m end; discriminate.
    - apply (Hgo CReader); [exact I|]. cbn [sys_step]. unfold reader_step. rewrite Erd. discriminate.
    - apply (Hgo CReader); [exact I|]. cbn [sys_step]. unfold reader_step. rewrite Erd. discriminate.
    - assert (h = false) by (eapply Hj; eauto). subst h.
      destruct (forallb is_idle (y_th s)) eqn:Ei.
      + destruct (y_q s) as [|[[i rq] p] q0] eqn:Eq.
        * apply (Hgo CReader); [exact I|]. cbn [sys_step]. unfold reader_step. rewrite Erd, Eq, Ei. discriminate.
        * destruct (y_th s) as [|x l] eqn:Eth; [cbn in Hl; lia|]. cbn [forallb] in Ei. apply andb_true_iff in Ei. destruct Ei as [Ei _].
          destruct x; try discriminate.
          apply (Hgo (CWork 0 1)); [exact I|]. cbn [sys_step]. unfold worker_step. rewrite Eth, Eq. discriminate.
      + assert (existsb (fun x => negb (is_idle x)) (y_th s) = true).
        { clear -Ei. induction (y_th s) as [|x l IH]; [discriminate|]. cbn [forallb existsb] in *. destruct (is_idle x); [cbn in *; auto|reflexivity]. }
        apply existsb_nth in H. destruct H as (t & x & Hx & Hf). apply negb_true_iff in Hf. eapply Hbusy; eauto.
  Qed.

  Theorem live_finishes s : live s -> inevitable lg c (fun s' => good s' /\ exists d, y_rd s' = RDone d) s.
  Proof.
    remember (rmeas s) as n eqn:En. assert (Hle : (rmeas s <= n)%nat) by lia. clear En. revert s Hle.
    induction n as [n IHn] using lt_wf_ind. intros s Hn.
    remember (length (y_q s)) as m eqn:Em. assert (Hm : (length (y_q s) <= m)%nat) by lia. clear Em. revert s Hn Hm.
    induction m as [m IHm] using lt_wf_ind. intros s Hn Hm.
    remember (y_th s) as th eqn:Eth. pose proof (acc_list th) as Ha. revert s Hn Hm Eth.
    induction Ha as [th _ IHth]. intros s Hn Hm -> L.
    destruct (live_move s L) as [Hd|Hmv]; [apply Now; split; [apply L|exact Hd]|].
    apply Later; [exact Hmv|intros x _; apply live_no_ub, L|intros x s' Hx; apply live_no_exit; assumption|].
    intros x s' Hx E. pose proof (live_step _ _ _ L Hx E) as L'.
    destruct x as [|t k|t|t]; try contradiction; cbn [sys_step] in E.
    - pose proof (reader_down _ _ _ _ E) as H. apply (IHn (rmeas s')); [lia|lia|exact L'].
    - destruct (worker_down _ _ _ _ _ _ E) as [H1 [H2|[H2 H3]]].
      + apply (IHm (length (y_q s'))); [lia|lia|lia|exact L'].
      + apply (IHth (y_th s') H3 s'); [lia|rewrite H2; exact Hm|reflexivity|exact L'].
  Qed.

  Theorem connection_finishes n w : (0 < n)%nat ->
    inevitable lg c (fun s' => good s' /\ exists d, y_rd s' = RDone d) (sys_init n (concat (map encode qs) ++ tail) w).
  Proof.
    intros Hn. apply live_finishes. split; [apply init_good|]. cbn [sys_init y_th y_rd]. split; [|split].
    - intros t x E. apply nth_error_In, repeat_spec in E. subst x. reflexivity.
    - rewrite repeat_length. exact Hn.
    - discriminate.
  Qed.
End Finish.
