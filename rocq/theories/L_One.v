(** Every step of a plain export adds at most one event to the trace. *)
From Verif Require Import Base M_Const M_Disk M_Tree M_Raw M_Par L_Wp L_Raw S_Wire S_Disk S_Crash L_Wire L_Req L_Plain L_Session L_PlainS L_Gen L_Frame L_Props L_Crash L_Dur S_Par S_Byte L_Msg L_LogMsg L_Sched L_SchedC L_FlushC.

Definition step1 (t t' : list event) : Prop := t' = t \/ exists e, t' = e :: t.
Definition still (t : list event) (w : world) : Prop := w_tr w = t.
Definition quiet {A} (m : M A) : Prop := forall t, keeps (still t) m.
Definition one {A} (m : M A) : Prop := forall w, match m w with Ret _ w' => step1 (w_tr w) (w_tr w') | _ => True end.

Lemma quiet_one {A} (m : M A) : quiet m -> one m.
Proof. intros H w. specialize (H (w_tr w) w eq_refl). unfold wlp in H. destruct (m w); auto. left. exact H. Qed.
Lemma one_after {A B} (m : M A) (f : A -> M B) : quiet m -> (forall a, one (f a)) -> one (bind m f).
Proof.
  intros H1 H2 w. specialize (H1 (w_tr w) w eq_refl). unfold wlp in H1. unfold bind. destruct (m w) as [a w'| | |]; auto.
  specialize (H2 a w'). rewrite H1 in H2. exact H2.
Qed.
Lemma one_before {A B} (m : M A) (f : A -> M B) : one m -> (forall a, quiet (f a)) -> one (bind m f).
Proof.
  intros H1 H2 w. specialize (H1 w). unfold bind. destruct (m w) as [a w'| | |]; auto.
  specialize (H2 a (w_tr w') w' eq_refl). unfold wlp in H2. destruct (f a w'); auto. rewrite H2. exact H1.
Qed.
Lemma one_emit e : one (modify (emit e)).
Proof. intros w. right. exists e. reflexivity. Qed.
Lemma one_ub {A} : one (@ub A).
Proof. intros w. exact I. Qed.

Ltac quiet_tac :=
  intros ?t; repeat match goal with
  | |- keeps _ (ret _) => apply keeps_ret
  | |- keeps _ (get _) => apply keeps_get
  | |- keeps _ ub => apply keeps_ub
  | |- keeps _ (assert_ _) => apply keeps_assert
  | |- keeps _ pull => apply keeps_pull; exact (fun w H => H)
  | |- keeps _ (modify (set_errno _)) => apply keeps_modify; exact (fun w H => H)
  | |- keeps _ (modify (set_file _ _)) => apply keeps_modify; exact (fun w H => H)
  | |- keeps _ (bind _ _) => apply keeps_bind; [|intros ?]
  | |- keeps _ (match ?x with _ => _ end) => destruct x
  | |- keeps _ (let k := _ in _) => cbv zeta
  end.
Ltac one_tac :=
  repeat match goal with
  | |- one (modify (emit _)) => apply one_emit
  | |- one (match ?x with _ => _ end) => destruct x
  | |- one (let k := _ in _) => cbv zeta
  | |- one (bind (modify (emit _)) _) => apply one_before; [apply one_emit|intros ?; quiet_tac; fail]
  | |- one (bind _ _) => apply one_after; [quiet_tac; fail|intros ?]
  | |- one _ => apply quiet_one; quiet_tac; fail
  end.

Lemma one_pwrite h off n d : one (sys_pwrite h off n d).
Proof. unfold sys_pwrite. one_tac. Qed.
Lemma one_punch h off n : one (punch_hole h off n).
Proof. unfold punch_hole. one_tac. Qed.
Lemma one_fsync h : one (sys_fsync h).
Proof. unfold sys_fsync. one_tac. Qed.
Lemma one_pread h o n : one (sys_pread h o n).
Proof. apply quiet_one. intros t. apply f_pread; exact (fun w H => H) || (intros; assumption). Qed.
Lemma one_mkpipe n : one (mkpipe n).
Proof. apply quiet_one. intros t. apply f_mkpipe. exact (fun w H => H). Qed.

Section Code.
  Variables (lg : bool) (c : client) (fis : list finfo).
  Hypothesis Hplain : plain c fis.

  Fixpoint oe {A} (p : P A) : Prop :=
    match p with
    | PRet _ => True
    | PAct X m k => one m /\ forall a, oe (k a)
    | PSend _ k => oe k
    | PLog _ k => oe k
    end.
  Lemma oe_bind {A B} (p : P A) (f : A -> P B) : oe p -> (forall a, oe (f a)) -> oe (pbind p f).
  Proof.
    intros H1 H2. induction p as [a|X m k IH|m k IH|m k IH]; cbn [oe pbind] in *; auto. destruct H1 as [H3 H4]. auto.
  Qed.
  Lemma oe_ret {A} (a : A) : oe (PRet a).
  Proof. exact I. Qed.
  Lemma oe_act {X} (m : M X) : one m -> oe (act m).
  Proof. intros H. split; [exact H|]. intros a. exact I. Qed.
  Lemma oe_loopP {S R} (body : S -> P (S + R)) : (forall s, oe (body s)) -> forall n s, oe (ploopP body n s).
  Proof.
    intros Hb. induction n as [n IH|n IH|]; intros s; cbn [ploopP]; [| |apply Hb].
    - apply oe_bind; [apply Hb|]. intros [s1|r]; [|apply oe_ret]. apply oe_bind; [apply IH|]. intros [s2|r]; [apply IH|apply oe_ret].
    - apply oe_bind; [apply IH|]. intros [s1|r]; [apply IH|apply oe_ret].
  Qed.
  Lemma oe_loop {S R} bound (body : S -> P (S + R)) s : (forall s, oe (body s)) -> oe (ploop bound body s).
  Proof.
    intros Hb. apply oe_bind; [apply oe_loopP, Hb|]. intros [s1|r]; [|apply oe_ret]. split; [intros w; exact I|intros a; exact I].
  Qed.
  Lemma one_getpos a : one (get_filepos c a).
  Proof. destruct Hplain as (Ht & _). apply quiet_one. intros t. apply keeps_get_array. exact Ht. Qed.

  Ltac oes :=
    repeat match goal with
    | |- oe (PRet _) => apply oe_ret
    | |- oe (act (get _)) => apply oe_act, quiet_one; intros ?; apply keeps_get
    | |- oe (act (sys_pread _ _ _)) => apply oe_act, one_pread
    | |- oe (act (sys_pwrite _ _ _ _)) => apply oe_act, one_pwrite
    | |- oe (act (sys_fsync _)) => apply oe_act, one_fsync
    | |- oe (act (punch_hole _ _ _)) => apply oe_act, one_punch
    | |- oe (act (get_filepos _ _)) => apply oe_act, one_getpos
    | |- oe (act (find_read_buf _)) => apply oe_act, quiet_one; intros ?; apply f_find
    | |- oe (act (buf_store _ _ _ _)) => apply oe_act, quiet_one; intros ?; apply f_store
    | |- oe (act (assert_ _)) => apply oe_act, quiet_one; intros ?; apply keeps_assert
    | |- oe (act ub) => apply oe_act, one_ub
    | |- oe (act (mkpipe _)) => apply oe_act, one_mkpipe
    | |- oe (pbind _ _) => apply oe_bind; [|intros ?]
    | |- oe (ploop _ _ _) => apply oe_loop; intros ?
    | |- oe (let '_ := ?x in _) => destruct x
    | |- oe (match ?x with _ => _ end) => destruct x
    end.
  Lemma off : cflag c F_TREEFILES = false /\ cflag c F_COPYONWRITE = false /\ waiting c = false.
  Proof. destruct Hplain as (H1 & H2 & H3 & _). unfold waiting. rewrite H3. auto. Qed.
  Lemma oe_simple ck e d : oe (p_simple lg ck e d).
  Proof. unfold p_simple. destruct lg; exact I. Qed.
  Lemma oe_chunk ck fl ty l p : oe (p_chunk lg ck fl ty l p).
  Proof. unfold p_chunk. destruct lg; exact I. Qed.
  Lemma oe_confirm rq x k : oe (p_confirm_read lg rq x k).
  Proof. unfold p_confirm_read. destruct (_ && _); [apply oe_chunk|apply oe_ret]. Qed.
  Lemma oe_rawread a len : oe (p_rawexpread c a len).
  Proof. unfold p_rawexpread. oes. Qed.
  Lemma oe_rawread_fully rq x : oe (p_rawexpread_fully lg rq c x).
  Proof. unfold p_rawexpread_fully, p_rawexpread_fully_body. oes; first [apply oe_rawread|apply oe_confirm]. Qed.
  Lemma oe_expread rq x : oe (p_expread lg rq c x).
  Proof. unfold p_expread. destruct off as (_ & -> & ->). cbn [negb andb]. apply oe_rawread_fully. Qed.
  Lemma oe_rawwrite_fully a d len fua : oe (p_rawexpwrite_fully c a d len fua).
  Proof. unfold p_rawexpwrite_fully, p_rawexpwrite_fully_body, p_rawexpwrite, p_sync_after. oes. Qed.
  Lemma oe_expwrite a d len fua : oe (p_expwrite c a d len fua).
  Proof. unfold p_expwrite. destruct off as (_ & -> & ->). cbn [negb andb]. apply oe_rawwrite_fully. Qed.
  Lemma oe_zeroes rq fua : oe (p_expwrite_zeroes c rq fua).
  Proof. unfold p_expwrite_zeroes, p_expwrite_zeroes_body. oes. apply oe_expwrite. Qed.
  Lemma oe_trim rq : oe (p_exptrim c rq).
  Proof. unfold p_exptrim, p_trim_body. destruct off as (-> & -> & _). oes. Qed.
  Lemma oe_complete rq x e msg : oe (p_complete_read lg rq x e msg).
  Proof. unfold p_complete_read. oes; first [apply oe_chunk|apply oe_simple]. Qed.
  Lemma oe_normal_read rq : oe (p_handle_normal_read lg c rq).
  Proof.
    unfold p_handle_normal_read. destruct (_ && _ && _); [apply oe_chunk|]. cbv zeta.
    apply oe_bind; [oes|]. intros g. apply oe_bind; [apply oe_expread|]. intros [x1 failed]. oes; apply oe_complete.
  Qed.
  Lemma oe_read rq : oe (p_handle_read lg c rq).
  Proof.
    unfold p_handle_read, p_handle_splice_read, p_expsplice_in, p_expsplice_in_body.
    apply oe_bind; [oes; first [apply oe_rawread|apply oe_simple]|]. intros [|]; [apply oe_ret|apply oe_normal_read].
  Qed.
  Lemma oe_fsync_all l : oe (p_fsync_all l).
  Proof. induction l; cbn [p_fsync_all]; oes. assumption. Qed.
  Lemma oe_flush rq : oe (p_handle_flush lg c rq).
  Proof.
    unfold p_handle_flush, p_expflush. destruct Hplain as (-> & -> & -> & -> & _). apply oe_bind; [apply oe_fsync_all|].
    intros failed. oes; apply oe_simple.
  Qed.
  Lemma oe_request rq p : oe (p_handle_request lg c rq p).
  Proof.
    unfold p_handle_request, p_reply_error.
    repeat match goal with |- oe (if ?b then _ else _) => destruct b end; try apply oe_simple.
    - apply oe_read.
    - unfold p_handle_write. cbv zeta. apply oe_bind; [destruct p; first [apply oe_expwrite|apply oe_rawwrite_fully|oes]|].
      intros failed. oes; apply oe_simple.
    - apply oe_flush.
    - unfold p_handle_trim. apply oe_bind; [apply oe_trim|]. intros _. apply oe_simple.
    - unfold p_handle_write_zeroes. cbv zeta. apply oe_bind; [apply oe_zeroes|]. intros failed. oes; apply oe_simple.
  Qed.

  (** ** One process *)
  Definition sys_oe (s : sys) : Prop := forall t x p, nth_error (y_th s) t = Some x -> wcode x = Some p -> oe p.

  Lemma oe_set s t x' : sys_oe s -> (forall p, wcode x' = Some p -> oe p) -> (t < length (y_th s))%nat ->
    forall s', y_th s' = set_th (y_th s) t x' -> sys_oe s'.
  Proof.
    clear Hplain. intros H Hx Hl s' E t' y p Ey Ep. rewrite E, nth_set_th in Ey by exact Hl. destruct (Nat.eqb t' t); [|eapply H; eauto].
    injection Ey as <-. auto.
  Qed.

  Lemma oe_step x s : sys_oe s ->
    match sys_step lg c x s with SGo s' => sys_oe s' /\ step1 (w_tr (y_w s)) (w_tr (y_w s')) | _ => True end.
  Proof.
    intros H. assert (R : step1 (w_tr (y_w s)) (w_tr (y_w s))) by (left; reflexivity).
    destruct x as [|t n|t|t]; cbn [sys_step].
    - unfold reader_step. destruct (y_rd s) as [|hdr|hdr held|rq held|rq p data held|rq p|d h|d].
      + destruct (length (y_in s) <? 28)%nat; (split; [exact H|exact R]).
      + destruct lg; [destruct (sem_free s); [|exact I]|]; (split; [exact H|exact R]).
      + destruct (decode_request hdr) as [mg rq]. destruct (negb (mg =? NBD_REQUEST_MAGIC)); [exact I|].
        destruct (cmd_of rq =? NBD_CMD_WRITE); [|destruct (rq_type rq =? NBD_CMD_DISC)]; (split; [exact H|exact R]).
      + destruct (zlen (y_in s) <? rq_len rq); [split; [exact H|exact R]|]. cbn zeta.
        assert (Hk : one (receive_payload c rq (firstn (Z.to_nat (rq_len rq)) (y_in s)))).
        { unfold receive_payload. destruct (cflag c F_SPLICE); [|apply quiet_one; intros ?; apply keeps_ret].
          apply quiet_one. intros t0. apply keeps_bind; [apply f_mkpipe; exact (fun w H => H)|]. intros [|]; [|apply keeps_ret].
          destruct (c_tls c); [|apply keeps_ret]. destruct (0 <? rq_len rq); [apply keeps_ub|apply keeps_ret]. }
        specialize (Hk (y_w s)). destruct (receive_payload c rq _ (y_w s)); try exact I. split; [exact H|exact Hk].
      + cbn zeta. destruct held; (split; [exact H|exact R]).
      + split; [exact H|exact R].
      + destruct (_ && _); [|exact I]. split; [exact H|exact R].
      + exact I.
    - unfold worker_step. destruct (nth_error (y_th s) t) as [x|] eqn:Hx; [|exact I]. pose proof (nth_lt _ _ _ Hx) as Hl.
      destruct x as [|i er p|i er rest p|i er rest p|i].
      + destruct (y_q s) as [|[[i rq] p] q]; [exact I|]. split; [|exact R].
        eapply (oe_set s t); [exact H| |exact Hl|reflexivity]. intros p' E. injection E as <-. apply oe_request.
      + specialize (H t _ _ Hx eq_refl) as Hc. destruct p as [a|X m k|m k|m k]; cbn [oe] in Hc.
        * split; [|exact R]. eapply (oe_set s t); [exact H| |exact Hl|reflexivity]. discriminate.
        * destruct Hc as [Hm Hk]. specialize (Hm (set_errno er (y_w s))). destruct (m (set_errno er (y_w s))) as [a w'| | |]; try exact I.
          split; [|exact Hm]. eapply (oe_set s t); [exact H| |exact Hl|reflexivity]. intros p E. injection E as <-. apply Hk.
        * destruct (lock_free s); [|exact I]. split; [|exact R].
          eapply (oe_set s t); [exact H| |exact Hl|reflexivity]. intros p E. injection E as <-. exact Hc.
        * destruct (sem_free s); [|exact I]. split; [|exact R].
          eapply (oe_set s t); [exact H| |exact Hl|reflexivity]. intros p E. injection E as <-. exact Hc.
      + specialize (H t _ _ Hx eq_refl) as Hc. destruct rest; (split; [|exact R]);
          (eapply (oe_set s t); [exact H| |exact Hl|reflexivity]); intros p' E; injection E as <-; exact Hc.
      + specialize (H t _ _ Hx eq_refl) as Hc. destruct rest; (split; [|exact R]);
          (eapply (oe_set s t); [exact H| |exact Hl|reflexivity]); intros p' E; injection E as <-; exact Hc.
      + exact I.
    - destruct (nth_error (y_th s) t) as [x|] eqn:Hx; [|exact I]. pose proof (nth_lt _ _ _ Hx) as Hl.
      destruct x as [| |i er [|b rest] p| |]; try exact I. split; [|exact R].
      eapply (oe_set s t); [exact H| |exact Hl|reflexivity]. discriminate.
    - destruct (nth_error (y_th s) t) as [[| |? ? [|]| |]|]; exact I.
  Qed.
End Code.
