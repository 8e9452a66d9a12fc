(** What a session can leave behind: frame properties of the data path, for
    every kind of export, up to a first undefined step. *)
From Verif Require Import Base M_Const M_Disk M_Tree M_Raw L_Wp L_Raw S_Wire S_Disk L_Wire L_Req L_Session L_Gen.

Section Frame.
  Variable c : client.
  Variable I : world -> Prop.
  Variable okf : fref -> Prop.

  Definition keeps {A} (m : M A) : Prop := forall w, I w -> wlp m (fun _ w' => I w') I w.

  (** which events may happen *)
  Definition fine (e : event) : Prop :=
    match e with
    | EWrite h _ _ _ | EPunch h _ _ => okf h
    | ECreate _ | EUnlink _ => False
    | ESync _ | ESyncAll | ESend _ => True
    end.

  Hypothesis I_tick : forall w, I w -> I (tick w).
  Hypothesis I_errno : forall e w, I w -> I (set_errno e w).
  Hypothesis I_emit : forall e w, fine e -> I w -> I (emit e w).
  Hypothesis I_file : forall h f w, okf h -> I w -> I (set_file h f w).
  Hypothesis I_dpos : forall p w, I w -> I (set_dpos p w).
  Hypothesis I_map : forall i v w, I w -> I (set_map i v w).
  Hypothesis I_dlen : forall n w, I w -> I (set_dlen n w).
  Hypothesis Hget : forall a, keeps (get_filepos c a).

  Lemma keeps_ret {A} (a : A) : keeps (ret a).
  Proof. intros w H. exact H. Qed.
  Lemma keeps_bind {A B} (m : M A) (k : A -> M B) : keeps m -> (forall a, keeps (k a)) -> keeps (bind m k).
  Proof. intros H1 H2 w Hw. apply wlp_bind. eapply wlp_mono; [apply H1; exact Hw| |auto]. intros a w' Hw'. apply H2, Hw'. Qed.
  Lemma keeps_get {A} (f : world -> A) : keeps (get f).
  Proof. intros w H. exact H. Qed.
  Lemma keeps_die {A} : keeps (@die A).
  Proof. intros w H. exact H. Qed.
  Lemma keeps_ub {A} : keeps (@ub A).
  Proof. intros w H. exact Logic.I. Qed.
  Lemma keeps_pull : keeps pull.
  Proof. intros w H. apply (I_tick w H). Qed.
  Lemma keeps_assert b : keeps (assert_ b).
  Proof. intros w H. destruct b; exact H. Qed.
  Lemma keeps_modify f : (forall w, I w -> I (f w)) -> keeps (modify f).
  Proof. intros Hf w H. apply (Hf w H). Qed.
  Lemma keeps_mloop {S R} bound (body : S -> M (S + R)) s : (forall s, keeps (body s)) -> keeps (mloop bound body s).
  Proof.
    intros H w Hw. apply wlp_mloop with (I := fun _ w => I w); [|exact Hw].
    intros s0 w0 H0. eapply wlp_mono; [apply H; exact H0| |auto]. intros [s'|r] w' Hw'; exact Hw'.
  Qed.

  Ltac kstep :=
    match goal with
    | |- keeps (ret _) => apply keeps_ret
    | |- keeps ub => apply keeps_ub
    | |- keeps die => apply keeps_die
    | |- keeps (get _) => apply keeps_get
    | |- keeps pull => apply keeps_pull
    | |- keeps (assert_ _) => apply keeps_assert
    | |- keeps (get_filepos _ _) => apply Hget
    | |- keeps (modify _) =>
        apply keeps_modify; intros; solve [auto | apply I_emit; [cbn; auto|auto]]
    | |- keeps (bind _ _) => apply keeps_bind; [|intros ?]
    | |- keeps (let '_ := ?x in _) => destruct x
    | |- keeps (match ?x with _ => _ end) => destruct x
    | |- _ => assumption
    end.
  Ltac k := repeat kstep.

  Lemma k_pread h off n : keeps (sys_pread h off n).
  Proof. unfold sys_pread. k. Qed.
  Lemma k_fsync h : keeps (sys_fsync h).
  Proof. unfold sys_fsync. k. Qed.
  Lemma k_send m : keeps (send m).
  Proof. unfold send. k. Qed.
  Lemma k_pwrite h off n d : okf h -> keeps (sys_pwrite h off n d).
  Proof. intros Hh. unfold sys_pwrite. cbv zeta. k; apply keeps_modify; intros; try apply I_file; try apply I_emit; auto. Qed.
  Lemma k_sync_after h fua : keeps (sync_after c h fua).
  Proof. unfold sync_after. k; apply k_fsync. Qed.
  Lemma k_rawexpread a len : keeps (rawexpread c a len).
  Proof. unfold rawexpread. k; apply k_pread. Qed.
  Lemma k_find x : keeps (find_read_buf x).
  Proof. unfold find_read_buf. k. Qed.
  Lemma k_store x i n d : keeps (buf_store x i n d).
  Proof. unfold buf_store. k. Qed.
  Lemma k_confirm rq x n : keeps (confirm_read rq x n).
  Proof. unfold confirm_read. k; apply k_send. Qed.
  Lemma k_rawread_fully rq x : keeps (rawexpread_fully rq c x).
  Proof.
    unfold rawexpread_fully. apply keeps_mloop. intros s. unfold rawexpread_fully_body.
    k; first [apply k_find|apply k_rawexpread|apply k_store|apply k_confirm].
  Qed.
  Lemma k_readmap i : keeps (read_map i).
  Proof. intros w H. unfold wlp, read_map. destruct ((0 <=? i) && (i <? w_mapsz w)); [exact H|exact Logic.I]. Qed.
  Lemma k_expread rq x : keeps (expread rq c x).
  Proof.
    unfold expread. cbv zeta. k; [apply k_rawread_fully|]. apply keeps_mloop. intros s. unfold expread_body. cbv zeta.
    k; first [apply k_readmap|apply k_find|apply k_pread|apply k_store|apply k_confirm|apply k_rawread_fully].
  Qed.
  Lemma k_complete rq x e m : keeps (complete_read rq x e m).
  Proof. unfold complete_read. k; apply k_send. Qed.
  Lemma k_normal_read rq : keeps (handle_normal_read c rq).
  Proof. unfold handle_normal_read. cbv zeta. k; first [apply k_send|apply k_expread|apply k_complete]. Qed.
  Lemma k_mkpipe n : keeps (mkpipe n).
  Proof. unfold mkpipe. k. Qed.
  Lemma k_splice_read rq : keeps (handle_splice_read c rq).
  Proof.
    unfold handle_splice_read. k; try apply k_send; try apply k_mkpipe.
    unfold expsplice_in. apply keeps_mloop. intros s. unfold expsplice_in_body, rawexpsplice_in. k; apply k_rawexpread.
  Qed.
  Lemma k_read rq : keeps (handle_read c rq).
  Proof. unfold handle_read. k; first [apply k_splice_read|apply k_normal_read]. Qed.
  Lemma k_fsync_all l : keeps (fsync_all l).
  Proof. induction l; cbn [fsync_all]; k; apply k_fsync. Qed.
  Lemma k_flush rq : keeps (handle_flush c rq).
  Proof.
    unfold handle_flush, expflush, sys_sync. k; first [apply k_fsync|apply k_send|apply k_fsync_all|idtac].
  Qed.
  Lemma k_error rq e : keeps (reply_error rq e).
  Proof. unfold reply_error. apply k_send. Qed.
  Lemma k_receive rq d : keeps (receive_payload c rq d).
  Proof. unfold receive_payload. k; apply k_mkpipe. Qed.

  (** a read-only export never gets to a modification *)
  Lemma k_request_ro rq p : bad_write c = true -> keeps (handle_request c rq p).
  Proof.
    intros Hb. unfold handle_request. rewrite Hb.
    k; first [apply k_error|apply k_read|apply k_flush].
  Qed.

  Lemma k_execute_ro qs : bad_write c = true -> keeps (execute c qs).
  Proof.
    intros Hro. induction qs as [|q qs IH]; cbn [execute]; [apply keeps_ret|].
    apply keeps_bind; [destruct (q_cmd q =? 1); [apply k_receive|apply keeps_ret]|].
    intros p. apply keeps_bind; [apply k_request_ro, Hro|auto].
  Qed.
  Lemma k_run_ro inp : Forall is_byte inp -> bad_write c = true -> keeps (run c inp).
  Proof.
    intros Hb Hm. destruct (stream_decompose inp Hb) as (qs & tail & e & -> & Hok & Hnd & Hst).
    intros w Hw. unfold wlp. rewrite (run_execute c qs tail e w Hok Hnd Hst).
    apply (keeps_bind (execute c qs) (fun _ => ret (model_end e))); [apply k_execute_ro, Hm|intros; apply keeps_ret|exact Hw].
  Qed.

  (** copy-on-write: modifications go to the diff file *)
  Hypothesis Hdiff : okf FDiff.

  Lemma k_write_diff n d : keeps (sys_write_diff n d).
  Proof. unfold sys_write_diff. k; apply k_pwrite, Hdiff. Qed.
  Lemma k_fill a b n pb : keeps (fill_page c a b n pb).
  Proof.
    unfold fill_page. k; apply keeps_mloop. intros s. unfold copyin_body. k. apply k_rawexpread.
  Qed.
  Lemma k_expwrite a d n fua : cflag c F_COPYONWRITE = true -> keeps (expwrite c a d n fua).
  Proof.
    intros Hc. unfold expwrite. rewrite Hc. cbn [negb andb]. cbv zeta. k; try apply k_sync_after.
    apply keeps_mloop. intros s. unfold expwrite_body. cbv zeta.
    k; first [apply k_readmap|apply k_pwrite, Hdiff|apply k_fill|apply k_write_diff].
  Qed.
  Lemma k_request_cow rq p : cflag c F_COPYONWRITE = true ->
    (forall d, p <> PPipe d) -> keeps (handle_request c rq p).
  Proof.
    intros Hc Hp. unfold handle_request, handle_write, handle_trim, handle_write_zeroes, exptrim, expwrite_zeroes.
    rewrite Hc.
    k; first [apply k_error|apply k_read|apply k_flush|apply k_send|apply k_expwrite, Hc|idtac].
    - destruct (Hp d eq_refl).
    - apply keeps_mloop. intros s. unfold expwrite_zeroes_body. cbv zeta. k; apply k_expwrite, Hc.
  Qed.

  Lemma k_execute qs :
    cflag c F_COPYONWRITE = true /\ cflag c F_SPLICE = false ->
    keeps (execute c qs).
  Proof.
    intros Hm. induction qs as [|q qs IH]; cbn [execute]; [apply keeps_ret|].
    destruct Hm as [Hc Hs].
    - unfold receive_payload. rewrite Hs.
      destruct (q_cmd q =? 1).
      + intros w Hw. change (wlp (handle_request c (mreq q) (PBuf (bytefn (q_data q))) ;;; execute c qs) (fun _ w' => I w') I w).
        apply keeps_bind; [apply k_request_cow; [exact Hc|discriminate]|auto|exact Hw].
      + intros w Hw. change (wlp (handle_request c (mreq q) PNone ;;; execute c qs) (fun _ w' => I w') I w).
        apply keeps_bind; [apply k_request_cow; [exact Hc|discriminate]|auto|exact Hw].
  Qed.

  Lemma k_run inp : Forall is_byte inp ->
    cflag c F_COPYONWRITE = true /\ cflag c F_SPLICE = false ->
    keeps (run c inp).
  Proof.
    intros Hb Hm. destruct (stream_decompose inp Hb) as (qs & tail & e & -> & Hok & Hnd & Hst).
    intros w Hw. unfold wlp. rewrite (run_execute c qs tail e w Hok Hnd Hst).
    apply (keeps_bind (execute c qs) (fun _ => ret (model_end e))); [apply k_execute, Hm|intros; apply keeps_ret|exact Hw].
  Qed.
End Frame.

(** ** Instances *)
(** get_filepos on an export that is not a tree changes nothing *)
Lemma keeps_get_array c (I : world -> Prop) : cflag c F_TREEFILES = false -> forall a, keeps I (get_filepos c a).
Proof.
  intros Ht a. unfold get_filepos. destruct (a <? 0); [apply keeps_ret|]. rewrite Ht.
  destruct (c_export c) as [l|]; [|apply keeps_ub].
  apply keeps_bind.
  - apply keeps_mloop. intros [s e]. unfold search_body. destruct (s <=? e); [|apply keeps_ret].
    destruct (nth_error l (Z.to_nat ((s + e) / 2))) as [fi|]; [|apply keeps_ub].
    destruct (fi_start fi <? a); [apply keeps_ret|]. destruct (a <? fi_start fi); apply keeps_ret.
  - intros e. apply keeps_bind; [apply keeps_assert|]. intros _.
    destruct (nth_error l (Z.to_nat e)); [apply keeps_ret|apply keeps_ub].
Qed.

(** on a read-only tree only the anonymous temporary file is written *)
Lemma keeps_get_tree_ro c (I : world -> Prop) :
  (forall w, I w -> I (tick w)) -> (forall e w, I w -> I (set_errno e w)) ->
  (forall f w, I w -> I (set_file FDummy f w)) ->
  cflag c F_READONLY = true ->
  forall a, keeps I (get_filepos c a).
Proof.
  intros It Ie If Hro a.
  destruct (cflag c F_TREEFILES) eqn:Ht; [|apply keeps_get_array; exact Ht].
  unfold get_filepos. destruct (a <? 0); [apply keeps_ret|]. rewrite Ht.
  rewrite Hro. cbn [negb]. apply keeps_bind; [|intros; apply keeps_ret].
  unfold open_treefile, get_path. apply keeps_bind.
  { destruct (tree_path (c_namelen c) (i64 (c_size c)) a); [apply keeps_ret|apply keeps_die|].
    intros w Hw. exact Logic.I. }
  intros p. apply keeps_bind; [apply keeps_pull, It|]. intros r.
  apply keeps_bind; [apply keeps_get|]. intros ex.
  assert (Hm : forall e, keeps I (modify (set_errno e) ;;; ret FBad)).
  { intros e. apply keeps_bind; [apply keeps_modify; auto|intros; apply keeps_ret]. }
  assert (Hd : keeps I (modify (set_file FDummy zero_block) ;;; ret FDummy)).
  { apply keeps_bind; [apply keeps_modify; auto|intros; apply keeps_ret]. }
  assert (Hrest : keeps I (r1 <- pull ;;
        match r1 with
        | RErr _ => die
        | _ =>
          r3 <- pull ;;
          match r3 with
          | RErr _ => die
          | RShort k => if k <=? 0 then die
                        else modify (set_file FDummy zero_block) ;;; ret FDummy
          | RFull => modify (set_file FDummy zero_block) ;;; ret FDummy
          end
        end)).
  { apply keeps_bind; [apply keeps_pull, It|]. intros r1.
    destruct r1; [| |apply keeps_die];
      (apply keeps_bind; [apply keeps_pull, It|]; intros r3;
       destruct r3 as [|kk|]; [exact Hd|destruct (kk <=? 0); [apply keeps_die|exact Hd]|apply keeps_die]). }
  destruct ex, r as [|kk|er]; try apply keeps_ret; try exact Hrest.
  - destruct (er =? ENOENT); [apply keeps_ret|apply Hm].
  - cbv zeta. destruct (negb (er =? ENOENT)); [apply Hm|exact Hrest].
Qed.
