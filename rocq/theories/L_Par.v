(** The threaded code run alone is the sequential code of M_Raw.v. *)
From Verif Require Import Base M_Const M_Disk M_Tree M_Raw M_Par.

(** a thread running alone, the log left out *)
Fixpoint denote {A} (p : P A) : M A :=
  match p with
  | PRet a => ret a
  | PAct X m k => bind m (fun x => denote (k x))
  | PSend m k => bind (send m) (fun _ => denote k)
  | PLog m k => denote k
  end.

Definition same {A} (p : P A) (m : M A) : Prop := forall w, denote p w = m w.

Lemma denote_bind {A B} (p : P A) (f : A -> P B) w :
  denote (pbind p f) w = bind (denote p) (fun a => denote (f a)) w.
Proof.
  revert w. induction p as [a|X m k IH|m k IH|m k IH]; intros w; cbn [pbind denote].
  - reflexivity.
  - unfold bind. destruct (m w) as [a w'| | |]; auto. apply IH.
  - unfold bind at 1 2 3. cbn. apply IH.
  - apply IH.
Qed.

Lemma same_ret {A} (a : A) : same (PRet a) (ret a).
Proof. intros w. reflexivity. Qed.
Lemma same_act {A} (m : M A) : same (act m) m.
Proof. intros w. cbn. unfold bind. destruct (m w); reflexivity. Qed.
Lemma same_bind {A B} (p : P A) (f : A -> P B) m g : same p m -> (forall a, same (f a) (g a)) -> same (pbind p f) (bind m g).
Proof.
  intros H1 H2 w. rewrite denote_bind. unfold bind. rewrite H1. destruct (m w); auto. apply H2.
Qed.
Lemma same_send m : same (psend m) (send m).
Proof. intros w. reflexivity. Qed.
Lemma same_log lg m : same (plog lg m) (ret tt).
Proof. intros w. destruct lg; reflexivity. Qed.
Lemma same_log_then {A} lg m (p : P A) n : same p n -> same (plog lg m ;;- p) n.
Proof. intros H w. destruct lg; apply H. Qed.
Lemma same_then_log lg m p n : same p n -> same (p ;;- plog lg m) n.
Proof.
  intros H w. rewrite denote_bind. unfold bind. rewrite H. destruct (n w) as [[] w'| | |]; auto.
  apply same_log.
Qed.

Lemma loopP_step_ext {S R} (f g : S -> S + R) : (forall s, f s = g s) -> forall p s, loopP f p s = loopP g p s.
Proof.
  intros H. induction p as [p IH|p IH|]; intros s; cbn [loopP].
  - rewrite H. destruct (g s) as [s1|]; auto. rewrite IH. destruct (loopP g p s1); auto.
  - rewrite IH. destruct (loopP g p s); auto.
  - apply H.
Qed.

Definition loop_out {S R} (x : (S * world) + out R) : out (S + R) :=
  match x with
  | inl (s, w) => Ret (inl s) w
  | inr (Ret r w) => Ret (inr r) w
  | inr Ub => Ub
  | inr (Die w) => Die w
  | inr Stuck => Stuck
  end.
Lemma mstep_out {S R} (body : S -> M (S + R)) s w : body s w = loop_out (mstep body (s, w)).
Proof. unfold mstep. cbn [fst snd]. destruct (body s w) as [[s'|r] w'| |w'|]; reflexivity. Qed.

Lemma ploopP_denote {S R} (pb : S -> P (S + R)) (body : S -> M (S + R)) :
  (forall s, same (pb s) (body s)) ->
  forall n s w, denote (ploopP pb n s) w = loop_out (loopP (mstep body) n (s, w)).
Proof.
  intros H. induction n as [n IH|n IH|]; intros s w; cbn [ploopP loopP].
  - rewrite denote_bind. unfold bind at 1. rewrite H, mstep_out.
    destruct (mstep body (s, w)) as [[s1 w1]|[r w1| |w1|]]; cbn [loop_out]; auto.
    rewrite denote_bind. unfold bind at 1. rewrite IH.
    destruct (loopP (mstep body) n (s1, w1)) as [[s2 w2]|[r w2| |w2|]]; cbn [loop_out]; auto.
  - rewrite denote_bind. unfold bind at 1. rewrite IH.
    destruct (loopP (mstep body) n (s, w)) as [[s2 w2]|[r w2| |w2|]]; cbn [loop_out]; auto.
  - rewrite H. apply mstep_out.
Qed.

Lemma same_loop {S R} bound (pb : S -> P (S + R)) (body : S -> M (S + R)) s :
  (forall s, same (pb s) (body s)) -> same (ploop bound pb s) (mloop bound body s).
Proof.
  intros H w. unfold ploop, mloop. rewrite denote_bind. unfold bind at 1.
  rewrite (ploopP_denote pb body H).
  destruct (loopP (mstep body) (Z.to_pos (bound + 1)) (s, w)) as [[s2 w2]|[r w2| |w2|]]; reflexivity.
Qed.

Ltac same_step :=
  match goal with
  | |- same (PRet _) _ => apply same_ret
  | |- same (act ?m) ?m => apply same_act
  | |- same (psend _) _ => apply same_send
  | |- same (ploop _ _ _) _ => apply same_loop; intros
  | |- same (plog _ _ ;;- _) _ => apply same_log_then
  | |- same (_ ;;- plog _ _) _ => apply same_then_log
  | |- same (pbind _ _) (bind _ _) => apply same_bind; intros
  | |- same (if ?b then _ else _) _ => destruct b
  | |- same (match ?x with pair _ _ => _ end) _ => destruct x
  | |- same (let '(_, _) := ?x in _) _ => destruct x
  | |- same (match ?x with Some _ => _ | None => _ end) _ => destruct x
  | |- same (match ?x with PBuf _ => _ | PPipe _ => _ | PNone => _ end) _ => destruct x
  end.
Ltac same_auto := repeat same_step.

Lemma same_sync_after c h fua : same (p_sync_after c h fua) (sync_after c h fua).
Proof. unfold p_sync_after, sync_after. same_auto. Qed.
Lemma same_rawexpwrite c a d len fua : same (p_rawexpwrite c a d len fua) (rawexpwrite c a d len fua).
Proof. unfold p_rawexpwrite, rawexpwrite. same_auto. apply same_sync_after. Qed.
Lemma same_rawexpwrite_fully c a d len fua :
  same (p_rawexpwrite_fully c a d len fua) (rawexpwrite_fully c a d len fua).
Proof.
  unfold p_rawexpwrite_fully, rawexpwrite_fully. same_auto.
  unfold p_rawexpwrite_fully_body, rawexpwrite_fully_body. same_auto. apply same_rawexpwrite.
Qed.
Lemma same_rawexpread c a len : same (p_rawexpread c a len) (rawexpread c a len).
Proof. unfold p_rawexpread, rawexpread. same_auto. Qed.
Lemma same_simple lg ck e d : same (p_simple lg ck e d) (send (simple_reply ck e d)).
Proof. unfold p_simple. same_auto. Qed.
Lemma same_chunk lg ck f t l d : same (p_chunk lg ck f t l d) (send (chunk ck f t l d)).
Proof. unfold p_chunk. same_auto. Qed.
Lemma same_confirm lg rq x n : same (p_confirm_read lg rq x n) (confirm_read rq x n).
Proof. unfold p_confirm_read, confirm_read. same_auto. apply same_chunk. Qed.
Lemma same_rawexpread_fully lg rq c x : same (p_rawexpread_fully lg rq c x) (rawexpread_fully rq c x).
Proof.
  unfold p_rawexpread_fully, rawexpread_fully. same_auto.
  unfold p_rawexpread_fully_body, rawexpread_fully_body. same_auto; [apply same_rawexpread|apply same_confirm].
Qed.
Lemma same_expread lg rq c x : same (p_expread lg rq c x) (expread rq c x).
Proof.
  unfold p_expread, expread. destruct (negb (cflag c F_COPYONWRITE) && negb (waiting c)); [apply same_rawexpread_fully|].
  same_auto. unfold p_expread_body, expread_body. same_auto; [apply same_confirm|apply same_rawexpread_fully].
Qed.
Lemma same_fill_page c ps o n pb : same (p_fill_page c ps o n pb) (fill_page c ps o n pb).
Proof.
  unfold p_fill_page, fill_page. same_auto. unfold p_copyin_body, copyin_body. same_auto. apply same_rawexpread.
Qed.
Lemma same_expwrite c a d len fua : same (p_expwrite c a d len fua) (expwrite c a d len fua).
Proof.
  unfold p_expwrite, expwrite. destruct (negb (cflag c F_COPYONWRITE) && negb (waiting c)); [apply same_rawexpwrite_fully|].
  same_auto; [|apply same_sync_after]. unfold p_expwrite_body, expwrite_body. same_auto; apply same_fill_page.
Qed.
Lemma same_expwrite_zeroes c rq fua : same (p_expwrite_zeroes c rq fua) (expwrite_zeroes c rq fua).
Proof.
  unfold p_expwrite_zeroes, expwrite_zeroes. same_auto. unfold p_expwrite_zeroes_body, expwrite_zeroes_body. same_auto; apply same_expwrite.
Qed.
Lemma same_fsync_all fis : same (p_fsync_all fis) (fsync_all fis).
Proof. induction fis as [|fi t IH]; cbn [p_fsync_all fsync_all]; same_auto. exact IH. Qed.
Lemma same_expflush c : same (p_expflush c) (expflush c).
Proof. unfold p_expflush, expflush. same_auto. apply same_fsync_all. Qed.
Lemma same_exptrim c rq : same (p_exptrim c rq) (exptrim c rq).
Proof.
  unfold p_exptrim, exptrim. same_auto.
  - unfold p_trim_tree_body, trim_tree_body. same_auto.
  - unfold p_trim_body, trim_body. same_auto.
Qed.
Lemma same_complete lg rq x e m : same (p_complete_read lg rq x e m) (complete_read rq x e m).
Proof. unfold p_complete_read, complete_read. same_auto; try apply same_chunk. all: apply same_simple. Qed.
Lemma same_normal_read lg c rq : same (p_handle_normal_read lg c rq) (handle_normal_read c rq).
Proof.
  unfold p_handle_normal_read, handle_normal_read. cbv zeta.
  destruct (c_structured c && flag (rq_type rq) NBD_CMD_FLAG_DF && (1048576 <? rq_len rq)); [apply same_chunk|].
  apply same_bind; [apply same_act|intros g]. apply same_bind; [apply same_expread|].
  intros [x1 f]. same_auto; apply same_complete.
Qed.
Lemma same_splice_read lg c rq : same (p_handle_splice_read lg c rq) (handle_splice_read c rq).
Proof.
  unfold p_handle_splice_read, handle_splice_read. same_auto; [|apply same_simple].
  unfold p_expsplice_in, expsplice_in. same_auto. unfold p_expsplice_in_body, expsplice_in_body. same_auto. apply same_rawexpread.
Qed.
Lemma same_reply_error lg rq e : same (p_reply_error lg rq e) (reply_error rq e).
Proof. unfold p_reply_error, reply_error. apply same_simple. Qed.

Lemma same_handle_request lg c rq p : same (p_handle_request lg c rq p) (handle_request c rq p).
Proof.
  unfold p_handle_request, handle_request. same_auto; try apply same_reply_error.
  - unfold p_handle_read, handle_read. same_auto; try apply same_splice_read; apply same_normal_read.
  - unfold p_handle_write, handle_write. same_auto; try apply same_simple; try apply same_expwrite. apply same_rawexpwrite_fully.
  - unfold p_handle_flush, handle_flush. same_auto; try apply same_simple; apply same_expflush.
  - unfold p_handle_trim, handle_trim. same_auto; [apply same_exptrim|apply same_simple].
  - unfold p_handle_write_zeroes, handle_write_zeroes. same_auto; try apply same_simple; apply same_expwrite_zeroes.
Qed.
