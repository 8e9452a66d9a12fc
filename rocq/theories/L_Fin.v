(** After the last message of its answer a request does nothing any more. *)
From Verif Require Import Base M_Const M_Disk M_Tree M_Raw M_Par S_Wire S_Par.

(** not a chunk without flags *)
Definition final (m : list Z) : bool := negb (eqb_bytes (firstn 6 m) [0x66; 0x8e; 0x33; 0xef; 0; 0]).

(** [fw sent p Q]: [p] takes no step and sends nothing once [sent]; a final
    message sets [sent] *)
Fixpoint fw (sent : bool) {A} (p : P A) (Q : bool -> A -> Prop) : Prop :=
  match p with
  | PRet a => Q sent a
  | PAct X m k => sent = false /\ forall a, fw sent (k a) Q
  | PSend m k => sent = false /\ fw (final m) k Q
  | PLog _ k => fw sent k Q
  end.

Lemma fw_mono {A} (p : P A) : forall s (Q Q' : bool -> A -> Prop), fw s p Q -> (forall s a, Q s a -> Q' s a) -> fw s p Q'.
Proof.
  induction p as [a|X m k IH|m k IH|m k IH]; cbn [fw]; intros s Q Q' H HQ; eauto.
  - destruct H as [H1 H2]. split; [exact H1|]. intros a. eapply IH; eauto.
  - destruct H as [H1 H2]. split; [exact H1|]. eapply IH; eauto.
Qed.
Lemma fw_bind {A B} (p : P A) (f : A -> P B) : forall s Q, fw s p (fun s a => fw s (f a) Q) -> fw s (pbind p f) Q.
Proof.
  induction p as [a|X m k IH|m k IH|m k IH]; cbn [fw pbind]; intros s Q H; auto.
  - destruct H as [H1 H2]. split; [exact H1|]. intros a. apply IH, H2.
  - destruct H as [H1 H2]. split; [exact H1|]. apply IH, H2.
Qed.

(** nothing final has been sent *)
Definition nf {A} (p : P A) : Prop := fw false p (fun s _ => s = false).
Lemma nf_bind {A B} (p : P A) (f : A -> P B) : nf p -> (forall a, nf (f a)) -> nf (pbind p f).
Proof. intros H1 H2. apply fw_bind. eapply fw_mono; [exact H1|]. intros s a ->. apply H2. Qed.
Lemma nf_ret {A} (a : A) : nf (PRet a).
Proof. reflexivity. Qed.
Lemma nf_act {X} (m : M X) : nf (act m).
Proof. split; [reflexivity|]. intros a. reflexivity. Qed.
Lemma nf_loopP {S R} (body : S -> P (S + R)) : (forall s, nf (body s)) -> forall n s, nf (ploopP body n s).
Proof.
  intros Hb. induction n as [n IH|n IH|]; intros s; cbn [ploopP]; [| |apply Hb].
  - apply nf_bind; [apply Hb|]. intros [s1|r]; [|apply nf_ret]. apply nf_bind; [apply IH|]. intros [s2|r]; [apply IH|apply nf_ret].
  - apply nf_bind; [apply IH|]. intros [s1|r]; [apply IH|apply nf_ret].
Qed.
Lemma nf_loop {S R} bound (body : S -> P (S + R)) s : (forall s, nf (body s)) -> nf (ploop bound body s).
Proof. intros Hb. apply nf_bind; [apply nf_loopP, Hb|]. intros [s1|r]; [apply nf_act|apply nf_ret]. Qed.

Ltac nfs :=
  repeat match goal with
  | |- nf (PRet _) => apply nf_ret
  | |- nf (act _) => apply nf_act
  | |- nf (pbind _ _) => apply nf_bind; [|intros ?]
  | |- nf (ploop _ _ _) => apply nf_loop; intros ?
  | |- nf (let '_ := ?x in _) => destruct x
  | |- nf (match ?x with _ => _ end) => destruct x
  end.

Section Code.
  Variables (lg : bool) (c : client).
  Lemma nf_sync h fua : nf (p_sync_after c h fua).
  Proof. unfold p_sync_after. nfs. Qed.
  Lemma nf_rawwrite a d len fua : nf (p_rawexpwrite c a d len fua).
  Proof. unfold p_rawexpwrite. nfs. apply nf_sync. Qed.
  Lemma nf_rawwrite_fully a d len fua : nf (p_rawexpwrite_fully c a d len fua).
  Proof. unfold p_rawexpwrite_fully, p_rawexpwrite_fully_body. nfs. apply nf_rawwrite. Qed.
  Lemma nf_rawread a len : nf (p_rawexpread c a len).
  Proof. unfold p_rawexpread. nfs. Qed.
  Lemma nf_chunk ck ty l p : nf (p_chunk lg ck 0 ty l p).
  Proof.
    unfold p_chunk. apply nf_bind; [|intros _; destruct lg; exact eq_refl].
    split; [reflexivity|]. reflexivity.
  Qed.
  Lemma nf_confirm rq x k : nf (p_confirm_read lg rq x k).
  Proof. unfold p_confirm_read. destruct (_ && _); [apply nf_chunk|apply nf_ret]. Qed.
  Lemma nf_rawread_fully rq x : nf (p_rawexpread_fully lg rq c x).
  Proof. unfold p_rawexpread_fully, p_rawexpread_fully_body. nfs; first [apply nf_rawread|apply nf_confirm]. Qed.
  Lemma nf_expread rq x : nf (p_expread lg rq c x).
  Proof.
    unfold p_expread. destruct (_ && _); [apply nf_rawread_fully|].
    unfold p_expread_body. nfs; first [apply nf_confirm|apply nf_rawread_fully].
  Qed.
  Lemma nf_expwrite a d len fua : nf (p_expwrite c a d len fua).
  Proof.
    unfold p_expwrite. destruct (_ && _); [apply nf_rawwrite_fully|].
    unfold p_expwrite_body, p_fill_page, p_copyin_body. nfs; first [apply nf_rawread|apply nf_sync].
  Qed.
  Lemma nf_zeroes rq fua : nf (p_expwrite_zeroes c rq fua).
  Proof. unfold p_expwrite_zeroes, p_expwrite_zeroes_body. nfs. apply nf_expwrite. Qed.
  Lemma nf_fsync_all l : nf (p_fsync_all l).
  Proof. induction l as [|fi t IH]; cbn [p_fsync_all]; nfs. exact IH. Qed.
  Lemma nf_flush : nf (p_expflush c).
  Proof. unfold p_expflush. nfs. apply nf_fsync_all. Qed.
  Lemma nf_trim rq : nf (p_exptrim c rq).
  Proof. unfold p_exptrim, p_trim_tree_body, p_trim_body. nfs. Qed.
  Lemma nf_splice a len : nf (p_expsplice_in c a len).
  Proof. unfold p_expsplice_in, p_expsplice_in_body. nfs. apply nf_rawread. Qed.

  Definition any {A} : bool -> A -> Prop := fun _ _ => True.
  Lemma fw_after {A B} (p : P A) (f : A -> P B) Q : nf p -> (forall a, fw false (f a) Q) -> fw false (pbind p f) Q.
  Proof. intros H1 H2. apply fw_bind. eapply fw_mono; [exact H1|]. intros s a ->. apply H2. Qed.
  Lemma fw_simple ck e data (Q : bool -> unit -> Prop) : (forall s, Q s tt) -> fw false (p_simple lg ck e data) Q.
  Proof. intros H. unfold p_simple. destruct lg; cbn; auto. Qed.
  Lemma fw_chunk ck fl ty l p (Q : bool -> unit -> Prop) : (forall s, Q s tt) -> fw false (p_chunk lg ck fl ty l p) Q.
  Proof. intros H. unfold p_chunk. destruct lg; cbn [pbind psend plog fw]; auto. Qed.
  Lemma fw_complete rq x e msg : fw false (p_complete_read lg rq x e msg) any.
  Proof.
    unfold p_complete_read. destruct (x_structured x); [|apply fw_simple; exact (fun _ => I)].
    apply fw_after; [destruct (_ && _); [apply nf_chunk|apply nf_ret]|]. intros _.
    destruct (negb _); apply fw_chunk; exact (fun _ => I).
  Qed.
  Lemma fw_normal_read rq : fw false (p_handle_normal_read lg c rq) any.
  Proof.
    unfold p_handle_normal_read. destruct (_ && _ && _); [apply fw_chunk; exact (fun _ => I)|].
    apply fw_after; [apply nf_act|]. intros g. apply fw_after; [apply nf_expread|]. intros [x1 failed].
    destruct failed; [apply fw_after; [apply nf_act|]; intros e|]; apply fw_complete.
  Qed.
  Lemma fw_read rq : fw false (p_handle_read lg c rq) any.
  Proof.
    unfold p_handle_read. apply fw_bind. destruct (cflag c F_SPLICE); [|apply fw_normal_read].
    unfold p_handle_splice_read. destruct (c_tls c); [apply fw_normal_read|].
    apply fw_after; [apply nf_act|]. intros ok. destruct (negb ok); [apply fw_normal_read|].
    apply fw_after; [apply nf_splice|]. intros [data|]; [|apply fw_normal_read].
    apply fw_bind. apply fw_simple. intros s. exact I.
  Qed.
  Theorem fw_request rq p : fw false (p_handle_request lg c rq p) any.
  Proof.
    assert (Herr : forall e, fw false (p_reply_error lg rq e) any) by (intros e; apply fw_simple; exact (fun _ => I)).
    unfold p_handle_request.
    repeat match goal with |- fw false (if ?b then _ else _) any => destruct b end; try apply Herr.
    - apply fw_read.
    - unfold p_handle_write. apply fw_after; [destruct p; first [apply nf_expwrite|apply nf_rawwrite_fully|apply nf_act]|]. intros failed.
      apply fw_after; [apply nf_act|]. intros e. apply fw_simple; exact (fun _ => I).
    - unfold p_handle_flush. apply fw_after; [apply nf_flush|]. intros failed.
      apply fw_after; [apply nf_act|]. intros e. apply fw_simple; exact (fun _ => I).
    - unfold p_handle_trim. apply fw_after; [apply nf_trim|]. intros failed. apply fw_simple; exact (fun _ => I).
    - unfold p_handle_write_zeroes. apply fw_after; [apply nf_zeroes|]. intros failed.
      apply fw_after; [apply nf_act|]. intros e. apply fw_simple; exact (fun _ => I).
  Qed.
End Code.

(** final messages, as the client sees them *)
Lemma final_done ck d v : wf_view d v -> is_done v = true -> final (enc_view ck v) = true.
Proof.
  intros H Hd. destruct v as [e data|fl ty p]; [reflexivity|]. cbn [is_done] in Hd.
  cbn [wf_view] in H. destruct H as (H1 & _). unfold final. cbn [enc_view]. apply negb_true_iff.
  unfold eqb_bytes. destruct (list_eq_dec _ _ _) as [E|]; [|reflexivity]. exfalso.
  assert (E2 : be 2 fl = [0; 0]).
  { change (firstn 6 (be 4 0x668e33ef ++ be 2 fl ++ ?r)) with ([0x66; 0x8e; 0x33; 0xef] ++ be 2 fl) in E.
    apply (app_inv_head [0x66; 0x8e; 0x33; 0xef]) in E. exact E. }
  pose proof (unbe_be 2 fl) as U. rewrite E2 in U. change (unbe [0; 0]) with 0 in U.
  change (2 ^ (8 * Z.of_nat 2)) with 65536 in U. rewrite Z.mod_small in U by lia. subst fl. discriminate.
Qed.
