(** What a worker writes to the transaction log: one record per message, the
    message's header. *)
From Verif Require Import Base M_Const M_Disk M_Tree M_Raw M_Par L_Wp L_Raw S_Wire S_Disk L_Wire L_Req S_Par.

(** the header bytes of a message: 16 for a simple reply, 20 for a chunk *)
Definition head_of (m : list Z) : list Z :=
  firstn (if (unbe (firstn 4 m) =? NBD_REPLY_MAGIC)%Z then 16 else 20)%nat m.

Lemma head_enc cookie v : length cookie = 8%nat -> head_of (enc_view cookie v) = enc_head cookie v.
Proof.
  intros Hc. unfold head_of. destruct v as [e data|fl ty p]; cbn [enc_view enc_head].
  - replace (unbe (firstn 4 (be 4 1732535960 ++ be 4 e ++ cookie ++ data)) =? NBD_REPLY_MAGIC) with true by reflexivity.
    replace (be 4 1732535960 ++ be 4 e ++ cookie ++ data) with ((be 4 1732535960 ++ be 4 e ++ cookie) ++ data)
      by (rewrite <- !app_assoc; reflexivity).
    rewrite firstn_app. rewrite firstn_all2; rewrite !app_length, !be_length, Hc; [|lia].
    cbn [Nat.add Nat.sub firstn]. apply app_nil_r.
  - replace (unbe (firstn 4 (be 4 1720595439 ++ be 2 fl ++ be 2 ty ++ cookie ++ be 4 (zlen p) ++ p)) =? NBD_REPLY_MAGIC) with false by reflexivity.
    replace (be 4 1720595439 ++ be 2 fl ++ be 2 ty ++ cookie ++ be 4 (zlen p) ++ p)
      with ((be 4 1720595439 ++ be 2 fl ++ be 2 ty ++ cookie ++ be 4 (zlen p)) ++ p)
      by (rewrite <- !app_assoc; reflexivity).
    rewrite firstn_app. rewrite firstn_all2; rewrite !app_length, !be_length, Hc; [|lia].
    cbn [Nat.add Nat.sub firstn]. apply app_nil_r.
Qed.

(** as [pspec], with the records written so far *)
Fixpoint lspec {A} (p : P A) (ms rs : list (list Z)) (Q : A -> list (list Z) -> list (list Z) -> Prop) : Prop :=
  match p with
  | PRet a => Q a ms rs
  | PAct X m k => forall w, match m w with Ret a _ => lspec (k a) ms rs Q | _ => True end
  | PSend m k => lspec k (ms ++ [m]) rs Q
  | PLog m k => lspec k ms (rs ++ [m]) Q
  end.

Definition balanced {A} (_ : A) (ms rs : list (list Z)) : Prop := rs = map head_of ms.
Definition bal {A} (p : P A) : Prop := forall ms rs, rs = map head_of ms -> lspec p ms rs balanced.

Lemma lspec_mono {A} (p : P A) : forall ms rs (Q Q' : A -> list (list Z) -> list (list Z) -> Prop),
  lspec p ms rs Q -> (forall a ms rs, Q a ms rs -> Q' a ms rs) -> lspec p ms rs Q'.
Proof.
  induction p as [a|X m k IH|m k IH|m k IH]; cbn [lspec]; intros ms rs Q Q' H HQ; eauto.
  intros w. specialize (H w). destruct (m w); eauto.
Qed.
Lemma lspec_bind {A B} (p : P A) (f : A -> P B) : forall ms rs Q,
  lspec p ms rs (fun a ms rs => lspec (f a) ms rs Q) -> lspec (pbind p f) ms rs Q.
Proof.
  induction p as [a|X m k IH|m k IH|m k IH]; cbn [lspec pbind]; intros ms rs Q H; auto.
  intros w. specialize (H w). destruct (m w); auto.
Qed.
Lemma bal_ret {A} (a : A) : bal (PRet a).
Proof. intros ms rs H. exact H. Qed.
Lemma bal_act {X} (m : M X) : bal (act m).
Proof. intros ms rs H w. destruct (m w); auto. Qed.
Lemma bal_bind {A B} (p : P A) (f : A -> P B) : bal p -> (forall a, bal (f a)) -> bal (pbind p f).
Proof.
  intros Hp Hf ms rs H. apply lspec_bind. eapply lspec_mono; [apply Hp, H|]. intros a ms1 rs1 H1. apply Hf, H1.
Qed.
Lemma bal_loopP {S R} (body : S -> P (S + R)) : (forall s, bal (body s)) -> forall n s, bal (ploopP body n s).
Proof.
  intros Hb. induction n as [n IH|n IH|]; intros s; cbn [ploopP].
  - apply bal_bind; [apply Hb|]. intros [s1|r]; [|apply bal_ret]. apply bal_bind; [apply IH|].
    intros [s2|r]; [apply IH|apply bal_ret].
  - apply bal_bind; [apply IH|]. intros [s2|r]; [apply IH|apply bal_ret].
  - apply Hb.
Qed.
Lemma bal_loop {S R} b (body : S -> P (S + R)) s : (forall s, bal (body s)) -> bal (ploop b body s).
Proof.
  intros Hb. unfold ploop. apply bal_bind; [apply bal_loopP, Hb|]. intros [s'|r]; [apply bal_act|apply bal_ret].
Qed.

Lemma bal_simple cookie e data : length cookie = 8%nat -> bal (p_simple true cookie e data).
Proof.
  intros Hc ms rs H. cbn. unfold balanced. rewrite H, map_app. cbn [map]. do 2 f_equal.
  symmetry. apply (head_enc cookie (VSimple e data) Hc).
Qed.
Lemma bal_chunk cookie fl ty n payload : length cookie = 8%nat ->
  bal (p_chunk true cookie fl ty n payload).
Proof.
  intros Hc ms rs H. change (balanced tt (ms ++ [chunk cookie fl ty n payload]) (rs ++ [chunk_head cookie fl ty n])).
  unfold balanced. rewrite H, map_app. cbn [map]. do 2 f_equal. symmetry.
  unfold chunk_head, chunk, head_of.
  match goal with |- firstn (if (?a =? _)%Z then _ else _) _ = _ => replace (a =? NBD_REPLY_MAGIC) with false by reflexivity end.
  replace (be 4 NBD_STRUCTURED_REPLY_MAGIC ++ be 2 fl ++ be 2 ty ++ cookie ++ be 4 (u32 n) ++ payload)
    with ((be 4 NBD_STRUCTURED_REPLY_MAGIC ++ be 2 fl ++ be 2 ty ++ cookie ++ be 4 (u32 n)) ++ payload)
    by (rewrite <- !app_assoc; reflexivity).
  rewrite firstn_app. rewrite firstn_all2; rewrite !app_length, !be_length, Hc; [|lia].
  cbn [Nat.add Nat.sub firstn]. apply app_nil_r.
Qed.

Ltac bal1 :=
  match goal with
  | |- bal (PRet _) => apply bal_ret
  | |- bal (act _) => apply bal_act
  | |- bal (pbind _ _) => apply bal_bind; [|intros]
  | |- bal (ploop _ _ _) => apply bal_loop; intros
  | |- bal (p_simple _ _ _ _) => apply bal_simple; assumption
  | |- bal (p_chunk _ _ _ _ _ _) => apply bal_chunk; assumption
  | |- bal (if ?b then _ else _) => destruct b eqn:?
  | |- bal (match ?x with _ => _ end) => destruct x
  | |- bal (let '(_, _) := ?x in _) => destruct x
  end.

Section Bal.
  Variables (c : client) (rq : request).
  Hypothesis Hck : length (rq_cookie rq) = 8%nat.

  Lemma bal_sync h fua : bal (p_sync_after c h fua).
  Proof. unfold p_sync_after. repeat bal1. Qed.
  Lemma bal_rawexpwrite a d len fua : bal (p_rawexpwrite c a d len fua).
  Proof. unfold p_rawexpwrite. repeat first [bal1 | apply bal_sync]. Qed.
  Lemma bal_rawexpwrite_fully a d len fua : bal (p_rawexpwrite_fully c a d len fua).
  Proof. unfold p_rawexpwrite_fully, p_rawexpwrite_fully_body. repeat first [bal1 | apply bal_rawexpwrite]. Qed.
  Lemma bal_rawexpread a len : bal (p_rawexpread c a len).
  Proof. unfold p_rawexpread. repeat bal1. Qed.
  Lemma bal_confirm x k : bal (p_confirm_read true rq x k).
  Proof. unfold p_confirm_read. repeat bal1. Qed.
  Lemma bal_rawexpread_fully x : bal (p_rawexpread_fully true rq c x).
  Proof.
    unfold p_rawexpread_fully, p_rawexpread_fully_body.
    repeat first [bal1 | apply bal_rawexpread | apply bal_confirm].
  Qed.
  Lemma bal_expread x : bal (p_expread true rq c x).
  Proof.
    unfold p_expread. destruct (_ && _); [apply bal_rawexpread_fully|].
    unfold p_expread_body.
    repeat first [bal1 | apply bal_rawexpread_fully | apply bal_confirm].
  Qed.
  Lemma bal_fill_page a b d pb : bal (p_fill_page c a b d pb).
  Proof. unfold p_fill_page, p_copyin_body. repeat first [bal1 | apply bal_rawexpread]. Qed.
  Lemma bal_expwrite a d len fua : bal (p_expwrite c a d len fua).
  Proof.
    unfold p_expwrite. destruct (_ && _); [apply bal_rawexpwrite_fully|]. unfold p_expwrite_body.
    repeat first [bal1 | apply bal_fill_page | apply bal_sync].
  Qed.
  Lemma bal_expwrite_zeroes fua : bal (p_expwrite_zeroes c rq fua).
  Proof. unfold p_expwrite_zeroes, p_expwrite_zeroes_body. repeat first [bal1 | apply bal_expwrite]. Qed.
  Lemma bal_fsync_all l : bal (p_fsync_all l).
  Proof. induction l; cbn [p_fsync_all]; repeat bal1. assumption. Qed.
  Lemma bal_expflush : bal (p_expflush c).
  Proof. unfold p_expflush. repeat first [bal1 | apply bal_fsync_all]. Qed.
  Lemma bal_exptrim : bal (p_exptrim c rq).
  Proof. unfold p_exptrim, p_trim_tree_body, p_trim_body. repeat bal1. Qed.
  Lemma bal_complete_read x e m : bal (p_complete_read true rq x e m).
  Proof. unfold p_complete_read. repeat bal1. Qed.
  Lemma bal_normal_read : bal (p_handle_normal_read true c rq).
  Proof.
    unfold p_handle_normal_read. cbv zeta.
    repeat first [bal1 | apply bal_expread | apply bal_complete_read].
  Qed.
  Lemma bal_splice_read : bal (p_handle_splice_read true c rq).
  Proof. unfold p_handle_splice_read, p_expsplice_in, p_expsplice_in_body. repeat first [bal1 | apply bal_rawexpread]. Qed.
  Lemma bal_read : bal (p_handle_read true c rq).
  Proof. unfold p_handle_read. repeat first [bal1 | apply bal_splice_read | apply bal_normal_read]. Qed.

  Theorem bal_handle_request p : bal (p_handle_request true c rq p).
  Proof.
    unfold p_handle_request, p_reply_error, p_handle_write, p_handle_flush, p_handle_trim, p_handle_write_zeroes.
    repeat first [bal1 | apply bal_read | apply bal_expwrite | apply bal_rawexpwrite_fully | apply bal_expflush
      | apply bal_exptrim | apply bal_expwrite_zeroes].
  Qed.
End Bal.
