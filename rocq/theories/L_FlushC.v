(** FLUSH among concurrent requests of a plain export. *)
From Verif Require Import Base M_Const M_Disk M_Tree M_Raw M_Par L_Wp L_Raw S_Wire S_Disk S_Crash L_Wire L_Req L_Plain L_Session L_PlainS L_Gen L_Frame L_Props L_Crash L_Dur S_Par S_Byte L_Msg L_LogMsg L_Sched L_SchedC L_SchedL S_Run L_Sent L_Byte L_Fin L_ByteS.

(** one trace is an earlier part of the other *)
Definition later (t t' : list event) : Prop := exists ext, t' = ext ++ t.
Lemma later_refl t : later t t.
Proof. exists []. reflexivity. Qed.
Lemma later_trans a b d : later a b -> later b d -> later a d.
Proof. intros [x ->] [y ->]. exists (y ++ x). rewrite app_assoc. reflexivity. Qed.
Lemma later_cons e t t' : later t t' -> later t (e :: t').
Proof. intros [x ->]. exists (e :: x). reflexivity. Qed.

(** [h] was synced after [t] *)
Definition synced (t : list event) (h : fref) (t' : list event) : Prop :=
  exists a e b, t' = a ++ e :: b ++ t /\ syncs e h.
Lemma synced_later t h t' t'' : synced t h t' -> later t' t'' -> synced t h t''.
Proof. intros (a & e & b & -> & H) [x ->]. exists (x ++ a), e, b. rewrite app_assoc. auto. Qed.
Lemma synced_earlier t0 t h t' : later t0 t -> synced t h t' -> synced t0 h t'.
Proof. intros [x ->] (a & e & b & -> & H). exists a, e, (b ++ x). rewrite <- app_assoc. auto. Qed.

Section Code.
  Variable init : fref -> Z -> Z.
  Variables (lg : bool) (c : client) (fis : list finfo).
  Hypothesis Hplain : plain c fis.

  (** [p] keeps files and trace together and only adds to the trace; [tr] is the
      trace when it was last looked at, others may have added to it since *)
  Fixpoint fs {A} (p : P A) (tr : list event) (ms : list (list Z)) (Q : A -> list event -> list (list Z) -> Prop) : Prop :=
    match p with
    | PRet a => Q a tr ms
    | PAct X m k => forall w, traced init w -> later tr (w_tr w) ->
        match m w with
        | Ret a w' => traced init w' /\ later (w_tr w) (w_tr w') /\ fs (k a) (w_tr w') ms Q
        | _ => True
        end
    | PSend m k => fs k tr (ms ++ [m]) Q
    | PLog _ k => fs k tr ms Q
    end.

  Lemma fs_mono {A} (p : P A) : forall tr ms (Q Q' : A -> list event -> list (list Z) -> Prop),
    fs p tr ms Q -> (forall a t m, Q a t m -> Q' a t m) -> fs p tr ms Q'.
  Proof.
    induction p as [a|X m k IH|m k IH|m k IH]; cbn [fs]; intros tr ms Q Q' H HQ; eauto.
    intros w H1 H2. specialize (H w H1 H2). destruct (m w) as [a w'| | |]; auto. destruct H as (H3 & H4 & H5). eauto.
  Qed.
  Lemma fs_bind {A B} (p : P A) (f : A -> P B) : forall tr ms Q,
    fs p tr ms (fun a t m => fs (f a) t m Q) -> fs (pbind p f) tr ms Q.
  Proof.
    induction p as [a|X m k IH|m k IH|m k IH]; cbn [fs pbind]; intros tr ms Q H; auto.
    intros w H1 H2. specialize (H w H1 H2). destruct (m w) as [a w'| | |]; auto. destruct H as (H3 & H4 & H5). auto.
  Qed.
  (** others may go on *)
  Lemma fs_env {A} (p : P A) : forall tr tr' ms (Q : A -> list event -> list (list Z) -> Prop),
    (forall a t t' m, later t t' -> Q a t m -> Q a t' m) -> later tr tr' -> fs p tr ms Q -> fs p tr' ms Q.
  Proof.
    induction p as [a|X m k IH|m k IH|m k IH]; cbn [fs]; intros tr tr' ms Q HQ Hl H; eauto.
    intros w H1 H2. apply H; [exact H1|eapply later_trans; eauto].
  Qed.
  Lemma fw_fs (p : P unit) tr ms Q : fw true p any -> fs p tr ms Q -> Q tt tr ms.
  Proof.
    induction p as [a|X m k IH|m k IH|m k IH]; cbn [fw fs]; intros F H; [destruct a; exact H|destruct F; discriminate|destruct F; discriminate|].
    apply IH; assumption.
  Qed.

  Definition J (T : list event) (w : world) : Prop := traced init w /\ later T (w_tr w).
  Definition fk {A} (p : P A) : Prop := forall tr ms, fs p tr ms (fun _ _ _ => True).
  Lemma fk_ret {A} (a : A) : fk (PRet a).
  Proof. intros tr ms. exact I. Qed.
  Lemma fs_val {A B} (p : P A) (f : A -> P B) (R : A -> Prop) :
    (forall tr ms, fs p tr ms (fun a _ _ => R a)) -> (forall a, R a -> fk (f a)) -> fk (pbind p f).
  Proof. intros H1 H2 tr ms. apply fs_bind. eapply fs_mono; [apply H1|]. cbn beta. intros a t m Ha. apply H2, Ha. Qed.
  Lemma fk_bind {A B} (p : P A) (f : A -> P B) : fk p -> (forall a, fk (f a)) -> fk (pbind p f).
  Proof. intros H1 H2. apply (fs_val p f (fun _ => True)); auto. Qed.
  Lemma fk_act {X} (m : M X) : (forall T, keeps (J T) m) -> fk (act m).
  Proof.
    intros H tr ms w H1 H2. specialize (H (w_tr w) w (conj H1 (later_refl _))). unfold wlp in H. destruct (m w) as [a w'| | |]; auto.
    destruct H as [H3 H4]. split; [exact H3|]. split; [exact H4|]. exact I.
  Qed.
  Lemma fk_loopP {S R} (body : S -> P (S + R)) : (forall s, fk (body s)) -> forall n s, fk (ploopP body n s).
  Proof.
    intros Hb. induction n as [n IH|n IH|]; intros s; cbn [ploopP]; [| |apply Hb].
    - apply fk_bind; [apply Hb|]. intros [s1|r]; [|apply fk_ret]. apply fk_bind; [apply IH|]. intros [s2|r]; [apply IH|apply fk_ret].
    - apply fk_bind; [apply IH|]. intros [s1|r]; [apply IH|apply fk_ret].
  Qed.
  Lemma fk_loop {S R} bound (body : S -> P (S + R)) s : (forall s, fk (body s)) -> fk (ploop bound body s).
  Proof.
    intros Hb. apply fk_bind; [apply fk_loopP, Hb|]. intros [s1|r]; [|apply fk_ret]. intros tr ms w _ _. exact I.
  Qed.

  (** ** Steps *)
  Lemma J_same T w w' : w_file w' = w_file w -> w_exists w' = w_exists w -> w_tr w' = w_tr w -> J T w -> J T w'.
  Proof. intros H1 H2 H3 [Ht Hl]. split; [|rewrite H3; exact Hl]. eapply traced_same; eauto. intros h i. rewrite H3. reflexivity. Qed.
  Lemma J_tick T w : J T w -> J T (tick w).
  Proof. apply J_same; reflexivity. Qed.
  Lemma J_errno T e w : J T w -> J T (set_errno e w).
  Proof. apply J_same; reflexivity. Qed.
  Lemma J_send T m w : J T w -> J T (emit (ESend m) w).
  Proof. intros [Ht Hl]. split; [|apply later_cons, Hl]. eapply traced_same; [reflexivity|reflexivity| |exact Ht]. reflexivity. Qed.
  Lemma J_sync T h w : J T w -> J T (emit (ESync h) w).
  Proof. intros [Ht Hl]. split; [|apply later_cons, Hl]. eapply traced_same; [reflexivity|reflexivity| |exact Ht]. reflexivity. Qed.
  Lemma J_pread T h o n : keeps (J T) (sys_pread h o n).
  Proof. apply f_pread; [apply J_tick|intros; apply J_errno; assumption]. Qed.
  Lemma J_fsync T h : keeps (J T) (sys_fsync h).
  Proof. unfold sys_fsync. apply f_fsync; [apply J_tick|intros; apply J_errno; assumption|intros; apply J_sync; assumption]. Qed.
  Lemma J_pwrite T h off n d : is_exp h = true -> keeps (J T) (sys_pwrite h off n d).
  Proof.
    intros Hh w [Ht Hl]. pose proof (traced_pwrite init h off n d w ltac:(left; destruct h; try discriminate; exact I) Ht) as H1.
    assert (H2 : keeps (fun w => later T (w_tr w)) (sys_pwrite h off n d)).
    { unfold sys_pwrite.
      repeat match goal with
      | |- keeps _ (ret _) => apply keeps_ret
      | |- keeps _ (get _) => apply keeps_get
      | |- keeps _ pull => apply keeps_pull; exact (fun w H => H)
      | |- keeps _ (modify (set_errno _)) => apply keeps_modify; exact (fun w H => H)
      | |- keeps _ (modify (set_file _ _)) => apply keeps_modify; exact (fun w H => H)
      | |- keeps _ (modify (emit _)) => apply keeps_modify; intros; apply later_cons; assumption
      | |- keeps _ (bind _ _) => apply keeps_bind; [|intros ?]
      | |- keeps _ (match ?x with _ => _ end) => destruct x
      | |- keeps _ (let k := _ in _) => cbv zeta
      end. }
    specialize (H2 w Hl). unfold wlp in *. destruct (sys_pwrite h off n d w); try exact I; unfold J; tauto.
  Qed.
  Lemma J_punch T h off n : keeps (J T) (punch_hole h off n).
  Proof.
    intros w [Ht Hl]. pose proof (k_traced_punch init h off n w Ht) as H1.
    assert (H2 : keeps (fun w => later T (w_tr w)) (punch_hole h off n)).
    { unfold punch_hole.
      repeat match goal with
      | |- keeps _ (ret _) => apply keeps_ret
      | |- keeps _ (get _) => apply keeps_get
      | |- keeps _ pull => apply keeps_pull; exact (fun w H => H)
      | |- keeps _ (modify (set_errno _)) => apply keeps_modify; exact (fun w H => H)
      | |- keeps _ (modify (set_file _ _)) => apply keeps_modify; exact (fun w H => H)
      | |- keeps _ (modify (emit _)) => apply keeps_modify; intros; apply later_cons; assumption
      | |- keeps _ (bind _ _) => apply keeps_bind; [|intros ?]
      | |- keeps _ (match ?x with _ => _ end) => destruct x
      | |- keeps _ (let k := _ in _) => cbv zeta
      end. }
    specialize (H2 w Hl). unfold wlp in *. destruct (punch_hole h off n w); try exact I; unfold J; tauto.
  Qed.

  Ltac fks :=
    repeat match goal with
    | |- fk (PRet _) => apply fk_ret
    | |- fk (act (get _)) => apply fk_act; intros ?; apply keeps_get
    | |- fk (act (sys_pread _ _ _)) => apply fk_act; intros ?; apply J_pread
    | |- fk (act (sys_fsync _)) => apply fk_act; intros ?; apply J_fsync
    | |- fk (act (punch_hole _ _ _)) => apply fk_act; intros ?; apply J_punch
    | |- fk (act (find_read_buf _)) => apply fk_act; intros ?; apply f_find
    | |- fk (act (buf_store _ _ _ _)) => apply fk_act; intros ?; apply f_store
    | |- fk (act (assert_ _)) => apply fk_act; intros ?; apply keeps_assert
    | |- fk (act ub) => apply fk_act; intros ?; apply keeps_ub
    | |- fk (act (mkpipe _)) => apply fk_act; intros ?; apply f_mkpipe; apply J_tick
    | |- fk (pbind _ _) => apply fk_bind; [|intros ?]
    | |- fk (ploop _ _ _) => apply fk_loop; intros ?
    | |- fk (let '_ := ?x in _) => destruct x
    | |- fk (match ?x with _ => _ end) => destruct x
    end.

  Definition exp_at (r : option (fref * Z * Z)) : Prop := match r with Some (h, _, _) => is_exp h = true | None => True end.
  Lemma fs_getpos a tr ms : fs (act (get_filepos c a)) tr ms (fun r _ _ => exp_at r).
  Proof.
    destruct Hplain as (Ht & _ & _ & Hx & (_ & _ & He) & _). intros w H1 H2.
    pose proof (keeps_get_array c (J (w_tr w)) Ht a w (conj H1 (later_refl _))) as H.
    assert (R : wlp (get_filepos c a) (fun r _ => exp_at r) (fun _ => True) w).
    { unfold get_filepos. destruct (a <? 0); [exact I|]. rewrite Ht, Hx. apply wlp_bind.
      eapply wlp_mono with (Q := fun _ _ => True) (D := fun _ => True); [| |tauto].
      - unfold wlp. destruct (mloop _ _ _ w); exact I.
      - intros e w1 _. apply wlp_bind. unfold assert_. destruct (0 <=? e); [|exact I]. apply wlp_ret.
        destruct (nth_error fis (Z.to_nat e)) as [fi|] eqn:E; [|exact I]. apply wlp_ret. cbn [exp_at].
        rewrite forallb_forall in He. apply He. eapply nth_error_In; eauto. }
    unfold wlp in *. destruct (get_filepos c a w) as [r w'| | |]; try exact I. destruct H as [H3 H4]. split; [exact H3|]. split; [exact H4|]. exact R.
  Qed.
  Lemma flags_off : cflag c F_TREEFILES = false /\ cflag c F_COPYONWRITE = false /\ waiting c = false.
  Proof. destruct Hplain as (H1 & H2 & H3 & _). unfold waiting. rewrite H3. auto. Qed.

  Lemma fk_sync h fua : fk (p_sync_after c h fua).
  Proof. unfold p_sync_after. fks. Qed.
  Lemma fk_rawwrite a d len fua : fk (p_rawexpwrite c a d len fua).
  Proof.
    unfold p_rawexpwrite. apply (fs_val _ _ exp_at); [apply fs_getpos|]. intros [[[h o] mb]|] He; [|apply fk_ret]. cbn in He.
    apply fk_bind; [apply fk_act; intros T; apply J_pwrite, He|]. intros k. fks. apply fk_sync.
  Qed.
  Lemma fk_rawwrite_fully a d len fua : fk (p_rawexpwrite_fully c a d len fua).
  Proof. unfold p_rawexpwrite_fully, p_rawexpwrite_fully_body. fks. apply fk_rawwrite. Qed.
  Lemma fk_rawread a len : fk (p_rawexpread c a len).
  Proof.
    unfold p_rawexpread. apply (fs_val _ _ exp_at); [apply fs_getpos|]. intros [[[h o] mb]|] He; fks.
  Qed.
  Lemma fk_simple ck e d : fk (p_simple lg ck e d).
  Proof. unfold p_simple. intros tr ms. destruct lg; exact I. Qed.
  Lemma fk_chunk ck fl ty l p : fk (p_chunk lg ck fl ty l p).
  Proof. unfold p_chunk. intros tr ms. destruct lg; exact I. Qed.
  Lemma fk_confirm rq x k : fk (p_confirm_read lg rq x k).
  Proof. unfold p_confirm_read. destruct (_ && _); [apply fk_chunk|apply fk_ret]. Qed.
  Lemma fk_rawread_fully rq x : fk (p_rawexpread_fully lg rq c x).
  Proof. unfold p_rawexpread_fully, p_rawexpread_fully_body. fks; first [apply fk_rawread|apply fk_confirm]. Qed.
  Lemma fk_expread rq x : fk (p_expread lg rq c x).
  Proof. unfold p_expread. destruct flags_off as (_ & -> & ->). cbn [negb andb]. apply fk_rawread_fully. Qed.
  Lemma fk_expwrite a d len fua : fk (p_expwrite c a d len fua).
  Proof. unfold p_expwrite. destruct flags_off as (_ & -> & ->). cbn [negb andb]. apply fk_rawwrite_fully. Qed.
  Lemma fk_zeroes rq fua : fk (p_expwrite_zeroes c rq fua).
  Proof. unfold p_expwrite_zeroes, p_expwrite_zeroes_body. fks. apply fk_expwrite. Qed.
  Lemma fk_trim rq : fk (p_exptrim c rq).
  Proof. unfold p_exptrim, p_trim_body. destruct flags_off as (-> & -> & _). fks. Qed.
  Lemma fk_complete rq x e msg : fk (p_complete_read lg rq x e msg).
  Proof. unfold p_complete_read. fks; first [apply fk_chunk|apply fk_simple]. Qed.
  Lemma fk_normal_read rq : fk (p_handle_normal_read lg c rq).
  Proof.
    unfold p_handle_normal_read. destruct (_ && _ && _); [apply fk_chunk|]. cbv zeta.
    apply fk_bind; [fks|]. intros g. apply fk_bind; [apply fk_expread|]. intros [x1 failed]. fks; apply fk_complete.
  Qed.
  Lemma fk_read rq : fk (p_handle_read lg c rq).
  Proof.
    unfold p_handle_read, p_handle_splice_read, p_expsplice_in, p_expsplice_in_body.
    apply fk_bind; [fks; first [apply fk_rawread|apply fk_simple]|]. intros [|]; [apply fk_ret|apply fk_normal_read].
  Qed.

  (** FLUSH *)
  Lemma fs_fsync h tr ms : fs (act (sys_fsync h)) tr ms (fun r t m => m = ms /\ later tr t /\ (0 <= r -> synced tr h t)).
  Proof.
    intros w H1 H2. pose proof (J_fsync (w_tr w) h w (conj H1 (later_refl _))) as HJ.
    pose proof (wlp_fsync h w) as HS. unfold wlp in *. destruct (sys_fsync h w) as [r w'| | |]; try exact I.
    destruct HJ as [H3 H4]. split; [exact H3|]. split; [exact H4|]. cbn [fs]. split; [reflexivity|].
    split; [eapply later_trans; eauto|]. intros Hr. destruct HS as (ext & (Et & _) & Hin). specialize (Hin Hr).
    apply in_split in Hin. destruct Hin as (a & b & ->). destruct H2 as [x Hx]. rewrite Hx in Et.
    exists a, (ESync h), (b ++ x). split; [|left; reflexivity]. rewrite Et, <- !app_assoc. reflexivity.
  Qed.
  Lemma fs_fsync_all l : forall tr ms, fs (p_fsync_all l) tr ms (fun failed t m => m = ms /\ later tr t /\
     (failed = false -> forall fi, In fi l -> synced tr (fi_h fi) t)).
  Proof.
    induction l as [|fi l IH]; intros tr ms; cbn [p_fsync_all].
    - split; [reflexivity|]. split; [apply later_refl|]. intros _ fi [].
    - apply fs_bind. eapply fs_mono; [apply fs_fsync|]. cbn beta. intros r t m (-> & Hl & Hs). destruct (r <? 0) eqn:Er.
      + split; [reflexivity|]. split; [exact Hl|]. discriminate.
      + eapply fs_mono; [apply IH|]. cbn beta. intros failed t' m' (-> & Hl' & Hs'). split; [reflexivity|].
        split; [eapply later_trans; eauto|]. intros Hf fj [<-|Hin]; [|eapply synced_earlier; eauto].
        eapply synced_later; [|exact Hl']. apply Hs. lia.
  Qed.

  (** the answer to a FLUSH, and what success means; [T]: the trace before it *)
  Definition flush_post (T : list event) (q : wreq) : unit -> list event -> list (list Z) -> Prop := fun _ t ms =>
    exists e, ms = [simple_reply (q_cookie q) e []] /\ is_u32 e /\ (e = 0 -> forall fi, In fi fis -> synced T (fi_h fi) t).
  Lemma flush_post_later T q a t t' ms : later t t' -> flush_post T q a t ms -> flush_post T q a t' ms.
  Proof. intros Hl (e & H1 & H2 & H3). exists e. split; [exact H1|]. split; [exact H2|]. intros He fi Hin. eapply synced_later; eauto. Qed.

  Lemma fs_flush q p T tr : later T tr -> q_cmd q = 3 ->
    fs (p_handle_request lg c (mreq q) p) tr [] (flush_post T q).
  Proof.
    intros HT Hc. destruct Hplain as (Ht & Hcw & Hw & Hx & _).
    assert (Hs : forall e t, is_u32 e -> (e = 0 -> forall fi, In fi fis -> synced T (fi_h fi) t) ->
       fs (p_simple lg (q_cookie q) e []) t [] (flush_post T q)).
    { intros e t He Hf. unfold p_simple. destruct lg; cbn [pbind psend plog fs app]; exists e; auto. }
    assert (Hn : forall e, is_u32 (nbd_errno e) /\ nbd_errno e <> 0).
    { intros e. unfold nbd_errno, is_u32. repeat (match goal with |- context [if ?b then _ else _] => destruct b end); lia. }
    unfold p_handle_request. change (cmd_of (mreq q)) with (q_cmd q). rewrite Hc.
    destruct (bad_flags (mreq q)).
    - unfold p_reply_error. cbn [mreq rq_cookie]. destruct (Hn EINVAL). apply Hs; [assumption|congruence].
    - change (3 =? NBD_CMD_READ) with false. change (3 =? NBD_CMD_WRITE) with false. change (3 =? NBD_CMD_FLUSH) with true. cbv iota.
      unfold p_handle_flush, p_expflush. rewrite Hcw, Hw, Ht, Hx. apply fs_bind. eapply fs_mono; [apply fs_fsync_all|].
      cbn beta. intros failed t m (-> & Hl & Hsy). apply fs_bind. intros w Htw Hl2.
      cbn [get]. split; [assumption|]. split; [apply later_refl|]. cbn [fs mreq rq_cookie].
      destruct failed; [destruct (Hn (w_errno w)); apply Hs; [assumption|congruence]|].
      apply Hs; [unfold is_u32; lia|]. intros _ fi Hin. eapply synced_later; [|exact Hl2]. eapply synced_earlier; [exact HT|auto].
  Qed.

  Theorem fk_request rq p : fk (p_handle_request lg c rq p).
  Proof.
    unfold p_handle_request, p_reply_error.
    repeat match goal with |- fk (if ?b then _ else _) => destruct b end; try apply fk_simple.
    - apply fk_read.
    - unfold p_handle_write. cbv zeta. apply fk_bind; [destruct p; first [apply fk_expwrite|apply fk_rawwrite_fully|fks]|].
      intros failed. fks; apply fk_simple.
    - unfold p_handle_flush, p_expflush. destruct Hplain as (-> & -> & -> & -> & _). apply fk_bind; [|intros failed; fks; apply fk_simple].
      intros tr ms. eapply fs_mono; [apply fs_fsync_all|]. auto.
    - unfold p_handle_trim. apply fk_bind; [apply fk_trim|]. intros _. apply fk_simple.
    - unfold p_handle_write_zeroes. cbv zeta. apply fk_bind; [apply fk_zeroes|]. intros failed. fks; apply fk_simple.
  Qed.
End Code.

(** ** One process *)
Section Process.
  Variable init : fref -> Z -> Z.
  Variables (st lg : bool) (c : client) (fis : list finfo).
  Hypothesis Hplain : plain c fis.
  Variables (qs : list wreq) (tail : list Z) (e : stream_end).
  (** [T]: the trace at the beginning of the time looked at, [tgt]: the FLUSH
      requests looked at *)
  Variable T : list event.
  Variable tgt : nat -> bool.
  Hypothesis Htgt : forall i q, tgt i = true -> nth_error qs i = Some q -> q_cmd q = 3.
  Definition tgt_post (i : nat) (q : wreq) : unit -> list event -> list (list Z) -> Prop := fun a t ms =>
    tgt i = true -> flush_post fis T q a t ms.
  Lemma tgt_later i q a t t' ms : later t t' -> tgt_post i q a t ms -> tgt_post i q a t' ms.
  Proof. intros Hl H Ht. eapply flush_post_later; eauto. Qed.

  Record flush_inv (s : sys) : Prop := mkF {
    f_tr : traced init (y_w s);
    f_later : later T (w_tr (y_w s));
    f_code : forall t x i p q, nth_error (y_th s) t = Some x -> wid x = Some i -> wcode x = Some p -> nth_error qs i = Some q ->
      fs init p (w_tr (y_w s)) (of_id i (y_msgs s)) (tgt_post i q);
    f_fin : forall t x i p, nth_error (y_th s) t = Some x -> wid x = Some i -> wcode x = Some p ->
      fw (existsb final (of_id i (y_msgs s))) p any;
    f_done : forall i q, (i < taken s)%nat -> nth_error qs i = Some q ->
      (forall t x, nth_error (y_th s) t = Some x -> wid x <> Some i) -> tgt_post i q tt (w_tr (y_w s)) (of_id i (y_msgs s));
    f_stuck : forall t x i q, nth_error (y_th s) t = Some x -> wid x = Some i -> wcode x = None -> nth_error qs i = Some q ->
      existsb final (of_id i (y_msgs s)) = true -> tgt_post i q tt (w_tr (y_w s)) (of_id i (y_msgs s))
  }.

  Variable s : sys.
  Hypothesis G : good st lg c qs tail e s.
  Hypothesis B : flush_inv s.

  (** the files changed under this process *)
  Lemma flush_env w' : traced init w' -> later (w_tr (y_w s)) (w_tr w') -> flush_inv (y_setw w' s).
  Proof.
    intros Ht Hl. destruct B as [B1 B2 B3 B4 B5 B6]. constructor; cbn [y_setw y_w y_th y_msgs].
    - exact Ht.
    - eapply later_trans; eauto.
    - intros t x i p q E1 E2 E3 E4. eapply fs_env; [|exact Hl|exact (B3 t x i p q E1 E2 E3 E4)]. intros; eapply tgt_later; eauto.
    - exact B4.
    - intros i q Hi Eq Hno. eapply tgt_later; [exact Hl|]. exact (B5 i q Hi Eq Hno).
    - intros t x i q E1 E2 E3 E4 Hf. eapply tgt_later; [exact Hl|]. exact (B6 t x i q E1 E2 E3 E4 Hf).
  Qed.

  Lemma flush_same s' : traced init (y_w s') -> later (w_tr (y_w s)) (w_tr (y_w s')) ->
    y_th s' = y_th s -> taken s' = taken s -> y_msgs s' = y_msgs s -> flush_inv s'.
  Proof.
    intros Ht Hl E3 E4 E5. destruct (flush_env (y_w s') Ht Hl) as [B1 B2 B3 B4 B5 B6].
    cbn [y_setw y_w y_th y_msgs] in *. change (taken (y_setw (y_w s') s)) with (taken s) in *.
    constructor; rewrite ?E3, ?E4, ?E5; auto.
  Qed.

  Lemma flush_move s' t x x' i : nth_error (y_th s) t = Some x -> wid x = Some i -> y_th s' = set_th (y_th s) t x' ->
    taken s' = taken s -> (forall k, k <> i -> of_id k (y_msgs s') = of_id k (y_msgs s)) ->
    traced init (y_w s') -> later (w_tr (y_w s)) (w_tr (y_w s')) ->
    (forall p, wcode x' = Some p -> fw (existsb final (of_id i (y_msgs s'))) p any) ->
    (forall q, wcode x' = None -> wid x' = Some i -> nth_error qs i = Some q -> existsb final (of_id i (y_msgs s')) = true ->
        tgt_post i q tt (w_tr (y_w s')) (of_id i (y_msgs s'))) ->
    (wid x' = Some i /\ forall p q, wcode x' = Some p -> nth_error qs i = Some q ->
        fs init p (w_tr (y_w s')) (of_id i (y_msgs s')) (tgt_post i q)) \/
    (wid x' = None /\ forall q, nth_error qs i = Some q -> tgt_post i q tt (w_tr (y_w s')) (of_id i (y_msgs s'))) ->
    flush_inv s'.
  Proof.
    intros Hx Hi Hth Htk Hms Ht Hl Hfw Hst Hc. destruct B as [B1 B2 B3 B4 B5 B6]. pose proof (g_core _ _ _ _ _ _ _ G) as K.
    pose proof (nth_lt _ _ _ Hx) as Hlt.
    assert (Hn : forall t', nth_error (y_th s') t' = if Nat.eqb t' t then Some x' else nth_error (y_th s) t').
    { intros t'. rewrite Hth. apply nth_set_th, Hlt. }
    constructor.
    - exact Ht.
    - eapply later_trans; eauto.
    - intros t' y k p q E Ey Ep Eq. rewrite Hn in E. destruct (Nat.eqb t' t) eqn:Et.
      + injection E as <-. destruct Hc as [[Hw Hc]|[Hw _]]; [|congruence]. assert (k = i) by congruence. subst k. auto.
      + apply Nat.eqb_neq in Et. assert (k <> i). { intros ->. apply Et. eapply (k_dis _ _ _ _ K); eauto. }
        rewrite Hms by assumption. eapply fs_env; [|exact Hl|eapply B3; eauto]. intros; eapply tgt_later; eauto.
    - intros t' y k p E Ey Ep. rewrite Hn in E. destruct (Nat.eqb t' t) eqn:Et.
      + injection E as <-. destruct Hc as [[Hw _]|[Hw _]]; [|congruence]. assert (k = i) by congruence. subst k. auto.
      + apply Nat.eqb_neq in Et. assert (k <> i). { intros ->. apply Et. eapply (k_dis _ _ _ _ K); eauto. }
        rewrite Hms by assumption. eapply B4; eauto.
    - intros k q Hkk Eq Hno. rewrite Htk in Hkk. destruct (Nat.eq_dec k i) as [->|Hne].
      + destruct Hc as [[Hw _]|[_ Hc]]; [|auto]. exfalso.
        apply (Hno t x'); [rewrite Hn, Nat.eqb_refl; reflexivity|exact Hw].
      + rewrite Hms by exact Hne. eapply tgt_later; [exact Hl|]. apply B5; auto.
        intros t' y E Ey. destruct (Nat.eq_dec t' t) as [->|Ht']; [congruence|].
        apply (Hno t' y); [|exact Ey]. rewrite Hn. replace (Nat.eqb t' t) with false by (symmetry; apply Nat.eqb_neq, Ht'). exact E.
    - intros t' y k q E Ey Ep Eq. rewrite Hn in E. destruct (Nat.eqb t' t) eqn:Et.
      + injection E as <-. destruct Hc as [[Hw _]|[Hw _]]; [|congruence]. assert (k = i) by congruence. subst k. auto.
      + apply Nat.eqb_neq in Et. assert (k <> i). { intros ->. apply Et. eapply (k_dis _ _ _ _ K); eauto. }
        rewrite Hms by assumption. intros Hf. eapply tgt_later; [exact Hl|]. eapply B6; eauto.
  Qed.

  Lemma flush_take t i rq p q0 er : nth_error (y_th s) t = Some WIdle -> y_q s = (i, rq, p) :: q0 ->
    flush_inv (y_setth t (WRun i er (p_handle_request lg c rq p)) (y_setq q0 s)).
  Proof.
    intros Hx Eq. destruct B as [B1 B2 B3 B4 B5 B6]. pose proof (g_core _ _ _ _ _ _ _ G) as K.
    pose proof (nth_lt _ _ _ Hx) as Hl.
    pose proof (k_q _ _ _ _ K) as Kq. rewrite Eq in Kq. cbn [map length fst seq] in Kq. injection Kq as Hi _.
    set (s' := y_setth t (WRun i er (p_handle_request lg c rq p)) (y_setq q0 s)).
    assert (Htk : taken s' = S (taken s)).
    { pose proof (k_qlen _ _ _ _ K) as Kl. unfold taken, s'. cbn [y_setth y_setq y_next y_q]. rewrite Eq in *. cbn [length] in *. lia. }
    assert (Hn : forall t', nth_error (y_th s') t' = if Nat.eqb t' t then Some (WRun i er (p_handle_request lg c rq p)) else nth_error (y_th s) t').
    { intros t'. unfold s'. cbn [y_setth y_setq y_th]. apply nth_set_th, Hl. }
    assert (Hh : nth_error (y_hist s) i = Some (rq, p)) by (apply (k_qh _ _ _ _ K); rewrite Eq; left; reflexivity).
    pose proof (k_new _ _ _ _ K i ltac:(lia)) as [M0 _].
    constructor.
    - exact B1.
    - exact B2.
    - intros t' y k p' q E Ey Ep Eqq. rewrite Hn in E. destruct (Nat.eqb t' t) eqn:Et.
      + injection E as <-. cbn in Ey, Ep. injection Ey as <-. injection Ep as <-.
        destruct (k_hist _ _ _ _ K _ _ _ Hh) as (q' & Eq' & -> & Hp). assert (q' = q) by congruence. subst q'.
        change (y_msgs s') with (y_msgs s). change (y_w s') with (y_w s). rewrite M0.
        destruct (tgt i) eqn:Ei.
        * eapply fs_mono; [apply (fs_flush init lg c fis Hplain q p T _ B2); eapply Htgt; eauto|]. intros a u m Hu _. exact Hu.
        * eapply fs_mono; [apply (fk_request init lg c fis Hplain)|]. intros a u m _ Hu. congruence.
      + eapply B3; eauto.
    - intros t' y k p' E Ey Ep. rewrite Hn in E. destruct (Nat.eqb t' t) eqn:Et; [|eapply B4; eauto].
      injection E as <-. cbn in Ey, Ep. injection Ey as <-. injection Ep as <-.
      change (y_msgs s') with (y_msgs s). rewrite M0. apply fw_request.
    - intros k q Hk Eqq Hno. destruct (Nat.eq_dec k i) as [->|Hne].
      + exfalso. apply (Hno t (WRun i er (p_handle_request lg c rq p))); [rewrite Hn, Nat.eqb_refl|]; reflexivity.
      + apply B5; [lia|exact Eqq|]. intros t' y E Ey. apply (Hno t' y); [|exact Ey].
        rewrite Hn. destruct (Nat.eqb t' t) eqn:Et; [|exact E]. apply Nat.eqb_eq in Et. subst t'.
        assert (y = WIdle) by congruence. subst y. discriminate.
    - intros t' y k q E Ey Ep. rewrite Hn in E. destruct (Nat.eqb t' t) eqn:Et; [|eapply B6; eauto].
      injection E as <-. discriminate.
  Qed.

  Lemma has_req t x i : nth_error (y_th s) t = Some x -> wid x = Some i -> exists q, nth_error qs i = Some q.
  Proof.
    clear B. intros Hx Hi. pose proof (g_core _ _ _ _ _ _ _ G) as K. pose proof (k_th _ _ _ _ K _ _ _ Hx Hi) as Hlt.
    pose proof (k_len _ _ _ _ K) as KL. unfold taken in Hlt.
    destruct (nth_error (y_hist s) i) as [[rq p]|] eqn:E; [|apply nth_error_None in E; lia].
    destruct (k_hist _ _ _ _ K _ _ _ E) as (q & Eq & _). eauto.
  Qed.

  Ltac moved Hx :=
    match goal with |- flush_inv ?s' => eapply (flush_move s' _ _ _ _ Hx eq_refl); [reflexivity|reflexivity| | | | |try (intros; discriminate)|] end; try (intros; discriminate).

  Lemma flush_step x : match sys_step lg c x s with
    | SGo s' => flush_inv s' /\ traced init (y_w s') /\ later (w_tr (y_w s)) (w_tr (y_w s')) | _ => True end.
  Proof.
    enough (H : match sys_step lg c x s with SGo s' => flush_inv s' /\ later (w_tr (y_w s)) (w_tr (y_w s')) | _ => True end).
    { destruct (sys_step lg c x s); try exact I. destruct H as [H1 H2]. split; [exact H1|]. split; [apply H1|exact H2]. }
    pose proof (later_refl (w_tr (y_w s))) as R. pose proof B as [B1 B2 B3 B4 B5 B6].
    destruct x as [|t n|t|t]; cbn [sys_step].
    - unfold reader_step.
      destruct (y_rd s) as [|hdr|hdr held|rq held|rq p data held|rq p|d h|d] eqn:Er.
      + destruct (length (y_in s) <? 28)%nat; (split; [apply flush_same; auto|exact R]).
      + destruct lg; [destruct (sem_free s); [|exact I]|]; (split; [apply flush_same; auto|exact R]).
      + destruct (decode_request hdr) as [mg rq]. destruct (negb (mg =? NBD_REQUEST_MAGIC)); [exact I|].
        destruct (cmd_of rq =? NBD_CMD_WRITE); [|destruct (rq_type rq =? NBD_CMD_DISC)]; (split; [apply flush_same; auto|exact R]).
      + destruct (zlen (y_in s) <? rq_len rq); [split; [apply flush_same; auto|exact R]|].
        assert (Hk : keeps (J init (w_tr (y_w s))) (receive_payload c rq (firstn (Z.to_nat (rq_len rq)) (y_in s)))).
        { unfold receive_payload. destruct (cflag c F_SPLICE); [|apply keeps_ret].
          apply keeps_bind; [apply f_mkpipe, J_tick|]. intros [|]; [|apply keeps_ret].
          destruct (c_tls c); [|apply keeps_ret]. destruct (0 <? rq_len rq); [apply keeps_ub|apply keeps_ret]. }
        specialize (Hk (y_w s) (conj B1 R)). unfold wlp in Hk. cbn zeta.
        destruct (receive_payload c rq (firstn (Z.to_nat (rq_len rq)) (y_in s)) (y_w s)) as [p w'| | |]; try exact I.
        destruct Hk as [H1 H2]. split; [apply flush_same; auto|exact H2].
      + cbn zeta. destruct held; (split; [apply flush_same; auto|exact R]).
      + split; [|exact R]. apply flush_same; auto. unfold taken. cbn [y_setrd y_push y_next y_q]. rewrite app_length. cbn [length]. lia.
      + destruct (_ && _); [|exact I]. split; [apply flush_same; auto|exact R].
      + exact I.
    - unfold worker_step. destruct (nth_error (y_th s) t) as [x|] eqn:Hx; [|exact I].
      destruct x as [|i er p|i er rest p|i er rest p|i].
      + destruct (y_q s) as [|[[i rq] p] q] eqn:Eq; [exact I|]. split; [apply flush_take; assumption|exact R].
      + pose proof (B4 _ _ _ _ Hx eq_refl eq_refl) as F. destruct p as [a|X m k|m k|m k]; cbn [fw] in F.
        * split; [|exact R]. moved Hx; [reflexivity|exact B1|exact R|]. right. split; [reflexivity|]. intros q Eq.
          specialize (B3 _ _ _ _ _ Hx eq_refl eq_refl Eq). destruct a. exact B3.
        * destruct (m (set_errno er (y_w s))) as [a w'| | |] eqn:Em; try exact I.
          assert (Ht1 : traced init (set_errno er (y_w s))) by (eapply traced_same; [reflexivity|reflexivity|reflexivity|exact B1]).
          destruct (has_req _ _ _ Hx eq_refl) as [qi Hqi].
          assert (Hst : forall q, nth_error qs i = Some q -> traced init w' /\ later (w_tr (y_w s)) (w_tr w') /\
            fs init (k a) (w_tr w') (of_id i (y_msgs s)) (tgt_post i q)).
          { intros q Eq. specialize (B3 _ _ _ _ _ Hx eq_refl eq_refl Eq). cbn [fs] in B3.
            specialize (B3 (set_errno er (y_w s)) Ht1 R). rewrite Em in B3. exact B3. }
          destruct (Hst qi Hqi) as (Ht2 & Hl2 & _). split; [|exact Hl2].
          moved Hx; [reflexivity| |exact Hl2| |].
          -- eapply traced_same; [reflexivity|reflexivity|reflexivity|exact Ht2].
          -- intros p Ep. injection Ep as <-. apply F.
          -- left. split; [reflexivity|]. intros p q Ep Eq. injection Ep as <-. apply (Hst q Eq).
        * destruct (lock_free s); [|exact I]. split; [|exact R]. moved Hx; [|exact B1|exact R| |].
          -- intros k' Hne. cbn [y_addmsg y_setth y_msgs]. rewrite of_id_app, of_id_other by exact Hne. apply app_nil_r.
          -- intros p Ep. injection Ep as <-. cbn [y_addmsg y_setth y_msgs]. rewrite of_id_app, of_id_same, existsb_app.
             destruct F as [F1 F2]. rewrite F1. cbn [existsb orb]. rewrite orb_false_r. exact F2.
          -- left. split; [reflexivity|]. intros p q Ep Eq. injection Ep as <-.
             specialize (B3 _ _ _ _ _ Hx eq_refl eq_refl Eq). cbn [fs] in B3.
             cbn [y_addmsg y_setth y_msgs y_w]. rewrite of_id_app, of_id_same. exact B3.
        * destruct (sem_free s); [|exact I]. split; [|exact R]. moved Hx; [reflexivity|exact B1|exact R| |].
          -- intros p Ep. injection Ep as <-. exact F.
          -- left. split; [reflexivity|]. intros p q Ep Eq. injection Ep as <-. exact (B3 _ _ _ _ _ Hx eq_refl eq_refl Eq).
      + destruct rest; (split; [|exact R]); (moved Hx; [reflexivity|exact B1|exact R| |]);
          first [intros p' Ep; injection Ep as <-; exact (B4 _ _ _ _ Hx eq_refl eq_refl)
                |left; split; [reflexivity|]; intros p' q Ep Eq; injection Ep as <-; exact (B3 _ _ _ _ _ Hx eq_refl eq_refl Eq)].
      + destruct rest; (split; [|exact R]); (moved Hx; [reflexivity|exact B1|exact R| |]);
          first [intros p' Ep; injection Ep as <-; exact (B4 _ _ _ _ Hx eq_refl eq_refl)
                |left; split; [reflexivity|]; intros p' q Ep Eq; injection Ep as <-; exact (B3 _ _ _ _ _ Hx eq_refl eq_refl Eq)].
      + exact I.
    - destruct (nth_error (y_th s) t) as [x|] eqn:Hx; [|exact I].
      destruct x as [| |i er [|b rest] p| |]; try exact I. split; [|exact R].
      moved Hx; [reflexivity|exact B1|exact R| |].
      + intros q _ _ Eq Hf. specialize (B3 _ _ _ _ _ Hx eq_refl eq_refl Eq). specialize (B4 _ _ _ _ Hx eq_refl eq_refl).
        cbn [y_setth y_msgs y_w] in *. rewrite Hf in B4. eapply fw_fs; eauto.
      + left. split; [reflexivity|]. intros p' q Ep. discriminate.
    - destruct (nth_error (y_th s) t) as [[| |? ? [|]| |]|]; exact I.
  Qed.
End Process.
