(** What a connection with worker threads can leave behind: frame properties of
    the threaded data path, for every schedule. *)
From Verif Require Import Base M_Const M_Disk M_Tree M_Raw M_Par L_Wp S_Wire S_Disk L_Wire L_Session L_Frame.

Local Arguments pbind : simpl never.
Local Arguments act : simpl never.
Section FrameP.
  Variable c : client.
  Variable I : world -> Prop.
  Variable okf : fref -> Prop.
  Variable lg : bool.
  Notation keeps := (keeps I).

  (** [m] keeps [I] and its result satisfies [Q] *)
  Definition kq {A} (Q : A -> Prop) (m : M A) : Prop := forall w, I w -> wlp m (fun a w' => I w' /\ Q a) I w.
  Lemma kq_keeps {A} (m : M A) : keeps m -> kq (fun _ => True) m.
  Proof. intros H w Hw. eapply wlp_mono; [apply H, Hw| |auto]. auto. Qed.

  (** a raw write is possible *)
  Definition raw : Prop := bad_write c = false /\ (cflag c F_COPYONWRITE = false \/ cflag c F_SPLICE = true).
  Definition gok (p : option (fref * Z * Z)) : Prop :=
    match p with Some (h, _, _) => raw -> h = FBad \/ okf h | None => True end.

  Hypothesis I_tick : forall w, I w -> I (tick w).
  Hypothesis I_errno : forall e w, I w -> I (set_errno e w).
  Hypothesis I_emit : forall e w, fine okf e -> I w -> I (emit e w).
  Hypothesis I_file : forall h f w, okf h -> I w -> I (set_file h f w).
  Hypothesis I_dpos : forall p w, I w -> I (set_dpos p w).
  Hypothesis I_map : forall i v w, I w -> I (set_map i v w).
  Hypothesis I_dlen : forall n w, I w -> I (set_dlen n w).
  Hypothesis Hget : forall a, kq gok (get_filepos c a).
  Hypothesis Hdel : forall a, bad_write c = false -> cflag c F_COPYONWRITE = false -> cflag c F_TREEFILES = true ->
    keeps (delete_treefile (c_namelen c) (i64 (c_size c)) a).
  Hypothesis Htrim : forall l fi, bad_write c = false -> cflag c F_COPYONWRITE = false -> cflag c F_TREEFILES = false ->
    c_export c = Some l -> In fi l -> okf (fi_h fi).
  Hypothesis Hdiff : bad_write c = false -> cflag c F_COPYONWRITE = true \/ waiting c = true -> okf FDiff.

  Inductive pk {A} (Q : A -> Prop) : P A -> Prop :=
  | pk_ret a : Q a -> pk Q (PRet a)
  | pk_act X (QX : X -> Prop) m k : kq QX m -> (forall x, QX x -> pk Q (k x)) -> pk Q (PAct X m k)
  | pk_send m k : pk Q k -> pk Q (PSend m k)
  | pk_log m k : pk Q k -> pk Q (PLog m k).
  Notation pkt := (pk (fun _ => True)).

  Lemma pk_bind {A B} (Q : A -> Prop) (QB : B -> Prop) p f :
    pk Q p -> (forall a, Q a -> pk QB (f a)) -> pk QB (pbind p f).
  Proof.
    intros H Hf. induction H; unfold pbind; fold (@pbind A B); [auto|eapply pk_act; eauto|constructor; auto|constructor; auto].
  Qed.
  Lemma pk_kq {X} (Q : X -> Prop) m : kq Q m -> pk Q (act m).
  Proof. intros H. eapply pk_act; [exact H|]. intros x Hx. now constructor. Qed.
  Lemma pk_keeps {X} (m : M X) : keeps m -> pkt (act m).
  Proof. intros H. apply pk_kq, kq_keeps, H. Qed.
  Lemma pk_ploop {S T} (QS : S -> Prop) (QT : T -> Prop) bound body s :
    (forall s, QS s -> pk (fun x => match x with inl a => QS a | inr a => QT a end) (body s)) ->
    QS s -> pk QT (ploop bound body s).
  Proof.
    intros Hb Hs. unfold ploop.
    assert (K : forall n s, QS s -> pk (fun x => match x with inl a => QS a | inr a => QT a end) (ploopP body n s)).
    { induction n as [n IH|n IH|]; intros a Ha; cbn [ploopP]; [| |apply Hb, Ha].
      - eapply pk_bind; [apply Hb, Ha|]. intros [x|x] Hx; [|constructor; exact Hx].
        eapply pk_bind; [apply IH, Hx|]. intros [u|u] Hu; [apply IH, Hu|constructor; exact Hu].
      - eapply pk_bind; [apply IH, Ha|]. intros [u|u] Hu; [apply IH, Hu|constructor; exact Hu]. }
    eapply pk_bind; [apply K, Hs|]. intros [x|x] Hx; [|constructor; exact Hx].
    apply pk_kq. intros w _. exact Logic.I.
  Qed.
  Lemma pkt_bind {A B} p (f : A -> P B) : pkt p -> (forall a, pkt (f a)) -> pkt (pbind p f).
  Proof. intros H Hf. eapply pk_bind; [exact H|]. auto. Qed.
  Lemma pkt_ploop {S T} bound (body : S -> P (S + T)) s : (forall s, pkt (body s)) -> pkt (ploop bound body s).
  Proof.
    intros Hb. apply pk_ploop with (QS := fun _ => True); [|exact Logic.I]. intros s0 _.
    assert (K : forall p : P (S + T), pkt p -> pk (fun x => match x with inl _ => True | inr _ => True end) p).
    { intros p H. induction H as [a _| |m k _ IH|m k _ IH]; [constructor; destruct a; exact Logic.I|eapply pk_act; eauto|constructor; exact IH|constructor; exact IH]. }
    apply K, Hb.
  Qed.
  Lemma pkt_ret {A} (a : A) : pkt (PRet a).
  Proof. constructor. exact Logic.I. Qed.

  Lemma kk_pread h o n : keeps (sys_pread h o n).
  Proof. eapply k_pread; eauto. Qed.
  Lemma kk_fsync h : keeps (sys_fsync h).
  Proof. eapply k_fsync; eauto. Qed.
  Lemma kk_find x : keeps (find_read_buf x).
  Proof. eapply k_find; eauto. Qed.
  Lemma kk_store x i n d : keeps (buf_store x i n d).
  Proof. eapply k_store; eauto. Qed.
  Lemma kk_readmap i : keeps (read_map i).
  Proof. eapply k_readmap; eauto. Qed.
  Lemma kk_mkpipe n : keeps (mkpipe n).
  Proof. eapply k_mkpipe; eauto. Qed.
  Lemma kk_pwrite h o n d : h = FBad \/ okf h -> keeps (sys_pwrite h o n d).
  Proof.
    intros [->|H]; [|eapply k_pwrite; eauto]. unfold sys_pwrite. apply keeps_bind; [apply keeps_pull; exact I_tick|]. intros r.
    apply keeps_bind; [apply keeps_modify; auto|]. intros _. apply keeps_ret.
  Qed.
  Lemma kk_filepos a : keeps (get_filepos c a).
  Proof. intros w Hw. eapply wlp_mono; [apply Hget, Hw| |auto]. intros p w' [H _]. exact H. Qed.
  Lemma kk_sync : keeps sys_sync.
  Proof. unfold sys_sync. apply keeps_modify. intros. apply I_emit; [exact Logic.I|assumption]. Qed.
  Lemma kk_punch h o n : okf h -> keeps (punch_hole h o n).
  Proof.
    intros H. unfold punch_hole. apply keeps_bind; [apply keeps_pull; exact I_tick|]. intros r.
    assert (K : keeps (if (o <? 0) || (n <=? 0) then modify (set_errno EINVAL)
      else f <- get (fun w => w_file w h) ;;
        modify (set_file h (mkFile (fsize f) (fun i => if (o <=? i) && (i <? o + n) then 0 else fdata f i))) ;;;
        modify (emit (EPunch h o n)))).
    { destruct ((o <? 0) || (n <=? 0)); [apply keeps_modify; auto|]. apply keeps_bind; [apply keeps_get|]. intros f.
      apply keeps_bind; [apply keeps_modify; auto|]. intros _. apply keeps_modify. intros. apply I_emit; [exact H|assumption]. }
    destruct r; [exact K|exact K|apply keeps_modify; auto].
  Qed.
  Lemma kk_write_diff n d : okf FDiff -> keeps (sys_write_diff n d).
  Proof. intros H. eapply k_write_diff; eauto. Qed.

  Ltac a1 := first [apply kk_filepos|apply kk_pread|apply kk_fsync|apply kk_find|apply kk_store|apply kk_readmap|apply kk_mkpipe
                   |apply kk_sync|apply keeps_get|apply keeps_ub|apply keeps_assert].
  Ltac kstep :=
    match goal with
    | |- pkt (PRet _) => apply pkt_ret
    | |- pkt (act _) => apply pk_keeps; first [a1|idtac]
    | |- pkt (pbind _ _) => apply pkt_bind; [|intros ?]
    | |- pkt (let '_ := ?x in _) => destruct x
    | |- pkt (match ?x with _ => _ end) => destruct x
    | |- pkt (psend _) => unfold psend; constructor; apply pkt_ret
    | |- pkt (plog _ _) => unfold plog
    | |- pkt (PLog _ _) => constructor
    | |- pkt (p_simple _ _ _ _) => unfold p_simple
    | |- pkt (p_chunk _ _ _ _ _ _) => unfold p_chunk
    end.
  Ltac k := repeat kstep.

  Lemma pp_sync_after h fua : pkt (p_sync_after c h fua).
  Proof. unfold p_sync_after. k. Qed.
  Lemma pp_rawread a len : pkt (p_rawexpread c a len).
  Proof. unfold p_rawexpread. k. Qed.
  Lemma pp_rawwrite a d len fua : raw -> pkt (p_rawexpwrite c a d len fua).
  Proof.
    intros Hr. unfold p_rawexpwrite. eapply pk_bind; [apply pk_kq, Hget|]. intros [[[h o] mx]|] Hp; [|k]. cbn in Hp.
    apply pkt_bind; [apply pk_keeps, kk_pwrite, Hp, Hr|]. intros n. apply pkt_bind; [apply pp_sync_after|]. intros. k.
  Qed.
  Lemma pp_rawwrite_fully a d len fua : raw -> pkt (p_rawexpwrite_fully c a d len fua).
  Proof.
    intros Hr. unfold p_rawexpwrite_fully. apply pkt_ploop. intros [[a1 b] n]. unfold p_rawexpwrite_fully_body.
    destruct (0 <? n); [|k]. apply pkt_bind; [apply pp_rawwrite, Hr|]. intros. k.
  Qed.
  Lemma pp_confirm rq x n : pkt (p_confirm_read lg rq x n).
  Proof. unfold p_confirm_read. k. Qed.
  Lemma pp_rawread_fully rq x : pkt (p_rawexpread_fully lg rq c x).
  Proof.
    unfold p_rawexpread_fully. apply pkt_ploop. intros s. unfold p_rawexpread_fully_body.
    k; first [apply pp_rawread|apply pp_confirm].
  Qed.
  Lemma pp_expread rq x : pkt (p_expread lg rq c x).
  Proof.
    unfold p_expread. cbv zeta. k; [apply pp_rawread_fully|]. apply pkt_ploop. intros s. unfold p_expread_body. cbv zeta.
    k; first [apply pp_confirm|apply pp_rawread_fully].
  Qed.
  Lemma pp_complete rq x e m : pkt (p_complete_read lg rq x e m).
  Proof. unfold p_complete_read. k. Qed.
  Lemma pp_normal_read rq : pkt (p_handle_normal_read lg c rq).
  Proof. unfold p_handle_normal_read. cbv zeta. k; first [apply pp_expread|apply pp_complete]. Qed.
  Lemma pp_splice_read rq : pkt (p_handle_splice_read lg c rq).
  Proof.
    unfold p_handle_splice_read. k. unfold p_expsplice_in. apply pkt_ploop. intros s. unfold p_expsplice_in_body. k; apply pp_rawread.
  Qed.
  Lemma pp_read rq : pkt (p_handle_read lg c rq).
  Proof. unfold p_handle_read. k; first [apply pp_splice_read|apply pp_normal_read]. Qed.
  Lemma pp_fsync_all l : pkt (p_fsync_all l).
  Proof. induction l; cbn [p_fsync_all]; k; assumption. Qed.
  Lemma pp_flush rq : pkt (p_handle_flush lg c rq).
  Proof. unfold p_handle_flush, p_expflush. k; apply pp_fsync_all. Qed.
  Lemma pp_error rq e : pkt (p_reply_error lg rq e).
  Proof. unfold p_reply_error. k. Qed.
  Lemma pp_fill a b n pb : pkt (p_fill_page c a b n pb).
  Proof. unfold p_fill_page. k. apply pkt_ploop. intros s. unfold p_copyin_body. k; apply pp_rawread. Qed.
  Lemma pp_expwrite a d n fua : bad_write c = false -> pkt (p_expwrite c a d n fua).
  Proof.
    intros Hb. unfold p_expwrite. destruct (negb (cflag c F_COPYONWRITE) && negb (waiting c)) eqn:E.
    - apply pp_rawwrite_fully. split; [exact Hb|]. left. destruct (cflag c F_COPYONWRITE); [discriminate|reflexivity].
    - assert (Hd : okf FDiff).
      { apply Hdiff; [exact Hb|]. destruct (cflag c F_COPYONWRITE); [auto|]. destruct (waiting c); [auto|discriminate]. }
      cbv zeta. k; try apply pp_sync_after. apply pkt_ploop. intros s. unfold p_expwrite_body. cbv zeta.
      k; first [apply kk_pwrite; right; exact Hd|apply keeps_modify; auto|apply pp_fill|apply kk_write_diff, Hd].
  Qed.
  Lemma pp_write_zeroes rq : bad_write c = false -> pkt (p_handle_write_zeroes lg c rq).
  Proof.
    intros Hb. unfold p_handle_write_zeroes, p_expwrite_zeroes. k. apply pkt_ploop. intros s. unfold p_expwrite_zeroes_body. cbv zeta.
    k; apply pp_expwrite, Hb.
  Qed.
  Lemma pp_trim rq : bad_write c = false -> pkt (p_handle_trim lg c rq).
  Proof.
    intros Hb. unfold p_handle_trim. apply pkt_bind; [|intros; k]. unfold p_exptrim. apply pkt_bind; [k|intros _]. apply pkt_bind; [k|intros _].
    destruct (cflag c F_COPYONWRITE) eqn:Ec; [k|]. cbv zeta. destruct (cflag c F_TREEFILES) eqn:Et.
    - apply pkt_ploop. intros m. unfold p_trim_tree_body. destruct (m <? _); [|k]. apply pkt_bind; [apply pk_keeps, Hdel; auto|]. intros; k.
    - destruct (c_export c) as [l|] eqn:El; [|k]. destruct (nth_error l 0) as [cur|] eqn:E0; [|k].
      assert (Ol : forall fi, In fi l -> okf (fi_h fi)) by (intros fi Hi; exact (Htrim l fi Hb eq_refl eq_refl eq_refl Hi)).
      apply pk_ploop with (QS := fun s => okf (fst (fst s)) /\ 0 <= snd s).
      2:{ split; [cbn; apply Ol; eapply nth_error_In; exact E0|cbn; lia]. }
      intros [[h s] i] [Hh Hi]. cbn [fst snd] in Hh, Hi. unfold p_trim_body. cbv zeta.
      eapply pk_bind with (Q := fun _ => True).
      + match goal with |- pkt (if ?b then _ else _) => destruct b end; [apply pk_keeps, kk_punch, Hh|k].
      + intros _ _. match goal with |- pk _ (if ?b then _ else _) => destruct b eqn:Eb end; constructor; [|exact Logic.I].
        apply andb_prop in Eb. destruct Eb as [Eb _]. cbn [fst snd]. split; [|lia].
        destruct (nth_error l (Z.to_nat i)) as [nx|] eqn:En; cbn [fst]; [apply Ol; eapply nth_error_In; exact En|].
        apply nth_error_None in En. unfold zlen in Eb. lia.
  Qed.
  Definition okp (p : payload) : Prop := match p with PPipe _ => cflag c F_SPLICE = true | _ => True end.
  Lemma pp_write rq p : bad_write c = false -> okp p -> pkt (p_handle_write lg c rq p).
  Proof.
    intros Hb Hp. unfold p_handle_write. cbv zeta. apply pkt_bind; [|intros; k]. destruct p; [apply pp_expwrite, Hb| |k].
    apply pp_rawwrite_fully. split; [exact Hb|right; exact Hp].
  Qed.
  Lemma pp_request rq p : okp p -> pkt (p_handle_request lg c rq p).
  Proof.
    pose proof pp_write as PW. pose proof pp_trim as PT. pose proof pp_write_zeroes as PZ. pose proof pp_error as PE. pose proof pp_read as PR. pose proof pp_flush as PF.
    intros Hp. unfold p_handle_request.
    destruct (bad_flags rq); [apply PE|].
    destruct (cmd_of rq =? NBD_CMD_READ); [destruct (bad_range c rq); [apply PE|apply PR]|].
    destruct (cmd_of rq =? NBD_CMD_WRITE); [destruct (bad_write c) eqn:E; [apply PE|destruct (bad_range c rq); [apply PE|apply PW; auto]]|].
    destruct (cmd_of rq =? NBD_CMD_FLUSH); [apply PF|].
    destruct (cmd_of rq =? NBD_CMD_TRIM); [destruct (bad_write c) eqn:E; [apply PE|destruct (bad_range c rq); [apply PE|apply PT; auto]]|].
    destruct (cmd_of rq =? NBD_CMD_WRITE_ZEROES); [destruct (bad_write c) eqn:E; [apply PE|destruct (bad_range c rq); [apply PE|apply PZ; auto]]|].
    apply PE.
  Qed.

  (** ** The machine *)
  Definition wK (x : worker) : Prop :=
    match x with WIdle | WHung _ => True | WRun _ _ p | WSend _ _ _ p | WLog _ _ _ p => pkt p end.
  Definition rK (r : reader) : Prop :=
    match r with RLogData _ p _ _ | RPush _ p => okp p | _ => True end.
  Record sysK (s : sys) : Prop := mkSK {
    sk_w : I (y_w s); sk_rd : rK (y_rd s); sk_q : Forall (fun x => okp (snd x)) (y_q s); sk_th : Forall wK (y_th s) }.
  Definition soutK (o : sout) : Prop := match o with SGo s | SExit s => sysK s | _ => True end.

  Lemma set_th_K l t x : Forall wK l -> wK x -> Forall wK (set_th l t x).
  Proof.
    intros H Hx. unfold set_th. rewrite Forall_forall in *.
    assert (A : forall y, In y (firstn t l) -> In y l) by (intros y Hy; rewrite <- (firstn_skipn t l); apply in_or_app; auto).
    assert (B : forall y, In y (skipn (S t) l) -> In y l) by (intros y Hy; rewrite <- (firstn_skipn (S t) l); apply in_or_app; auto).
    intros y Hy. apply in_app_or in Hy. destruct Hy as [Hy|[<-|Hy]]; auto.
  Qed.
  Ltac fields := match goal with H : sysK _ |- sysK _ =>
    destruct H; constructor; cbn [y_w y_in y_rd y_q y_th y_out y_log y_next y_hist y_msgs y_recs y_setw y_setth y_setrd y_setin y_setq y_put y_putlog y_addmsg y_addrec y_push rK];
    try assumption; try exact Logic.I end.

  Lemma kp_receive rq d : kq okp (receive_payload c rq d).
  Proof.
    unfold receive_payload. intros w Hw. destruct (cflag c F_SPLICE) eqn:Es; [|split; [exact Hw|exact Logic.I]].
    apply wlp_bind. eapply wlp_mono; [apply kk_mkpipe, Hw| |auto]. intros ok w' Hw'. destruct ok; [|split; [exact Hw'|exact Logic.I]].
    assert (Q : okp (PPipe (bytefn d))) by exact Es.
    destruct (c_tls c); [destruct (0 <? rq_len rq); [exact Logic.I|]|]; (split; [exact Hw'|exact Q]).
  Qed.

  Lemma sk_reader s : sysK s -> soutK (reader_step lg c s).
  Proof.
    intros H. pose proof H as H0. destruct H0. unfold reader_step.
    destruct (y_rd s) as [|hdr|hdr held|rq held|rq p data held|rq p|disc held|disc] eqn:Er.
    - destruct (length (y_in s) <? 28)%nat; cbn [soutK]; fields.
    - destruct lg; [|cbn [soutK]; fields]. destruct (sem_free s); [|exact Logic.I]. cbn [soutK]. fields.
    - destruct (decode_request hdr) as [magic rq]. destruct (negb (magic =? NBD_REQUEST_MAGIC)); [exact H|].
      destruct (cmd_of rq =? NBD_CMD_WRITE); [cbn [soutK]; fields|]. destruct (rq_type rq =? NBD_CMD_DISC); cbn [soutK]; fields.
    - destruct (zlen (y_in s) <? rq_len rq); [cbn [soutK]; fields|]. cbv zeta.
      pose proof (kp_receive rq (firstn (Z.to_nat (rq_len rq)) (y_in s)) _ sk_w0) as Q. unfold wlp in Q.
      destruct (receive_payload c rq (firstn (Z.to_nat (rq_len rq)) (y_in s)) (y_w s)) as [a w| |w|]; try exact Logic.I; try exact H.
      destruct Q as [Qw Qa]. cbn [soutK]. fields.
    - cbn [soutK]. cbn [rK] in sk_rd0. destruct held; fields.
    - cbn [soutK]. cbn [rK] in sk_rd0. fields. apply Forall_app. split; [assumption|]. constructor; [exact sk_rd0|constructor].
    - destruct ((match y_q s with [] => true | _ => false end) && forallb is_idle (y_th s)); [|exact Logic.I]. cbn [soutK]. fields.
    - exact Logic.I.
  Qed.

  Lemma sk_worker t n s : sysK s -> soutK (worker_step lg c t n s).
  Proof.
    pose proof pp_request as PQ. intros H. pose proof H as H0. destruct H0. unfold worker_step.
    destruct (nth_error (y_th s) t) as [x|] eqn:Ex; [|exact Logic.I].
    assert (Hx : wK x) by (rewrite Forall_forall in sk_th0; apply sk_th0; eapply nth_error_In; exact Ex).
    destruct x as [|i e p|i e r p|i e r p|i]; cbn [wK] in Hx.
    - destruct (y_q s) as [|[[i rq] pl] q] eqn:Eq; [exact Logic.I|]. cbn [soutK].
      assert (Hq : okp pl /\ Forall (fun x => okp (snd x)) q) by (inversion sk_q0; subst; auto). destruct Hq as [Hp Hq].
      fields. apply set_th_K; [assumption|]. apply PQ, Hp.
    - destruct Hx as [a _|X QX m k Hm Hk|m k Hk|m k Hk].
      + cbn [soutK]. fields. apply set_th_K; [assumption|exact Logic.I].
      + pose proof (Hm _ (I_errno e _ sk_w0)) as Q. unfold wlp in Q.
        destruct (m (set_errno e (y_w s))) as [a w| |w|]; try exact Logic.I; try exact H.
        * destruct Q as [Qw Qa]. cbn [soutK]. fields; [apply I_errno, Qw|]. apply set_th_K; [assumption|]. apply Hk, Qa.
        * cbn [soutK]. fields.
      + destruct (lock_free s); [|exact Logic.I]. cbn [soutK]. fields. apply set_th_K; [assumption|exact Hk].
      + destruct (sem_free s); [|exact Logic.I]. cbn [soutK]. fields. apply set_th_K; [assumption|exact Hk].
    - destruct r as [|z r]; cbn [soutK]; cbv zeta; fields; apply set_th_K; try assumption; exact Hx.
    - destruct r as [|z r]; cbn [soutK]; cbv zeta; fields; apply set_th_K; try assumption; exact Hx.
    - exact Logic.I.
  Qed.
  Lemma sk_step x s : sysK s -> soutK (sys_step lg c x s).
  Proof.
    intros H. destruct x as [|t n|t|t]; cbn [sys_step]; [apply sk_reader, H|apply sk_worker, H| |];
      destruct (nth_error (y_th s) t) as [x|]; try exact Logic.I; destruct x as [|i e p|i e r p|i e r p|i]; try exact Logic.I;
      destruct r as [|z r]; try exact Logic.I; [|exact H].
    cbn [soutK]. fields. apply set_th_K; [assumption|exact Logic.I].
  Qed.
  Lemma sk_run l : forall s, sysK s -> soutK (sys_run lg c l s).
  Proof.
    induction l as [|x l IH]; intros s H; [exact H|]. cbn [sys_run]. pose proof (sk_step x s H) as Q. unfold soutK in Q.
    destruct (sys_step lg c x s); auto.
  Qed.
  Lemma sk_init n inp w : I w -> sysK (sys_init n inp w).
  Proof.
    intros H. constructor; cbn; auto. induction n as [|n IH]; cbn; constructor; auto. exact Logic.I.
  Qed.
  Theorem threads_keep n inp l w : I w -> match sys_run lg c l (sys_init n inp w) with SGo s | SExit s => I (y_w s) | _ => True end.
  Proof.
    intros H. pose proof (sk_run l _ (sk_init n inp w H)) as Q. destruct (sys_run lg c l (sys_init n inp w)); auto; apply Q.
  Qed.
End FrameP.
