(** Durability lemmas. *)
From Verif Require Import Base M_Const M_Disk M_Tree M_Raw M_Setup L_Wp L_Raw S_Wire S_Disk S_Crash L_Wire L_Req L_Plain L_Session L_Setup L_PlainS L_Gen L_Frame L_Props.

Lemma crash_now init tr h i : In (now init tr h i) (after_crash init tr h i).
Proof.
  induction tr as [|e t IH]; [left; reflexivity|].
  destruct e; cbn [now after_crash]; auto; repeat (match goal with |- context [if ?b then _ else _] => destruct b end);
    auto; try (left; reflexivity).
Qed.

Lemma durable_now init tr h i v : durable init tr h i v -> now init tr h i = v.
Proof. intros H. apply H, crash_now. Qed.

(** once on disk, a byte stays there until it is modified again *)
Lemma durable_later init ext tr h i v :
  durable init tr h i v -> Forall (leaves h i) ext -> durable init (ext ++ tr) h i v.
Proof.
  intros Hd. induction ext as [|e t IH]; intros Hl; [exact Hd|].
  inversion Hl as [|? ? He Ht]; subst. specialize (IH Ht).
  cbn [app]. unfold durable in *. destruct e; cbn [after_crash leaves] in *; auto.
  - destruct (fref_eq_dec h h0) as [->|]; auto. destruct He as [He| ->]; [congruence|auto].
  - destruct (fref_eq_dec h h0) as [->|]; auto. intros x [<-|[]]. apply (IH (now init (t ++ tr) h0 i)), crash_now.
  - intros x [<-|[]]. apply IH, crash_now.
  - destruct (fref_eq_dec h h0) as [->|]; auto. destruct He as [He| ->]; [congruence|auto].
  - destruct (fref_eq_dec h (FTree p)) as [->|]; [congruence|auto].
  - destruct (fref_eq_dec h (FTree p)) as [->|]; [congruence|auto].
Qed.

Lemma durable_sync init tr h i : durable init (ESync h :: tr) h i (now init tr h i).
Proof. unfold durable. cbn. destruct (fref_eq_dec h h); [|congruence]. intros x [<-|[]]. reflexivity. Qed.

(** ** A frame for invariants tying files and trace together, any export *)
Section Frame2.
  Variable c : client.
  Variable I : world -> Prop.
  Hypothesis I_tick : forall w, I w -> I (tick w).
  Hypothesis I_errno : forall e w, I w -> I (set_errno e w).
  Hypothesis I_send : forall m w, I w -> I (emit (ESend m) w).
  Hypothesis I_sync : forall h w, I w -> I (emit (ESync h) w).
  Hypothesis I_syncall : forall w, I w -> I (emit ESyncAll w).
  Hypothesis I_dpos : forall p w, I w -> I (set_dpos p w).
  Hypothesis I_map : forall i v w, I w -> I (set_map i v w).
  Hypothesis I_dlen : forall n w, I w -> I (set_dlen n w).
  Hypothesis K_get : forall a, keeps I (get_filepos c a).
  Hypothesis K_raw : forall a d len fua, keeps I (rawexpwrite c a d len fua).
  Hypothesis K_diff : forall off n d, keeps I (sys_pwrite FDiff off n d).
  Hypothesis K_punch : forall h off n, keeps I (punch_hole h off n).
  Hypothesis K_del : forall namelen size pos, keeps I (delete_treefile namelen size pos).
  Notation keeps := (keeps I).

  Ltac kstep :=
    match goal with
    | |- keeps (ret _) => apply keeps_ret
    | |- keeps ub => apply keeps_ub
    | |- keeps die => apply keeps_die
    | |- keeps (get _) => apply keeps_get
    | |- keeps pull => apply keeps_pull; exact I_tick
    | |- keeps (assert_ _) => apply keeps_assert
    | |- keeps (get_filepos _ _) => apply K_get
    | |- keeps (sys_pwrite FDiff _ _ _) => apply K_diff
    | |- keeps (rawexpwrite _ _ _ _ _) => apply K_raw
    | |- keeps (punch_hole _ _ _) => apply K_punch
    | |- keeps (delete_treefile _ _ _) => apply K_del
    | |- keeps (modify _) => apply keeps_modify; intros; solve [auto]
    | |- keeps (bind _ _) => apply keeps_bind; [|intros ?]
    | |- keeps (let '_ := ?x in _) => destruct x
    | |- keeps (match ?x with _ => _ end) => destruct x
    | |- keeps (mloop _ _ _) => apply keeps_mloop; intros ?
    | |- _ => assumption
    end.
  Ltac k := repeat kstep.

  Lemma f_read_map i : keeps (read_map i).
  Proof. intros w H. unfold wlp, read_map. destruct ((0 <=? i) && (i <? w_mapsz w)); [exact H|exact Logic.I]. Qed.
  Lemma f_pread h off n : keeps (sys_pread h off n).
  Proof. unfold sys_pread. k. Qed.
  Lemma f_fsync h : keeps (sys_fsync h).
  Proof. unfold sys_fsync. k. Qed.
  Lemma f_send m : keeps (send m).
  Proof. unfold send. k. Qed.
  Lemma f_sync_after h fua : keeps (sync_after c h fua).
  Proof. unfold sync_after. k; apply f_fsync. Qed.
  Lemma f_rawread a len : keeps (rawexpread c a len).
  Proof. unfold rawexpread. k; apply f_pread. Qed.
  Lemma f_rawwrite_fully a d len fua : keeps (rawexpwrite_fully c a d len fua).
  Proof. unfold rawexpwrite_fully, rawexpwrite_fully_body. k. Qed.
  Lemma f_find x : keeps (find_read_buf x).
  Proof. unfold find_read_buf. k. Qed.
  Lemma f_store x i n d : keeps (buf_store x i n d).
  Proof. unfold buf_store. k. Qed.
  Lemma f_confirm rq x n : keeps (confirm_read rq x n).
  Proof. unfold confirm_read. k; apply f_send. Qed.
  Lemma f_rawread_fully rq x : keeps (rawexpread_fully rq c x).
  Proof.
    unfold rawexpread_fully, rawexpread_fully_body.
    k; first [apply f_find|apply f_rawread|apply f_store|apply f_confirm].
  Qed.
  Lemma f_expread rq x : keeps (expread rq c x).
  Proof.
    unfold expread, expread_body. cbv zeta.
    k; first [apply f_read_map|apply f_find|apply f_pread|apply f_store|apply f_confirm|apply f_rawread_fully].
  Qed.
  Lemma f_expwrite a d n fua : keeps (expwrite c a d n fua).
  Proof.
    unfold expwrite, expwrite_body, sys_write_diff, fill_page, copyin_body. cbv zeta.
    k; first [apply f_rawwrite_fully|apply f_read_map|apply f_sync_after|apply f_rawread|idtac].
  Qed.
  Lemma f_normal_read rq : keeps (handle_normal_read c rq).
  Proof. unfold handle_normal_read, complete_read. cbv zeta. k; first [apply f_send|apply f_expread]. Qed.
  Lemma f_mkpipe n : keeps (mkpipe n).
  Proof. unfold mkpipe. k. Qed.
  Lemma f_read rq : keeps (handle_read c rq).
  Proof.
    unfold handle_read, handle_splice_read, expsplice_in, expsplice_in_body, rawexpsplice_in.
    k; first [apply f_mkpipe|apply f_send|apply f_rawread|apply f_normal_read].
  Qed.
  Lemma f_fsync_all l : keeps (fsync_all l).
  Proof. induction l; cbn [fsync_all]; k; apply f_fsync. Qed.
  Lemma f_flush rq : keeps (handle_flush c rq).
  Proof. unfold handle_flush, expflush, sys_sync. k; first [apply f_fsync|apply f_send|apply f_fsync_all|idtac]. Qed.
  Lemma f_receive rq d : keeps (receive_payload c rq d).
  Proof. unfold receive_payload. k; apply f_mkpipe. Qed.

  Lemma f_request rq p : keeps (handle_request c rq p).
  Proof.
    unfold handle_request, reply_error, handle_write, handle_trim, handle_write_zeroes, exptrim, trim_tree_body,
      trim_body, expwrite_zeroes, expwrite_zeroes_body, expsplice_out. cbv zeta.
    k; first [apply f_send|apply f_read|apply f_flush|apply f_expwrite|apply f_rawwrite_fully|idtac].
  Qed.
  Lemma f_execute qs : keeps (execute c qs).
  Proof.
    induction qs as [|q qs IH]; cbn [execute]; [apply keeps_ret|].
    apply keeps_bind; [destruct (q_cmd q =? 1); [apply f_receive|apply keeps_ret]|].
    intros p. apply keeps_bind; [apply f_request|auto].
  Qed.
End Frame2.

(** ** The trace describes the files *)
Section Traced.
  Variable init : fref -> Z -> Z.

  Lemma held_file w h h' f i : held (set_file h f w) h' i =
    if fref_eq_dec h' h then match h with FTree p => if w_exists w p then frd f i else 0 | _ => frd f i end
    else held w h' i.
  Proof.
    unfold held. cbn [set_file w_file w_exists]. unfold upd_file.
    destruct (fref_eq_dec h' h) as [->|]; [|reflexivity]. destruct h; reflexivity.
  Qed.

  Definition real (w : world) (h : fref) : Prop :=
    match h with FTree p => w_exists w p = true | FBad => False | _ => True end.

  Lemma traced_write h off k d w : 0 <= off -> 0 < k -> real w h -> traced init w ->
    traced init (emit (EWrite h off k d) (set_file h (fwrite (w_file w h) off k d) w)).
  Proof.
    intros Ho Hk Hr H h' i Hh'. cbn [emit w_tr now].
    change (held (emit (EWrite h off k d) (set_file h (fwrite (w_file w h) off k d) w)) h' i)
      with (held (set_file h (fwrite (w_file w h) off k d) w) h' i).
    rewrite held_file. cbn [set_file w_tr]. destruct (fref_eq_dec h' h) as [->|Hne]; [|apply H; exact Hh'].
    assert (E : match h with FTree p => if w_exists w p then frd (fwrite (w_file w h) off k d) i else 0
                | _ => frd (fwrite (w_file w h) off k d) i end = frd (fwrite (w_file w h) off k d) i).
    { destruct h; try reflexivity. cbn in Hr. rewrite Hr. reflexivity. }
    rewrite E, frd_fwrite by lia. unfold covers.
    destruct ((off <=? i) && (i <? off + k)); [reflexivity|].
    rewrite H by exact Hh'. unfold held. destruct h; try reflexivity. cbn in Hr. rewrite Hr. reflexivity.
  Qed.

  (** [traced] survives anything that touches neither files nor the relevant
      events *)
  Lemma traced_same w w' : w_file w' = w_file w -> w_exists w' = w_exists w ->
    (forall h i, now init (w_tr w') h i = now init (w_tr w) h i) -> traced init w -> traced init w'.
  Proof.
    intros H1 H2 H3 H h i Hh. rewrite H3, H by exact Hh. unfold held. rewrite H1, H2. reflexivity.
  Qed.

  Lemma traced_pwrite h off n d w : real w h \/ h = FBad -> traced init w ->
    wlp (sys_pwrite h off n d) (fun _ w' => traced init w' /\ w_exists w' = w_exists w) (traced init) w.
  Proof.
    intros Hr H. unfold sys_pwrite. apply wlp_bind, wlp_pull.
    assert (Ht : traced init (tick w)) by (eapply traced_same; eauto).
    assert (He : forall e, wlp (modify (set_errno e);;; ret (-1)) (fun _ w' => traced init w' /\ w_exists w' = w_exists w) (traced init) (tick w)).
    { intros e. apply wlp_bind, wlp_modify, wlp_ret. split; [|reflexivity]. eapply traced_same; [| | |exact Ht]; reflexivity. }
    assert (Hok : real w h -> forall r, wlp (if off <? 0 then modify (set_errno EINVAL) ;;; ret (-1)
      else
        let k := moved r n in
        if k <=? 0 then ret k
        else
          f <- get (fun w => w_file w h) ;;
          modify (set_file h (fwrite f off k d)) ;;;
          modify (emit (EWrite h off k d)) ;;;
          ret k) (fun _ w' => traced init w' /\ w_exists w' = w_exists w) (traced init) (tick w)).
    { intros Hrl r. destruct (off <? 0) eqn:Eo; [apply He|]. cbv zeta.
      destruct (moved r n <=? 0) eqn:Ek; [apply wlp_ret; auto|].
      apply wlp_bind, wlp_get, wlp_bind, wlp_modify, wlp_bind, wlp_modify, wlp_ret. split; [|reflexivity].
      apply (traced_write h off (moved r n) d (tick w)); try lia; [|exact Ht]. exact Hrl. }
    destruct h, (w_orc w (w_tick w)); try apply He; (destruct Hr as [Hr|Hr]; [|discriminate]); apply Hok; exact Hr.
  Qed.

  Lemma k_traced_punch h off n : keeps (traced init) (punch_hole h off n).
  Proof.
    intros w H. unfold punch_hole. apply wlp_bind, wlp_pull.
    assert (Ht : traced init (tick w)) by (eapply traced_same; eauto).
    assert (He : forall e, wlp (modify (set_errno e)) (fun _ w' => traced init w') (traced init) (tick w)).
    { intros e. apply wlp_modify. eapply traced_same; [| | |exact Ht]; reflexivity. }
    destruct (w_orc w (w_tick w)); try apply He; (destruct ((off <? 0) || (n <=? 0)) eqn:En; [apply He|]);
      apply wlp_bind, wlp_get, wlp_bind, wlp_modify, wlp_modify; intros h' i Hh'; cbn [emit w_tr now];
      (match goal with |- context [held (emit ?e ?w') h' i] => change (held (emit e w') h' i) with (held w' h' i) end);
      rewrite held_file; cbn [set_file w_tr];
      (destruct (fref_eq_dec h' h) as [->|Hne]; [|apply Ht; exact Hh']); rewrite Ht by exact Hh';
      unfold held, covers, frd; cbn [tick w_file w_exists fsize fdata];
      destruct h; repeat (match goal with |- context [if ?b then _ else _] => destruct b end); reflexivity.
  Qed.
  Lemma k_traced_pull : keeps (traced init) pull.
  Proof. intros w H. unfold wlp, pull. eapply traced_same; eauto. Qed.
  Lemma k_traced_errno e : keeps (traced init) (modify (set_errno e)).
  Proof. intros w H. unfold wlp, modify. eapply traced_same; eauto. Qed.
  Lemma k_traced_path namelen size pos : keeps (traced init) (get_path namelen size pos).
  Proof.
    unfold get_path. destruct (tree_path namelen size pos); [apply keeps_ret|apply keeps_die|]. intros w Hw. exact Logic.I.
  Qed.

  Lemma k_traced_del namelen size pos : keeps (traced init) (delete_treefile namelen size pos).
  Proof.
    unfold delete_treefile. apply keeps_bind; [apply k_traced_path|]. intros p.
    apply keeps_bind; [apply k_traced_pull|]. intros r. apply keeps_bind; [apply keeps_get|]. intros [|]; [|apply k_traced_errno].
    assert (Hd : keeps (traced init) (modify (set_exists p false);;; modify (emit (EUnlink p)))).
    { intros w H. apply wlp_bind, wlp_modify, wlp_modify. intros h i Hh. cbn [emit w_tr now set_exists].
      destruct (fref_eq_dec h (FTree p)) as [->|Hne].
      - unfold held. cbn [emit set_exists w_exists]. destruct (list_eq_dec Z.eq_dec p p); [reflexivity|congruence].
      - rewrite H by exact Hh. unfold held. cbn [emit set_exists w_exists w_file]. destruct h; try reflexivity.
        destruct (list_eq_dec Z.eq_dec p0 p) as [->|]; [congruence|reflexivity]. }
    destruct r; [exact Hd|exact Hd|apply k_traced_errno].
  Qed.

  Definition opened_ok (w : world) (h : fref) : Prop := real w h \/ h = FBad.

  Lemma traced_dummy f w : traced init w -> traced init (set_file FDummy f w).
  Proof.
    intros H h i Hh. rewrite held_file. destruct (fref_eq_dec h FDummy) as [->|]; [congruence|]. apply H. exact Hh.
  Qed.

  Lemma traced_create p f w : frd f = frd (mkFile 0 (fun _ => 0)) \/ f = zero_block ->
    traced init w -> w_exists w p = true -> (forall i, now init (w_tr w) (FTree p) i = 0) ->
    traced init (set_file (FTree p) f w).
  Proof.
    intros Hf H He Hn h i Hh. rewrite held_file. destruct (fref_eq_dec h (FTree p)) as [->|]; [|apply H; exact Hh].
    cbn [set_file w_tr]. rewrite Hn, He. destruct Hf as [->| ->]; unfold frd, zero_block; cbn [fsize fdata];
      destruct ((0 <=? i) && (i <? _)); reflexivity.
  Qed.

  Lemma traced_opentree namelen rdwr size pos w : traced init w ->
    wlp (open_treefile namelen rdwr size pos) (fun h w' => traced init w' /\ opened_ok w' h) (traced init) w.
  Proof.
    intros H. unfold open_treefile. apply wlp_bind. eapply wlp_mono; [apply k_traced_path; exact H| |auto].
    cbv beta. clear w H. intros p w H. apply wlp_bind, wlp_pull, wlp_bind, wlp_get.
    assert (Ht : traced init (tick w)) by (eapply traced_same; eauto).
    assert (Tick : forall w, traced init w -> traced init (tick w)) by (intros; eapply traced_same; eauto).
    assert (He : forall e, wlp (modify (set_errno e) ;;; ret FBad) (fun h w' => traced init w' /\ opened_ok w' h) (traced init) (tick w)).
    { intros e. apply wlp_bind, wlp_modify, wlp_ret. split; [eapply traced_same; [| | |exact Ht]; reflexivity|right; reflexivity]. }
    cbn [tick w_exists]. destruct (w_exists w p) eqn:Ex.
    - assert (Hr : wlp (ret (FTree p)) (fun h w' => traced init w' /\ opened_ok w' h) (traced init) (tick w)).
      { apply wlp_ret. split; [exact Ht|left; exact Ex]. }
      destruct (w_orc w (w_tick w)); auto. destruct (e =? ENOENT); auto.
    - match goal with |- wlp ?m _ _ _ => set (body := m) end.
      assert (Hrw : forall w, traced init w -> w_exists w p = false ->
        wlp (r1 <- pull ;;
        match r1 with
        | RErr _ => die
        | _ =>
          r2 <- pull ;;
          match r2 with
          | RErr _ => die
          | _ =>
            modify (set_exists p true) ;;;
            modify (emit (ECreate p)) ;;;
            modify (set_file (FTree p) (mkFile 0 (fun _ => 0))) ;;;
            r3 <- pull ;;
            match r3 with
            | RErr _ => die
            | RShort k => if k <=? 0 then die
                          else modify (set_file (FTree p) zero_block) ;;; ret (FTree p)
            | RFull => modify (set_file (FTree p) zero_block) ;;; ret (FTree p)
            end
          end
        end) (fun h w' => traced init w' /\ opened_ok w' h) (traced init) w).
      { clear. intros w H Ex.
        assert (Tick : forall w, traced init w -> traced init (tick w)) by (intros; eapply traced_same; eauto).
        apply wlp_bind, wlp_pull.
        assert (Hgo : forall w, traced init w -> w_exists w p = false ->
          wlp (r2 <- pull ;;
          match r2 with
          | RErr _ => die
          | _ =>
            modify (set_exists p true) ;;;
            modify (emit (ECreate p)) ;;;
            modify (set_file (FTree p) (mkFile 0 (fun _ => 0))) ;;;
            r3 <- pull ;;
            match r3 with
            | RErr _ => die
            | RShort k => if k <=? 0 then die
                          else modify (set_file (FTree p) zero_block) ;;; ret (FTree p)
            | RFull => modify (set_file (FTree p) zero_block) ;;; ret (FTree p)
            end
          end) (fun h w' => traced init w' /\ opened_ok w' h) (traced init) w).
        { clear w H Ex. intros w H Ex. apply wlp_bind, wlp_pull.
          set (w1 := emit (ECreate p) (set_exists p true (tick w))).
          set (w2 := set_file (FTree p) (mkFile 0 (fun _ => 0)) w1).
          assert (H2 : traced init w2).
          { intros h i Hh. unfold w2. rewrite held_file. cbn [set_file w_tr w1 emit now].
            destruct (fref_eq_dec h (FTree p)) as [->|Hne].
            - destruct (w_exists w1 p); [|reflexivity]. unfold frd. cbn [fsize fdata].
              destruct ((0 <=? i) && (i <? 0)); reflexivity.
            - cbn [set_exists w_tr]. rewrite (Tick w H h i Hh). unfold held. cbn [w1 emit set_exists w_exists w_file].
              destruct h; try reflexivity. destruct (list_eq_dec Z.eq_dec p0 p) as [->|]; [congruence|reflexivity]. }
          assert (E2 : w_exists (tick w2) p = true).
          { cbn [tick w2 set_file w1 emit set_exists w_exists]. destruct (list_eq_dec Z.eq_dec p p); [reflexivity|congruence]. }
          assert (H3 : traced init (set_file (FTree p) zero_block (tick w2))).
          { apply traced_create; auto. intros i. cbn [tick w2 set_file w_tr w1 emit now].
            destruct (fref_eq_dec (FTree p) (FTree p)); [reflexivity|congruence]. }
          assert (Hfin : wlp (r3 <- pull ;;
            match r3 with
            | RErr _ => die
            | RShort k => if k <=? 0 then die
                          else modify (set_file (FTree p) zero_block) ;;; ret (FTree p)
            | RFull => modify (set_file (FTree p) zero_block) ;;; ret (FTree p)
            end) (fun h w' => traced init w' /\ opened_ok w' h) (traced init) w2).
          { apply wlp_bind, wlp_pull. destruct (w_orc w2 (w_tick w2)).
            - apply wlp_bind, wlp_modify, wlp_ret. split; [exact H3|left; exact E2].
            - destruct (n <=? 0); [apply wlp_die; auto|]. apply wlp_bind, wlp_modify, wlp_ret. split; [exact H3|left; exact E2].
            - apply wlp_die. auto. }
          destruct (w_orc w (w_tick w)); [| |apply wlp_die; auto];
            apply wlp_bind, wlp_modify, wlp_bind, wlp_modify, wlp_bind, wlp_modify; exact Hfin. }
        destruct (w_orc w (w_tick w)); [apply Hgo; auto|apply Hgo; auto|apply wlp_die; auto]. }
      assert (Hro : forall w, traced init w ->
        wlp (r1 <- pull ;;
        match r1 with
        | RErr _ => die
        | _ =>
          r3 <- pull ;;
          match r3 with
          | RErr _ => die
          | RShort k => if k <=? 0 then die
                        else modify (set_file FDummy zero_block) ;;; ret FDummy
          | RFull => modify (set_file FDummy zero_block) ;;; ret FDummy
          end
        end) (fun h w' => traced init w' /\ opened_ok w' h) (traced init) w).
      { clear. intros w H.
        assert (Tick : forall w, traced init w -> traced init (tick w)) by (intros; eapply traced_same; eauto).
        apply wlp_bind, wlp_pull.
        assert (Hgo : forall w, traced init w ->
          wlp (r3 <- pull ;;
          match r3 with
          | RErr _ => die
          | RShort k => if k <=? 0 then die
                        else modify (set_file FDummy zero_block) ;;; ret FDummy
          | RFull => modify (set_file FDummy zero_block) ;;; ret FDummy
          end) (fun h w' => traced init w' /\ opened_ok w' h) (traced init) w).
        { clear w H. intros w H. apply wlp_bind, wlp_pull. destruct (w_orc w (w_tick w)).
          - apply wlp_bind, wlp_modify, wlp_ret. split; [apply traced_dummy; auto|left; exact Logic.I].
          - destruct (n <=? 0); [apply wlp_die; auto|].
            apply wlp_bind, wlp_modify, wlp_ret. split; [apply traced_dummy; auto|left; exact Logic.I].
          - apply wlp_die; auto. }
        destruct (w_orc w (w_tick w)); [apply Hgo; auto|apply Hgo; auto|apply wlp_die; auto]. }
      subst body. destruct (w_orc w (w_tick w)); cbv zeta iota; [| |destruct (negb (e =? ENOENT)); [apply He|]];
        (destruct rdwr; [apply Hrw; auto|apply Hro; auto]).
  Qed.

  Definition exp_handles (c : client) : Prop :=
    forall fis fi, c_export c = Some fis -> In fi fis -> is_exp (fi_h fi) = true.

  Lemma traced_getpos c a w : exp_handles c -> traced init w ->
    wlp (get_filepos c a) (fun r w' => traced init w' /\ match r with Some (h, _, _) => opened_ok w' h | None => True end)
        (traced init) w.
  Proof.
    intros Hx H. unfold get_filepos. destruct (a <? 0); [apply wlp_ret; auto|].
    destruct (cflag c F_TREEFILES).
    - apply wlp_bind. eapply wlp_mono; [apply traced_opentree; exact H| |auto].
      intros h w' [H1 H2]. apply wlp_ret. split; [exact H1|exact H2].
    - destruct (c_export c) as [l|] eqn:El; [|apply wlp_ub].
      apply wlp_bind. eapply wlp_mono; [apply (keeps_mloop (traced init)); [|exact H]| |auto].
      { intros [s e]. unfold search_body. destruct (s <=? e); [|apply keeps_ret].
        destruct (nth_error l (Z.to_nat ((s + e) / 2))) as [fi|]; [|apply keeps_ub].
        destruct (fi_start fi <? a); [apply keeps_ret|]. destruct (a <? fi_start fi); apply keeps_ret. }
      intros e w' H'. apply wlp_bind. eapply wlp_mono; [apply keeps_assert; exact H'| |auto].
      cbv beta. intros _ w2 H2. destruct (nth_error l (Z.to_nat e)) as [fi|] eqn:En; [|apply wlp_ub].
      apply wlp_ret. split; [exact H2|]. left. specialize (Hx l fi El (nth_error_In _ _ En)).
      destruct (fi_h fi); try discriminate. exact Logic.I.
  Qed.

  Lemma k_traced_syncafter c h fua : keeps (traced init) (sync_after c h fua).
  Proof.
    assert (Hf : keeps (traced init) (sys_fsync h;;; ret tt)).
    { apply keeps_bind; [|intros; apply keeps_ret]. unfold sys_fsync. apply keeps_bind; [apply k_traced_pull|].
      intros r. assert (He : forall e, keeps (traced init) (modify (set_errno e);;; ret (-1))).
      { intros e. apply keeps_bind; [apply k_traced_errno|intros; apply keeps_ret]. }
      assert (Hk : keeps (traced init) (modify (emit (ESync h));;; ret 0)).
      { apply keeps_bind; [|intros; apply keeps_ret]. apply keeps_modify. intros w' H'. eapply traced_same; eauto. }
      destruct h, r; auto. }
    unfold sync_after. destruct (cflag c F_SYNC); [exact Hf|]. destruct fua; [exact Hf|apply keeps_ret].
  Qed.

  Lemma k_traced_raw c a d len fua : exp_handles c -> keeps (traced init) (rawexpwrite c a d len fua).
  Proof.
    intros Hx w H. unfold rawexpwrite. apply wlp_bind. eapply wlp_mono; [apply traced_getpos; eauto| |auto].
    intros [[[h o] mb]|] w1 [H1 H2]; [|apply wlp_ret; exact H1].
    apply wlp_bind. eapply wlp_mono; [apply traced_pwrite; eauto| |auto].
    intros k w2 [H3 _]. apply wlp_bind.
    eapply wlp_mono; [apply k_traced_syncafter; exact H3| |auto]. cbv beta. intros _ w3 H4. apply wlp_ret. exact H4.
  Qed.

  (** every request keeps trace and files in step *)
  Theorem traced_request c rq p : exp_handles c -> keeps (traced init) (handle_request c rq p).
  Proof.
    intros Hx. apply f_request; try (intros; eapply traced_same; eauto; reflexivity).
    - intros a w H. eapply wlp_mono; [apply traced_getpos; eauto| |auto]. cbv beta. intros r w' [H1 _]. exact H1.
    - intros. apply k_traced_raw; exact Hx.
    - intros off n d w H. eapply wlp_mono; [apply traced_pwrite; [left; exact Logic.I|exact H]| |auto]. cbv beta. intros r w' [H1 _]. exact H1.
    - intros. apply k_traced_punch.
    - intros. apply k_traced_del.
  Qed.
  Theorem traced_execute c qs : exp_handles c -> keeps (traced init) (execute c qs).
  Proof.
    intros Hx. apply f_execute; try (intros; eapply traced_same; eauto; reflexivity).
    - intros a w H. eapply wlp_mono; [apply traced_getpos; eauto| |auto]. cbv beta. intros r w' [H1 _]. exact H1.
    - intros. apply k_traced_raw; exact Hx.
    - intros off n d w H. eapply wlp_mono; [apply traced_pwrite; [left; exact Logic.I|exact H]| |auto]. cbv beta. intros r w' [H1 _]. exact H1.
    - intros. apply k_traced_punch.
    - intros. apply k_traced_del.
  Qed.
End Traced.
