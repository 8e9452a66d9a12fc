(** Two runs side by side with worker threads: what a connection sends, on any
    schedule, does not depend on files that are not its own. *)
From Verif Require Import Base M_Const M_Disk M_Tree M_Raw M_Par L_Wp S_Wire S_Disk L_Wire L_Session L_Rel.

Local Arguments pbind : simpl never.
Local Arguments act : simpl never.
Section RelP.
  Variable c : client.
  Variable vis : fref -> Prop.
  Variable hp : bool.
  Variable lg : bool.
  Hypothesis Hexp : cflag c F_TREEFILES = false -> forall l fi, c_export c = Some l -> In fi l -> vis (fi_h fi).
  Hypothesis Htree : cflag c F_TREEFILES = true -> vis FDummy /\ forall p, reaches c p -> vis (FTree p).
  Hypothesis Hcow : cflag c F_COPYONWRITE = true \/ waiting c = true -> hp = true /\ vis FDiff.
  Notation rel := (rel vis hp).
  Notation R := (R vis hp).
  Notation gpR := (gpR vis).
  Notation ctxR := (ctxR hp).
  Notation known := (known hp).

  Inductive prel {A} (RA : A -> A -> Prop) : P A -> P A -> Prop :=
  | pr_ret a b : RA a b -> prel RA (PRet a) (PRet b)
  | pr_act X (RX : X -> X -> Prop) m m' k k' :
      rel RX m m' -> (forall x y, RX x y -> prel RA (k x) (k' y)) -> prel RA (PAct X m k) (PAct X m' k')
  | pr_send m k k' : prel RA k k' -> prel RA (PSend m k) (PSend m k')
  | pr_log m k k' : prel RA k k' -> prel RA (PLog m k) (PLog m k').

  Lemma prel_bind {A B} (RA : A -> A -> Prop) (RB : B -> B -> Prop) p p' f f' :
    prel RA p p' -> (forall a b, RA a b -> prel RB (f a) (f' b)) -> prel RB (pbind p f) (pbind p' f').
  Proof.
    intros H Hf. induction H; unfold pbind; fold (@pbind A B); [auto|eapply pr_act; eauto|constructor; auto|constructor; auto].
  Qed.
  Lemma prel_mono {A} (RA RB : A -> A -> Prop) p p' : prel RA p p' -> (forall a b, RA a b -> RB a b) -> prel RB p p'.
  Proof. intros H HR. induction H; [constructor; auto|eapply pr_act; eauto|constructor; auto|constructor; auto]. Qed.
  Lemma prel_act {X} (RX : X -> X -> Prop) m m' : rel RX m m' -> prel RX (act m) (act m').
  Proof. intros H. eapply pr_act; [exact H|]. intros x y Hxy. now constructor. Qed.
  Lemma prel_ploop {S T} (RS : S -> S -> Prop) (RT : T -> T -> Prop) bound body body' s s' :
    (forall s s', RS s s' -> prel (fun x y => match x, y with inl a, inl b => RS a b | inr a, inr b => RT a b | _, _ => False end) (body s) (body' s')) ->
    RS s s' -> prel RT (ploop bound body s) (ploop bound body' s').
  Proof.
    intros Hb Hs. unfold ploop.
    assert (K : forall n s s', RS s s' -> prel (fun x y => match x, y with inl a, inl b => RS a b | inr a, inr b => RT a b | _, _ => False end)
        (ploopP body n s) (ploopP body' n s')).
    { induction n as [n IH|n IH|]; intros a b Hab; cbn [ploopP]; [| |apply Hb, Hab].
      - eapply prel_bind; [apply Hb, Hab|]. intros [x|x] [y|y] Hxy; try contradiction; [|constructor; exact Hxy].
        eapply prel_bind; [apply IH, Hxy|]. intros [u|u] [v|v] Huv; try contradiction; [apply IH, Huv|constructor; exact Huv].
      - eapply prel_bind; [apply IH, Hab|]. intros [u|u] [v|v] Huv; try contradiction; [apply IH, Huv|constructor; exact Huv]. }
    eapply prel_bind; [apply K, Hs|]. intros [x|x] [y|y] Hxy; try contradiction; [|constructor; exact Hxy].
    apply prel_act. intros w w' _. exact I.
  Qed.
  Lemma prel_ub {A} (RA : A -> A -> Prop) : prel RA (act ub) (act ub).
  Proof. apply prel_act, rel_ub. Qed.
  Lemma prel_assert b : prel eq (act (assert_ b)) (act (assert_ b)).
  Proof. apply prel_act, rel_assert. Qed.

  Ltac pstep :=
    match goal with
    | |- prel _ (PRet _) (PRet _) => apply pr_ret
    | |- prel _ (act ub) (act ub) => apply prel_ub
    | |- prel _ (pbind (act (assert_ _)) _) (pbind _ _) => eapply prel_bind; [apply prel_assert|intros _ _ _]
    end.
  Ltac pr := repeat pstep.

  Lemma pq_log m : prel eq (plog lg m) (plog lg m).
  Proof. unfold plog. destruct lg; [apply pr_log|]; constructor; reflexivity. Qed.
  Lemma pq_send m : prel eq (psend m) (psend m).
  Proof. unfold psend. apply pr_send. constructor. reflexivity. Qed.
  Lemma pq_simple ck e d : prel eq (p_simple lg ck e d) (p_simple lg ck e d).
  Proof. unfold p_simple. eapply prel_bind; [apply pq_log|]. intros. apply pq_send. Qed.
  Lemma pq_chunk ck fl ty n d : prel eq (p_chunk lg ck fl ty n d) (p_chunk lg ck fl ty n d).
  Proof. unfold p_chunk. eapply prel_bind; [apply pq_send|]. intros. apply pq_log. Qed.
  Ltac pq_SEND := first [apply pq_simple|apply pq_chunk].

  Definition g_filepos := q_get_filepos c vis hp Hexp Htree.
  Definition g_store := q_store c vis hp.
  Definition g_find := q_find vis hp.
  Definition g_any := ctx_any hp.

  Lemma g_syncall : rel eq sys_sync sys_sync.
  Proof. unfold sys_sync. apply rel_modify. intros. apply R_emit; [exact I|assumption]. Qed.

  Lemma pq_sync_after h fua : prel eq (p_sync_after c h fua) (p_sync_after c h fua).
  Proof.
    unfold p_sync_after. destruct (cflag c F_SYNC); [|destruct fua; [|pr; reflexivity]];
      (eapply prel_bind; [apply prel_act; apply q_fsync|]; intros; pr; reflexivity).
  Qed.

  Lemma pq_rawwrite a d d' len fua : feq d d' -> prel eq (p_rawexpwrite c a d len fua) (p_rawexpwrite c a d' len fua).
  Proof.
    intros Hd. unfold p_rawexpwrite. eapply prel_bind; [apply prel_act; apply g_filepos|]. intros p _ [<- _]. destruct p as [[[h o] mx]|]; [|pr; reflexivity].
    eapply prel_bind; [apply prel_act; apply q_pwrite, Hd|]. intros k _ <-. eapply prel_bind; [apply pq_sync_after|]. intros; pr; reflexivity.
  Qed.

  Lemma pq_rawwrite_fully a d d' len fua : feq d d' -> prel eq (p_rawexpwrite_fully c a d len fua) (p_rawexpwrite_fully c a d' len fua).
  Proof.
    intros Hd. unfold p_rawexpwrite_fully. apply prel_ploop with (RS := eq) (RT := eq); [|reflexivity].
    intros [[a1 b] n] _ <-. unfold p_rawexpwrite_fully_body. destruct (0 <? n); [|pr; reflexivity].
    eapply prel_bind; [apply pq_rawwrite; intros i; apply Hd|]. intros k _ <-. destruct (0 <? k); pr; reflexivity.
  Qed.

  Lemma pq_rawread a len : prel kdR (p_rawexpread c a len) (p_rawexpread c a len).
  Proof.
    unfold p_rawexpread. eapply prel_bind; [apply prel_act; apply g_filepos|]. intros p _ [<- Hv]. destruct p as [[[h o] mx]|]; [|pr; split; [reflexivity|intros ?; reflexivity]].
    apply prel_act; apply q_pread, Hv.
  Qed.

  Lemma pq_confirm P rq x y n : ctxP P x y -> (frag x = true -> forall j, 0 <= j < n -> P j) -> prel eq (p_confirm_read lg rq x n) (p_confirm_read lg rq y n).
  Proof.
    intros (A1 & A2 & A3 & A4 & A5 & A6 & A7) HP. unfold p_confirm_read. rewrite <- A3, <- A5, <- A6. fold (frag x). destruct (frag x); [|pr; reflexivity].
    rewrite (slice_eq c hp (x_buf x) (x_buf y)); [pq_SEND|]. intros j Hj. apply A7, HP; [reflexivity|lia].
  Qed.

  Lemma pq_rawread_fully rq x y : ctxR x y -> 0 <= x_off x ->
    prel (fun p q => snd p = snd q /\ ctxR (fst p) (fst q) /\ keep x (fst p) /\ 0 <= x_off (fst p) /\
           (snd p = false -> x_off x + x_len x <= x_off (fst p)))
        (p_rawexpread_fully lg rq c x) (p_rawexpread_fully lg rq c y).
  Proof.
    intros Hx Ho. unfold p_rawexpread_fully. replace (x_len y) with (x_len x) by (apply Hx).
    apply prel_ploop with (RS := fun p q => ctxR p q /\ keep x p /\ 0 <= x_off p /\ x_off p + x_len p = x_off x + x_len x);
      [|unfold keep; auto].
    intros p q (H1 & H2 & H3 & H4). unfold p_rawexpread_fully_body.
    pose proof H1 as (A1 & A2 & A3 & A4 & A5 & A6 & A7). rewrite <- A3, <- A4.
    destruct (0 <? x_len p) eqn:El.
    2:{ pr. cbn. repeat split; auto; try apply H1; try apply H2. intros _. lia. }
    eapply prel_bind; [apply prel_act; apply (g_find p q H1)|]. intros [p1 i] [q1 i'] (B1 & B2 & B3 & B4 & B5 & B6 & B7 & B8). cbn in *. subst i'.
    eapply prel_bind; [apply pq_rawread|]. intros [k d] [k' d'] [D1 D2]. cbn in D1, D2. subst k'.
    destruct H2 as (K1 & K2 & K3).
    destruct (k <=? 0) eqn:Ek.
    { pr. cbn. split; [reflexivity|]. split.
      - destruct B3 as (C1 & C2 & C3 & C4 & C5 & C6 & C7). unfold ctxR, ctxP. repeat split; auto. intros j Hj. apply C7. unfold known, frag in *.
        rewrite B4, B7, B8 in Hj. exact Hj.
      - unfold keep. repeat split; try congruence; lia. }
    eapply prel_bind; [apply prel_act; apply (g_store _ _ _ i k _ _ B3 D2)|]. intros p2 q2 (E1 & E2 & E3 & E4 & E5 & E6).
    assert (Ef : frag p2 = frag p) by (unfold frag; rewrite E5, E6, B7, B8; reflexivity).
    eapply prel_bind; [eapply pq_confirm; [exact E1|]|].
    { rewrite Ef. intros F j Hj. right. rewrite F in B2. subst i. lia. }
    intros _ _ _. pr. cbn. split.
    - destruct E1 as (C1 & C2 & C3 & C4 & C5 & C6 & C7). unfold ctxR, ctxP, ctx_set. cbn. repeat split; auto.
      intros j Hj. apply C7. destruct Hj as [Hj|[Hj1 Hj2]]; [left; left; exact Hj|].
      change (frag p2 = false) in Hj1. cbn in Hj2. rewrite Ef in Hj1. rewrite Hj1 in B2.
      destruct (Z.lt_ge_cases j (x_off p)); [left; right; split; [exact Hj1|lia]|right; lia].
    - unfold keep, ctx_set. cbn. repeat split; try congruence; lia.
  Qed.

  Lemma pq_expread rq x y : ctxR x y -> x_off x = 0 -> x_len x = rq_len rq ->
    prel (fun p q => snd p = snd q /\ ctxR (fst p) (fst q) /\ keep x (fst p) /\
           (snd p = false -> hp = true \/ rq_len rq <= x_off (fst p)))
        (p_expread lg rq c x) (p_expread lg rq c y).
  Proof.
    pose proof pq_rawread_fully as QR. intros Hx Ho Hl. unfold p_expread. destruct (negb (cflag c F_COPYONWRITE) && negb (waiting c)) eqn:Ec.
    { eapply prel_mono; [apply pq_rawread_fully; [exact Hx|lia]|]. intros [p f] [q f'] (H1 & H2 & H3 & H4 & H5). cbn in *.
      repeat split; auto; try apply H2; try apply H3. intros E. right. specialize (H5 E). lia. }
    assert (Hh : hp = true /\ vis FDiff) by (apply Hcow; destruct (cflag c F_COPYONWRITE), (waiting c); cbn in Ec; auto; discriminate).
    destruct Hh as [Hh Hd]. cbv zeta. replace (x_off y) with (x_off x) by (apply Hx).
    eapply prel_ploop with (RS := fun s t => let '(m, a, n, p) := s in let '(m', a', n', q) := t in m = m' /\ a = a' /\ n = n' /\ ctxR p q /\ keep x p /\ 0 <= x_off p);
      [|repeat split; auto; try apply Hx; lia].
    intros [[[m a] n] p] [[[m' a'] n'] q] (<- & <- & <- & H1 & H2 & H3). unfold p_expread_body. cbv zeta.
    destruct (m <=? map_high (x_off x + i64 (rq_from rq)) (rq_len rq)); [|pr; cbn; repeat split; auto; try apply H1; try apply H2].
    eapply prel_bind; [apply prel_act; apply q_readmap|]. intros v _ <-. destruct (negb (v =? NOPAGE)).
    - eapply prel_bind; [apply prel_act; apply (g_find p q H1)|]. intros [p1 i] [q1 i'] (B1 & B2 & B3 & B4 & B5 & B6 & B7 & B8). cbn in *. subst i'.
      eapply prel_bind; [apply prel_act; apply q_pread; intros _; exact Hd|]. intros [k d] [k' d'] [D1 D2]. cbn in D1, D2. subst k'.
      eapply prel_bind; [apply prel_act; apply (g_store _ _ _ i k _ _ B3 D2)|]. intros p2 q2 (E1 & E2 & E3 & E4 & E5 & E6).
      assert (R2 : ctxR p2 q2).
      { eapply g_any; [exact Hh| |exact E1]. intros j Hj. left. left. exact Hj. }
      assert (K2 : keep x p2) by (destruct H2 as (K1 & K2 & K3); unfold keep; repeat split; congruence).
      destruct (negb (k =? page_part (a - m * DIFFPAGESIZE) n)); [pr; cbn; repeat split; auto; try apply R2; try apply K2|].
      eapply prel_bind; [eapply pq_confirm; [exact R2|intros _ j _; left; exact Hh]|]. intros _ _ _. pr. cbn. repeat split; auto; try apply R2; try apply K2. lia.
    - destruct (waiting c); [pr; cbn; repeat split; auto; try apply H1; try apply H2|].
      replace (x_off q) with (x_off p) by (apply H1).
      eapply prel_bind; [apply QR; [|exact H3]|].
      + destruct H1 as (A1 & A2 & A3 & A4 & A5 & A6 & A7). unfold ctxR, ctxP, ctx_set. cbn. repeat split; auto.
      + intros [p2 f] [q2 f'] (D1 & D2 & D3 & D4 & D5). cbn in *. subst f'.
        assert (K2 : keep x p2) by (destruct H2 as (K1 & K2 & K3); destruct D3 as (L1 & L2 & L3); cbn in *; unfold keep; repeat split; congruence).
        destruct f; pr; cbn; repeat split; auto; try apply D2; try apply K2.
  Qed.

  Lemma pq_complete rq x y e msg : ctxR x y -> (e = 0 -> x_structured x = false -> hp = true \/ x_buflen x <= x_off x) ->
    prel eq (p_complete_read lg rq x e msg) (p_complete_read lg rq y e msg).
  Proof.
    intros (A1 & A2 & A3 & A4 & A5 & A6 & A7) Hb. unfold p_complete_read. rewrite <- A2, <- A5, <- A6. destruct (x_structured x) eqn:Es.
    - eapply prel_bind with (RA := eq); [destruct (x_df x && (e =? 0)); [pq_SEND|pr; reflexivity]|]. intros _ _ _.
      destruct (negb (e =? 0)); pq_SEND.
    - destruct (e =? 0) eqn:Ee; [|pq_SEND]. rewrite (slice_eq c hp (x_buf x) (x_buf y)); [pq_SEND|].
      intros j Hj. apply A7. destruct Hb as [H|H]; [lia|reflexivity|left; exact H|]. right. unfold frag. rewrite Es. split; [reflexivity|lia].
  Qed.

  Lemma pq_normal_read rq : prel eq (p_handle_normal_read lg c rq) (p_handle_normal_read lg c rq).
  Proof.
    unfold p_handle_normal_read. cbv zeta. destruct (c_structured c && flag (rq_type rq) NBD_CMD_FLAG_DF && (1048576 <? rq_len rq)); [pq_SEND|].
    eapply prel_bind; [apply prel_act; apply rel_get with (RA := fun g g' => hp = true -> feq g g'); intros w w' H; apply (r_heap _ _ _ _ H)|].
    intros g g' Hg. set (st := c_structured c). set (df := flag (rq_type rq) NBD_CMD_FLAG_DF).
    assert (K : forall al bl, (st = false -> bl = rq_len rq) ->
       prel eq (xr <~- p_expread lg rq c (mkCtx g al bl 0 (rq_len rq) st df) ;; let '(x1, failed) := xr in
                 if failed : bool then e <~- act (get w_errno) ;; p_complete_read lg rq x1 (nbd_errno e) read_failed else p_complete_read lg rq x1 0 [])
              (xr <~- p_expread lg rq c (mkCtx g' al bl 0 (rq_len rq) st df) ;; let '(x1, failed) := xr in
                 if failed : bool then e <~- act (get w_errno) ;; p_complete_read lg rq x1 (nbd_errno e) read_failed else p_complete_read lg rq x1 0 [])).
    { intros al bl Hbl. eapply prel_bind; [apply pq_expread; cbn; auto|].
      - unfold ctxR, ctxP. cbn. repeat split; auto. intros j [Hj|[_ Hj]]; [apply Hg, Hj|cbn in Hj; lia].
      - intros [p f] [q f'] (H1 & H2 & (K1 & K2 & K3) & H4). cbn in *. subst f'. destruct f.
        + eapply prel_bind; [apply prel_act, rel_geterrno|]. intros e _ <-. apply pq_complete; [exact H2|]. intros E. destruct (nbd_errno_pos c hp e E).
        + apply pq_complete; [exact H2|]. intros _ Es. rewrite K1. rewrite K2 in Es. rewrite (Hbl Es). apply H4. reflexivity. }
    destruct (df || negb st) eqn:E; apply K; [auto|]. intros Es. rewrite Es in E. destruct df; discriminate.
  Qed.

  Lemma pq_splice_read rq : prel eq (p_handle_splice_read lg c rq) (p_handle_splice_read lg c rq).
  Proof.
    unfold p_handle_splice_read. destruct (c_tls c); [pr; reflexivity|]. eapply prel_bind; [apply prel_act; apply q_mkpipe|]. intros ok _ <-.
    destruct (negb ok); [pr; reflexivity|]. eapply prel_bind with (RA := eq).
    - unfold p_expsplice_in. apply prel_ploop with (RS := eq) (RT := eq); [|reflexivity]. intros [[a n] acc] _ <-.
      unfold p_expsplice_in_body. destruct (0 <? n); [|pr; reflexivity]. eapply prel_bind; [apply pq_rawread|].
      intros [k d] [k' d'] [D1 D2]. cbn in D1, D2. subst k'. destruct (0 <? k); pr; [|reflexivity].
      rewrite (slice_eq c hp d d'); [reflexivity|]. intros j _. apply D2.
    - intros [data|] _ <-; [|pr; reflexivity]. eapply prel_bind; [pq_SEND|]. intros; pr; reflexivity.
  Qed.

  Lemma pq_read rq : prel eq (p_handle_read lg c rq) (p_handle_read lg c rq).
  Proof.
    unfold p_handle_read. eapply prel_bind with (RA := eq); [destruct (cflag c F_SPLICE); [apply pq_splice_read|pr; reflexivity]|].
    intros b _ <-. destruct b; [pr; reflexivity|apply pq_normal_read].
  Qed.

  Lemma pq_fill ps off wl pb pb' : feq pb pb' ->
    prel (fun p q => match p, q with Some a, Some b => feq a b | None, None => True | _, _ => False end) (p_fill_page c ps off wl pb) (p_fill_page c ps off wl pb').
  Proof.
    intros Hp. unfold p_fill_page. destruct (negb (off =? 0) || negb (wl =? DIFFPAGESIZE)); [|pr; exact Hp].
    destruct (waiting c); [pr; exact I|].
    eapply prel_bind with (RA := kdR).
    - apply prel_ploop with (RS := fun s t => let '(a, p, n, b) := s in let '(a', p', n', b') := t in a = a' /\ p = p' /\ n = n' /\ feq b b'); [|auto].
      intros [[[a p] n] b] [[[a' p'] n'] b'] (<- & <- & <- & Hb). unfold p_copyin_body. destruct (0 <? n); [|pr; split; auto].
      eapply prel_bind; [apply pq_rawread|]. intros [k d] [k' d'] [D1 D2]. cbn in D1, D2. subst k'. destruct (0 <? k); pr; [|split; auto].
      repeat split; auto. intros j. destruct ((p <=? j) && (j <? p + k)); [apply D2|apply Hb].
    - intros [k d] [k' d'] [D1 D2]. cbn in D1, D2. subst k'. destruct (k <? 0); pr; [exact I|exact D2].
  Qed.

  Lemma pq_expwrite a d len fua : prel eq (p_expwrite c a d len fua) (p_expwrite c a d len fua).
  Proof.
    unfold p_expwrite. destruct (negb (cflag c F_COPYONWRITE) && negb (waiting c)) eqn:Ec; [apply pq_rawwrite_fully; intros ?; reflexivity|].
    assert (Hh : hp = true /\ vis FDiff) by (apply Hcow; destruct (cflag c F_COPYONWRITE), (waiting c); cbn in Ec; auto; discriminate).
    destruct Hh as [Hh Hd]. cbv zeta.
    eapply prel_bind; [apply prel_act; apply rel_get with (RA := feq); intros w w' H; apply (r_heap _ _ _ _ H), Hh|]. intros g g' Hg.
    eapply prel_bind with (RA := eq).
    - apply prel_ploop with (RS := fun s t => let '(m, a, b, n, p) := s in let '(m', a', b', n', q) := t in m = m' /\ a = a' /\ b = b' /\ n = n' /\ feq p q); [|repeat split; auto].
      intros [[[[m a1] b] n] p] [[[[m' a1'] b'] n'] q] (<- & <- & <- & <- & Hp). unfold p_expwrite_body. cbv zeta.
      destruct (m <=? map_high a len); [|pr; reflexivity]. eapply prel_bind; [apply prel_act; apply q_readmap|]. intros v _ <-. destruct (negb (v =? NOPAGE)).
      + eapply prel_bind; [apply prel_act; apply q_pwrite; intros ?; reflexivity|]. intros k _ <-.
        destruct (negb (k =? page_part (a1 - m * DIFFPAGESIZE) n)); pr; [reflexivity|]. repeat split; auto.
      + eapply prel_bind with (RA := eq).
        * destruct (cflag c F_SPARSE); [apply prel_act; apply rel_modify; intros; apply R_map; assumption|].
          eapply prel_bind; [apply prel_act; apply rel_get with (RA := eq); intros w w' H; apply (r_dlen _ _ _ _ H)|]. intros k _ <-.
          eapply prel_bind; [apply prel_act; apply rel_modify; intros; apply R_map; assumption|]. intros _ _ _. apply prel_act; apply rel_modify. intros. apply R_dlen. assumption.
        * intros _ _ _. eapply prel_bind; [apply pq_fill, Hp|]. intros [p1|] [q1|] Hpq; try contradiction; [|pr; reflexivity].
          match goal with |- prel _ (pbind (act (sys_write_diff _ ?x)) _) (pbind (act (sys_write_diff _ ?y)) _) =>
            assert (Hxy : feq x y) by (intros j; cbv beta; match goal with |- (if ?b then _ else _) = _ => destruct b end; [reflexivity|apply Hpq]) end.
          eapply prel_bind; [apply prel_act; apply q_write_diff, Hxy|]. intros k _ <-. destruct (negb (k =? DIFFPAGESIZE)); pr; [reflexivity|].
          repeat split; auto.
    - intros f _ <-. destruct f; [pr; reflexivity|]. eapply prel_bind; [apply pq_sync_after|]. intros; pr; reflexivity.
  Qed.

  Lemma pq_write rq p : prel eq (p_handle_write lg c rq p) (p_handle_write lg c rq p).
  Proof.
    unfold p_handle_write. cbv zeta. eapply prel_bind with (RA := eq).
    - destruct p; [apply pq_expwrite|apply pq_rawwrite_fully; intros ?; reflexivity|pr].
    - intros f _ <-. eapply prel_bind; [apply prel_act, rel_geterrno|]. intros e _ <-. pq_SEND.
  Qed.

  Lemma pq_fsync_all l : prel eq (p_fsync_all l) (p_fsync_all l).
  Proof.
    induction l as [|fi l IH]; cbn [p_fsync_all]; [pr; reflexivity|]. eapply prel_bind; [apply prel_act; apply q_fsync|]. intros k _ <-.
    destruct (k <? 0); [pr; reflexivity|exact IH].
  Qed.

  Lemma pq_flush rq : prel eq (p_handle_flush lg c rq) (p_handle_flush lg c rq).
  Proof.
    unfold p_handle_flush. eapply prel_bind with (RA := eq).
    - unfold p_expflush. destruct (cflag c F_COPYONWRITE); [eapply prel_bind; [apply prel_act; apply q_fsync|]; intros ? _ <-; pr; reflexivity|].
      destruct (cflag c F_WAIT); [eapply prel_bind; [apply prel_act; apply q_fsync|]; intros ? _ <-; pr; reflexivity|].
      destruct (cflag c F_TREEFILES); [destruct (cflag c F_READONLY); [pr; reflexivity|]; eapply prel_bind; [apply prel_act, g_syncall|]; intros; pr; reflexivity|]. destruct (c_export c); [apply pq_fsync_all|pr].
    - intros f _ <-. eapply prel_bind; [apply prel_act, rel_geterrno|]. intros e _ <-. pq_SEND.
  Qed.

  Lemma pq_trim rq : prel eq (p_handle_trim lg c rq) (p_handle_trim lg c rq).
  Proof.
    unfold p_handle_trim. eapply prel_bind with (RA := eq); [|intros; pq_SEND].
    unfold p_exptrim. pr. destruct (cflag c F_COPYONWRITE); [pr; reflexivity|]. cbv zeta. destruct (cflag c F_TREEFILES) eqn:Et.
    - apply prel_ploop with (RS := eq) (RT := eq); [|reflexivity]. intros m _ <-. unfold p_trim_tree_body.
      destruct (m <? _); [|pr; reflexivity]. eapply prel_bind; [apply prel_act; apply q_delete; intros q z Hz; apply (Htree eq_refl); exists m, z; exact Hz|]. intros; pr; reflexivity.
    - destruct (c_export c) as [l|]; [|pr]. destruct (nth_error l 0) as [cur|]; [|pr].
      apply prel_ploop with (RS := eq) (RT := eq); [|reflexivity]. intros [[h s] i] _ <-. unfold p_trim_body. cbv zeta.
      eapply prel_bind with (RA := eq).
      + match goal with |- prel _ (if ?b then _ else _) _ => destruct b end; [apply prel_act; apply q_punch|pr; reflexivity].
      + intros _ _ _. match goal with |- prel _ (if ?b then _ else _) _ => destruct b end; pr; reflexivity.
  Qed.

  Lemma pq_write_zeroes rq : prel eq (p_handle_write_zeroes lg c rq) (p_handle_write_zeroes lg c rq).
  Proof.
    unfold p_handle_write_zeroes. cbv zeta. eapply prel_bind with (RA := eq).
    - unfold p_expwrite_zeroes. apply prel_ploop with (RS := eq) (RT := eq); [|reflexivity]. intros n _ <-. unfold p_expwrite_zeroes_body. cbv zeta.
      destruct (0 <? n); [|pr; reflexivity]. eapply prel_bind; [apply pq_expwrite|]. intros f _ <-. destruct f; pr; reflexivity.
    - intros f _ <-. eapply prel_bind; [apply prel_act, rel_geterrno|]. intros e _ <-. pq_SEND.
  Qed.

  Lemma pq_request rq p : prel eq (p_handle_request lg c rq p) (p_handle_request lg c rq p).
  Proof.
    unfold p_handle_request, p_reply_error.
    repeat match goal with |- prel _ (if ?b then _ else _) _ => destruct b end;
      first [pq_SEND|apply pq_read|apply pq_write|apply pq_flush|apply pq_trim|apply pq_write_zeroes].
  Qed.

  (** ** The machine *)
  Inductive wR : worker -> worker -> Prop :=
  | wr_idle : wR WIdle WIdle
  | wr_run i e p p' : prel eq p p' -> wR (WRun i e p) (WRun i e p')
  | wr_send i e r p p' : prel eq p p' -> wR (WSend i e r p) (WSend i e r p')
  | wr_log i e r p p' : prel eq p p' -> wR (WLog i e r p) (WLog i e r p')
  | wr_hung i : wR (WHung i) (WHung i).
  Record sysR (s s' : sys) : Prop := mkSR {
    sr_w : R (y_w s) (y_w s'); sr_in : y_in s = y_in s'; sr_rd : y_rd s = y_rd s'; sr_q : y_q s = y_q s';
    sr_th : Forall2 wR (y_th s) (y_th s'); sr_out : y_out s = y_out s'; sr_log : y_log s = y_log s';
    sr_next : y_next s = y_next s'; sr_hist : y_hist s = y_hist s'; sr_msgs : y_msgs s = y_msgs s'; sr_recs : y_recs s = y_recs s'
  }.
  Definition soutR (o o' : sout) : Prop :=
    match o, o' with
    | SGo s, SGo s' | SExit s, SExit s' => sysR s s'
    | SNot, SNot | SUb, SUb => True
    | _, _ => False
    end.
  Lemma wR_lock x y : wR x y -> holds_lock x = holds_lock y /\ holds_sem x = holds_sem y /\ is_idle x = is_idle y.
  Proof. intros []; auto. Qed.
  Lemma th_same l l' : Forall2 wR l l' -> existsb holds_lock l = existsb holds_lock l' /\ existsb holds_sem l = existsb holds_sem l' /\ forallb is_idle l = forallb is_idle l'.
  Proof.
    induction 1 as [|x y l l' H _ (IH1 & IH2 & IH3)]; [auto|]. destruct (wR_lock _ _ H) as (E1 & E2 & E3). cbn [existsb forallb].
    rewrite E1, E2, E3, IH1, IH2, IH3. auto.
  Qed.
  Lemma free_same s s' : sysR s s' -> lock_free s = lock_free s' /\ sem_free s = sem_free s'.
  Proof.
    intros []. destruct (th_same _ _ sr_th0) as (E1 & E2 & _). unfold lock_free, sem_free. rewrite E1, E2, sr_rd0. auto.
  Qed.
  Lemma Forall2_first {A B} (RR : A -> B -> Prop) n : forall l l', Forall2 RR l l' -> Forall2 RR (firstn n l) (firstn n l').
  Proof. induction n as [|n IH]; intros l l' H; [constructor|]. destruct H; cbn; constructor; auto. Qed.
  Lemma Forall2_skip {A B} (RR : A -> B -> Prop) n : forall l l', Forall2 RR l l' -> Forall2 RR (skipn n l) (skipn n l').
  Proof. induction n as [|n IH]; intros l l' H; [exact H|]. destruct H; cbn; [constructor|auto]. Qed.
  Lemma set_th_R l l' t x y : Forall2 wR l l' -> wR x y -> Forall2 wR (set_th l t x) (set_th l' t y).
  Proof. intros H Hx. unfold set_th. apply Forall2_app; [now apply Forall2_first|]. constructor; [exact Hx|now apply Forall2_skip]. Qed.
  Lemma nth_R l l' t : Forall2 wR l l' ->
    match nth_error l t, nth_error l' t with Some x, Some y => wR x y | None, None => True | _, _ => False end.
  Proof. intros H. revert t. induction H as [|x y l l' Hx H IH]; intros [|t]; cbn; auto. apply IH. Qed.

  Ltac fields := match goal with H : sysR _ _ |- sysR _ _ =>
    destruct H; constructor; cbn [y_w y_in y_rd y_q y_th y_out y_log y_next y_hist y_msgs y_recs y_setw y_setth y_setrd y_setin y_setq y_put y_putlog y_addmsg y_addrec y_push];
    try assumption; try congruence end.

  Lemma s_reader s s' : sysR s s' -> soutR (reader_step lg c s) (reader_step lg c s').
  Proof.
    intros H. destruct (free_same _ _ H) as [_ Es]. pose proof H as H0. destruct H0. unfold reader_step. rewrite <- sr_rd0, <- sr_in0.
    destruct (y_rd s) as [|hdr|hdr held|rq held|rq p data held|rq p|disc held|disc] eqn:Er.
    - destruct (length (y_in s) <? 28)%nat; cbn [soutR]; fields.
    - destruct lg; [|cbn [soutR]; fields]. rewrite <- Es. destruct (sem_free s); [|exact I]. cbn [soutR]. fields.
    - destruct (decode_request hdr) as [magic rq]. destruct (negb (magic =? NBD_REQUEST_MAGIC)); [exact H|].
      destruct (cmd_of rq =? NBD_CMD_WRITE); [cbn [soutR]; fields|]. destruct (rq_type rq =? NBD_CMD_DISC); cbn [soutR]; fields.
    - destruct (zlen (y_in s) <? rq_len rq); [cbn [soutR]; fields|]. cbv zeta.
      pose proof (q_receive c vis hp rq (firstn (Z.to_nat (rq_len rq)) (y_in s)) _ _ sr_w0) as Q. unfold outR in Q.
      destruct (receive_payload c rq (firstn (Z.to_nat (rq_len rq)) (y_in s)) (y_w s)) as [a w| |w|],
               (receive_payload c rq (firstn (Z.to_nat (rq_len rq)) (y_in s)) (y_w s')) as [b w'| |w'|]; try contradiction; try exact I; try exact H.
      destruct Q as [<- Q]. cbn [soutR]. fields.
    - cbn [soutR]. destruct held; fields.
    - cbn [soutR]. fields.
    - rewrite <- sr_q0. destruct (th_same _ _ sr_th0) as (_ & _ & E3). rewrite <- E3.
      destruct ((match y_q s with [] => true | _ => false end) && forallb is_idle (y_th s)); [|exact I]. cbn [soutR]. fields.
    - exact I.
  Qed.

  Lemma s_worker t n s s' : sysR s s' -> soutR (worker_step lg c t n s) (worker_step lg c t n s').
  Proof.
    pose proof pq_request as PQ. intros H. destruct (free_same _ _ H) as [El Es]. pose proof H as H0. destruct H0. unfold worker_step. pose proof (nth_R _ _ t sr_th0) as N.
    destruct (nth_error (y_th s) t) as [x|], (nth_error (y_th s') t) as [y|]; try contradiction; [|exact I].
    destruct N as [|i e p p' Hp|i e r p p' Hp|i e r p p' Hp|i].
    - rewrite <- sr_q0. destruct (y_q s) as [|[[i rq] pl] q] eqn:Eq; [exact I|]. cbn [soutR].
      assert (Ee : w_errno (y_w s) = w_errno (y_w s')) by apply (r_errno _ _ _ _ sr_w0). rewrite <- Ee. fields.
      apply set_th_R; [assumption|]. constructor. apply PQ.
    - destruct Hp as [a b Hab|X RX m m' k k' Hm Hk|m k k' Hk|m k k' Hk].
      + cbn [soutR]. fields. apply set_th_R; [assumption|constructor].
      + pose proof (Hm _ _ (R_errno vis hp e _ _ sr_w0)) as Q. unfold outR in Q.
        destruct (m (set_errno e (y_w s))) as [a w| |w|], (m' (set_errno e (y_w s'))) as [b w'| |w'|]; try contradiction; try exact I; try exact H.
        * destruct Q as [Qa Qw]. cbn [soutR]. rewrite (r_errno _ _ _ _ Qw), (r_errno _ _ _ _ sr_w0). fields; [apply R_errno; assumption|].
          apply set_th_R; [assumption|]. constructor. apply Hk, Qa.
        * cbn [soutR]. fields.
      + rewrite <- El. destruct (lock_free s); [|exact I]. cbn [soutR]. fields. apply set_th_R; [assumption|now constructor].
      + rewrite <- Es. destruct (sem_free s); [|exact I]. cbn [soutR]. fields. apply set_th_R; [assumption|now constructor].
    - destruct r as [|z r]; cbn [soutR]; cbv zeta; fields; apply set_th_R; try assumption; now constructor.
    - destruct r as [|z r]; cbn [soutR]; cbv zeta; fields; apply set_th_R; try assumption; now constructor.
    - exact I.
  Qed.
  Lemma s_step x s s' : sysR s s' -> soutR (sys_step lg c x s) (sys_step lg c x s').
  Proof.
    intros H. destruct x as [|t n|t|t]; cbn [sys_step]; [apply s_reader, H|apply s_worker, H| |];
      pose proof H as H0; destruct H0; pose proof (nth_R _ _ t sr_th0) as N;
      destruct (nth_error (y_th s) t) as [x|], (nth_error (y_th s') t) as [y|]; try contradiction; try exact I;
      destruct N as [|i e p p' Hp|i e r p p' Hp|i e r p p' Hp|i]; try exact I; destruct r as [|z r]; try exact I; [|exact H].
    cbn [soutR]. fields. apply set_th_R; [assumption|constructor].
  Qed.
  Lemma s_run l : forall s s', sysR s s' -> soutR (sys_run lg c l s) (sys_run lg c l s').
  Proof.
    induction l as [|x l IH]; intros s s' H; [exact H|]. cbn [sys_run]. pose proof (s_step x s s' H) as Q. unfold soutR in Q.
    destruct (sys_step lg c x s), (sys_step lg c x s'); try contradiction; auto.
  Qed.
  Lemma s_init n inp w w' : R w w' -> sysR (sys_init n inp w) (sys_init n inp w').
  Proof.
    intros H. constructor; cbn; auto. induction n as [|n IH]; cbn; constructor; auto. constructor.
  Qed.
End RelP.
