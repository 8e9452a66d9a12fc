(** Two runs side by side: what a session sends does not depend on files that
    are not its own. *)
From Verif Require Import Base M_Const M_Disk M_Tree M_Raw L_Wp S_Wire S_Disk L_Wire L_Session.

Definition feq (d d' : Z -> Z) : Prop := forall i, d i = d' i.
Definition fileq (f f' : file) : Prop := fsize f = fsize f' /\ feq (fdata f) (fdata f').

(** the paths (below the export's directory) of its block files *)
Definition reaches (c : client) (p : list Z) : Prop := exists pos r, tree_path (c_namelen c) (i64 (c_size c)) pos = PathOk p r.

Section Rel.
  Variable c : client.
  Variable vis : fref -> Prop.
  Variable hp : bool.
  Hypothesis Hexp : cflag c F_TREEFILES = false -> forall l fi, c_export c = Some l -> In fi l -> vis (fi_h fi).
  Hypothesis Htree : cflag c F_TREEFILES = true -> vis FDummy /\ forall p, reaches c p -> vis (FTree p).
  Hypothesis Hcow : cflag c F_COPYONWRITE = true \/ waiting c = true -> hp = true /\ vis FDiff.

  Record R (w w' : world) : Prop := mkR {
    r_file : forall h, vis h -> fileq (w_file w h) (w_file w' h);
    r_exists : forall p, vis (FTree p) -> w_exists w p = w_exists w' p;
    r_orc : forall n, w_orc w n = w_orc w' n;
    r_tick : w_tick w = w_tick w';
    r_errno : w_errno w = w_errno w';
    r_heap : hp = true -> feq (w_heap w) (w_heap w');
    r_dpos : w_dpos w = w_dpos w';
    r_map : feq (w_map w) (w_map w');
    r_mapsz : w_mapsz w = w_mapsz w';
    r_dlen : w_dlen w = w_dlen w';
    r_sent : sent w = sent w'
  }.

  Definition outR {A} (RA : A -> A -> Prop) (o o' : out A) : Prop :=
    match o, o' with
    | Ret a w, Ret b w' => RA a b /\ R w w'
    | Die w, Die w' => R w w'
    | Ub, Ub => True
    | Stuck, Stuck => True
    | _, _ => False
    end.
  Definition rel {A} (RA : A -> A -> Prop) (m m' : M A) : Prop := forall w w', R w w' -> outR RA (m w) (m' w').

  Lemma rel_ret {A} (RA : A -> A -> Prop) a b : RA a b -> rel RA (ret a) (ret b).
  Proof. intros H w w' Hw. split; assumption. Qed.
  Lemma rel_bind {A B} (RA : A -> A -> Prop) (RB : B -> B -> Prop) m m' k k' :
    rel RA m m' -> (forall a b, RA a b -> rel RB (k a) (k' b)) -> rel RB (bind m k) (bind m' k').
  Proof.
    intros H1 H2 w w' Hw. unfold bind. specialize (H1 w w' Hw). unfold outR in H1.
    destruct (m w), (m' w'); try contradiction; try exact H1. destruct H1 as [Ha Hr]. exact (H2 _ _ Ha _ _ Hr).
  Qed.
  Lemma rel_mono {A} (RA RB : A -> A -> Prop) m m' : rel RA m m' -> (forall a b, RA a b -> RB a b) -> rel RB m m'.
  Proof.
    intros H1 H2 w w' Hw. specialize (H1 w w' Hw). unfold outR in *. destruct (m w), (m' w'); auto. destruct H1; auto.
  Qed.
  Lemma rel_die {A} (RA : A -> A -> Prop) : rel RA die die.
  Proof. intros w w' H. exact H. Qed.
  Lemma rel_ub {A} (RA : A -> A -> Prop) : rel RA ub ub.
  Proof. intros w w' H. exact I. Qed.
  Lemma rel_assert b : rel eq (assert_ b) (assert_ b).
  Proof. destruct b; [apply rel_ret; reflexivity|apply rel_die]. Qed.
  Lemma rel_get {A} (RA : A -> A -> Prop) (f : world -> A) : (forall w w', R w w' -> RA (f w) (f w')) -> rel RA (get f) (get f).
  Proof. intros H w w' Hw. split; [apply H; exact Hw|exact Hw]. Qed.
  Lemma rel_modify f f' : (forall w w', R w w' -> R (f w) (f' w')) -> rel eq (modify f) (modify f').
  Proof. intros H w w' Hw. split; [reflexivity|apply H; exact Hw]. Qed.
  Lemma rel_pull : rel eq pull pull.
  Proof.
    intros w w' H. split; [rewrite (r_tick _ _ H); apply (r_orc _ _ H)|]. destruct H. constructor; cbn; auto.
  Qed.
  Lemma rel_mloop {S T} (RS : S -> S -> Prop) (RT : T -> T -> Prop) bound body body' s s' :
    (forall s s', RS s s' -> rel (fun x y => match x, y with inl a, inl b => RS a b | inr a, inr b => RT a b | _, _ => False end) (body s) (body' s')) ->
    RS s s' -> rel RT (mloop bound body s) (mloop bound body' s').
  Proof.
    intros Hb Hs w w' Hw. unfold mloop. set (p := Z.to_pos (bound + 1)).
    assert (K : forall p s s' w w', RS s s' -> R w w' ->
      match loopP (mstep body) p (s, w), loopP (mstep body') p (s', w') with
      | inl (a, v), inl (b, v') => RS a b /\ R v v'
      | inr o, inr o' => outR RT o o'
      | _, _ => False
      end).
    { clear p s s' w w' Hs Hw.
      assert (St : forall s s' w w', RS s s' -> R w w' ->
        match mstep body (s, w), mstep body' (s', w') with
        | inl (a, v), inl (b, v') => RS a b /\ R v v'
        | inr o, inr o' => outR RT o o'
        | _, _ => False
        end).
      { intros s s' w w' Hs Hw. unfold mstep. cbn [fst snd]. specialize (Hb s s' Hs w w' Hw). unfold outR in Hb.
        destruct (body s w) as [[a|a] v| |v|], (body' s' w') as [[b|b] v'| |v'|]; try contradiction; try exact Hb;
          try (destruct Hb as [[] _]). }
      induction p as [p IH|p IH|]; intros s s' w w' Hs Hw; cbn [loopP].
      - pose proof (St s s' w w' Hs Hw) as H1. destruct (mstep body (s, w)) as [[a v]|o], (mstep body' (s', w')) as [[b v']|o']; try contradiction; [|exact H1].
        destruct H1 as [H1 H2]. pose proof (IH a b v v' H1 H2) as H3.
        destruct (loopP (mstep body) p (a, v)) as [[a1 v1]|o], (loopP (mstep body') p (b, v')) as [[b1 v1']|o']; try contradiction; [|exact H3].
        destruct H3 as [H3 H4]. exact (IH _ _ _ _ H3 H4).
      - pose proof (IH s s' w w' Hs Hw) as H3.
        destruct (loopP (mstep body) p (s, w)) as [[a1 v1]|o], (loopP (mstep body') p (s', w')) as [[b1 v1']|o']; try contradiction; [|exact H3].
        destruct H3 as [H3 H4]. exact (IH _ _ _ _ H3 H4).
      - apply St; assumption. }
    specialize (K p s s' w w' Hs Hw).
    destruct (loopP (mstep body) p (s, w)) as [[a1 v1]|o], (loopP (mstep body') p (s', w')) as [[b1 v1']|o']; try contradiction; [exact I|exact K].
  Qed.

  (** field updates *)
  Lemma R_errno e w w' : R w w' -> R (set_errno e w) (set_errno e w').
  Proof. intros []. constructor; cbn; auto. Qed.
  Lemma R_file h f f' w w' : (vis h -> fileq f f') -> R w w' -> R (set_file h f w) (set_file h f' w').
  Proof.
    intros Hf []. constructor; cbn; auto. intros k Hk. unfold upd_file. destruct (fref_eq_dec k h); [subst k|]; auto.
  Qed.
  Lemma R_exists p b w w' : R w w' -> R (set_exists p b w) (set_exists p b w').
  Proof. intros []. constructor; cbn; auto. intros q Hq. destruct (list_eq_dec Z.eq_dec q p); auto. Qed.
  Lemma R_dpos p w w' : R w w' -> R (set_dpos p w) (set_dpos p w').
  Proof. intros []. constructor; cbn; auto. Qed.
  Lemma R_map i v w w' : R w w' -> R (set_map i v w) (set_map i v w').
  Proof. intros []. constructor; cbn; auto. intros j. destruct (j =? i); auto. Qed.
  Lemma R_dlen n w w' : R w w' -> R (set_dlen n w) (set_dlen n w').
  Proof. intros []. constructor; cbn; auto. Qed.
  (** an event, the same as far as the client can see *)
  Definition same_ev (e e' : event) : Prop :=
    match e, e' with
    | ESend m, ESend m' => m = m'
    | ESend _, _ | _, ESend _ => False
    | _, _ => True
    end.
  Lemma R_emit e e' w w' : same_ev e e' -> R w w' -> R (emit e w) (emit e' w').
  Proof.
    intros He []. constructor; cbn; auto. unfold sent in *. cbn [w_tr emit].
    destruct e, e'; cbn in He; try contradiction; subst; cbn; rewrite ?r_sent0; auto.
  Qed.

  Ltac rstep :=
    match goal with
    | |- rel _ (ret _) (ret _) => apply rel_ret
    | |- rel _ ub ub => apply rel_ub
    | |- rel _ die die => apply rel_die
    | |- rel _ (bind pull _) (bind pull _) => eapply rel_bind; [apply rel_pull|intros ? ? <-]
    | |- rel _ (bind (assert_ _) _) (bind (assert_ _) _) => eapply rel_bind; [apply rel_assert|intros _ _ _]
    | |- rel _ (bind (modify (set_errno _)) _) (bind (modify _) _) =>
        eapply rel_bind; [apply rel_modify; intros; apply R_errno; assumption|intros _ _ _]
    | |- rel _ (modify (set_errno _)) (modify _) => apply rel_modify; intros; apply R_errno; assumption
    | |- rel _ (bind (modify (emit _)) _) (bind (modify _) _) =>
        eapply rel_bind; [apply rel_modify; intros; apply R_emit; [cbn; auto|assumption]|intros _ _ _]
    | |- rel _ (modify (emit _)) (modify _) => apply rel_modify; intros; apply R_emit; [cbn; auto|assumption]
    end.
  Ltac r := repeat rstep.

  Definition kdR (x y : Z * (Z -> Z)) : Prop := fst x = fst y /\ feq (snd x) (snd y).

  Lemma rel_getfile h : vis h -> rel fileq (get (fun w => w_file w h)) (get (fun w => w_file w h)).
  Proof. intros Hh. apply rel_get. intros w w' H. apply (r_file _ _ H), Hh. Qed.
  Lemma rel_getfile' h : rel (fun f f' => vis h -> fileq f f') (get (fun w => w_file w h)) (get (fun w => w_file w h)).
  Proof. apply rel_get. intros w w' H. apply (r_file _ _ H). Qed.

  Lemma q_pread h off n : (h <> FBad -> vis h) -> rel kdR (sys_pread h off n) (sys_pread h off n).
  Proof.
    intros Hh. unfold sys_pread. r.
    assert (K : h <> FBad -> forall s, rel kdR (f <- get (fun w => w_file w h) ;;
        let avail := Z.max 0 (Z.min n (fsize f - off)) in ret (moved s avail, fun i => fdata f (off + i)))
      (f <- get (fun w => w_file w h) ;;
        let avail := Z.max 0 (Z.min n (fsize f - off)) in ret (moved s avail, fun i => fdata f (off + i)))).
    { intros Hb s. eapply rel_bind; [apply rel_getfile, Hh, Hb|]. intros f f' [F1 F2]. cbv zeta. apply rel_ret. split; cbn.
      - rewrite F1. reflexivity.
      - intros i. apply F2. }
    destruct h, a; try (destruct (off <? 0)); r; try (split; [reflexivity|intros ?; reflexivity]); apply K; discriminate.
  Qed.
  Lemma fwrite_eq f f' off k d d' : fileq f f' -> feq d d' -> fileq (fwrite f off k d) (fwrite f' off k d').
  Proof.
    intros [F1 F2] Hd. split; cbn; [rewrite F1; reflexivity|]. intros i.
    destruct ((off <=? i) && (i <? off + k)); [apply Hd|]. unfold frd. rewrite F1.
    destruct ((0 <=? i) && (i <? fsize f')); [apply F2|reflexivity].
  Qed.
  Lemma q_pwrite h off n d d' : feq d d' -> rel eq (sys_pwrite h off n d) (sys_pwrite h off n d').
  Proof.
    intros Hd. unfold sys_pwrite. r.
    assert (K : forall k, rel eq (f <- get (fun w => w_file w h) ;;
          modify (set_file h (fwrite f off k d)) ;;;
          modify (emit (EWrite h off k d)) ;;; ret k)
        (f <- get (fun w => w_file w h) ;;
          modify (set_file h (fwrite f off k d')) ;;;
          modify (emit (EWrite h off k d')) ;;; ret k)).
    { intros k. eapply rel_bind; [apply rel_getfile'|]. intros f f' Hf.
      eapply rel_bind; [apply rel_modify; intros w w' Hw; apply R_file; [|exact Hw]; intros Hv; apply fwrite_eq; auto|]. intros _ _ _. r. reflexivity. }
    cbv zeta. destruct h, a; r; try reflexivity; (destruct (off <? 0); [r; reflexivity|]);
      match goal with |- rel _ (if ?b then _ else _) _ => destruct b end; r; try reflexivity; apply K.
  Qed.
  Lemma q_write_diff n d d' : feq d d' -> rel eq (sys_write_diff n d) (sys_write_diff n d').
  Proof.
    intros Hd. unfold sys_write_diff. eapply rel_bind; [apply rel_get with (RA := eq); intros w w' H; apply (r_dpos _ _ H)|].
    intros p _ <-. eapply rel_bind; [apply q_pwrite, Hd|]. intros k _ <-.
    eapply rel_bind with (RA := eq); [|intros; r; reflexivity].
    destruct (k <=? 0); r; [reflexivity|]. apply rel_modify. intros. apply R_dpos. assumption.
  Qed.
  Lemma q_fsync h : rel eq (sys_fsync h) (sys_fsync h).
  Proof. unfold sys_fsync. r. destruct h, a; r; reflexivity. Qed.
  Lemma q_send m : rel eq (send m) (send m).
  Proof. unfold send. r. Qed.
  Lemma q_punch h off n : rel eq (punch_hole h off n) (punch_hole h off n).
  Proof.
    unfold punch_hole. r. destruct a; r;
      (match goal with |- rel _ (if ?b then _ else _) _ => destruct b end; r;
       eapply rel_bind; [apply rel_getfile'|]; intros f f' Hf;
       eapply rel_bind; [apply rel_modify; intros w w' Hw; apply R_file; [|exact Hw]; intros Hv; destruct (Hf Hv) as [F1 F2]; split; cbn; auto;
         intros i; rewrite F2; reflexivity|]; intros _ _ _; r).
  Qed.
  Lemma q_path n s p : rel (fun a b => a = b /\ exists r, tree_path n s p = PathOk a r) (get_path n s p) (get_path n s p).
  Proof. unfold get_path. destruct (tree_path n s p); r; [eauto|]. intros w w' _. exact I. Qed.
  Lemma rel_getexists p : vis (FTree p) -> rel eq (get (fun w => w_exists w p)) (get (fun w => w_exists w p)).
  Proof. intros Hp. apply rel_get. intros w w' H. apply (r_exists _ _ H), Hp. Qed.
  Lemma q_delete n s p : (forall q r, tree_path n s p = PathOk q r -> vis (FTree q)) -> rel eq (delete_treefile n s p) (delete_treefile n s p).
  Proof.
    intros Hv. unfold delete_treefile. eapply rel_bind; [apply q_path|]. intros q _ [<- [z Hz]]. r.
    eapply rel_bind; [apply rel_getexists; eauto|]. intros e _ <-. destruct e, a; r;
      (eapply rel_bind; [apply rel_modify; intros; apply R_exists; assumption|]; intros _ _ _; r).
  Qed.
  Lemma q_setfile h f : rel eq (modify (set_file h f)) (modify (set_file h f)).
  Proof. apply rel_modify. intros. apply R_file; [|assumption]. intros _. split; [reflexivity|intros ?; reflexivity]. Qed.
  Lemma q_open n b s p : (forall q r, tree_path n s p = PathOk q r -> vis (FTree q)) ->
    rel (fun h h' => h = h' /\ (h = FBad \/ h = FDummy \/ vis h)) (open_treefile n b s p) (open_treefile n b s p).
  Proof.
    intros Hv. unfold open_treefile. eapply rel_bind; [apply q_path|]. intros q _ [<- [z Hz]]. r. apply Hv in Hz.
    eapply rel_bind; [apply rel_getexists; assumption|]. intros e _ <-. cbv zeta.
    assert (E1 : forall h, h = FBad \/ h = FDummy \/ vis h -> h = h /\ (h = FBad \/ h = FDummy \/ vis h)) by auto.
    destruct e, a; try (destruct (e =? ENOENT)); destruct b; cbn [negb];
      repeat (r; match goal with
      | |- rel _ (bind (modify (set_exists _ _)) _) _ => eapply rel_bind; [apply rel_modify; intros; apply R_exists; assumption|intros _ _ _]
      | |- rel _ (bind (modify (set_file _ _)) _) _ => eapply rel_bind; [apply q_setfile|intros _ _ _]
      | |- rel _ (match ?x with _ => _ end) _ => destruct x
      end); r; try (apply E1; eauto).
  Qed.

  Definition gpR (x y : option (fref * Z * Z)) : Prop := x = y /\ match x with Some (h, _, _) => h <> FBad -> vis h | None => True end.
  Lemma q_get_filepos a : rel gpR (get_filepos c a) (get_filepos c a).
  Proof.
    unfold get_filepos. destruct (a <? 0); [r; split; auto|]. destruct (cflag c F_TREEFILES) eqn:Et.
    - destruct (Htree eq_refl) as [H1 H2].
      eapply rel_bind; [apply q_open; intros q z Hz; apply H2; exists a, z; exact Hz|]. intros h _ [<- Hh]. r. split; [reflexivity|]. intros Hb.
      destruct Hh as [->|[->|Hh]]; [congruence|exact H1|exact Hh].
    - destruct (c_export c) as [l|] eqn:El; [|r]. eapply rel_bind.
      + apply rel_mloop with (RS := eq) (RT := eq); [|reflexivity]. intros [s e] _ <-. unfold search_body.
        destruct (s <=? e); [|r; reflexivity]. cbv zeta. destruct (nth_error l (Z.to_nat ((s + e) / 2))) as [fi|]; [|r].
        destruct (fi_start fi <? a); [r; reflexivity|]. destruct (a <? fi_start fi); r; reflexivity.
      + intros e _ <-. r. destruct (nth_error l (Z.to_nat e)) as [fi|] eqn:En; r. split; [reflexivity|]. intros _.
        apply (Hexp eq_refl l fi eq_refl). eapply nth_error_In; eassumption.
  Qed.
  Lemma q_sync_after h fua : rel eq (sync_after c h fua) (sync_after c h fua).
  Proof.
    unfold sync_after. destruct (cflag c F_SYNC); [|destruct fua; [|r; reflexivity]];
      (eapply rel_bind; [apply q_fsync|]; intros; r; reflexivity).
  Qed.
  Lemma q_rawwrite a d d' len fua : feq d d' -> rel eq (rawexpwrite c a d len fua) (rawexpwrite c a d' len fua).
  Proof.
    intros Hd. unfold rawexpwrite. eapply rel_bind; [apply q_get_filepos|]. intros p _ [<- _]. destruct p as [[[h o] mx]|]; [|r; reflexivity].
    eapply rel_bind; [apply q_pwrite, Hd|]. intros k _ <-. eapply rel_bind; [apply q_sync_after|]. intros; r; reflexivity.
  Qed.
  Lemma q_rawwrite_fully a d d' len fua : feq d d' -> rel eq (rawexpwrite_fully c a d len fua) (rawexpwrite_fully c a d' len fua).
  Proof.
    intros Hd. unfold rawexpwrite_fully. apply rel_mloop with (RS := eq) (RT := eq); [|reflexivity].
    intros [[a1 b] n] _ <-. unfold rawexpwrite_fully_body. destruct (0 <? n); [|r; reflexivity].
    eapply rel_bind; [apply q_rawwrite; intros i; apply Hd|]. intros k _ <-. destruct (0 <? k); r; reflexivity.
  Qed.
  Lemma q_rawread a len : rel kdR (rawexpread c a len) (rawexpread c a len).
  Proof.
    unfold rawexpread. eapply rel_bind; [apply q_get_filepos|]. intros p _ [<- Hv]. destruct p as [[[h o] mx]|]; [|r; split; [reflexivity|intros ?; reflexivity]].
    apply q_pread, Hv.
  Qed.

  (** read contexts *)
  Definition frag (x : readctx) : bool := x_structured x && negb (x_df x).
  Definition ctxP (P : Z -> Prop) (x y : readctx) : Prop :=
    x_alloc x = x_alloc y /\ x_buflen x = x_buflen y /\ x_off x = x_off y /\ x_len x = x_len y /\
    x_structured x = x_structured y /\ x_df x = x_df y /\ forall j, P j -> x_buf x j = x_buf y j.
  Definition known (x : readctx) (j : Z) : Prop := hp = true \/ (frag x = false /\ 0 <= j < x_off x).
  Definition ctxR (x y : readctx) : Prop := ctxP (known x) x y.

  Lemma q_find x y : ctxR x y ->
    rel (fun p q => snd p = snd q /\ snd p = (if frag x then 0 else x_off x) /\ ctxP (known x) (fst p) (fst q) /\
           x_off (fst p) = x_off x /\ x_len (fst p) = x_len x /\ x_buflen (fst p) = x_buflen x /\
           x_structured (fst p) = x_structured x /\ x_df (fst p) = x_df x) (find_read_buf x) (find_read_buf y).
  Proof.
    intros (A1 & A2 & A3 & A4 & A5 & A6 & A7). unfold find_read_buf. rewrite <- A5, <- A6.
    destruct (negb (x_structured x) || x_df x) eqn:E.
    - r. cbn. replace (frag x) with false by (unfold frag; destruct (x_structured x), (x_df x); cbn in *; congruence).
      repeat split; auto.
    - assert (Ef : frag x = true) by (unfold frag; destruct (x_structured x), (x_df x); cbn in *; congruence).
      eapply rel_bind; [apply rel_get with (RA := fun g g' => hp = true -> feq g g'); intros w w' H; apply (r_heap _ _ H)|].
      intros g g' Hg. r. cbn. rewrite Ef. repeat split; cbn; auto. intros j [Hj|[Hj _]]; [apply Hg, Hj|congruence].
  Qed.
  Lemma q_store P x y i n d d' : ctxP P x y -> feq d d' ->
    rel (fun p q => ctxP (fun j => P j \/ (i <= j < i + n)) p q /\ x_off p = x_off x /\ x_len p = x_len x /\ x_buflen p = x_buflen x /\
           x_structured p = x_structured x /\ x_df p = x_df x) (buf_store x i n d) (buf_store y i n d').
  Proof.
    intros (A1 & A2 & A3 & A4 & A5 & A6 & A7) Hd. unfold buf_store. rewrite <- A1, <- A2, <- A3, <- A4, <- A5, <- A6. destruct (n <=? 0) eqn:En.
    - r. repeat split; auto. intros j [Hj|Hj]; [apply A7, Hj|lia].
    - destruct ((0 <=? i) && (i + n <=? x_alloc x)); r. repeat split; cbn; auto. intros j Hj.
      destruct ((i <=? j) && (j <? i + n)) eqn:E; [apply Hd|]. destruct Hj as [Hj|Hj]; [apply A7, Hj|lia].
  Qed.
  Lemma slice_eq f g o n : (forall j, o <= j < o + n -> f j = g j) -> slice f o n = slice g o n.
  Proof.
    intros H. unfold slice. apply map_ext_in. intros k Hk. apply in_seq in Hk. apply H. lia.
  Qed.
  Lemma q_confirm P rq x y n : ctxP P x y -> (frag x = true -> forall j, 0 <= j < n -> P j) -> rel eq (confirm_read rq x n) (confirm_read rq y n).
  Proof.
    intros (A1 & A2 & A3 & A4 & A5 & A6 & A7) HP. unfold confirm_read. rewrite <- A3, <- A5, <- A6. fold (frag x). destruct (frag x); [|r; reflexivity].
    rewrite (slice_eq (x_buf x) (x_buf y)); [apply q_send|]. intros j Hj. apply A7, HP; [reflexivity|lia].
  Qed.

  Definition keep (x y : readctx) : Prop := x_buflen y = x_buflen x /\ x_structured y = x_structured x /\ x_df y = x_df x.
  Lemma q_rawread_fully rq x y : ctxR x y -> 0 <= x_off x ->
    rel (fun p q => snd p = snd q /\ ctxR (fst p) (fst q) /\ keep x (fst p) /\ 0 <= x_off (fst p) /\
           (snd p = false -> x_off x + x_len x <= x_off (fst p)))
        (rawexpread_fully rq c x) (rawexpread_fully rq c y).
  Proof.
    intros Hx Ho. unfold rawexpread_fully. replace (x_len y) with (x_len x) by (apply Hx).
    apply rel_mloop with (RS := fun p q => ctxR p q /\ keep x p /\ 0 <= x_off p /\ x_off p + x_len p = x_off x + x_len x);
      [|unfold keep; auto].
    intros p q (H1 & H2 & H3 & H4). unfold rawexpread_fully_body.
    pose proof H1 as (A1 & A2 & A3 & A4 & A5 & A6 & A7). rewrite <- A3, <- A4.
    destruct (0 <? x_len p) eqn:El.
    2:{ r. cbn. repeat split; auto; try apply H1; try apply H2. intros _. lia. }
    eapply rel_bind; [apply (q_find p q H1)|]. intros [p1 i] [q1 i'] (B1 & B2 & B3 & B4 & B5 & B6 & B7 & B8). cbn in *. subst i'.
    eapply rel_bind; [apply q_rawread|]. intros [k d] [k' d'] [D1 D2]. cbn in D1, D2. subst k'.
    destruct H2 as (K1 & K2 & K3).
    destruct (k <=? 0) eqn:Ek.
    { r. cbn. split; [reflexivity|]. split.
      - destruct B3 as (C1 & C2 & C3 & C4 & C5 & C6 & C7). unfold ctxR, ctxP. repeat split; auto. intros j Hj. apply C7. unfold known, frag in *.
        rewrite B4, B7, B8 in Hj. exact Hj.
      - unfold keep. repeat split; try congruence; lia. }
    eapply rel_bind; [apply (q_store _ _ _ i k _ _ B3 D2)|]. intros p2 q2 (E1 & E2 & E3 & E4 & E5 & E6).
    assert (Ef : frag p2 = frag p) by (unfold frag; rewrite E5, E6, B7, B8; reflexivity).
    eapply rel_bind; [eapply q_confirm; [exact E1|]|].
    { rewrite Ef. intros F j Hj. right. rewrite F in B2. subst i. lia. }
    intros _ _ _. r. cbn. split.
    - destruct E1 as (C1 & C2 & C3 & C4 & C5 & C6 & C7). unfold ctxR, ctxP, ctx_set. cbn. repeat split; auto.
      intros j Hj. apply C7. destruct Hj as [Hj|[Hj1 Hj2]]; [left; left; exact Hj|].
      change (frag p2 = false) in Hj1. cbn in Hj2. rewrite Ef in Hj1. rewrite Hj1 in B2.
      destruct (Z.lt_ge_cases j (x_off p)); [left; right; split; [exact Hj1|lia]|right; lia].
    - unfold keep, ctx_set. cbn. repeat split; try congruence; lia.
  Qed.

  Lemma q_readmap i : rel eq (read_map i) (read_map i).
  Proof.
    intros w w' H. unfold read_map. rewrite (r_mapsz _ _ H). destruct ((0 <=? i) && (i <? w_mapsz w')); [|exact I].
    split; [apply (r_map _ _ H)|exact H].
  Qed.
  Lemma ctx_hp x y : hp = true -> ctxP (fun _ => True) x y -> ctxR x y.
  Proof. intros Hh (A1 & A2 & A3 & A4 & A5 & A6 & A7). unfold ctxR, ctxP. repeat split; auto. Qed.
  Lemma ctx_any (P : Z -> Prop) x y : hp = true -> (forall j, hp = true -> P j) -> ctxP P x y -> ctxR x y.
  Proof. intros Hh HP (A1 & A2 & A3 & A4 & A5 & A6 & A7). unfold ctxR, ctxP. repeat split; auto. Qed.

  Lemma q_expread rq x y : ctxR x y -> x_off x = 0 -> x_len x = rq_len rq ->
    rel (fun p q => snd p = snd q /\ ctxR (fst p) (fst q) /\ keep x (fst p) /\
           (snd p = false -> hp = true \/ rq_len rq <= x_off (fst p)))
        (expread rq c x) (expread rq c y).
  Proof.
    pose proof q_rawread_fully as QR. intros Hx Ho Hl. unfold expread. destruct (negb (cflag c F_COPYONWRITE) && negb (waiting c)) eqn:Ec.
    { eapply rel_mono; [apply q_rawread_fully; [exact Hx|lia]|]. intros [p f] [q f'] (H1 & H2 & H3 & H4 & H5). cbn in *.
      repeat split; auto; try apply H2; try apply H3. intros E. right. specialize (H5 E). lia. }
    assert (Hh : hp = true /\ vis FDiff) by (apply Hcow; destruct (cflag c F_COPYONWRITE), (waiting c); cbn in Ec; auto; discriminate).
    destruct Hh as [Hh Hd]. cbv zeta. replace (x_off y) with (x_off x) by (apply Hx).
    eapply rel_mloop with (RS := fun s t => let '(m, a, n, p) := s in let '(m', a', n', q) := t in m = m' /\ a = a' /\ n = n' /\ ctxR p q /\ keep x p /\ 0 <= x_off p);
      [|repeat split; auto; try apply Hx; lia].
    intros [[[m a] n] p] [[[m' a'] n'] q] (<- & <- & <- & H1 & H2 & H3). unfold expread_body. cbv zeta.
    destruct (m <=? map_high (x_off x + i64 (rq_from rq)) (rq_len rq)); [|r; cbn; repeat split; auto; try apply H1; try apply H2].
    eapply rel_bind; [apply q_readmap|]. intros v _ <-. destruct (negb (v =? NOPAGE)).
    - eapply rel_bind; [apply (q_find p q H1)|]. intros [p1 i] [q1 i'] (B1 & B2 & B3 & B4 & B5 & B6 & B7 & B8). cbn in *. subst i'.
      eapply rel_bind; [apply q_pread; intros _; exact Hd|]. intros [k d] [k' d'] [D1 D2]. cbn in D1, D2. subst k'.
      eapply rel_bind; [apply (q_store _ _ _ i k _ _ B3 D2)|]. intros p2 q2 (E1 & E2 & E3 & E4 & E5 & E6).
      assert (R2 : ctxR p2 q2).
      { eapply ctx_any; [exact Hh| |exact E1]. intros j Hj. left. left. exact Hj. }
      assert (K2 : keep x p2) by (destruct H2 as (K1 & K2 & K3); unfold keep; repeat split; congruence).
      destruct (negb (k =? page_part (a - m * DIFFPAGESIZE) n)); [r; cbn; repeat split; auto; try apply R2; try apply K2|].
      eapply rel_bind; [eapply q_confirm; [exact R2|intros _ j _; left; exact Hh]|]. intros _ _ _. r. cbn. repeat split; auto; try apply R2; try apply K2. lia.
    - destruct (waiting c); [r; cbn; repeat split; auto; try apply H1; try apply H2|].
      replace (x_off q) with (x_off p) by (apply H1).
      eapply rel_bind; [apply QR; [|exact H3]|].
      + destruct H1 as (A1 & A2 & A3 & A4 & A5 & A6 & A7). unfold ctxR, ctxP, ctx_set. cbn. repeat split; auto.
      + intros [p2 f] [q2 f'] (D1 & D2 & D3 & D4 & D5). cbn in *. subst f'.
        assert (K2 : keep x p2) by (destruct H2 as (K1 & K2 & K3); destruct D3 as (L1 & L2 & L3); cbn in *; unfold keep; repeat split; congruence).
        destruct f; r; cbn; repeat split; auto; try apply D2; try apply K2.
  Qed.
  Lemma q_complete rq x y e msg : ctxR x y -> (e = 0 -> x_structured x = false -> hp = true \/ x_buflen x <= x_off x) ->
    rel eq (complete_read rq x e msg) (complete_read rq y e msg).
  Proof.
    intros (A1 & A2 & A3 & A4 & A5 & A6 & A7) Hb. unfold complete_read. rewrite <- A2, <- A5, <- A6. destruct (x_structured x) eqn:Es.
    - eapply rel_bind with (RA := eq); [destruct (x_df x && (e =? 0)); [apply q_send|r; reflexivity]|]. intros _ _ _.
      destruct (negb (e =? 0)); apply q_send.
    - destruct (e =? 0) eqn:Ee; [|apply q_send]. rewrite (slice_eq (x_buf x) (x_buf y)); [apply q_send|].
      intros j Hj. apply A7. destruct Hb as [H|H]; [lia|reflexivity|left; exact H|]. right. unfold frag. rewrite Es. split; [reflexivity|lia].
  Qed.
  Lemma rel_geterrno : rel eq (get w_errno) (get w_errno).
  Proof. apply rel_get. intros w w' H. apply (r_errno _ _ H). Qed.
  Lemma nbd_errno_pos e : nbd_errno e <> 0.
  Proof. unfold nbd_errno. repeat (match goal with |- context[if ?b then _ else _] => destruct b end); lia. Qed.
  Lemma q_normal_read rq : rel eq (handle_normal_read c rq) (handle_normal_read c rq).
  Proof.
    unfold handle_normal_read. cbv zeta. destruct (c_structured c && flag (rq_type rq) NBD_CMD_FLAG_DF && (1048576 <? rq_len rq)); [apply q_send|].
    eapply rel_bind; [apply rel_get with (RA := fun g g' => hp = true -> feq g g'); intros w w' H; apply (r_heap _ _ H)|].
    intros g g' Hg. set (st := c_structured c). set (df := flag (rq_type rq) NBD_CMD_FLAG_DF).
    assert (K : forall al bl, (st = false -> bl = rq_len rq) ->
       rel eq (xr <- expread rq c (mkCtx g al bl 0 (rq_len rq) st df) ;; let '(x1, failed) := xr in
                 if failed then e <- get w_errno ;; complete_read rq x1 (nbd_errno e) read_failed else complete_read rq x1 0 [])
              (xr <- expread rq c (mkCtx g' al bl 0 (rq_len rq) st df) ;; let '(x1, failed) := xr in
                 if failed then e <- get w_errno ;; complete_read rq x1 (nbd_errno e) read_failed else complete_read rq x1 0 [])).
    { intros al bl Hbl. eapply rel_bind; [apply q_expread; cbn; auto|].
      - unfold ctxR, ctxP. cbn. repeat split; auto. intros j [Hj|[_ Hj]]; [apply Hg, Hj|cbn in Hj; lia].
      - intros [p f] [q f'] (H1 & H2 & (K1 & K2 & K3) & H4). cbn in *. subst f'. destruct f.
        + eapply rel_bind; [apply rel_geterrno|]. intros e _ <-. apply q_complete; [exact H2|]. intros E. destruct (nbd_errno_pos e E).
        + apply q_complete; [exact H2|]. intros _ Es. rewrite K1. rewrite K2 in Es. rewrite (Hbl Es). apply H4. reflexivity. }
    destruct (df || negb st) eqn:E; apply K; [auto|]. intros Es. rewrite Es in E. destruct df; discriminate.
  Qed.
  Lemma q_mkpipe n : rel eq (mkpipe n) (mkpipe n).
  Proof. unfold mkpipe. destruct (MAX_PIPE_SIZE <? n); r; reflexivity. Qed.
  Lemma q_splice_read rq : rel eq (handle_splice_read c rq) (handle_splice_read c rq).
  Proof.
    unfold handle_splice_read. destruct (c_tls c); [r; reflexivity|]. eapply rel_bind; [apply q_mkpipe|]. intros ok _ <-.
    destruct (negb ok); [r; reflexivity|]. eapply rel_bind with (RA := eq).
    - unfold expsplice_in. apply rel_mloop with (RS := eq) (RT := eq); [|reflexivity]. intros [[a n] acc] _ <-.
      unfold expsplice_in_body, rawexpsplice_in. destruct (0 <? n); [|r; reflexivity]. eapply rel_bind; [apply q_rawread|].
      intros [k d] [k' d'] [D1 D2]. cbn in D1, D2. subst k'. destruct (0 <? k); r; [|reflexivity].
      rewrite (slice_eq d d'); [reflexivity|]. intros j _. apply D2.
    - intros [data|] _ <-; [|r; reflexivity]. eapply rel_bind; [apply q_send|]. intros; r; reflexivity.
  Qed.
  Lemma q_read rq : rel eq (handle_read c rq) (handle_read c rq).
  Proof.
    unfold handle_read. eapply rel_bind with (RA := eq); [destruct (cflag c F_SPLICE); [apply q_splice_read|r; reflexivity]|].
    intros b _ <-. destruct b; [r; reflexivity|apply q_normal_read].
  Qed.

  Lemma q_fill ps off wl pb pb' : feq pb pb' ->
    rel (fun p q => match p, q with Some a, Some b => feq a b | None, None => True | _, _ => False end) (fill_page c ps off wl pb) (fill_page c ps off wl pb').
  Proof.
    intros Hp. unfold fill_page. destruct (negb (off =? 0) || negb (wl =? DIFFPAGESIZE)); [|r; exact Hp].
    destruct (waiting c); [r; exact I|].
    eapply rel_bind with (RA := kdR).
    - apply rel_mloop with (RS := fun s t => let '(a, p, n, b) := s in let '(a', p', n', b') := t in a = a' /\ p = p' /\ n = n' /\ feq b b'); [|auto].
      intros [[[a p] n] b] [[[a' p'] n'] b'] (<- & <- & <- & Hb). unfold copyin_body. destruct (0 <? n); [|r; split; auto].
      eapply rel_bind; [apply q_rawread|]. intros [k d] [k' d'] [D1 D2]. cbn in D1, D2. subst k'. destruct (0 <? k); r; [|split; auto].
      repeat split; auto. intros j. destruct ((p <=? j) && (j <? p + k)); [apply D2|apply Hb].
    - intros [k d] [k' d'] [D1 D2]. cbn in D1, D2. subst k'. destruct (k <? 0); r; [exact I|exact D2].
  Qed.
  Lemma q_expwrite a d len fua : rel eq (expwrite c a d len fua) (expwrite c a d len fua).
  Proof.
    unfold expwrite. destruct (negb (cflag c F_COPYONWRITE) && negb (waiting c)) eqn:Ec; [apply q_rawwrite_fully; intros ?; reflexivity|].
    assert (Hh : hp = true /\ vis FDiff) by (apply Hcow; destruct (cflag c F_COPYONWRITE), (waiting c); cbn in Ec; auto; discriminate).
    destruct Hh as [Hh Hd]. cbv zeta.
    eapply rel_bind; [apply rel_get with (RA := feq); intros w w' H; apply (r_heap _ _ H), Hh|]. intros g g' Hg.
    eapply rel_bind with (RA := eq).
    - apply rel_mloop with (RS := fun s t => let '(m, a, b, n, p) := s in let '(m', a', b', n', q) := t in m = m' /\ a = a' /\ b = b' /\ n = n' /\ feq p q); [|repeat split; auto].
      intros [[[[m a1] b] n] p] [[[[m' a1'] b'] n'] q] (<- & <- & <- & <- & Hp). unfold expwrite_body. cbv zeta.
      destruct (m <=? map_high a len); [|r; reflexivity]. eapply rel_bind; [apply q_readmap|]. intros v _ <-. destruct (negb (v =? NOPAGE)).
      + eapply rel_bind; [apply q_pwrite; intros ?; reflexivity|]. intros k _ <-.
        destruct (negb (k =? page_part (a1 - m * DIFFPAGESIZE) n)); r; [reflexivity|]. repeat split; auto.
      + eapply rel_bind with (RA := eq).
        * destruct (cflag c F_SPARSE); [apply rel_modify; intros; apply R_map; assumption|].
          eapply rel_bind; [apply rel_get with (RA := eq); intros w w' H; apply (r_dlen _ _ H)|]. intros k _ <-.
          eapply rel_bind; [apply rel_modify; intros; apply R_map; assumption|]. intros _ _ _. apply rel_modify. intros. apply R_dlen. assumption.
        * intros _ _ _. eapply rel_bind; [apply q_fill, Hp|]. intros [p1|] [q1|] Hpq; try contradiction; [|r; reflexivity].
          match goal with |- rel _ (bind (sys_write_diff _ ?x) _) (bind (sys_write_diff _ ?y) _) =>
            assert (Hxy : feq x y) by (intros j; cbv beta; match goal with |- (if ?b then _ else _) = _ => destruct b end; [reflexivity|apply Hpq]) end.
          eapply rel_bind; [apply q_write_diff, Hxy|]. intros k _ <-. destruct (negb (k =? DIFFPAGESIZE)); r; [reflexivity|].
          repeat split; auto.
    - intros f _ <-. destruct f; [r; reflexivity|]. eapply rel_bind; [apply q_sync_after|]. intros; r; reflexivity.
  Qed.
  Lemma q_write rq p : rel eq (handle_write c rq p) (handle_write c rq p).
  Proof.
    unfold handle_write. cbv zeta. eapply rel_bind with (RA := eq).
    - destruct p; [apply q_expwrite|apply q_rawwrite_fully; intros ?; reflexivity|r].
    - intros f _ <-. eapply rel_bind; [apply rel_geterrno|]. intros e _ <-. apply q_send.
  Qed.
  Lemma q_fsync_all l : rel eq (fsync_all l) (fsync_all l).
  Proof.
    induction l as [|fi l IH]; cbn [fsync_all]; [r; reflexivity|]. eapply rel_bind; [apply q_fsync|]. intros k _ <-.
    destruct (k <? 0); [r; reflexivity|exact IH].
  Qed.
  Lemma q_flush rq : rel eq (handle_flush c rq) (handle_flush c rq).
  Proof.
    unfold handle_flush. eapply rel_bind with (RA := eq).
    - unfold expflush, sys_sync. destruct (cflag c F_COPYONWRITE); [eapply rel_bind; [apply q_fsync|]; intros ? _ <-; r; reflexivity|].
      destruct (cflag c F_WAIT); [eapply rel_bind; [apply q_fsync|]; intros ? _ <-; r; reflexivity|].
      destruct (cflag c F_TREEFILES); [destruct (cflag c F_READONLY); r; reflexivity|]. destruct (c_export c); [apply q_fsync_all|r].
    - intros f _ <-. eapply rel_bind; [apply rel_geterrno|]. intros e _ <-. apply q_send.
  Qed.
  Lemma q_trim rq : rel eq (handle_trim c rq) (handle_trim c rq).
  Proof.
    unfold handle_trim. eapply rel_bind with (RA := eq); [|intros; apply q_send].
    unfold exptrim. r. destruct (cflag c F_COPYONWRITE); [r; reflexivity|]. cbv zeta. destruct (cflag c F_TREEFILES) eqn:Et.
    - apply rel_mloop with (RS := eq) (RT := eq); [|reflexivity]. intros m _ <-. unfold trim_tree_body.
      destruct (m <? _); [|r; reflexivity]. eapply rel_bind; [apply q_delete; intros q z Hz; apply (Htree eq_refl); exists m, z; exact Hz|]. intros; r; reflexivity.
    - destruct (c_export c) as [l|]; [|r]. destruct (nth_error l 0) as [cur|]; [|r].
      apply rel_mloop with (RS := eq) (RT := eq); [|reflexivity]. intros [[h s] i] _ <-. unfold trim_body. cbv zeta.
      eapply rel_bind with (RA := eq).
      + match goal with |- rel _ (if ?b then _ else _) _ => destruct b end; [apply q_punch|r; reflexivity].
      + intros _ _ _. match goal with |- rel _ (if ?b then _ else _) _ => destruct b end; r; reflexivity.
  Qed.
  Lemma q_write_zeroes rq : rel eq (handle_write_zeroes c rq) (handle_write_zeroes c rq).
  Proof.
    unfold handle_write_zeroes. cbv zeta. eapply rel_bind with (RA := eq).
    - unfold expwrite_zeroes. apply rel_mloop with (RS := eq) (RT := eq); [|reflexivity]. intros n _ <-. unfold expwrite_zeroes_body. cbv zeta.
      destruct (0 <? n); [|r; reflexivity]. eapply rel_bind; [apply q_expwrite|]. intros f _ <-. destruct f; r; reflexivity.
    - intros f _ <-. eapply rel_bind; [apply rel_geterrno|]. intros e _ <-. apply q_send.
  Qed.
  Lemma q_request rq p : rel eq (handle_request c rq p) (handle_request c rq p).
  Proof.
    unfold handle_request, reply_error.
    repeat match goal with |- rel _ (if ?b then _ else _) _ => destruct b end;
      first [apply q_send|apply q_read|apply q_write|apply q_flush|apply q_trim|apply q_write_zeroes].
  Qed.
  Lemma q_receive rq d : rel eq (receive_payload c rq d) (receive_payload c rq d).
  Proof.
    unfold receive_payload. destruct (cflag c F_SPLICE); [|r; reflexivity]. eapply rel_bind; [apply q_mkpipe|]. intros ok _ <-.
    destruct ok; [|r; reflexivity]. destruct (c_tls c); [destruct (0 <? rq_len rq)|]; r; reflexivity.
  Qed.
  Lemma q_mainloop fuel : forall inp, rel eq (mainloop fuel c inp) (mainloop fuel c inp).
  Proof.
    induction fuel as [|fuel IH]; intros inp; cbn [mainloop]; [r; reflexivity|].
    destruct (length inp <? 28)%nat; [r; reflexivity|]. destruct (decode_request (firstn 28 inp)) as [magic rq]. cbv zeta.
    destruct (negb (magic =? NBD_REQUEST_MAGIC)); [r; reflexivity|]. destruct (cmd_of rq =? NBD_CMD_WRITE).
    - destruct (zlen (skipn 28 inp) <? rq_len rq); [r; reflexivity|]. eapply rel_bind; [apply q_receive|]. intros p _ <-.
      eapply rel_bind; [apply q_request|]. intros _ _ _. apply IH.
    - destruct (rq_type rq =? NBD_CMD_DISC); [r; reflexivity|]. eapply rel_bind; [apply q_request|]. intros _ _ _. apply IH.
  Qed.
  Lemma q_run inp : rel eq (run c inp) (run c inp).
  Proof. apply q_mainloop. Qed.
End Rel.
