(** One byte of a plain export under concurrent requests. *)
From Verif Require Import Base M_Const M_Disk M_Tree M_Raw M_Par L_Wp L_Raw S_Wire S_Disk L_Wire L_Req L_Plain L_Session L_PlainS S_Par S_Byte L_Msg.

Section Byte.
  Variable c : client.
  Variable fis : list finfo.
  Variable w0 : world.
  Hypothesis Hplain : plain c fis.
  Hypothesis Hfits : L_Plain.fits c fis w0.
  Variable j : Z.
  Notation kp := (kept fis w0).
  Definition at_ (w : world) : Z := flat fis w j.

  (** [bs rely guar p v ms Q]: code [p] run while other threads do as they
      like, except that with [rely] nobody else changes byte [j]; with [guar]
      the code must not change it itself.  [v]: the byte, [ms]: messages sent. *)
  Fixpoint bs (rely guar : bool) {A} (p : P A) (v : Z) (ms : list (list Z)) (Q : A -> Z -> list (list Z) -> Prop) : Prop :=
    match p with
    | PRet a => Q a v ms
    | PAct X m k => forall w, kp w -> (rely = true -> at_ w = v) ->
        match m w with
        | Ret a w' => kp w' /\ (guar = true -> at_ w' = at_ w) /\ bs rely guar (k a) (at_ w') ms Q
        | _ => True
        end
    | PSend m k => bs rely guar k v (ms ++ [m]) Q
    | PLog _ k => bs rely guar k v ms Q
    end.

  Section Own.
  Variables rely guar : bool.

  Lemma bs_mono {A} (p : P A) : forall v ms (Q Q' : A -> Z -> list (list Z) -> Prop),
    bs rely guar p v ms Q -> (forall a v ms, Q a v ms -> Q' a v ms) -> bs rely guar p v ms Q'.
  Proof.
    induction p as [a|X m k IH|m k IH|m k IH]; cbn [bs]; intros v ms Q Q' H HQ; eauto.
    intros w Hk Ho. specialize (H w Hk Ho). destruct (m w); auto. destruct H as (H1 & H2 & H3). eauto.
  Qed.
  Lemma bs_bind {A B} (p : P A) (f : A -> P B) : forall v ms (Q : B -> Z -> list (list Z) -> Prop),
    bs rely guar p v ms (fun a v ms => bs rely guar (f a) v ms Q) -> bs rely guar (pbind p f) v ms Q.
  Proof.
    induction p as [a|X m k IH|m k IH|m k IH]; cbn [bs pbind]; intros v ms Q H; auto.
    intros w Hk Ho. specialize (H w Hk Ho). destruct (m w); auto. destruct H as (H1 & H2 & H3). auto.
  Qed.
  Lemma bs_act {X} (m : M X) v ms (Q : X -> Z -> list (list Z) -> Prop) :
    (forall w, kp w -> (rely = true -> at_ w = v) ->
       wlp m (fun a w' => kp w' /\ (guar = true -> at_ w' = at_ w) /\ Q a (at_ w') ms) (fun _ => True) w) ->
    bs rely guar (act m) v ms Q.
  Proof. intros H w Hk Ho. specialize (H w Hk Ho). unfold wlp in H. destruct (m w); auto. Qed.
  (** a step that does not touch files *)
  Lemma bs_quiet {X} (m : M X) v ms (Q : X -> Z -> list (list Z) -> Prop) :
    (forall w, wlp m (fun _ w' => w_file w' = w_file w /\ w_exists w' = w_exists w) (fun _ => True) w) ->
    (forall a v', (rely = true -> v' = v) -> Q a v' ms) -> bs rely guar (act m) v ms Q.
  Proof.
    intros Hm HQ. apply bs_act. intros w Hk Ho. eapply wlp_mono; [apply Hm| |auto]. cbn beta.
    intros a w' [E1 E2]. destruct (plain_stable fis w0 w w' E1 E2 Hk) as [Hk' Hf].
    split; [exact Hk'|]. split; [intros _; apply Hf|]. apply HQ. intros H. unfold at_ in *. rewrite Hf. auto.
  Qed.
  Lemma bs_ret {A} (a : A) v ms (Q : A -> Z -> list (list Z) -> Prop) : Q a v ms -> bs rely guar (PRet a) v ms Q.
  Proof. auto. Qed.
  Lemma bs_send m v ms (Q : unit -> Z -> list (list Z) -> Prop) : Q tt v (ms ++ [m]) -> bs rely guar (psend m) v ms Q.
  Proof. auto. Qed.
  Lemma bs_log lg m v ms (Q : unit -> Z -> list (list Z) -> Prop) : Q tt v ms -> bs rely guar (plog lg m) v ms Q.
  Proof. destruct lg; auto. Qed.

  Lemma bs_loopP {S R} (body : S -> P (S + R)) (I : S -> Z -> list (list Z) -> Prop) (Q : R -> Z -> list (list Z) -> Prop) :
    (forall s v ms, I s v ms -> bs rely guar (body s) v ms (fun r v ms => match r with inl s' => I s' v ms | inr x => Q x v ms end)) ->
    forall n s v ms, I s v ms -> bs rely guar (ploopP body n s) v ms (fun r v ms => match r with inl s' => I s' v ms | inr x => Q x v ms end).
  Proof.
    intros Hb. induction n as [n IH|n IH|]; intros s v ms Hs; cbn [ploopP].
    - apply bs_bind. eapply bs_mono; [apply Hb; exact Hs|]. cbn beta. intros [s1|x] v1 m1 H1; [|exact H1].
      apply bs_bind. eapply bs_mono; [apply IH; exact H1|]. cbn beta. intros [s2|x] v2 m2 H2; [|exact H2]. apply IH, H2.
    - apply bs_bind. eapply bs_mono; [apply IH; exact Hs|]. cbn beta. intros [s1|x] v1 m1 H1; [|exact H1]. apply IH, H1.
    - apply Hb, Hs.
  Qed.
  Lemma bs_loop {S R} bound (body : S -> P (S + R)) (I : S -> Z -> list (list Z) -> Prop) (Q : R -> Z -> list (list Z) -> Prop) s v ms :
    (forall s v ms, I s v ms -> bs rely guar (body s) v ms (fun r v ms => match r with inl s' => I s' v ms | inr x => Q x v ms end)) ->
    I s v ms -> bs rely guar (ploop bound body s) v ms Q.
  Proof.
    intros Hb Hs. unfold ploop. apply bs_bind. eapply bs_mono; [apply (bs_loopP body I Q Hb); exact Hs|]. cbn beta.
    intros [s'|x] v1 m1 H; [|exact H]. intros w _ _. exact Logic.I.
  Qed.

  (** ** Steps *)
  Lemma q_ret {A} (a : A) w : wlp (ret a) (fun _ w' => w_file w' = w_file w /\ w_exists w' = w_exists w) (fun _ => True) w.
  Proof. split; reflexivity. Qed.
  Definition qt {A} (m : M A) : Prop := forall w, wlp m (fun _ w' => w_file w' = w_file w /\ w_exists w' = w_exists w) (fun _ => True) w.
  Lemma qt_ret {A} (a : A) : qt (ret a).
  Proof. intros w. split; reflexivity. Qed.
  Lemma qt_bind {A B} (m : M A) (k : A -> M B) : qt m -> (forall a, qt (k a)) -> qt (bind m k).
  Proof.
    intros H1 H2 w. apply wlp_bind. eapply wlp_mono; [apply H1| |auto]. cbn beta. intros a w1 [E1 E2].
    eapply wlp_mono; [apply H2| |auto]. cbn beta. intros b w2 [E3 E4]. split; congruence.
  Qed.
  Lemma qt_get {A} (f : world -> A) : qt (get f).
  Proof. intros w. split; reflexivity. Qed.
  Lemma qt_pull : qt pull.
  Proof. intros w. split; reflexivity. Qed.
  Lemma qt_ub {A} : qt (@ub A).
  Proof. intros w. exact Logic.I. Qed.
  Lemma qt_assert b : qt (assert_ b).
  Proof. intros w. destruct b; [split; reflexivity|exact Logic.I]. Qed.
  Lemma qt_errno e : qt (modify (set_errno e)).
  Proof. intros w. split; reflexivity. Qed.
  Lemma qt_sync e : qt (modify (emit e)).
  Proof. intros w. split; reflexivity. Qed.
  Ltac qs :=
    repeat match goal with
    | |- qt (ret _) => apply qt_ret
    | |- qt ub => apply qt_ub
    | |- qt (get _) => apply qt_get
    | |- qt pull => apply qt_pull
    | |- qt (assert_ _) => apply qt_assert
    | |- qt (modify (set_errno _)) => apply qt_errno
    | |- qt (modify (emit _)) => apply qt_sync
    | |- qt (bind _ _) => apply qt_bind; [|intros ?]
    | |- qt (let '_ := ?x in _) => destruct x
    | |- qt (match ?x with _ => _ end) => destruct x
    end.
  Lemma qt_pread h o n : qt (sys_pread h o n).
  Proof. unfold sys_pread. qs. Qed.
  Lemma qt_fsync h : qt (sys_fsync h).
  Proof. unfold sys_fsync. qs. Qed.
  Lemma qt_find x : qt (find_read_buf x).
  Proof. unfold find_read_buf. qs. Qed.
  Lemma qt_store x i n d : qt (buf_store x i n d).
  Proof. unfold buf_store. qs. Qed.
  Lemma qt_mkpipe n : qt (mkpipe n).
  Proof. unfold mkpipe. qs. Qed.
  Lemma qt_mloop {S R} bound (body : S -> M (S + R)) s : (forall s, qt (body s)) -> qt (mloop bound body s).
  Proof.
    intros Hb w. apply wlp_mloop with (I := fun _ w' => w_file w' = w_file w /\ w_exists w' = w_exists w); [|auto].
    intros s1 w1 [E1 E2]. eapply wlp_mono; [apply Hb| |auto]. cbn beta. intros [s2|x] w2 [F1 F2]; split; congruence.
  Qed.
  Lemma qt_filepos a : qt (get_filepos c a).
  Proof.
    destruct Hplain as (Ht & _). unfold get_filepos. rewrite Ht.
    destruct (a <? 0); [apply qt_ret|]. destruct (c_export c) as [l|]; [|apply qt_ub].
    apply qt_bind; [apply qt_mloop|intros x; qs]. intros [s0 e0]. unfold search_body. qs.
  Qed.

  (** a step whose result does not matter here *)
  Definition same_byte {A} (v : Z) (ms : list (list Z)) : A -> Z -> list (list Z) -> Prop :=
    fun _ v' ms' => (rely = true -> v' = v) /\ ms' = ms.
  Lemma bs_qt {X} (m : M X) v ms : qt m -> bs rely guar (act m) v ms (same_byte v ms).
  Proof. intros H. apply bs_quiet; [exact H|]. intros a v' Hv. split; auto. Qed.

  Lemma bs_sync_after h fua v ms : bs rely guar (p_sync_after c h fua) v ms (same_byte v ms).
  Proof.
    unfold p_sync_after. destruct (cflag c F_SYNC); [|destruct fua; [|split; auto]];
      (apply bs_bind; eapply bs_mono; [apply bs_qt, qt_fsync|]; intros a v1 m1 H; exact H).
  Qed.

  (** one write to the file *)
  Lemma bs_pwrite a n fi mb len (d : Z -> Z) v ms : 0 <= a -> 0 <= len -> a + len <= c_size c ->
    (guar = true -> ~ (a <= j < a + len)) ->
    slot_at fis a n fi -> mb = match nth_error fis (S n) with Some fj => fi_start fj - a | None => 0 end ->
    bs rely guar (act (sys_pwrite (fi_h fi) (a - fi_start fi) (clamp mb len) d)) v ms
       (fun k v' ms' => ms' = ms /\ k <= len /\
          (rely = true -> v' = if (a <=? j) && (j <? a + k) then d (j - a) else v)).
  Proof.
    intros Ha Hlen Hend Hown Hslot Hmb. apply bs_act. intros w Hk Hv.
    destruct Hplain as (Ht & _ & _ & He & Hwf & Hsz & Hst). pose proof Hslot as (E & Hle & Hn).
    assert (Hmb0 : 0 <= mb).
    { rewrite Hmb. destruct (nth_error fis (S n)) as [fj|] eqn:Ej; [specialize (Hn fj eq_refl)|]; lia. }
    assert (Hcl : 0 <= clamp mb len <= len /\ (mb = 0 \/ clamp mb len <= mb)).
    { unfold clamp. destruct (negb (mb =? 0) && (mb <? len)) eqn:Ec; lia. }
    assert (Hsame : forall k w', w_file w' = w_file w -> w_exists w' = w_exists w -> k <= 0 ->
       kp w' /\ (guar = true -> at_ w' = at_ w) /\ ms = ms /\ k <= len /\
       (rely = true -> at_ w' = if (a <=? j) && (j <? a + k) then d (j - a) else v)).
    { intros k w' E1 E2 Hk0. destruct (plain_stable fis w0 w w' E1 E2 Hk) as [Hk' Hf].
      split; [exact Hk'|]. split; [intros _; apply Hf|]. split; [reflexivity|]. split; [lia|]. intros Ho.
      replace ((a <=? j) && (j <? a + k)) with false by lia. unfold at_ in *. rewrite Hf. auto. }
    assert (Hgo : forall r, moved r (clamp mb len) <= clamp mb len) by (intros [| |]; cbn [moved]; unfold MAX_RW; lia).
    unfold sys_pwrite. apply wlp_bind.
    change (wlp pull ?Q ?D w) with (Q (w_orc w (w_tick w)) (tick w)). cbn beta.
    set (r := w_orc w (w_tick w)).
    assert (Herr : forall e, wlp (modify (set_errno e);;; ret (-1))
      (fun (a0 : Z) (w' : world) => kp w' /\ (guar = true -> at_ w' = at_ w) /\ ms = ms /\ a0 <= len /\
         (rely = true -> at_ w' = if (a <=? j) && (j <? a + a0) then d (j - a) else v)) (fun _ => True) (tick w)).
    { intros e. apply (Hsame (-1) (set_errno e (tick w))); [reflexivity|reflexivity|lia]. }
    assert (Hok : wlp (if a - fi_start fi <? 0 then modify (set_errno EINVAL) ;;; ret (-1) else
        let k := moved r (clamp mb len) in if k <=? 0 then ret k else
          f <- get (fun w => w_file w (fi_h fi)) ;; modify (set_file (fi_h fi) (fwrite f (a - fi_start fi) k d)) ;;;
          modify (emit (EWrite (fi_h fi) (a - fi_start fi) k d)) ;;; ret k)
      (fun (a0 : Z) (w' : world) => kp w' /\ (guar = true -> at_ w' = at_ w) /\ ms = ms /\ a0 <= len /\
         (rely = true -> at_ w' = if (a <=? j) && (j <? a + a0) then d (j - a) else v)) (fun _ => True) (tick w)).
    { replace (a - fi_start fi <? 0) with false by lia. cbv zeta. set (k := moved r (clamp mb len)).
      specialize (Hgo r). fold k in Hgo.
      destruct (k <=? 0) eqn:Ek; [apply (Hsame k (tick w)); [reflexivity|reflexivity|lia]|].
      cbn [wlp bind get modify ret].
      assert (Hend' : forall fj, nth_error fis (S n) = Some fj -> a + k <= fi_start fj).
      { intros fj Ej. assert (Hm2 : mb = fi_start fj - a) by (rewrite Hmb, Ej; reflexivity). specialize (Hn fj Ej). lia. }
      pose proof (flat_write fis a n fi k d (tick w) Hwf Hslot ltac:(lia) Hend' j) as Hfw.
      change (flat fis (tick w) j) with (at_ w) in Hfw.
      set (w2 := emit (EWrite (fi_h fi) (a - fi_start fi) k d) (set_file (fi_h fi) (fwrite (w_file (tick w) (fi_h fi)) (a - fi_start fi) k d) (tick w))).
      change (kp w2 /\ (guar = true -> at_ w2 = at_ w) /\ ms = ms /\ k <= len /\
        (rely = true -> at_ w2 = if (a <=? j) && (j <? a + k) then d (j - a) else v)).
      change (flat fis _ j) with (at_ w2) in Hfw at 1.
      split.
      { destruct Hk as (K1 & K2 & K3). unfold kept, w2. cbn [emit set_file w_file w_exists tick]. unfold upd_file.
        split; [|split; [|exact K3]].
        - intros h. destruct (fref_eq_dec h (fi_h fi)) as [->|_]; [|apply K1].
          cbn [fwrite fsize]. rewrite K1. specialize (Hfits n fi E).
          destruct (nth_error fis (S n)) as [fj|] eqn:Ej; [specialize (Hend' fj eq_refl)|]; lia.
        - intros h Hh. destruct (fref_eq_dec h (fi_h fi)) as [->|_]; [|auto].
          contradiction Hh. apply in_map. eapply nth_error_In; eauto. }
      split.
      { intros Ho. specialize (Hown Ho). rewrite Hfw. replace ((a <=? j) && (j <? a + k)) with false by lia. reflexivity. }
      split; [reflexivity|]. split; [lia|]. intros Ho. rewrite Hfw, (Hv Ho). reflexivity. }
    fold r. destruct (fi_h fi), r; first [apply Herr|exact Hok].
  Qed.

  (** rawexpwrite_fully *)
  Lemma bs_write_fully A0 (d : Z -> Z) L fua v ms : 0 <= A0 -> 0 <= L -> A0 + L <= c_size c ->
    (guar = true -> ~ (A0 <= j < A0 + L)) ->
    bs rely guar (p_rawexpwrite_fully c A0 d L fua) v ms (fun failed v' ms' => ms' = ms /\
       (rely = true -> (failed = false -> v' = if (A0 <=? j) && (j <? A0 + L) then d (j - A0) else v) /\
                      (v' = v \/ (A0 <= j < A0 + L /\ v' = d (j - A0))))).
  Proof.
    intros HA HL Hsz Hown. unfold p_rawexpwrite_fully.
    apply bs_loop with (I := fun s v' ms' => let '(a, b, len) := s in
      ms' = ms /\ a = A0 + b /\ b + len = L /\ 0 <= b /\ 0 <= len /\
      (rely = true -> v' = if (A0 <=? j) && (j <? a) then d (j - A0) else v)).
    2:{ split; [reflexivity|]. repeat split; try lia. intros _. replace ((A0 <=? j) && (j <? A0)) with false by lia. reflexivity. }
    intros [[a b] len] v1 m1 (-> & -> & Hbl & Hb & Hl & Hv). unfold p_rawexpwrite_fully_body.
    destruct (0 <? len) eqn:El.
    2:{ apply bs_ret. split; [reflexivity|]. intros Ho. specialize (Hv Ho). assert (b = L) by lia. subst b.
        destruct ((A0 <=? j) && (j <? A0 + L)) eqn:E; split; auto; right; split; [lia|exact Hv]. }
    apply bs_bind. unfold p_rawexpwrite. apply bs_bind.
    destruct Hplain as (Ht & _ & _ & He & Hwf & Hsz' & Hst).
    assert (Hpos : bs rely guar (act (get_filepos c (A0 + b))) v1 ms (fun r v' ms' => ms' = ms /\ (rely = true -> v' = v1) /\
       exists n fi, slot_at fis (A0 + b) n fi /\ r = Some (fi_h fi, (A0 + b) - fi_start fi,
         match nth_error fis (S n) with Some fj => fi_start fj - (A0 + b) | None => 0 end))).
    { apply bs_act. intros w Hk Ho. apply wp_wlp.
      eapply wp_mono; [apply (wp_get_filepos_plain c fis (A0 + b) w Ht He Hwf); [lia|exact Hst]| |tauto].
      cbn beta. intros r w1 (-> & Hex). split; [exact Hk|]. split; [reflexivity|]. split; [reflexivity|]. split; [exact Ho|exact Hex]. }
    eapply bs_mono; [exact Hpos|]. cbn beta. intros r v2 m2 (-> & Hv2 & n & fi & Hslot & ->).
    apply bs_bind. eapply bs_mono; [apply (bs_pwrite (A0 + b) n fi _ len (fun i => d (b + i)) v2 ms); auto; try lia|].
    cbn beta. intros k v3 m3 (-> & Hkl & Hv3). apply bs_bind.
    eapply bs_mono; [apply bs_sync_after|]. intros _ v4 m4 [Hv4 ->]. apply bs_ret.
    assert (Hvv : rely = true -> v4 = if (A0 <=? j) && (j <? A0 + b + Z.max 0 k) then d (j - A0) else v).
    { intros Ho. rewrite (Hv4 Ho), (Hv3 Ho), (Hv2 Ho), (Hv Ho).
      destruct ((A0 + b <=? j) && (j <? A0 + b + k)) eqn:E1.
      - replace ((A0 <=? j) && (j <? A0 + b + Z.max 0 k)) with true by lia. f_equal. lia.
      - destruct ((A0 <=? j) && (j <? A0 + b)) eqn:E2; [replace ((A0 <=? j) && (j <? A0 + b + Z.max 0 k)) with true by lia
                                                       |replace ((A0 <=? j) && (j <? A0 + b + Z.max 0 k)) with false by lia]; reflexivity. }
    destruct (0 <? k) eqn:Ek; apply bs_ret.
    - split; [reflexivity|]. repeat split; try lia. intros Ho. rewrite (Hvv Ho). replace (Z.max 0 k) with k by lia.
      replace (A0 + b + k) with (A0 + b + k) by lia. reflexivity.
    - split; [reflexivity|]. intros Ho. split; [discriminate|]. rewrite (Hvv Ho). replace (Z.max 0 k) with 0 by lia.
      destruct ((A0 <=? j) && (j <? A0 + b + 0)) eqn:E; [right; split; [lia|reflexivity]|left; reflexivity].
  Qed.

  (** ** Reading *)
  Lemma moved_le' r n : 0 <= n -> -1 <= moved r n <= n.
  Proof. intros Hn. unfold moved, MAX_RW. destruct r; lia. Qed.
  Lemma moved_max' r n : moved r n <= 2147479552.
  Proof. unfold moved, MAX_RW. destruct r; lia. Qed.
  Lemma bs_rawexpread a len v ms : 0 <= a -> 0 < len -> a + len <= c_size c ->
    bs rely guar (p_rawexpread c a len) v ms (fun kd v' ms' => let '(k, d) := kd in ms' = ms /\
      -1 <= k <= len /\ k <= 2147479552 /\
      (rely = true -> v' = v /\ (a <= j < a + k -> d (j - a) = v))).
  Proof.
    intros Ha Hl Hend. unfold p_rawexpread. apply bs_bind.
    destruct Hplain as (Ht & _ & _ & He & Hwf & Hsz' & Hst).
    assert (Hpos : bs rely guar (act (get_filepos c a)) v ms (fun r v' ms' => ms' = ms /\ (rely = true -> v' = v) /\
       exists n fi, slot_at fis a n fi /\ r = Some (fi_h fi, a - fi_start fi,
         match nth_error fis (S n) with Some fj => fi_start fj - a | None => 0 end))).
    { apply bs_act. intros w Hk Ho. apply wp_wlp.
      eapply wp_mono; [apply (wp_get_filepos_plain c fis a w Ht He Hwf); [lia|exact Hst]| |tauto].
      cbn beta. intros r w1 (-> & Hex). split; [exact Hk|]. split; [reflexivity|]. split; [reflexivity|]. split; [exact Ho|exact Hex]. }
    eapply bs_mono; [exact Hpos|]. cbn beta. intros r v1 m1 (-> & Hv1 & n & fi & Hslot & ->). clear Hpos.
    set (mb := match nth_error fis (S n) with Some fj => fi_start fj - a | None => 0 end).
    pose proof Hslot as (E & Hle & Hn).
    assert (Hmb0 : 0 <= mb).
    { unfold mb. destruct (nth_error fis (S n)) as [fj|] eqn:Ej; [specialize (Hn fj eq_refl)|]; lia. }
    assert (Hcl : 0 <= clamp mb len <= len /\ (mb = 0 \/ clamp mb len <= mb)).
    { unfold clamp. destruct (negb (mb =? 0) && (mb <? len)) eqn:Ec; lia. }
    apply bs_act. intros w Hk Ho.
    assert (Hsame : forall k d w', w_file w' = w_file w -> w_exists w' = w_exists w -> -1 <= k <= len -> k <= 2147479552 ->
       (a <= j < a + k -> d (j - a) = at_ w) ->
       kp w' /\ (guar = true -> at_ w' = at_ w) /\ ms = ms /\ -1 <= k <= len /\ k <= 2147479552 /\
       (rely = true -> at_ w' = v /\ (a <= j < a + k -> d (j - a) = v))).
    { intros k d w' E1 E2 Hk0 Hk1 Hd. destruct (plain_stable fis w0 w w' E1 E2 Hk) as [Hk' Hf].
      split; [exact Hk'|]. split; [intros _; apply Hf|]. split; [reflexivity|]. split; [lia|]. split; [lia|]. intros Hr.
      rewrite <- (Hv1 Hr), <- (Ho Hr). split; [apply Hf|exact Hd]. }
    unfold sys_pread. apply wlp_bind.
    change (wlp pull ?Q ?D w) with (Q (w_orc w (w_tick w)) (tick w)). cbn beta.
    set (r := w_orc w (w_tick w)).
    assert (Herr : forall e, wlp (modify (set_errno e);;; ret (-1, fun _ : Z => 0))
      (fun (a0 : Z * (Z -> Z)) w' => kp w' /\ (guar = true -> at_ w' = at_ w) /\ (let '(k, d) := a0 in ms = ms /\
         -1 <= k <= len /\ k <= 2147479552 /\ (rely = true -> at_ w' = v /\ (a <= j < a + k -> d (j - a) = v)))) (fun _ => True) (tick w)).
    { intros e. apply (Hsame (-1) (fun _ => 0) (set_errno e (tick w))); [reflexivity|reflexivity|lia|lia|lia]. }
    assert (Hok : wlp (if a - fi_start fi <? 0 then modify (set_errno EINVAL) ;;; ret (-1, fun _ => 0) else
        f <- get (fun w => w_file w (fi_h fi)) ;;
        let avail := Z.max 0 (Z.min (clamp mb len) (fsize f - (a - fi_start fi))) in
        ret (moved r avail, fun i => fdata f (a - fi_start fi + i)))
      (fun (a0 : Z * (Z -> Z)) w' => kp w' /\ (guar = true -> at_ w' = at_ w) /\ (let '(k, d) := a0 in ms = ms /\
         -1 <= k <= len /\ k <= 2147479552 /\ (rely = true -> at_ w' = v /\ (a <= j < a + k -> d (j - a) = v)))) (fun _ => True) (tick w)).
    { destruct (a - fi_start fi <? 0); [apply Herr|]. cbn [wlp bind get ret]. cbv zeta.
      set (av := Z.max 0 (Z.min (clamp mb len) (fsize (w_file (tick w) (fi_h fi)) - (a - fi_start fi)))).
      assert (Hm : -1 <= moved r av <= av) by (apply moved_le'; unfold av; lia).
      pose proof (moved_max' r av) as Hmx.
      apply (Hsame (moved r av) (fun i => fdata (w_file (tick w) (fi_h fi)) (a - fi_start fi + i)) (tick w)); [reflexivity|reflexivity|unfold av in *; lia|exact Hmx|].
      intros Hj. unfold at_.
      assert (Hend' : forall fj, nth_error fis (S n) = Some fj -> a + (j - a) < fi_start fj).
      { intros fj Ej. specialize (Hn fj Ej). assert (Hm2 : mb = fi_start fj - a) by (unfold mb; rewrite Ej; reflexivity). unfold av in *. lia. }
      pose proof (flat_read fis a n fi w (j - a) Hwf Hslot ltac:(lia) Hend') as Hfr.
      replace (a + (j - a)) with j in Hfr by lia. rewrite Hfr. unfold frd. cbn [tick w_file].
      change (w_file (tick w) (fi_h fi)) with (w_file w (fi_h fi)) in av.
      replace ((0 <=? a - fi_start fi + (j - a)) && (a - fi_start fi + (j - a) <? fsize (w_file w (fi_h fi)))) with true; [reflexivity|].
      unfold av in *. lia. }
    fold r. destruct (fi_h fi), r; first [apply Herr|exact Hok].
  Qed.

  Variable q : wreq.
  Hypothesis Hq : wreq_ok q.
  Variable v0 : Z.
  Notation enc := (enc_view (q_cookie q)).
  Notation wfv := (wf_view (dlen_of q)).
  Definition answered (v : Z) (ms : list (list Z)) : Prop :=
    exists vs, ms = map enc vs /\ Forall wfv vs /\ (rely = true -> byte_outcome q j v0 vs v).

  (** the state of a read *)
  Definition so_far (x : readctx) (v : Z) (ms : list (list Z)) : Prop :=
    exists vs, ms = map enc vs /\ Forall wfv vs /\ (rely = true -> v = v0) /\
      x_structured x = c_structured c /\ x_df x = false /\ 0 <= x_off x /\ 0 <= x_len x /\ x_off x + x_len x = q_len q /\
      (c_structured c = true -> fine vs = true /\
         (rely = true -> told q j vs = if (q_from q <=? j) && (j <? q_from q + x_off x) then [v0] else [])) /\
      (c_structured c = false -> x_buflen x = q_len q /\ vs = [] /\
         (rely = true -> q_from q <= j < q_from q + x_off x -> x_buf x (j - q_from q) = v0)).

  Lemma fine_app a b : fine (a ++ b) = fine a && fine b.
  Proof. apply forallb_app. Qed.
  Lemma told_app a b : told q j (a ++ b) = told q j a ++ told q j b.
  Proof. apply flat_map_app. Qed.

  Lemma enc_chunk fl ty l p : is_u32 (zlen p) -> l = zlen p -> chunk (q_cookie q) fl ty l p = enc (VChunk fl ty p).
  Proof. intros H ->. cbn [enc_view]. unfold chunk, u32. rewrite (Z.mod_small (zlen p)) by exact H. reflexivity. Qed.

  Lemma bs_read_fully lg x v ms : inside (c_size c) q ->
    so_far x v ms ->
    bs rely guar (p_rawexpread_fully lg (mreq q) c x) v ms (fun xb v' ms' =>
      so_far (fst xb) v' ms' /\ (snd xb = false -> x_len (fst xb) = 0)).
  Proof.
    intros Hin Hx. unfold p_rawexpread_fully. unfold inside in Hin.
    pose proof Hq as (_ & _ & Hf & Hl & _). unfold is_u64 in Hf. unfold is_u32 in Hl.
    destruct Hplain as (_ & _ & _ & _ & _ & Hsz & _).
    apply bs_loop with (I := so_far); [|exact Hx].
    clear x v ms Hx. intros x v ms Hx. unfold p_rawexpread_fully_body.
    destruct (0 <? x_len x) eqn:El.
    2:{ apply bs_ret. cbn [fst snd]. split; [exact Hx|]. destruct Hx as (vs & _ & _ & _ & _ & _ & _ & H & _). lia. }
    apply bs_bind. apply bs_act. intros w Hk Ho.
    destruct (find_read_buf_spec x w) as (x1 & i & E & E1 & E2 & E3 & E4 & E5 & E6 & E7).
    unfold wlp. rewrite E. split; [exact Hk|]. split; [reflexivity|].
    assert (Hv' : rely = true -> at_ w = v) by exact Ho. set (v' := at_ w) in *. clearbody v'. clear w Hk Ho E.
    destruct Hx as (vs & -> & Hwf & Hv0 & S1 & S2 & S3 & S4 & S5 & S6 & S7).
    apply bs_bind. cbn [mreq rq_from]. rewrite i64_small by lia.
    eapply bs_mono; [apply (bs_rawexpread (q_from q + x_off x) (x_len x) v'); lia|]. cbn beta.
    intros [k d] v2 m2 (-> & Hk1 & Hk2 & Hd).
    assert (Hv2 : rely = true -> v2 = v0) by (intros Hr; destruct (Hd Hr) as [-> _]; rewrite (Hv' Hr); auto).
    destruct (k <=? 0) eqn:Ek.
    { apply bs_ret. cbn [fst snd]. split; [|discriminate]. exists vs. split; [reflexivity|]. split; [exact Hwf|]. split; [exact Hv2|].
      rewrite E1, E2, E3, E4, E5. split; [exact S1|]. split; [exact S2|]. split; [lia|]. split; [lia|]. split; [lia|].
      split; [exact S6|]. intros Es. destruct (S7 Es) as (T1 & T2 & T3). split; [exact T1|]. split; [exact T2|].
      rewrite S1, Es in E7. cbn [andb] in E7. destruct (E7 eq_refl) as [_ ->]. exact T3. }
    apply bs_bind. apply bs_act. intros w Hk Ho. unfold buf_store, wlp. rewrite Ek.
    destruct ((0 <=? i) && (i + k <=? x_alloc x1)) eqn:Eb; [|exact Logic.I]. cbn [ret].
    split; [exact Hk|]. split; [reflexivity|].
    assert (Hv3 : rely = true -> at_ w = v0) by (intros Hr; rewrite (Ho Hr); auto). set (v3 := at_ w) in *. clearbody v3. clear w Hk Ho.
    apply bs_bind. unfold p_confirm_read. cbn [x_structured x_df x_off x_buf]. rewrite E1, E2, E4, S1, S2. cbn [negb andb].
    assert (Hdj : rely = true -> q_from q + x_off x <= j < q_from q + x_off x + k -> d (j - (q_from q + x_off x)) = v0).
    { intros Hr Hj. destruct (Hd Hr) as [_ H]. rewrite (H Hj), (Hv' Hr); auto. }
    rewrite S1, S2 in E6, E7. cbn [negb andb] in E6, E7. rewrite ?Bool.andb_true_r in E6, E7.
    destruct (c_structured c) eqn:Est.
    - destruct (E6 eq_refl) as [-> Hal]. cbn [andb].
      set (buf := fun j0 : Z => if (0 <=? j0) && (j0 <? 0 + k) then d (j0 - 0) else x_buf x1 j0).
      cbn [mreq rq_from rq_cookie]. rewrite (u64_small (q_from q + x_off x)) by (unfold is_u64; lia).
      assert (Hz : zlen (be 8 (q_from q + x_off x) ++ slice buf 0 k) = k + 8).
      { rewrite zlen_app, be_zlen, slice_zlen by lia. lia. }
      unfold p_chunk. apply bs_bind. apply bs_send. apply bs_log. apply bs_ret.
      rewrite enc_chunk; [|rewrite Hz; unfold is_u32; lia|lia].
      exists (vs ++ [VChunk 0 1 (be 8 (q_from q + x_off x) ++ slice buf 0 k)]). rewrite map_app. split; [reflexivity|].
      split. { apply Forall_app. split; [exact Hwf|]. constructor; [|constructor]. split; [lia|]. split; [lia|]. rewrite Hz. unfold is_u32. lia. }
      split; [exact Hv3|]. cbn [ctx_set x_structured x_df x_off x_len].
      split; [congruence|]. split; [congruence|]. split; [lia|]. split; [lia|]. split; [lia|]. split; [|congruence].
      intros _. destruct (S6 eq_refl) as [T1 T2]. split; [rewrite fine_app, T1; reflexivity|]. intros Hr.
      rewrite told_app, (T2 Hr). cbn [told flat_map told_view]. rewrite app_nil_r.
      replace (firstn 8 (be 8 (q_from q + x_off x) ++ slice buf 0 k)) with (be 8 (q_from q + x_off x)) by reflexivity.
      replace (skipn 8 (be 8 (q_from q + x_off x) ++ slice buf 0 k)) with (slice buf 0 k) by reflexivity.
      rewrite unbe_be, Z.mod_small by (cbn; lia). rewrite slice_zlen by lia. change (1 =? 1) with true. cbn [andb].
      destruct ((q_from q + x_off x <=? j) && (j <? q_from q + x_off x + k)) eqn:Ej.
      + replace ((q_from q <=? j) && (j <? q_from q + x_off x)) with false by lia.
        replace ((q_from q <=? j) && (j <? q_from q + (x_off x + k))) with true by lia. cbn [app]. f_equal.
        unfold bytefn. rewrite slice_znth by lia. unfold buf.
        replace ((0 <=? 0 + (j - (q_from q + x_off x))) && (0 + (j - (q_from q + x_off x)) <? 0 + k)) with true by lia.
        rewrite <- (Hdj Hr) by lia. f_equal. lia.
      + rewrite app_nil_r. replace (q_from q + (x_off x + k)) with (q_from q + x_off x + k) by lia.
        destruct ((q_from q <=? j) && (j <? q_from q + x_off x)) eqn:Ej2; 
          [replace ((q_from q <=? j) && (j <? q_from q + x_off x + k)) with true by lia
          |replace ((q_from q <=? j) && (j <? q_from q + x_off x + k)) with false by lia]; reflexivity.
    - destruct (E7 eq_refl) as [-> ->]. cbn [andb]. apply bs_ret. apply bs_ret.
      destruct (S7 eq_refl) as (T1 & -> & T3).
      exists []. split; [reflexivity|]. split; [constructor|]. split; [exact Hv3|].
      cbn [ctx_set x_structured x_df x_off x_len x_buflen x_buf].
      split; [congruence|]. split; [congruence|]. split; [lia|]. split; [lia|]. split; [lia|]. split; [congruence|].
      intros _. split; [exact T1|]. split; [reflexivity|]. intros Hr Hj.
      destruct ((x_off x <=? j - q_from q) && (j - q_from q <? x_off x + k)) eqn:Ej.
      + rewrite <- (Hdj Hr) by lia. f_equal. lia.
      + apply T3; [exact Hr|lia].
  Qed.

  Lemma bs_simple lg e data v ms (Q : unit -> Z -> list (list Z) -> Prop) :
    Q tt v (ms ++ [enc (VSimple e data)]) -> bs rely guar (p_simple lg (q_cookie q) e data) v ms Q.
  Proof. intros H. unfold p_simple. apply bs_bind. apply bs_log. apply bs_send. exact H. Qed.
  Lemma bs_chunk lg fl ty l p v ms (Q : unit -> Z -> list (list Z) -> Prop) : is_u32 (zlen p) -> l = zlen p ->
    Q tt v (ms ++ [enc (VChunk fl ty p)]) -> bs rely guar (p_chunk lg (q_cookie q) fl ty l p) v ms Q.
  Proof. intros Hp Hl H. unfold p_chunk. apply bs_bind. apply bs_send. apply bs_log. rewrite enc_chunk by assumption. exact H. Qed.

  Hypothesis Hguar : guar = true -> touches q j = false.

  Lemma read_untouched : q_cmd q = 0 -> touches q j = false.
  Proof. intros H. unfold touches. rewrite H. reflexivity. Qed.

  Lemma bs_complete_read lg x e msg v ms : q_cmd q = 0 -> is_u32 e -> zlen msg <= 1000 -> (e = 0 -> x_len x = 0) ->
    so_far x v ms -> bs rely guar (p_complete_read lg (mreq q) x e msg) v ms (fun _ v ms => answered v ms).
  Proof.
    intros Hc He Hm Hend (vs & -> & Hwf & Hv0 & S1 & S2 & S3 & S4 & S5 & S6 & S7).
    pose proof Hq as (_ & _ & Hf & Hl & _). unfold is_u64 in Hf. unfold is_u32 in Hl.
    unfold p_complete_read. rewrite S1, S2. cbn [andb mreq rq_cookie]. pose proof (zlen_nonneg msg).
    pose proof (read_untouched Hc) as Hnt.
    destruct (c_structured c) eqn:Est.
    - destruct (S6 eq_refl) as [T1 T2]. apply bs_bind. apply bs_ret.
      destruct (e =? 0) eqn:Ee; cbn [negb].
      + apply bs_chunk; [change (zlen (@nil Z)) with 0; unfold is_u32; lia|reflexivity|].
        exists (vs ++ [VChunk NBD_REPLY_FLAG_DONE NBD_REPLY_TYPE_NONE []]). rewrite map_app. split; [reflexivity|].
        split. { apply Forall_app. split; [exact Hwf|]. constructor; [|constructor]. cbn [wf_view]. unfold is_u32, NBD_REPLY_FLAG_DONE, NBD_REPLY_TYPE_NONE. change (zlen (@nil Z)) with 0. lia. }
        intros Hr. split; [congruence|]. split; [auto|]. intros _ Hj. specialize (T2 Hr).
        assert (x_len x = 0) by (apply Hend; lia).
        replace ((q_from q <=? j) && (j <? q_from q + x_off x)) with true in T2 by lia.
        rewrite told_app, T2. cbn. split; [repeat constructor|reflexivity].
      + assert (Hz : zlen (be 4 e ++ le16 (zlen msg) ++ msg) = 6 + zlen msg).
        { rewrite !zlen_app, be_zlen. change (zlen (le16 (zlen msg))) with 2. lia. }
        apply bs_chunk; [rewrite Hz; unfold is_u32; lia|lia|].
        exists (vs ++ [VChunk NBD_REPLY_FLAG_DONE NBD_REPLY_TYPE_ERROR (be 4 e ++ le16 (zlen msg) ++ msg)]). rewrite map_app. split; [reflexivity|].
        split. { apply Forall_app. split; [exact Hwf|]. constructor; [|constructor]. cbn [wf_view]. rewrite Hz. unfold is_u32, NBD_REPLY_FLAG_DONE, NBD_REPLY_TYPE_ERROR. lia. }
        intros Hr. split; [congruence|]. split; [auto|]. intros _ Hj. specialize (T2 Hr).
        rewrite fine_app, told_app, T2. cbn [told flat_map told_view]. change (NBD_REPLY_TYPE_ERROR =? 1) with false. cbn [andb app].
        rewrite app_nil_r. split; [destruct (_ && _); repeat constructor|].
        rewrite Bool.andb_false_r. discriminate.
    - destruct (S7 eq_refl) as (T1 & -> & T3). apply bs_simple. cbn [map app]. rewrite T1.
      exists [VSimple e (if e =? 0 then slice (x_buf x) 0 (q_len q) else [])]. split; [reflexivity|].
      split. { constructor; [|constructor]. split; [exact He|]. unfold dlen_of. rewrite Hc. change (0 =? 0) with true. cbv iota.
               destruct (e =? 0); [apply slice_zlen; lia|reflexivity]. }
      intros Hr. split; [congruence|]. split; [auto|]. intros _ Hj. cbn [told flat_map told_view fine forallb]. rewrite app_nil_r.
      destruct (e =? 0) eqn:Ee; cbn [andb]; [|split; [constructor|discriminate]].
      rewrite slice_zlen by lia. replace ((q_from q <=? j) && (j <? q_from q + q_len q)) with true by lia.
      unfold bytefn. rewrite slice_znth by lia. rewrite Z.add_0_l.
      assert (x_len x = 0) by (apply Hend; lia). rewrite T3 by (auto; lia). split; [repeat constructor|reflexivity].
  Qed.

  Lemma bs_get {X} (f : world -> X) v ms (Q : X -> Z -> list (list Z) -> Prop) :
    (forall x v', (rely = true -> v' = v) -> Q x v' ms) -> bs rely guar (act (get f)) v ms Q.
  Proof. intros H. eapply bs_mono; [apply bs_qt, qt_get|]. intros a v1 m1 [Hv ->]. auto. Qed.

  Lemma waiting_plain : waiting c = false.
  Proof. destruct Hplain as (_ & _ & Hw & _). unfold waiting. rewrite Hw. reflexivity. Qed.

  Lemma bs_normal_read lg v : q_cmd q = 0 -> flag (q_type q) NBD_CMD_FLAG_DF = false -> inside (c_size c) q ->
    (rely = true -> v = v0) ->
    bs rely guar (p_handle_normal_read lg c (mreq q)) v [] (fun _ v ms => answered v ms).
  Proof.
    intros Hc Hdf Hin Hv. unfold p_handle_normal_read. cbn [mreq rq_type]. rewrite Hdf, Bool.andb_false_r. cbn [andb orb].
    pose proof Hq as (_ & _ & Hf & Hl & _). unfold is_u32 in Hl.
    apply bs_bind. apply bs_get. intros g v1 Hv1. cbn [mreq rq_len]. apply bs_bind.
    unfold p_expread. destruct Hplain as (_ & Hcw & _). rewrite Hcw, waiting_plain. cbn [negb andb].
    eapply bs_mono; [apply bs_read_fully; [exact Hin|]|].
    { exists []. split; [reflexivity|]. split; [constructor|]. split; [intros Hr; rewrite (Hv1 Hr); auto|].
      destruct (c_structured c); cbn; (split; [reflexivity|]; split; [reflexivity|]); (split; [lia|]; split; [lia|]; split; [lia|]);
        (split; [try (intros; discriminate)|try (intros; discriminate)]).
      - intros _. split; [reflexivity|]. intros _. replace ((q_from q <=? j) && (j <? q_from q + 0)) with false by lia. reflexivity.
      - intros _. split; [reflexivity|]. split; [reflexivity|]. lia. }
    cbn beta. intros [x1 b] v2 m2 [Hs Hb]. cbn [fst snd] in *. destruct b.
    - apply bs_bind. apply bs_get. intros e v3 Hv3.
      destruct (wire_error_u32 (nbd_errno e) (nbd_errno_wire e)) as [H1 H2].
      apply bs_complete_read; auto; [change (zlen read_failed) with 12; lia|lia|].
      destruct Hs as (vs & T1 & T2 & T3 & T). exists vs. split; [exact T1|]. split; [exact T2|]. split; [|exact T].
      intros Hr. rewrite (Hv3 Hr). auto.
    - apply bs_complete_read; auto; [unfold is_u32; lia|change (zlen (@nil Z)) with 0; lia].
  Qed.

  Lemma znth_app1 (l1 l2 : list Z) i : 0 <= i < zlen l1 -> znth 0 (l1 ++ l2) i = znth 0 l1 i.
  Proof. intros H. unfold znth, zlen in *. apply app_nth1. lia. Qed.
  Lemma znth_app2 (l1 l2 : list Z) i : zlen l1 <= i -> znth 0 (l1 ++ l2) i = znth 0 l2 (i - zlen l1).
  Proof. intros H. unfold znth, zlen in *. rewrite app_nth2 by lia. f_equal. lia. Qed.
  Lemma bs_splice_in v : inside (c_size c) q -> (rely = true -> v = v0) ->
    bs rely guar (p_expsplice_in c (q_from q) (q_len q)) v [] (fun r v' ms' => ms' = [] /\ (rely = true -> v' = v0) /\
      forall l, r = Some l -> zlen l = q_len q /\ (rely = true -> q_from q <= j < q_from q + q_len q -> bytefn l (j - q_from q) = v0)).
  Proof.
    intros Hin Hv. unfold p_expsplice_in. unfold inside in Hin.
    pose proof Hq as (_ & _ & Hf & Hl & _). unfold is_u64 in Hf. unfold is_u32 in Hl.
    apply bs_loop with (I := fun s v' ms' => let '(a, l, acc) := s in ms' = [] /\ (rely = true -> v' = v0) /\
       zlen acc = a - q_from q /\ 0 <= l /\ a + l = q_from q + q_len q /\
       (rely = true -> q_from q <= j < a -> bytefn acc (j - q_from q) = v0)).
    2:{ split; [reflexivity|]. split; [exact Hv|]. change (zlen (@nil Z)) with 0. repeat split; lia. }
    intros [[a l] acc] v1 m1 (-> & Hv1 & Hz & Hl0 & Hal & Hd). unfold p_expsplice_in_body.
    pose proof (zlen_nonneg acc).
    destruct (0 <? l) eqn:El.
    2:{ apply bs_ret. split; [reflexivity|]. split; [exact Hv1|]. intros l' E. injection E as <-. split; [lia|].
        intros Hr Hj. apply Hd; [exact Hr|lia]. }
    apply bs_bind. eapply bs_mono; [apply bs_rawexpread; lia|]. cbn beta. intros [k d] v2 m2 (-> & Hk1 & Hk2 & Hkd).
    assert (Hv2 : rely = true -> v2 = v0) by (intros Hr; destruct (Hkd Hr) as [-> _]; auto).
    destruct (0 <? k) eqn:Ek; apply bs_ret.
    - split; [reflexivity|]. split; [exact Hv2|]. rewrite zlen_app, slice_zlen by lia. split; [lia|]. split; [lia|]. split; [lia|].
      intros Hr Hj. unfold bytefn. destruct (j <? a) eqn:Ej.
      + rewrite znth_app1 by lia. apply Hd; [exact Hr|lia].
      + rewrite znth_app2 by lia. rewrite slice_znth by lia. destruct (Hkd Hr) as [_ H0].
        rewrite <- (Hv1 Hr), <- H0 by lia. f_equal. lia.
    - split; [reflexivity|]. split; [exact Hv2|]. intros; discriminate.
  Qed.

  Lemma bs_read lg v : q_cmd q = 0 -> flag (q_type q) NBD_CMD_FLAG_DF = false -> inside (c_size c) q ->
    (rely = true -> v = v0) ->
    bs rely guar (p_handle_read lg c (mreq q)) v [] (fun _ v ms => answered v ms).
  Proof.
    intros Hc Hdf Hin Hv. unfold p_handle_read. apply bs_bind.
    destruct (cflag c F_SPLICE); [|apply bs_normal_read; auto].
    unfold p_handle_splice_read. destruct (c_tls c); [apply bs_normal_read; auto|].
    pose proof Hq as (_ & _ & Hf & Hl & _). unfold is_u32, is_u64 in *. pose proof Hin as Hin'. unfold inside in Hin'.
    destruct Hplain as (_ & _ & _ & _ & _ & Hsz & _).
    apply bs_bind. eapply bs_mono; [apply bs_qt, qt_mkpipe|]. intros ok v1 m1 [Hv1 ->].
    assert (Hv1' : rely = true -> v1 = v0) by (intros Hr; rewrite (Hv1 Hr); auto).
    destruct ok; cbn [negb]; [|apply bs_normal_read; auto].
    apply bs_bind. cbn [mreq rq_from rq_len]. rewrite i64_small by lia.
    eapply bs_mono; [apply bs_splice_in; assumption|]. cbn beta. intros r v2 m2 (-> & Hv2 & Hr2).
    destruct r as [data|]; [|apply bs_normal_read; auto].
    destruct (Hr2 data eq_refl) as [Hz Hd]. cbn [rq_cookie].
    apply bs_bind. apply bs_simple. apply bs_ret. apply bs_ret.
    exists [VSimple 0 data]. split; [reflexivity|].
    split. { constructor; [|constructor]. split; [unfold is_u32; lia|]. unfold dlen_of. rewrite Hc. exact Hz. }
    pose proof (read_untouched Hc) as Hnt. intros Hr. split; [congruence|]. split; [auto|]. intros _ Hj.
    cbn [told flat_map told_view]. rewrite Hz. replace ((0 =? 0) && (q_from q <=? j) && (j <? q_from q + q_len q)) with true by lia.
    rewrite (Hd Hr Hj). cbn. split; [repeat constructor|reflexivity].
  Qed.

  (** ** Changing *)
  Lemma answered_err e v : (rely = true -> v = v0) -> answered v [enc (VSimple (nbd_errno e) [])].
  Proof.
    intros Hv. destruct (wire_error_u32 (nbd_errno e) (nbd_errno_wire e)) as [H1 H2].
    exists [VSimple (nbd_errno e) []]. split; [reflexivity|].
    split. { constructor; [|constructor]. split; [exact H1|]. rewrite H2. reflexivity. }
    intros Hr. specialize (Hv Hr). subst v. split; [|split; [reflexivity|]].
    - intros _. eexists. split; [reflexivity|]. unfold byte_effect. repeat split; auto; lia.
    - intros _ _. cbn. rewrite H2. split; [constructor|discriminate].
  Qed.
  Lemma answered_status (b : bool) e v : q_cmd q <> 0 ->
    (rely = true -> touches q j = false -> v = v0) ->
    (rely = true -> touches q j = true -> forall e, (e = 0 -> b = false) -> byte_effect q j v0 e v) ->
    answered v [enc (VSimple (if b then nbd_errno e else 0) [])].
  Proof.
    intros Hc Hn Ht. destruct (wire_error_u32 (nbd_errno e) (nbd_errno_wire e)) as [H1 H2].
    exists [VSimple (if b then nbd_errno e else 0) []]. split; [reflexivity|].
    split. { constructor; [|constructor]. split; [destruct b; [exact H1|unfold is_u32; lia]|].
             unfold dlen_of. replace (q_cmd q =? 0) with false by lia. destruct b; [rewrite H2|]; reflexivity. }
    intros Hr. split; [|split; [auto|congruence]]. intros Htt. eexists. split; [reflexivity|]. apply Ht; auto.
    destruct b; [lia|reflexivity].
  Qed.

  Lemma bs_finish lg (b : bool) v : q_cmd q <> 0 ->
    (rely = true -> touches q j = false -> v = v0) ->
    (rely = true -> touches q j = true -> forall e, (e = 0 -> b = false) -> byte_effect q j v0 e v) ->
    bs rely guar (e <~- act (get w_errno) ;; p_simple lg (rq_cookie (mreq q)) (if b then nbd_errno e else 0) []) v []
      (fun _ v ms => answered v ms).
  Proof.
    intros Hc Hn Ht. apply bs_bind. apply bs_get. intros e v1 Hv1. cbn [mreq rq_cookie]. apply bs_simple.
    apply answered_status; [exact Hc| |]; intros Hr; rewrite (Hv1 Hr); auto.
  Qed.

  Lemma bs_expwrite a (d : Z -> Z) L fua v ms : 0 <= a -> 0 <= L -> a + L <= c_size c ->
    (guar = true -> ~ (a <= j < a + L)) ->
    bs rely guar (p_expwrite c a d L fua) v ms (fun failed v' ms' => ms' = ms /\
       (rely = true -> (failed = false -> v' = if (a <=? j) && (j <? a + L) then d (j - a) else v) /\
                      (v' = v \/ (a <= j < a + L /\ v' = d (j - a))))).
  Proof.
    intros. unfold p_expwrite. destruct Hplain as (_ & Hcw & _). rewrite Hcw, waiting_plain. cbn [negb andb].
    apply bs_write_fully; assumption.
  Qed.

  Lemma touch_range : q_cmd q = 1 \/ q_cmd q = 4 \/ q_cmd q = 6 ->
    touches q j = (q_from q <=? j) && (j <? q_from q + q_len q).
  Proof. intros [H|[H|H]]; unfold touches; rewrite H; reflexivity. Qed.

  Lemma bs_write lg p v : q_cmd q = 1 -> payload_ok q p -> inside (c_size c) q -> (rely = true -> v = v0) ->
    bs rely guar (p_handle_write lg c (mreq q) p) v [] (fun _ v ms => answered v ms).
  Proof.
    intros Hc Hp Hin Hv. unfold p_handle_write. cbn [mreq rq_from rq_len]. unfold inside in Hin.
    pose proof Hq as (_ & _ & Hf & Hl & _). unfold is_u32, is_u64 in *.
    pose proof (touch_range (or_introl Hc)) as Htr.
    destruct Hplain as (_ & _ & _ & _ & _ & Hsz & _). rewrite i64_small by lia.
    assert (Hg : guar = true -> ~ (q_from q <= j < q_from q + q_len q)).
    { intros Hg. pose proof (Hguar Hg) as Hg2. rewrite Htr in Hg2. lia. }
    assert (Hfin : forall d failed v' ms', (forall i, 0 <= i < q_len q -> d i = bytefn (q_data q) i) -> ms' = [] /\
       (rely = true -> (failed = false -> v' = if (q_from q <=? j) && (j <? q_from q + q_len q) then d (j - q_from q) else v) /\
                      (v' = v \/ (q_from q <= j < q_from q + q_len q /\ v' = d (j - q_from q)))) ->
       bs rely guar (e <~- act (get w_errno) ;; p_simple lg (rq_cookie (mreq q)) (if failed then nbd_errno e else 0) []) v' ms'
         (fun _ v ms => answered v ms)).
    { intros d failed v' ms' Hd (-> & He). apply bs_finish; [lia| |].
      - intros Hr Hn. rewrite Htr in Hn. destruct (He Hr) as [_ [->|[Hj _]]]; [auto|lia].
      - intros Hr Ht e Hb. destruct (He Hr) as [He1 He2]. rewrite <- Htr, Ht in He1. rewrite Htr in Ht.
        rewrite (Hd (j - q_from q)) in * by lia. rewrite (Hv Hr) in He2.
        unfold byte_effect. split; [|lia]. intros _. split; [intros E; apply He1, Hb, E|]. destruct He2 as [->|[_ ->]]; auto. }
    apply bs_bind. destruct (Hp Hc) as [-> | ->].
    - eapply bs_mono; [apply bs_expwrite; auto; lia|]. intros failed v' ms' H. apply (Hfin (bytefn (q_data q))); [reflexivity|exact H].
    - eapply bs_mono; [apply bs_write_fully; auto; lia|]. intros failed v' ms' H. apply (Hfin (bytefn (q_data q))); [reflexivity|exact H].
  Qed.

  Lemma bs_zeroes lg v : q_cmd q = 6 -> inside (c_size c) q -> (rely = true -> v = v0) ->
    bs rely guar (p_handle_write_zeroes lg c (mreq q)) v [] (fun _ v ms => answered v ms).
  Proof.
    intros Hc Hin Hv. unfold p_handle_write_zeroes. unfold inside in Hin.
    pose proof Hq as (_ & _ & Hf & Hl & _). unfold is_u32, is_u64 in *.
    pose proof (touch_range (or_intror (or_intror Hc))) as Htr.
    destruct Hplain as (_ & _ & _ & _ & _ & Hsz & _).
    assert (Hg : guar = true -> ~ (q_from q <= j < q_from q + q_len q)).
    { intros Hg. pose proof (Hguar Hg) as Hg2. rewrite Htr in Hg2. lia. }
    apply bs_bind. unfold p_expwrite_zeroes. cbn [mreq rq_from rq_len]. rewrite i64_small by lia.
    set (got v' := v' = v0 \/ (q_from q <= j < q_from q + q_len q /\ v' = 0)).
    apply bs_loop with (I := fun l v' ms' => ms' = [] /\ 0 <= l <= q_len q /\
      (rely = true -> got v' /\ (l = q_len q \/ (q_from q <= j < q_from q + Z.min (q_len q) 67108864 -> v' = 0)))).
    2:{ split; [reflexivity|]. split; [lia|]. intros Hr. split; [left; auto|left; reflexivity]. }
    intros l v1 m1 (-> & Hl1 & Hv1). unfold p_expwrite_zeroes_body, ZMAX.
    destruct (0 <? l) eqn:El.
    2:{ apply bs_ret. apply (bs_finish lg false); [lia| |].
        - intros Hr Hn. rewrite Htr in Hn. destruct (Hv1 Hr) as [[->|[Hj _]] _]; [reflexivity|lia].
        - intros Hr Ht e _. rewrite Htr in Ht. destruct (Hv1 Hr) as [Hg1 Hg2].
          unfold byte_effect. split; [lia|]. split; [lia|]. intros _.
          split; [|destruct Hg1 as [->|[_ ->]]; auto]. intros _ Hj. destruct Hg2 as [E|Hg2]; [lia|]. apply Hg2. lia. }
    set (L := if 67108864 <? l then 67108864 else l).
    assert (HL : 0 < L <= l /\ L <= 67108864 /\ (L = l \/ L = 67108864)) by (unfold L; destruct (67108864 <? l) eqn:?; lia).
    apply bs_bind. eapply bs_mono; [apply (bs_expwrite (q_from q) (fun _ => 0) L); [lia|lia|lia|]|].
    { intros Hgt. specialize (Hg Hgt). lia. }
    cbn beta. intros failed v2 m2 (-> & H2).
    assert (Hgot : rely = true -> got v2).
    { intros Hr. destruct (H2 Hr) as [_ [->|[Hj ->]]]; [apply (Hv1 Hr)|right; split; [lia|reflexivity]]. }
    destruct failed; apply bs_ret.
    - apply (bs_finish lg true); [lia| |].
      + intros Hr Hn. rewrite Htr in Hn. destruct (Hgot Hr) as [->|[Hj _]]; [reflexivity|lia].
      + intros Hr Ht e Hb. rewrite Htr in Ht. unfold byte_effect. split; [lia|]. split; [lia|]. intros _.
        split; [intros E; specialize (Hb E); discriminate|]. destruct (Hgot Hr) as [->|[_ ->]]; auto.
    - split; [reflexivity|]. split; [lia|]. intros Hr. split; [auto|]. right. intros Hj.
      destruct (H2 Hr) as [Hw _]. specialize (Hw eq_refl). destruct (Hv1 Hr) as [_ [E|Hp]].
      + replace ((q_from q <=? j) && (j <? q_from q + L)) with true in Hw by lia. exact Hw.
      + rewrite Hw. destruct ((q_from q <=? j) && (j <? q_from q + L)); [reflexivity|auto].
  Qed.

  Lemma bs_trim lg v : q_cmd q = 4 -> inside (c_size c) q -> (rely = true -> v = v0) ->
    bs rely guar (p_handle_trim lg c (mreq q)) v [] (fun _ v ms => answered v ms).
  Proof.
    intros Hc Hin Hv. unfold p_handle_trim. unfold inside in Hin.
    pose proof Hq as (_ & _ & Hf & Hl & _). unfold is_u32, is_u64 in *.
    pose proof (touch_range (or_intror (or_introl Hc))) as Htr.
    destruct Hplain as (Ht & Hcw & _ & He & Hwf & Hsz & _).
    assert (Hg : guar = true -> ~ (q_from q <= j < q_from q + q_len q)).
    { intros Hg. pose proof (Hguar Hg) as Hg2. rewrite Htr in Hg2. lia. }
    set (got v' := v' = v0 \/ (q_from q <= j < q_from q + q_len q /\ v' = 0)).
    assert (Hfin : forall v', (rely = true -> got v') ->
       bs rely guar (p_simple lg (rq_cookie (mreq q)) 0 []) v' [] (fun _ v ms => answered v ms)).
    { intros v' Hgot. cbn [mreq rq_cookie]. apply bs_simple. apply (answered_status false 0); [lia| |].
      - intros Hr Hn. rewrite Htr in Hn. destruct (Hgot Hr) as [->|[Hj _]]; [reflexivity|lia].
      - intros Hr _ e _. unfold byte_effect. split; [lia|]. split; [|lia]. intros _. destruct (Hgot Hr) as [->|[_ ->]]; auto. }
    apply bs_bind. unfold p_exptrim. rewrite Hcw, Ht, He.
    apply bs_bind. eapply bs_mono; [apply bs_qt, qt_assert|]. intros _ v1 m1 [Hv1 ->].
    apply bs_bind. eapply bs_mono; [apply bs_qt, qt_assert|]. intros _ v2 m2 [Hv2 ->].
    assert (Hv2' : rely = true -> v2 = v0) by (intros Hr; rewrite (Hv2 Hr), (Hv1 Hr); auto). clear v1 Hv1 Hv2.
    destruct (nth_error fis 0) as [x|] eqn:E0; [|intros w _ _; exact Logic.I].
    assert (Hx : fi_start x = 0).
    { destruct Hwf as [Hwf0 _]. destruct fis as [|x' t]; [discriminate|]. cbn in E0. injection E0 as ->. tauto. }
    apply bs_loop with (I := fun s v' ms' => let '(h, start, i) := s in ms' = [] /\ (rely = true -> got v') /\ 0 <= start /\
         (exists n fi, nth_error fis n = Some fi /\ fi_h fi = h /\ fi_start fi = start /\ i = Z.of_nat (S n))).
    2:{ split; [reflexivity|]. split; [intros Hr; left; auto|]. split; [lia|]. exists 0%nat, x. auto. }
    intros [[h start] i] v1 m1 (-> & Hg1 & Hs0 & n & fi & En & Eh & Es & Ei).
    unfold p_trim_body. cbn [rq_from rq_len mreq]. apply bs_bind.
    set (next := match nth_error fis (Z.to_nat i) with
                 | Some nx => (fi_h nx, fi_start nx)
                 | None => (FBad, i64 (c_size c))
                 end).
    assert (Hcont : forall v', (rely = true -> got v') ->
       bs rely guar (let i' := i + 1 in
             if (i' <? zlen fis) && (snd next <? u64 (q_from q + q_len q))
             then PRet (inl (fst next, snd next, i')) else PRet (inr tt)) v' []
          (fun r v' ms' => match r with
             | inl s' => let '(h, start, i) := s' in ms' = [] /\ (rely = true -> got v') /\ 0 <= start /\
                 (exists n fi, nth_error fis n = Some fi /\ fi_h fi = h /\ fi_start fi = start /\ i = Z.of_nat (S n))
             | inr x0 => bs rely guar (p_simple lg (rq_cookie (mreq q)) 0 []) v' ms' (fun _ v ms => answered v ms)
             end)).
    { intros v' Hgot. cbv zeta. destruct ((i + 1 <? zlen fis) && (snd next <? u64 (q_from q + q_len q))) eqn:Eg.
      - apply bs_ret. destruct (nth_error fis (Z.to_nat i)) as [nx|] eqn:Enx.
        2:{ apply nth_error_None in Enx. unfold zlen in *. lia. }
        subst next. cbn [fst snd]. split; [reflexivity|]. split; [exact Hgot|]. split.
        + assert (Hlt : (n < Z.to_nat i)%nat) by lia. pose proof (wf_nth _ _ _ _ _ Hwf En Enx Hlt). lia.
        + exists (Z.to_nat i), nx. repeat split; auto. lia.
      - apply bs_ret. apply Hfin, Hgot. }
    destruct ((start <=? q_from q) && (q_len q <=? snd next - start)) eqn:Eg; [|apply bs_ret; apply Hcont, Hg1].
    cbv zeta. set (reqoff := i64 (q_from q - start)).
    assert (Hro' : reqoff = q_from q - start) by (apply i64_small; lia).
    set (reqlen := if q_len q <? snd next - reqoff - reqoff then q_len q else snd next - reqoff - reqoff).
    assert (Hrl : reqlen <= q_len q) by (unfold reqlen; destruct (q_len q <? snd next - reqoff - reqoff) eqn:?; lia).
    subst h. apply bs_act. intros w Hk Ho. apply wp_wlp.
    eapply wp_mono; [apply (wp_punch fis w0 n fi); [exact Hwf|exact En|exact Hk]| |tauto].
    intros _ w2 (Hk2 & _ & Hch). split; [exact Hk2|]. specialize (Hch j).
    split.
    { intros Hgt. specialize (Hg Hgt). unfold at_. destruct Hch as [E|[Hj _]]; [exact E|lia]. }
    apply Hcont. intros Hr. unfold at_ in *. destruct Hch as [E|[Hj E]].
    - rewrite E, (Ho Hr). auto.
    - right. split; [lia|exact E].
  Qed.

  Lemma bs_fsync_all l v ms : bs rely guar (p_fsync_all l) v ms (same_byte v ms).
  Proof.
    revert v. induction l as [|fi t IH]; intros v; cbn [p_fsync_all]; [split; auto|].
    apply bs_bind. eapply bs_mono; [apply bs_qt, qt_fsync|]. intros k v1 m1 [Hv1 ->].
    destruct (k <? 0); [split; auto|]. eapply bs_mono; [apply IH|]. intros b v2 m2 [Hv2 ->]. split; [|reflexivity].
    intros Hr. rewrite (Hv2 Hr). auto.
  Qed.
  Lemma bs_flush lg v : q_cmd q = 3 -> (rely = true -> v = v0) ->
    bs rely guar (p_handle_flush lg c (mreq q)) v [] (fun _ v ms => answered v ms).
  Proof.
    intros Hc Hv. unfold p_handle_flush, p_expflush. destruct Hplain as (Ht & Hcw & Hw & He & _). rewrite Ht, Hcw, Hw, He.
    apply bs_bind. eapply bs_mono; [apply bs_fsync_all|]. intros b v1 m1 [Hv1 ->].
    assert (Hnt : touches q j = false) by (unfold touches; rewrite Hc; reflexivity).
    apply bs_finish; [lia| |congruence]. intros Hr _. rewrite (Hv1 Hr). auto.
  Qed.

  Theorem bs_request lg p v : payload_ok q p -> (rely = true -> v = v0) ->
    bs rely guar (p_handle_request lg c (mreq q) p) v [] (fun _ v ms => answered v ms).
  Proof.
    intros Hp Hv. unfold p_handle_request. change (cmd_of (mreq q)) with (q_cmd q).
    pose proof Hq as (_ & _ & Hf & Hl & _). pose proof Hplain as (_ & _ & _ & _ & _ & Hsz & _).
    pose proof (bad_range_spec c q Hf Hl Hsz) as Hbr.
    assert (Herr : forall e, bs rely guar (p_reply_error lg (mreq q) e) v [] (fun _ v ms => answered v ms)).
    { intros e. unfold p_reply_error. cbn [mreq rq_cookie]. apply bs_simple. apply answered_err, Hv. }
    destruct (bad_flags (mreq q)) eqn:Ebf; [apply Herr|].
    unfold NBD_CMD_READ, NBD_CMD_WRITE, NBD_CMD_FLUSH, NBD_CMD_TRIM, NBD_CMD_WRITE_ZEROES.
    destruct (q_cmd q =? 0) eqn:E0.
    { destruct (bad_range c (mreq q)) eqn:Er; [apply Herr|]. apply bs_read; [lia|apply (df_flag false c); [discriminate|assumption|assumption]|tauto|exact Hv]. }
    destruct (q_cmd q =? 1) eqn:E1.
    { destruct (bad_write c); [apply Herr|]. destruct (bad_range c (mreq q)) eqn:Er; [apply Herr|].
      apply bs_write; [lia|exact Hp|tauto|exact Hv]. }
    destruct (q_cmd q =? 3) eqn:E3; [apply bs_flush; [lia|exact Hv]|].
    destruct (q_cmd q =? 4) eqn:E4.
    { destruct (bad_write c) eqn:Ebw; [apply Herr|]. destruct (bad_range c (mreq q)) eqn:Er; [apply Herr|].
      apply bs_trim; [lia|tauto|exact Hv]. }
    destruct (q_cmd q =? 6) eqn:E6; [|apply Herr].
    destruct (bad_write c); [apply Herr|]. destruct (bad_range c (mreq q)) eqn:Er; [apply Herr|].
    apply bs_zeroes; [lia|tauto|exact Hv].
  Qed.
  End Own.
End Byte.
