(** FLUSH and FUA make data durable. *)
From Verif Require Import Base M_Const M_Disk M_Tree M_Raw M_Setup L_Wp L_Raw S_Wire S_Disk S_Crash L_Wire L_Req L_Plain L_Session L_Setup L_PlainS L_Gen L_Frame L_Props L_Crash.

(** only sync events *)
Definition calm (e : event) : Prop := match e with ESync _ | ESyncAll => True | _ => False end.

Lemma now_calm init ext tr h i : Forall (leaves h i) ext -> now init (ext ++ tr) h i = now init tr h i.
Proof.
  induction ext as [|e t IH]; intros H; [reflexivity|]. inversion H as [|? ? He Ht]; subst. specialize (IH Ht).
  destruct e; cbn [app now leaves] in *; auto.
  - destruct (fref_eq_dec h h0); [|exact IH]. destruct He as [He| ->]; [congruence|exact IH].
  - destruct (fref_eq_dec h h0); [|exact IH]. destruct He as [He| ->]; [congruence|exact IH].
  - destruct (fref_eq_dec h (FTree p)); [congruence|exact IH].
  - destruct (fref_eq_dec h (FTree p)); [congruence|exact IH].
Qed.

Lemma calm_leaves ext h i : Forall calm ext -> Forall (leaves h i) ext.
Proof. apply Forall_impl. intros e H. destruct e; cbn in H; try contradiction; exact Logic.I. Qed.
Lemma calm_sends ext tr : Forall calm ext -> sends (ext ++ tr) = sends tr.
Proof.
  induction ext as [|e t IH]; intros H; [reflexivity|]. inversion H as [|? ? He Ht]; subst.
  destruct e; cbn in He; try contradiction; cbn [app sends]; auto.
Qed.

Definition syncs (e : event) (h : fref) : Prop := e = ESync h \/ e = ESyncAll.

Lemma synced_durable init ext tr h i : Forall calm ext -> (exists e, In e ext /\ syncs e h) ->
  durable init (ext ++ tr) h i (now init tr h i).
Proof.
  intros Hc (e & Hin & Hs). apply in_split in Hin. destruct Hin as (l1 & l2 & ->).
  apply Forall_app in Hc. destruct Hc as [C1 C2]. inversion C2 as [|? ? _ C3]; subst.
  rewrite <- app_assoc. apply durable_later; [|apply calm_leaves, C1].
  rewrite <- (now_calm init l2 tr h i) by (apply calm_leaves, C3).
  cbn [app]. destruct Hs as [->| ->].
  - apply durable_sync.
  - unfold durable. cbn. intros x [<-|[]]. reflexivity.
Qed.

(** states that differ by calm events only *)
Definition calmly (w w' : world) (ext : list event) : Prop :=
  w_tr w' = ext ++ w_tr w /\ Forall calm ext /\ w_file w' = w_file w /\ w_exists w' = w_exists w.

Lemma calmly_trans w w1 w2 e1 e2 : calmly w w1 e1 -> calmly w1 w2 e2 -> calmly w w2 (e2 ++ e1).
Proof.
  intros (T1 & C1 & F1 & X1) (T2 & C2 & F2 & X2). split; [rewrite T2, T1, app_assoc; reflexivity|].
  split; [apply Forall_app; auto|]. split; congruence.
Qed.
Lemma calmly_nil w w' : w_tr w' = w_tr w -> w_file w' = w_file w -> w_exists w' = w_exists w -> calmly w w' [].
Proof. intros. split; [assumption|]. split; [constructor|]. auto. Qed.
Lemma calmly_one w w' e : calm e -> w_tr w' = e :: w_tr w -> w_file w' = w_file w -> w_exists w' = w_exists w -> calmly w w' [e].
Proof. intros. split; [assumption|]. split; [repeat constructor; assumption|]. auto. Qed.

Lemma wlp_fsync h w : wlp (sys_fsync h) (fun r w' => exists ext, calmly w w' ext /\ (0 <= r -> In (ESync h) ext)) (fun _ => False) w.
Proof.
  unfold sys_fsync. apply wlp_bind, wlp_pull.
  assert (He : forall e, wlp (modify (set_errno e);;; ret (-1))
     (fun r w' => exists ext, calmly w w' ext /\ (0 <= r -> In (ESync h) ext)) (fun _ => False) (tick w)).
  { intros e. apply wlp_bind, wlp_modify, wlp_ret. exists []. split; [apply calmly_nil; reflexivity|lia]. }
  assert (Hs : wlp (modify (emit (ESync h));;; ret 0)
     (fun r w' => exists ext, calmly w w' ext /\ (0 <= r -> In (ESync h) ext)) (fun _ => False) (tick w)).
  { apply wlp_bind, wlp_modify, wlp_ret. exists [ESync h]. split; [|left; reflexivity].
    apply calmly_one; try reflexivity. }
  destruct h, (w_orc w (w_tick w)); auto.
Qed.

Lemma wlp_fsync_all l : forall w,
  wlp (fsync_all l) (fun failed w' => exists ext, calmly w w' ext /\
       (failed = false -> forall fi, In fi l -> In (ESync (fi_h fi)) ext)) (fun _ => False) w.
Proof.
  induction l as [|fi l IH]; intros w; cbn [fsync_all].
  - apply wlp_ret. exists []. split; [apply calmly_nil; reflexivity|intros _ fi []].
  - apply wlp_bind. eapply wlp_mono; [apply wlp_fsync| |tauto].
    intros r w1 (e1 & C1 & S1). destruct (r <? 0) eqn:Er.
    + apply wlp_ret. exists e1. split; [exact C1|discriminate].
    + eapply wlp_mono; [apply IH| |tauto]. intros failed w2 (e2 & C2 & S2). exists (e2 ++ e1).
      split; [eapply calmly_trans; eauto|]. intros Hf fj [<-|Hin]; apply in_or_app; [right; apply S1; lia|left; auto].
Qed.

(** the files an acknowledged FLUSH covers *)
Definition flushed (c : client) (h : fref) : Prop :=
  if cflag c F_COPYONWRITE || cflag c F_WAIT then h = FDiff
  else if cflag c F_TREEFILES then cflag c F_READONLY = false
  else exists fis fi, c_export c = Some fis /\ In fi fis /\ h = fi_h fi.

Lemma wlp_expflush c w :
  wlp (expflush c) (fun failed w' => exists ext, calmly w w' ext /\
      (failed = false -> forall h, flushed c h -> exists e, In e ext /\ syncs e h)) (fun _ => False) w.
Proof.
  unfold expflush, flushed.
  assert (Hd : wlp (r <- sys_fsync FDiff ;; ret (negb (r =? 0))) (fun failed w' => exists ext, calmly w w' ext /\
      (failed = false -> forall h, h = FDiff -> exists e, In e ext /\ syncs e h)) (fun _ => False) w).
  { apply wlp_bind. eapply wlp_mono; [apply wlp_fsync| |tauto]. intros r w1 (e1 & C1 & S1). apply wlp_ret.
    exists e1. split; [exact C1|]. intros Hr h ->. exists (ESync FDiff). split; [apply S1|left; reflexivity].
    destruct (r =? 0) eqn:E; [lia|discriminate]. }
  destruct (cflag c F_COPYONWRITE); [exact Hd|]. destruct (cflag c F_WAIT); [exact Hd|]. cbn [orb].
  destruct (cflag c F_TREEFILES).
  - destruct (cflag c F_READONLY).
    + apply wlp_ret. exists []. split; [apply calmly_nil; reflexivity|]. intros _ h E. discriminate.
    + apply wlp_bind, wlp_modify, wlp_ret. exists [ESyncAll]. split.
      * apply calmly_one; try reflexivity.
      * intros _ h _. exists ESyncAll. split; [left; reflexivity|right; reflexivity].
  - destruct (c_export c) as [fis|]; [|apply wlp_ub].
    eapply wlp_mono; [apply wlp_fsync_all| |tauto]. intros failed w1 (e1 & C1 & S1). exists e1. split; [exact C1|].
    intros Hf h (fis' & fi & E & Hin & ->). injection E as <-. exists (ESync (fi_h fi)).
    split; [apply S1; auto|left; reflexivity].
Qed.

(** An acknowledged FLUSH, any export. *)
Lemma flush_durable c q p w w1 init : wreq_ok q -> q_cmd q = 3 -> known_flags q ->
  handle_request c (mreq q) p w = Ret tt w1 ->
  exists e, sent w1 = sent w ++ [simple_reply (q_cookie q) e []] /\ w_file w1 = w_file w /\ w_exists w1 = w_exists w /\
    (forall h i, now init (w_tr w1) h i = now init (w_tr w) h i) /\
    (e = 0 -> forall h i, flushed c h -> durable init (w_tr w1) h i (now init (w_tr w) h i)) /\
    (e <> 0 -> wire_error e).
Proof.
  intros Hq Hc Hk. pose proof Hq as (Hty & _). unfold handle_request. change (cmd_of (mreq q)) with (q_cmd q). rewrite Hc.
  pose proof (bad_flags_spec q Hty) as Hbf. destruct (bad_flags (mreq q)); [destruct Hbf as [_ Hbf]; discriminate (Hbf Hk)|].
  change (3 =? NBD_CMD_READ) with false. change (3 =? NBD_CMD_WRITE) with false. change (3 =? NBD_CMD_FLUSH) with true. cbv iota.
  intros E.
  assert (H : wlp (handle_flush c (mreq q)) (fun _ w1 => exists e, sent w1 = sent w ++ [simple_reply (q_cookie q) e []] /\
    w_file w1 = w_file w /\ w_exists w1 = w_exists w /\
    (forall h i, now init (w_tr w1) h i = now init (w_tr w) h i) /\
    (e = 0 -> forall h i, flushed c h -> durable init (w_tr w1) h i (now init (w_tr w) h i)) /\
    (e <> 0 -> wire_error e)) (fun _ => False) w).
  { unfold handle_flush. apply wlp_bind. eapply wlp_mono; [apply wlp_expflush| |tauto].
    intros failed w2 (ext & (T & C & F & X) & Hs). apply wlp_bind, wlp_get, wlp_send.
    eexists. split; [rewrite sent_emit_send; unfold sent; rewrite T, calm_sends by exact C; reflexivity|].
    split; [exact F|]. split; [exact X|]. cbn [emit w_tr now]. split.
    - intros h i. rewrite T. apply now_calm, calm_leaves, C.
    - split.
      + intros He h i Hf. destruct failed.
        { exfalso. revert He. generalize (w_errno w2). intros e. unfold nbd_errno.
          repeat (match goal with |- context [if ?b then _ else _] => destruct b end); discriminate. }
        rewrite T. change (ESend ?m :: ext ++ w_tr w) with ([ESend m] ++ (ext ++ w_tr w)).
        apply durable_later; [|repeat constructor]. apply synced_durable; [exact C|]. apply Hs; auto.
      + destruct failed; [|congruence]. intros _. unfold nbd_errno, wire_error.
        repeat (match goal with |- context [if ?b then _ else _] => destruct b end); auto 10. }
  unfold wlp in H. rewrite E in H. exact H.
Qed.

(** ** FUA and F_SYNC writes *)

(** no system call of the stretch from [w] to [w1] failed *)
Definition clean (w w1 : world) : Prop :=
  forall n e, (w_tick w <= n < w_tick w1)%nat -> w_orc w n <> RErr e.

Definition present (w : world) (h : fref) : Prop :=
  match h with FTree p => w_exists w p = true | FBad => False | _ => True end.

(** [w1] is a later state of the same run, in which the bytes of files present
    in [w] have been left alone *)
Definition later (w w1 : world) : Prop :=
  w_orc w1 = w_orc w /\ (w_tick w <= w_tick w1)%nat /\
  (forall h, present w h -> present w1 h) /\
  exists ext, w_tr w1 = ext ++ w_tr w /\ forall h i, present w h -> Forall (leaves h i) ext.

Lemma later_same w w1 : w_orc w1 = w_orc w -> (w_tick w <= w_tick w1)%nat -> w_exists w1 = w_exists w ->
  w_tr w1 = w_tr w -> later w w1.
Proof.
  intros H1 H2 H3 H4. split; [exact H1|]. split; [exact H2|]. split.
  - intros h. unfold present. rewrite H3. auto.
  - exists []. split; [exact H4|constructor].
Qed.
Lemma later_trans w w1 w2 : later w w1 -> later w1 w2 -> later w w2.
Proof.
  intros (O1 & T1 & P1 & e1 & E1 & L1) (O2 & T2 & P2 & e2 & E2 & L2). split; [congruence|]. split; [lia|]. split; [auto|].
  exists (e2 ++ e1). split; [rewrite E2, E1, app_assoc; reflexivity|].
  intros h i Hp. apply Forall_app. auto.
Qed.
Lemma clean_sub w w1 w2 : (w_tick w <= w_tick w1)%nat -> (w_tick w1 <= w_tick w2)%nat -> w_orc w1 = w_orc w ->
  clean w w2 -> clean w w1 /\ clean w1 w2.
Proof. intros H1 H2 H3 Hc. split; intros n e Hn; [|rewrite H3]; apply Hc; lia. Qed.

Lemma clamp_bounds mb len : 0 <= mb -> 0 <= len ->
  0 <= clamp mb len <= len /\ (mb = 0 \/ clamp mb len <= mb) /\ (0 < len -> 0 < clamp mb len).
Proof. unfold clamp. intros. destruct (mb =? 0) eqn:E; cbn [negb andb]; destruct (mb <? len) eqn:F; lia. Qed.

Section Fua.
  Variable c : client.
  Variable init : fref -> Z -> Z.
  Variable lim : Z.
  Variable loc : Z -> option (fref * Z).
  Hypothesis Hloc : forall x y r, loc x = Some r -> loc y = Some r -> x = y.
  Hypothesis Hget : forall a w, 0 <= a < lim ->
    wlp (get_filepos c a)
      (fun r w1 => later w w1 /\
         match r with
         | None => True
         | Some (h, o, mb) => h <> FBad -> present w1 h /\ 0 <= o /\ 0 <= mb /\
             forall j, 0 <= j -> (mb = 0 \/ j < mb) -> a + j < lim -> loc (a + j) = Some (h, o + j)
         end) (fun _ => True) w.
  Variable fua : bool.
  Hypothesis Hfua : cflag c F_SYNC = true \/ fua = true.

  Definition onto (w : world) (i v : Z) : Prop :=
    exists h o, loc i = Some (h, o) /\ present w h /\ durable init (w_tr w) h o v.

  Lemma onto_later w w1 i v : later w w1 -> onto w i v -> onto w1 i v.
  Proof.
    intros (_ & _ & P & ext & E & L) (h & o & H1 & H2 & H3). exists h, o. split; [exact H1|].
    split; [auto|]. rewrite E. apply durable_later; auto.
  Qed.

  Lemma wlp_sync_after h w : h <> FBad ->
    wlp (sync_after c h fua) (fun _ w1 => w_orc w1 = w_orc w /\ (w_tick w <= w_tick w1)%nat /\
        w_exists w1 = w_exists w /\
        (w_tr w1 = w_tr w \/ w_tr w1 = ESync h :: w_tr w) /\ (clean w w1 -> w_tr w1 = ESync h :: w_tr w))
      (fun _ => True) w.
  Proof.
    intros Hh. unfold sync_after.
    assert (Hs : wlp (sys_fsync h ;;; ret tt) (fun _ w1 => w_orc w1 = w_orc w /\ (w_tick w <= w_tick w1)%nat /\
        w_exists w1 = w_exists w /\
        (w_tr w1 = w_tr w \/ w_tr w1 = ESync h :: w_tr w) /\ (clean w w1 -> w_tr w1 = ESync h :: w_tr w))
      (fun _ => True) w).
    { apply wlp_bind. unfold sys_fsync. apply wlp_bind, wlp_pull.
      assert (Hok : wlp (modify (emit (ESync h));;; ret 0) (fun _ w1 => wlp (ret tt) (fun _ w1 => w_orc w1 = w_orc w /\ (w_tick w <= w_tick w1)%nat /\
        w_exists w1 = w_exists w /\
        (w_tr w1 = w_tr w \/ w_tr w1 = ESync h :: w_tr w) /\ (clean w w1 -> w_tr w1 = ESync h :: w_tr w)) (fun _ => True) w1) (fun _ => True) (tick w)).
      { apply wlp_bind, wlp_modify, wlp_ret, wlp_ret. split; [reflexivity|]. split; [cbn; lia|]. split; [reflexivity|].
        split; [right; reflexivity|]. intros _. reflexivity. }
      destruct (w_orc w (w_tick w)) as [|k|e] eqn:Er.
      - destruct h; try congruence; exact Hok.
      - destruct h; try congruence; exact Hok.
      - assert (Hbad : wlp (modify (set_errno e);;; ret (-1)) (fun _ w1 => wlp (ret tt) (fun _ w1 => w_orc w1 = w_orc w /\ (w_tick w <= w_tick w1)%nat /\
        w_exists w1 = w_exists w /\
        (w_tr w1 = w_tr w \/ w_tr w1 = ESync h :: w_tr w) /\ (clean w w1 -> w_tr w1 = ESync h :: w_tr w)) (fun _ => True) w1) (fun _ => True) (tick w)).
        { apply wlp_bind, wlp_modify, wlp_ret, wlp_ret. split; [reflexivity|]. split; [cbn; lia|]. split; [reflexivity|].
          split; [left; reflexivity|]. intros Hc. exfalso. apply (Hc (w_tick w) e); [cbn; lia|exact Er]. }
        destruct h; try congruence; exact Hbad. }
    destruct (cflag c F_SYNC); [exact Hs|]. destruct fua; [exact Hs|]. destruct Hfua; discriminate.
  Qed.

  Lemma wlp_rawexpwrite a d len w : 0 <= a -> 0 < len -> a + len <= lim ->
    wlp (rawexpwrite c a d len fua)
      (fun k w1 => w_orc w1 = w_orc w /\ (w_tick w <= w_tick w1)%nat /\ k <= len /\
         (clean w w1 -> 0 < k ->
            (forall i v, ~ (a <= i < a + k) -> onto w i v -> onto w1 i v) /\
            (forall i, 0 <= i < k -> onto w1 (a + i) (d i))))
      (fun _ => True) w.
  Proof.
    intros Ha Hl Hlim. unfold rawexpwrite. apply wlp_bind. eapply wlp_mono; [apply Hget; lia| |auto].
    intros [[[h o] mb]|] w1 (L1 & Hr).
    2:{ apply wlp_ret. destruct L1 as (O & T & _). split; [exact O|]. split; [exact T|]. split; lia. }
    apply wlp_bind. unfold sys_pwrite. apply wlp_bind, wlp_pull.
    assert (Hfail : forall w2 k, h <> FBad -> k <= 0 -> w_orc w2 = w_orc w1 -> (w_tick w1 <= w_tick w2)%nat ->
       wlp (sync_after c h fua;;; ret k) (fun k w1 => w_orc w1 = w_orc w /\ (w_tick w <= w_tick w1)%nat /\ k <= len /\
         (clean w w1 -> 0 < k ->
            (forall i v, ~ (a <= i < a + k) -> onto w i v -> onto w1 i v) /\
            (forall i, 0 <= i < k -> onto w1 (a + i) (d i)))) (fun _ => True) w2).
    { intros w2 k Hh Hk O2 T2. apply wlp_bind. eapply wlp_mono; [apply wlp_sync_after; exact Hh| |auto].
      intros _ w3 (O3 & T3 & _). apply wlp_ret. destruct L1 as (O & T & _).
      split; [congruence|]. split; [lia|]. split; lia. }
    destruct (fref_eq_dec h FBad) as [->|Hh].
    { (* failed open *)
      apply wlp_bind, wlp_modify, wlp_ret. unfold sync_after.
      assert (Hs : wlp (sys_fsync FBad ;;; ret tt) (fun _ w3 => w_orc w3 = w_orc w1 /\ (w_tick w1 <= w_tick w3)%nat) (fun _ => True)
         (set_errno EBADF (tick w1))).
      { apply wlp_bind. unfold sys_fsync. apply wlp_bind, wlp_pull.
        apply wlp_bind, wlp_modify, wlp_ret, wlp_ret. cbn. split; [reflexivity|lia]. }
      destruct L1 as (O & T & _). apply wlp_bind.
      assert (Hs' : wlp (if cflag c F_SYNC then sys_fsync FBad ;;; ret tt else if fua then sys_fsync FBad ;;; ret tt else ret tt)
        (fun _ w3 => w_orc w3 = w_orc w1 /\ (w_tick w1 <= w_tick w3)%nat) (fun _ => True) (set_errno EBADF (tick w1))).
      { destruct (cflag c F_SYNC); [exact Hs|]. destruct fua; [exact Hs|]. apply wlp_ret. cbn. split; [reflexivity|lia]. }
      eapply wlp_mono; [exact Hs'| |auto]. intros _ w3 (O3 & T3). apply wlp_ret.
      split; [congruence|]. split; [lia|]. split; lia. }
    specialize (Hr Hh). destruct Hr as (Pr & Ho & Hmb & Hj).
    assert (Herr : forall e, wlp (modify (set_errno e);;; ret (-1)) (fun a0 w' => wlp (sync_after c h fua;;; ret a0)
       (fun k w1 => w_orc w1 = w_orc w /\ (w_tick w <= w_tick w1)%nat /\ k <= len /\
         (clean w w1 -> 0 < k ->
            (forall i v, ~ (a <= i < a + k) -> onto w i v -> onto w1 i v) /\
            (forall i, 0 <= i < k -> onto w1 (a + i) (d i)))) (fun _ => True) w') (fun _ => True) (tick w1)).
    { intros e. apply wlp_bind, wlp_modify, wlp_ret. apply Hfail; auto; cbn; lia. }
    set (r := w_orc w1 (w_tick w1)).
    assert (Hgo : wlp (if o <? 0 then modify (set_errno EINVAL) ;;; ret (-1)
      else
        let k := moved r (clamp mb len) in
        if k <=? 0 then ret k
        else
          f <- get (fun w => w_file w h) ;;
          modify (set_file h (fwrite f o k d)) ;;;
          modify (emit (EWrite h o k d)) ;;;
          ret k) (fun a0 w' => wlp (sync_after c h fua;;; ret a0)
       (fun k w1 => w_orc w1 = w_orc w /\ (w_tick w <= w_tick w1)%nat /\ k <= len /\
         (clean w w1 -> 0 < k ->
            (forall i v, ~ (a <= i < a + k) -> onto w i v -> onto w1 i v) /\
            (forall i, 0 <= i < k -> onto w1 (a + i) (d i)))) (fun _ => True) w') (fun _ => True) (tick w1)).
    { destruct (o <? 0); [apply Herr|]. cbv zeta.
      pose proof (clamp_bounds mb len Hmb ltac:(lia)) as (C1 & C2 & C3).
      pose proof (moved_le r (clamp mb len) ltac:(lia)) as Hm. set (k := moved r (clamp mb len)) in *.
      destruct (k <=? 0) eqn:Ek; [apply wlp_ret, Hfail; auto; cbn; lia|].
      apply wlp_bind, wlp_get, wlp_bind, wlp_modify, wlp_bind, wlp_modify, wlp_ret.
      set (w2 := emit (EWrite h o k d) (set_file h (fwrite (w_file (tick w1) h) o k d) (tick w1))).
      apply wlp_bind. eapply wlp_mono; [apply wlp_sync_after; exact Hh| |auto].
      intros _ w3 (O3 & T3 & X3 & _ & S3). apply wlp_ret. pose proof L1 as (O & T & P1 & ext & E1 & L1').
      assert (T2 : w_tick w2 = S (w_tick w1)) by reflexivity.
      assert (O2 : w_orc w2 = w_orc w1) by reflexivity.
      split; [congruence|]. split; [lia|]. split; [lia|]. intros Hc _.
      assert (Hc3 : clean w2 w3).
      { apply (clean_sub w w2 w3); [lia|lia|congruence|exact Hc]. }
      specialize (S3 Hc3).
      assert (Htr : w_tr w3 = ESync h :: EWrite h o k d :: w_tr w1) by (rewrite S3; reflexivity).
      assert (Hx : forall h', present w1 h' -> present w3 h').
      { intros h'. unfold present. rewrite X3. cbn. auto. }
      split.
      - intros i v Hi Hon. apply (onto_later w w1) in Hon; [|exact L1].
        destruct Hon as (h' & o' & Hl' & Hp' & Hd'). exists h', o'. split; [exact Hl'|]. split; [auto|].
        rewrite Htr. change (ESync h :: EWrite h o k d :: w_tr w1) with ([ESync h; EWrite h o k d] ++ w_tr w1).
        apply durable_later; [exact Hd'|]. constructor; [exact Logic.I|]. constructor; [|constructor].
        cbn [leaves]. destruct (fref_eq_dec h h') as [->|]; [|left; congruence]. right.
        destruct (covers o k o') eqn:Ec; [|reflexivity]. exfalso. apply Hi. unfold covers in Ec.
        assert (i = a + (o' - o)); [|lia]. apply (Hloc i (a + (o' - o)) (h', o') Hl').
        rewrite Hj by lia. do 2 f_equal. lia.
      - intros i Hi. exists h, (o + i). split; [apply Hj; lia|]. split; [auto|].
        rewrite Htr. replace (d i) with (now init (EWrite h o k d :: w_tr w1) h (o + i)); [apply durable_sync|].
        cbn [now]. destruct (fref_eq_dec h h); [|congruence].
        replace (covers o k (o + i)) with true by (unfold covers; lia). f_equal. lia. }
    destruct h; try congruence; fold r; destruct r eqn:Er; try apply Herr; exact Hgo.
  Qed.

  Lemma wlp_rawexpwrite_fully a d len w : 0 <= a -> 0 <= len -> a + len <= lim ->
    wlp (rawexpwrite_fully c a d len fua)
      (fun failed w1 => w_orc w1 = w_orc w /\ (w_tick w <= w_tick w1)%nat /\
         (failed = false -> clean w w1 -> forall i, 0 <= i < len -> onto w1 (a + i) (d i)))
      (fun _ => True) w.
  Proof.
    intros Ha Hl Hlim. unfold rawexpwrite_fully.
    apply wlp_mloop with (I := fun s w1 => let '(a1, b, l) := s in
      a1 = a + b /\ 0 <= b /\ 0 <= l /\ b + l = len /\ w_orc w1 = w_orc w /\ (w_tick w <= w_tick w1)%nat /\
      (clean w w1 -> forall i, 0 <= i < b -> onto w1 (a + i) (d i))).
    - intros [[a1 b] l] w1 (-> & Hb & Hl1 & Hbl & O1 & T1 & H1). cbn [rawexpwrite_fully_body].
      destruct (0 <? l) eqn:El.
      + apply wlp_bind. eapply wlp_mono; [apply wlp_rawexpwrite; lia| |auto].
        intros k w2 (O2 & T2 & Hk & H2). destruct (0 <? k) eqn:Ek; apply wlp_ret.
        * split; [lia|]. split; [lia|]. split; [lia|]. split; [lia|]. split; [congruence|]. split; [lia|].
          intros Hc. destruct (clean_sub w w1 w2) as [Hc1 Hc2]; auto.
          destruct (H2 Hc2 ltac:(lia)) as [H3 H4]. intros i Hi.
          destruct (i <? b) eqn:Eb.
          -- apply H3; [lia|]. apply H1; [exact Hc1|lia].
          -- replace (a + i) with (a + b + (i - b)) by lia.
             replace (d i) with (d (b + (i - b))) by (f_equal; lia). apply (H4 (i - b)). lia.
        * split; [congruence|]. split; [lia|]. discriminate.
      + apply wlp_ret. split; [exact O1|]. split; [exact T1|]. intros _ Hc i Hi. apply H1; [exact Hc|lia].
    - split; [lia|]. split; [lia|]. split; [lia|]. split; [lia|]. split; [reflexivity|]. split; [lia|]. intros; lia.
  Qed.
End Fua.
