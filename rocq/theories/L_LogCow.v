(** Replaying the data log of a copy-on-write export. *)
From Verif Require Import Base M_Const M_Disk M_Tree M_Raw M_Setup M_Log L_Wp L_Raw S_Wire S_Disk L_Wire L_Req L_Session L_Setup L_PlainS L_Gen L_Frame L_Props
  S_Cow L_Cow L_CowS L_CowP S_Par S_Byte S_Log L_Log L_LogP.

Lemma execute_app c a b w : execute c (a ++ b) w =
  match execute c a w with Ret _ w' => execute c b w' | Ub => Ub | Die w' => Die w' | Stuck => Stuck end.
Proof.
  revert w. induction a as [|q a IH]; intros w; [reflexivity|]. cbn [app execute]. unfold bind.
  destruct ((if q_cmd q =? 1 then receive_payload c (mreq q) (q_data q) else ret PNone) w) as [p w'| |w'|]; try reflexivity.
  destruct (handle_request c (mreq q) p w') as [u w''| |w''|]; try reflexivity. apply IH.
Qed.

(** requests only add to what was sent *)
Lemma execute_sends c qs w w' : cflag c F_TREEFILES = false -> cflag c F_COPYONWRITE = true -> cflag c F_SPLICE = false ->
  execute c qs w = Ret tt w' -> exists m, sent w' = sent w ++ m.
Proof.
  intros Ft Fc Fs E. set (I := fun v : world => exists m, sent v = sent w ++ m).
  assert (K : keeps I (execute c qs)).
  { apply k_execute with (okf := fun _ => True); try (intros; exact H); auto.
    - intros e v _ [m H]. unfold I, sent in *. cbn [emit w_tr]. destruct e; cbn [sends]; try (exists m; exact H).
      rewrite H, <- app_assoc. eexists. reflexivity.
    - apply keeps_get_array. exact Ft. }
  specialize (K w ltac:(exists []; now rewrite app_nil_r)). unfold wlp in K. rewrite E in K. exact K.
Qed.

Lemma cow_replay flags expected ms s w namelen structured tls qs tail e w1 r w2 msgs h lf log ents last bs max pw :
  setupexport flags expected ms = SetupOk s -> 0 <= expected -> cow_flags flags ->
  no_empty_member flags ms -> backed flags ms s w -> sizes_ok w -> no_eof (w_orc w) -> su_size s <= 4294967296 ->
  let c := client_of s namelen structured tls in
  copyonwrite_prepare c w = Ret true w1 ->
  Forall wreq_ok qs -> Forall (fun q => q_type q <> 2) qs -> stops tail e ->
  cow_fine_all (su_size s) (bad_write c) structured qs ->
  run c (concat (map encode qs) ++ tail) w1 = Ret r w2 -> sent w2 = sent w ++ msgs ->
  answers qs (concat msgs) = Some (h, []) -> all_done h ->
  parse_log lf true log = Some ents -> log_requests ents = map (logged true) (qs ++ last) ->
  Forall (fun q => q_cmd q = 2) last -> simple_only ents ->
  0 < bs -> (forall k, 0 < pw k) -> Forall (replayable bs) (qs ++ last) ->
  blocks_in bs (qs ++ last) < max -> max <= 18446744073709551615 ->
  exists s', trplay bs max pw (datalog_mark ++ log) (disk_of s w) = TExit 0 s' /\
    history (su_size s) (bad_write c) (disk_of s w) h (t_img s').
Proof.
  intros Hset Hexp Hfl Hne Hb Hok Heof Hsmall c Hprep Hq Hnd Hstop Hfine Hrun Hsent Hans Hdone Hlog Hreq Hlast Hso Hbs Hp Hrep Hbl Hmx.
  destruct (cow_plain_session flags expected ms s w namelen structured tls qs tail e w1 Hset Hexp Hfl Hne Hb Hok Heof Hsmall Hprep Hq Hnd Hstop Hfine)
    as [(w2' & msgs' & h' & d & E1 & E2 & E3 & E4 & _)
       |(qs1 & q & qs2 & w2' & w3 & m1 & h1 & d & err & Eq & Hcmd & Herr & R1 & R2 & S1 & A1 & _ & _ & S3)].
  - pose proof (answers_reqs _ _ _ _ Hans) as Hm. fold c in E1, E4. rewrite Hrun in E1. injection E1 as _ <-.
    assert (msgs' = msgs) by (rewrite Hsent in E2; apply app_inv_head in E2; congruence). subst msgs'.
    specialize (E3 []). rewrite app_nil_r, Hans in E3. injection E3 as <-.
    destruct (replay_sequential _ _ _ _ h lf log ents last bs max pw E4 Hdone Hlog) as (s' & T & D); rewrite ?Hm; try assumption.
    exists s'. split; [exact T|]. eapply history_ext; [exact E4|reflexivity|intros i; symmetry; apply D].
  - exfalso. fold c in R1, R2. subst qs.
    destruct Hfl as (Ft & Fw & Fc & Fs & Fp).
    assert (Cf : forall f, flag F_AUTOREADONLY f = false -> flag F_READONLY f = false -> cflag c f = flag flags f).
    { intros f F1 F2. unfold cflag, c, client_of. cbn [c_flags]. apply (setup_flags flags expected ms s); auto. }
    apply Forall_app in Hq as [Q1 Q2]. apply Forall_app in Hnd as [N1 N2]. inversion Q2 as [|? ? Qq Q3]; inversion N2 as [|? ? Nq N3]; subst.
    rewrite <- (app_nil_r (concat (map encode (qs1 ++ [q])))) in R2.
    rewrite (run_execute c (qs1 ++ [q]) [] StopCut) in R2;
      [|apply Forall_app; auto|apply Forall_app; auto|apply stop_short; reflexivity].
    unfold bind in R2. destruct (execute c (qs1 ++ [q]) w1) as [[] w3'| |?|] eqn:X; try discriminate R2. injection R2 as ->.
    replace (qs1 ++ q :: qs2) with ((qs1 ++ [q]) ++ qs2) in Hrun, Hans by (rewrite <- app_assoc; reflexivity).
    rewrite (run_execute c ((qs1 ++ [q]) ++ qs2) tail e) in Hrun;
      [|repeat (apply Forall_app; split); auto|repeat (apply Forall_app; split); auto|exact Hstop].
    unfold bind in Hrun. rewrite execute_app, X in Hrun. destruct (execute c qs2 w3) as [[] w4| |?|] eqn:Y; try discriminate Hrun.
    injection Hrun as _ ->.
    destruct (execute_sends c qs2 w3 w2) as [m2 M2]; try (rewrite Cf by reflexivity; assumption); [exact Y|].
    assert (Em : msgs = m1 ++ simple_reply (q_cookie q) err [] :: m2).
    { apply (app_inv_head (sent w)). rewrite <- Hsent, M2, S3, S1, <- !app_assoc. reflexivity. }
    rewrite Em, concat_app in Hans. cbn [concat] in Hans. rewrite <- app_assoc in Hans. cbn [app] in Hans.
    assert (G : forall l z g y, answers (qs1 ++ l) (concat m1 ++ z) = Some (g, y) -> exists g1 g2, g = g1 ++ g2 /\ answers l z = Some (g2, y)).
    { clear - A1. intros l z g y Hg. specialize (A1 z). revert A1 Hg. generalize (concat m1 ++ z). revert h1 g. induction qs1 as [|x qs1 IH]; intros h1 g u A1 Hg.
      - cbn [answers app] in A1, Hg. injection A1 as _ ->. exists [], g. auto.
      - cbn [answers app] in A1, Hg. destruct (read_answer _ _ _ u) as [[a u1]|]; [|discriminate A1].
        destruct (answers qs1 u1) as [[k v]|] eqn:K; [|discriminate A1]. injection A1 as _ ->.
        destruct (answers (qs1 ++ l) u1) as [[k2 v2]|] eqn:K2; [|discriminate Hg]. injection Hg as <- ->.
        destruct (IH k k2 u1 K K2) as (g1 & g2 & -> & B). exists ((x, a) :: g1), g2. auto. }
    destruct (G _ _ _ _ Hans) as (g1 & g2 & Eg & B). cbn [answers] in B.
    rewrite read_answer_simple_err in B; [|apply Qq|exact Herr].
    destruct (answers qs2 (concat m2)) as [[k v]|]; [|discriminate B]. injection B as <- _.
    destruct (Hdone q (Err err)) as [[data D] _]; [rewrite Eg; apply in_or_app; right; now left|discriminate D].
Qed.
(** a READ at the end of a history gives the final disk *)
Lemma history_last_read size ro d h q data d' : history size ro d (h ++ [(q, Ok data)]) d' -> q_cmd q = 0 -> data = bytes_at d' (q_from q) (q_len q).
Proof.
  revert d. induction h as [|[q0 a0] h IH]; intros d H Hc; cbn [app] in H; inversion H as [|? ? ? d1 ? ? F H' X]; subst; [|eauto].
  inversion H' as [? ? U|]; subst. destruct F as [F1 F2].
  destruct (Z_lt_dec (q_flags q) 4) as [K|K]; [|destruct (F1 K) as [E _]; discriminate E].
  destruct (F2 K) as [F3 _]. destruct (F3 Hc) as (U1 & O1 & I1).
  destruct (Z_le_dec (q_from q + q_len q) size) as [J|J]; [|specialize (O1 J); discriminate O1].
  destruct (I1 J) as [E|(e & _ & E)]; [|discriminate E]. injection E as ->. rewrite !slice_bytes_at. apply slice_ext. intros i _. rewrite (U i). symmetry. apply U1.
Qed.
