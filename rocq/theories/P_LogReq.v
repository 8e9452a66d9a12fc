(** C103 for the requests of a client: which of them leave the log locked. *)
From Verif Require Import Base M_Const M_Raw M_LogShare S_LogShare L_LogShare P_LogShare M_LogReq.
Local Open Scope list_scope.

(** what the log is locked by after a request: its data is to be logged, and its magic is
    wrong or its data has not come *)
Definition keeps_lock (flags : Z) (hdr : list Z) (data : option (list Z)) : Prop :=
  (unbe (firstn 4 (skipn 4 hdr)) mod 65536 = 1 /\ flag flags 131072 = true /\ flag flags 32768 = false) /\
  (unbe (firstn 4 hdr) <> 0x25609513 \/ data = None).
Lemma logs_data_spec flags hdr : logs_data flags hdr = true <->
  unbe (firstn 4 (skipn 4 hdr)) mod 65536 = 1 /\ flag flags 131072 = true /\ flag flags 32768 = false.
Proof.
  unfold logs_data, cmd_of, decode_request, NBD_CMD_WRITE, F_DATALOG, F_SPLICE. cbn [snd rq_type]. rewrite !andb_true_iff, Z.eqb_eq, negb_true_iff. tauto.
Qed.

(** A request whose turn it is leaves the semaphore as it was, unless it is one of those;
    then it has taken one off. *)
Theorem C103_request : forall s flags c l hdr data,
  ls_conn s c = Some l -> l_hold l = false -> 0 < ls_val s (l_sem l) ->
  exists s', lrun s (request_events flags c hdr data) = Some s' /\
    (~ keeps_lock flags hdr data -> forall n, ls_val s' n = ls_val s n) /\
    (keeps_lock flags hdr data -> ls_val s' (l_sem l) = ls_val s (l_sem l) - 1 /\ forall m, ls_conn s' c = Some m -> l_hold m = true) /\
    (unbe (firstn 4 hdr) = 0x25609513 -> exists m, ls_conn s' c = Some m) /\
    (unbe (firstn 4 hdr) <> 0x25609513 -> ls_conn s' c = None) /\
    ls_name s' = ls_name s.
Proof.
  intros s flags c l hdr data Hc Hh Hv. unfold request_events. pose proof (logs_data_spec flags hdr) as LD.
  change (fst (decode_request hdr)) with (unbe (firstn 4 hdr)). unfold keeps_lock, NBD_REQUEST_MAGIC.
  destruct (logs_data flags hdr) eqn:EL; destruct (Z.eqb_spec (unbe (firstn 4 hdr)) 0x25609513) as [EM|EM]; cbn [negb]; destruct data as [d|];
    cbn [app lrun lstep]; rewrite Hc; destruct (Z.ltb_spec 0 (ls_val s (l_sem l))) as [_|]; try lia;
    repeat (cbn [lrun lstep is_open ls_conn l_hold l_sem l_pos ls_val ls_name ls_file]; unfold is_open, set_conn; rewrite ?Nat.eqb_refl);
    eexists; (split; [reflexivity|]); cbn [ls_conn ls_val ls_name]; unfold set_val; cbn [ls_val]; rewrite ?Nat.eqb_refl;
    (split; [intros K|split; [intros K|split; [intros E|split; [intros E|reflexivity]]]]); try contradiction;
    try (exfalso; apply K; split; [apply LD; reflexivity|tauto]);
    try (exfalso; destruct K as [K1 [K2|K2]]; [contradiction|discriminate K2]);
    try (exfalso; destruct K as [K1 _]; apply LD in K1; discriminate K1);
    try (intros n; destruct (Nat.eqb_spec n (l_sem l)); [subst; lia|reflexivity]);
    try (split; [reflexivity|]; intros m Em; first [discriminate Em|injection Em as <-; reflexivity]);
    eauto.
Qed.
Print Assumptions C103_request.
(** the header of a read, of a write, and of one with a wrong magic *)
Definition hread : list Z := [37; 96; 149; 19; 0; 0; 0; 0; 1; 2; 3; 4; 5; 6; 7; 8; 0; 0; 0; 0; 0; 0; 0; 0; 0; 0; 0; 4].
Definition hwrite : list Z := [37; 96; 149; 19; 0; 0; 0; 1; 1; 2; 3; 4; 5; 6; 7; 8; 0; 0; 0; 0; 0; 0; 0; 0; 0; 0; 0; 4].
Definition hwrong : list Z := [0; 0; 0; 0; 0; 0; 0; 1; 0; 0; 0; 0; 0; 0; 0; 0; 0; 0; 0; 0; 0; 0; 0; 0; 0; 0; 0; 0].
Example C103_request_cases :
  let s := linit [] in let o := LOpen 0 [] in
  let v es := option_map (fun s => (ls_val s 0%nat, zlen (ls_file s))) (lrun s (o :: es)) in
  v (request_events F_DATALOG 0 hread None) = Some (1, 28) /\
  v (request_events F_DATALOG 0 hwrite (Some [1; 2; 3; 4])) = Some (1, 32) /\
  v (request_events F_DATALOG 0 hwrite None) = Some (0, 28) /\
  v (request_events F_DATALOG 0 hwrong None) = Some (0, 28) /\
  v (request_events 0 0 hwrong None) = Some (1, 28) /\
  v (request_events (F_DATALOG + F_SPLICE) 0 hwrite None) = Some (1, 28).
Proof. vm_compute. repeat split. Qed.

(** While no connection has ended in order, a client that sends one of those requests keeps
    all others from the log: none of their requests gets its turn. *)
Theorem C103_one_client_stops_all : forall old es s flags c l hdr data s1 more s2,
  lrun (linit old) es = Some s -> Forall (fun e => ~ ends e) es ->
  ls_conn s c = Some l -> l_hold l = false -> keeps_lock flags hdr data -> unbe (firstn 4 hdr) = 0x25609513 ->
  lrun s (request_events flags c hdr data) = Some s1 ->
  Forall (fun e => ~ ends e /\ (of e = c -> e = LDie c)) more -> lrun s1 more = Some s2 -> Forall (fun e => ~ locks e) more.
Proof.
  intros old es s flags c l hdr data s1 more s2 H F Hc Hh K EM R G R2.
  assert (V : 0 < ls_val s (l_sem l)).
  { unfold request_events in R. cbn [app lrun lstep] in R. rewrite Hc in R. destruct (Z.ltb_spec 0 (ls_val s (l_sem l))); [lia|discriminate R]. }
  destruct (C103_request s flags c l hdr data Hc Hh V) as (s' & R' & _ & K2 & M & _). rewrite R in R'. injection R' as <-.
  destruct (M EM) as [m Em]. destruct (K2 K) as [_ Hm].
  refine (C103_blocked old (es ++ request_events flags c hdr data) s1 c m more s2 _ _ Em (Hm _ Em) G R2).
  - clear - H R. revert H. generalize (linit old). induction es as [|e es IH]; intros s0 H; cbn [lrun app] in *; [now injection H as ->|]. destruct (lstep s0 e); [auto|discriminate H].
  - apply Forall_app. split; [exact F|]. unfold request_events. destruct (logs_data flags hdr), (negb _), data; repeat constructor; intros [].
Qed.
Print Assumptions C103_one_client_stops_all.
Example C103_one_client_case :
  keeps_lock F_DATALOG hwrite None /\ unbe (firstn 4 hwrite) = 0x25609513 /\
  exists s, lrun (linit []) (LOpen 0 [] :: LOpen 1 [] :: request_events F_DATALOG 1 hread None ++ request_events F_DATALOG 0 hwrite None) = Some s /\ lstep s (LLock 1) = None.
Proof. split; [vm_compute; repeat split; now right|]. split; [reflexivity|]. eexists. split; vm_compute; reflexivity. Qed.

(** Twenty-eight bytes stop the export for good: with no connection left, whoever opens the
    log afterwards does not get its lock. *)
Theorem C103_wrong_magic_refuted : exists flags hdr s, length hdr = 28%nat /\
  lrun (linit []) (LOpen 0 [] :: request_events flags 0 hdr None) = Some s /\ (forall c, ls_conn s c = None) /\
  forall more s', lrun s more = Some s' -> Forall (fun e => ~ ends e) more -> Forall (fun e => ~ locks e) more.
Proof.
  exists F_DATALOG, hwrong. eexists. split; [reflexivity|]. split; [vm_compute; reflexivity|]. split; [intros c; cbn; now destruct c|].
  intros more s' H F. eapply none_run; [|exact F|exact H]. exists 0%nat. split; [reflexivity|]. split; [vm_compute; discriminate|].
  intros d l Hd. exfalso. cbn in Hd. destruct d; discriminate Hd.
Qed.
Print Assumptions C103_wrong_magic_refuted.
