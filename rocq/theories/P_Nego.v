(** Properties of the negotiation phase: C37 to C45, C66. *)
From Coq Require Import String.
From Verif Require Import Base M_Const M_Disk M_Tree M_Raw M_Setup M_Io M_Acl M_Nego S_Nego L_Nego L_NegoTls L_NegoServe L_NegoLoop L_NegoOpt.
Open Scope list_scope.

(** Example surroundings: two exports "a" (size 5000, prerun command) and "b"
    (size 7000, TLS only), one "c" that admits nobody. *)
Definition demo_env : nenv := mkE (fun _ => None) (V4 [10;0;0;1]) false true (fun _ => true) (fun _ => 89) (fun _ => true).
Definition file_of (n : Z) : list member := [mkMem true true n].
Definition xa : export := mkX [97] F_FLUSH None 0 true (file_of 5000).
Definition xb : export := mkX [98] (Z.lor F_FORCEDTLS F_READONLY) None 0 false (file_of 7000).
Definition xc : export := mkX [99] 0 (Some (Some [])) 0 false (file_of 100).
Definition demo_exports : list export := [xa; xb; xc].
Definition option_bytes (opt : Z) (payload : list Z) : list Z := be 8 OPTS_MAGIC ++ be 4 opt ++ be 4 (zlen payload) ++ payload.
Definition go (opt : Z) (name : list Z) : list Z := option_bytes opt (info_payload name [] 0).
Definition start (cflags : Z) : list Z := be 4 cflags.

(** ** C37: entering an export *)
(** Whatever bytes arrive: if transmission is entered for export number [i] then
    the last option received asks for the [i]-th export of the configuration by
    its exact name; the parent allowed another connection for it (or the
    process does not fork, or the parent had already been asked on this
    connection, see below); its authorization file admits the client; the
    prerun command, if there is one, succeeded; its files were opened; in this
    order, and nothing else happened since but messages to the client. *)
Theorem C37_entry_is_authorized_partial :
  forall E l glob plain secure i s, Forall is_byte plain -> Forall is_byte secure ->
    negotiate E (fresh l glob plain secure) = NRet (Some i) s ->
    exists e name pre sel before parent seg sends,
      nth_error l i = Some e /\ x_name e = cstr name /\ selects name sel /\
      (if n_tls s then secure else plain) = pre ++ be 8 OPTS_MAGIC ++ sel ++ n_in s /\
      n_tr s = before ++ seg ++ sends /\ granted i e parent seg /\ Forall is_send sends /\
      authorized_client (e_gai E) (x_auth e) (e_peer E) = AYes /\
      (asked E e parent \/ exists v nm a, parent = [NStale v] /\ v <> 78 /\ v <> 88 /\ In (NParent nm a) before).
Proof.
  intros E l glob plain secure i s Hp Hs H. apply negotiate_enters in H; [|exact Hp|exact Hs].
  destruct H as (cf & rest0 & pre & name & sel & e0 & e & parent & before & seg & sends & su & A1 & A2 & A3 & A4 & A5 & A6 & A7 & A8 & A9 & A10 & A11 & A12 & A13 & _).
  exists e0, name, (if n_tls s then pre else be 4 cf ++ pre), sel, before, parent, seg, sends.
  repeat (split; [assumption|]). split; [destruct (n_tls s); [exact A3|rewrite A1, A3, <- app_assoc; reflexivity]|]. auto 10.
Qed.
Print Assumptions C37_entry_is_authorized_partial.

Example C37_demo :
  match negotiate demo_env (fresh demo_exports 0 (start 3 ++ go 6 [97] ++ go 7 [97] ++ [1;2;3]) []) with
  | NRet (Some i) s => i = 0%nat /\ n_in s = [1;2;3] /\ In (NParent [97] 89) (n_tr s) /\ In (NPrerun 0 true) (n_tr s) /\ In (NOpen 0 true) (n_tr s)
  | _ => False
  end.
Proof. vm_compute. repeat split; auto 20. Qed.

(** The limit is not checked when a first GO was refused after the parent had been
    asked: here "c" admits nobody, and the second GO enters "a" although the
    parent was never asked about "a" (nbd-server.c:2302-2315: commsocket is
    closed and the answer variable is not set). *)
Theorem C37_limit_bypass_refuted :
  exists E l plain s, Forall is_byte plain /\ e_dontfork E = false /\
    negotiate E (fresh l 0 plain []) = NRet (Some 0%nat) s /\
    ~ exists v, In (NParent (x_name (nth_export 0 s)) v) (n_tr s).
Proof.
  exists demo_env, demo_exports, (start 3 ++ go 7 [99] ++ go 7 [97]).
  eexists. split; [vm_compute; repeat (constructor; [split; discriminate || reflexivity|]); constructor|].
  split; [reflexivity|]. split; [vm_compute; reflexivity|].
  intros (v & Hv). cbn in Hv. repeat (destruct Hv as [Hv|Hv]; [discriminate|]). exact Hv.
Qed.
Print Assumptions C37_limit_bypass_refuted.

(** negotiation comes to an end on every finite input *)
Theorem C37_negotiation_ends :
  forall E l glob plain secure, negotiate E (fresh l glob plain secure) <> NStuck.
Proof. exact negotiate_ends. Qed.
Print Assumptions C37_negotiation_ends.

(** ** C38: forced TLS *)
(** Every piece of a message that leaves in clear, whatever the client sends and
    however negotiation ends: if TLS is forced, it is a greeting or an error
    (or the acknowledgement of STARTTLS); otherwise it says nothing about an
    export that is restricted to TLS. *)
Theorem C38_nothing_leaks_in_clear :
  forall E l glob plain secure tr v b,
    trace_of (negotiate E (fresh l glob plain secure)) = Some tr -> In v tr -> in_clear v b ->
    if flag glob F_FORCEDTLS then neutral b else about_visible l b.
Proof. exact negotiate_clear. Qed.
Print Assumptions C38_nothing_leaks_in_clear.

Theorem C38_no_entry_without_tls :
  forall E l glob plain secure i s, Forall is_byte plain -> Forall is_byte secure ->
    negotiate E (fresh l glob plain secure) = NRet (Some i) s -> n_tls s = false ->
    flag glob F_FORCEDTLS = false /\ exists e, nth_error l i = Some e /\ flag (x_flags e) F_FORCEDTLS = false /\ ~ In NTls (n_tr s).
Proof.
  intros E l glob plain secure i s Hp Hs H Ht. destruct (negotiate_serves _ _ _ _ _ _ _ H) as (A & B & _).
  split; [destruct (flag glob F_FORCEDTLS); [specialize (A eq_refl); congruence|reflexivity]|].
  apply negotiate_enters in H; [|exact Hp|exact Hs].
  destruct H as (cf & rest0 & pre & name & sel & e0 & e & parent & before & seg & sends & su & A1 & A2 & A3 & A4 & A5 & A6 & A7 & A8 & _).
  exists e0. split; [exact A5|]. unfold hidden in A8. rewrite Ht in *. cbn [negb] in A8. rewrite andb_true_r in A8. split; [exact A8|].
  unfold shape in B. intros K. rewrite Forall_forall in B. exact (B _ K).
Qed.
Print Assumptions C38_no_entry_without_tls.

(** without TLS "b" is unknown by EXPORT_NAME, refused by GO and not listed; with
    TLS it is entered *)
Example C38_demo :
  match negotiate demo_env (fresh demo_exports F_LIST (start 3 ++ go 7 [98] ++ option_bytes OPT_LIST [] ++ option_bytes OPT_STARTTLS []) (go 7 [98])) with
  | NRet (Some i) s => i = 1%nat /\ n_tls s = true /\ In (NSend false (text "TLS is required for that export")) (n_tr s) /\
      In (NSend false (be 4 1 ++ [97])) (n_tr s) /\ existsb (fun v => match v with NSend false b => if list_eq_dec Z.eq_dec b (be 4 1 ++ [98]) then true else false | _ => false end) (n_tr s) = false
  | _ => False
  end /\
  match negotiate demo_env (fresh demo_exports F_FORCEDTLS (start 3 ++ go 7 [97] ++ option_bytes OPT_STARTTLS []) (go 7 [97])) with
  | NRet (Some i) s => i = 0%nat /\ n_tls s = true /\ In (NSend false (text "TLS is required on this server")) (n_tr s)
  | _ => False
  end.
Proof. vm_compute. repeat split; auto 60. Qed.

(** ** C39: STARTTLS resets what was negotiated *)
(** In a session inside TLS the option that chose the export arrived inside TLS,
    and if structured replies are in effect then they were agreed to after TLS
    was established. *)
Theorem C39_nothing_survives_starttls :
  forall E l glob plain secure i s, Forall is_byte plain -> Forall is_byte secure ->
    negotiate E (fresh l glob plain secure) = NRet (Some i) s -> n_tls s = true ->
    (exists name sel pre, selects name sel /\ secure = pre ++ be 8 OPTS_MAGIC ++ sel ++ n_in s) /\
    exists t1 t2, n_tr s = t1 ++ NTls :: t2 /\ ~ In NTls t1 /\ ~ In NTls t2 /\
      (n_struct s = true -> In (NSend true (optreply OPT_STRUCTURED REP_ACK 0)) t2).
Proof.
  intros E l glob plain secure i s Hp Hs H Ht. destruct (negotiate_serves _ _ _ _ _ _ _ H) as (_ & B & C & _).
  apply negotiate_enters in H; [|exact Hp|exact Hs].
  destruct H as (cf & rest0 & pre & name & sel & e0 & e & parent & before & seg & sends & su & A1 & A2 & A3 & A4 & _).
  rewrite Ht in *. split; [exists name, sel, pre; auto|]. destruct B as (t1 & t2 & T & F1 & F2). exists t1, t2.
  rewrite Forall_forall in F1, F2.
  split; [exact T|]. split; [intros K; exact (F1 _ K)|]. split; [intros K; exact (F2 _ K)|].
  intros Hn. specialize (C Hn). rewrite T in C. apply in_app_iff in C. destruct C as [C|[C|C]]; [|discriminate|exact C].
  specialize (F1 _ C). discriminate.
Qed.
Print Assumptions C39_nothing_survives_starttls.

(** structured replies agreed to in clear are gone after STARTTLS *)
Example C39_demo :
  match negotiate demo_env (fresh demo_exports 0 (start 3 ++ option_bytes OPT_STRUCTURED [] ++ option_bytes OPT_STARTTLS []) (go 7 [97])) with
  | NRet (Some i) s => i = 0%nat /\ n_tls s = true /\ n_struct s = false /\ In (NSend false (optreply OPT_STRUCTURED REP_ACK 0)) (n_tr s)
  | _ => False
  end /\
  match negotiate demo_env (fresh demo_exports 0 (start 3 ++ option_bytes OPT_STARTTLS []) (option_bytes OPT_STRUCTURED [] ++ go 7 [97])) with
  | NRet (Some i) s => n_struct s = true
  | _ => False
  end.
Proof. vm_compute. repeat split; auto 60. Qed.

(** ** C40: framing of options *)
(** Every option (other than EXPORT_NAME, ABORT and an accepted STARTTLS) whose
    payload has the form the protocol gives it, any payload for options the
    server does not know: exactly the declared length is read and exactly one
    final reply is sent, with the option's number.  Environment: writes succeed,
    memory is available, files well behaved ([healthy]). *)
Theorem C40_options_framed_partial :
  forall E s opt payload rest, healthy E (n_exports s) ->
    n_in s = be 4 (zlen payload) ++ payload ++ rest -> zlen payload < 2 ^ 32 -> proper opt payload ->
    opt <> OPT_EXPORT_NAME -> opt <> OPT_ABORT -> (opt = OPT_STARTTLS -> n_tls s = true \/ e_key E = false) ->
    e_ok E (n_tick s) = true ->
    exists t s' evs, do_option E opt s = NRet t s' /\ t <> Closed /\
      n_in s' = rest /\ n_tr s' = n_tr s ++ evs /\ answered opt (sent_bytes evs).
Proof.
  intros E s opt payload rest Hh H Hp Pr N1 N2 N5 Hm.
  destruct (option_done E (n_exports s) Hh opt s payload rest H Hp Pr N1 N2 N5 Hm eq_refl) as (t & s' & A & B & C & b & (evs & D1 & D2) & D3).
  exists t, s', evs. subst b. auto.
Qed.
Print Assumptions C40_options_framed_partial.

Example C40_demo :
  healthy demo_env demo_exports /\
  proper 77 [1;2;3] /\ proper OPT_LIST [] /\ proper OPT_GO (info_payload [97] [0;0;0;3] 2) /\
  match do_option demo_env OPT_GO (fresh demo_exports 0 (be 4 (zlen (info_payload [97] [0;0;0;3] 2)) ++ info_payload [97] [0;0;0;3] 2 ++ [9;9]) []) with
  | NRet t s => t = Serve 0 /\ n_in s = [9;9]
  | _ => False
  end /\
  match do_option demo_env 77 (fresh demo_exports 0 (be 4 3 ++ [1;2;3] ++ [9;9]) []) with
  | NRet t s => t = Again /\ n_in s = [9;9] /\
      sent_bytes (n_tr s) = reply_msg 77 REP_ERR_UNSUP (text "The given option is unknown to this server implementation")
  | _ => False
  end.
Proof.
  split.
  { split; [reflexivity|]. repeat (constructor; [vm_compute; repeat split; discriminate|]). constructor. }
  split; [split; [discriminate|intros [K|K]; discriminate]|].
  split; [split; [reflexivity|intros [K|K]; discriminate]|].
  split; [split; [discriminate|intros _; exists [97], [0;0;0;3], 2; repeat split; vm_compute; discriminate]|].
  split; vm_compute; auto.
Qed.

(** A LIST with data is answered twice and its data is taken for the next option
    (nbd-server.c:2407-2413). *)
Theorem C40_list_with_data_refuted :
  exists E s payload rest s' t, healthy E (n_exports s) /\ n_in s = be 4 (zlen payload) ++ payload ++ rest /\
    do_option E OPT_LIST s = NRet t s' /\ n_in s' <> rest /\
    exists t1 d1 t2 d2, sent_bytes (n_tr s') = reply_msg OPT_LIST t1 d1 ++ reply_msg OPT_LIST t2 d2 /\ t1 = REP_ERR_INVALID /\ t2 = REP_ERR_POLICY.
Proof.
  exists demo_env, (fresh demo_exports 0 (be 4 2 ++ [1;2] ++ [9;9]) []), [1;2], [9;9].
  eexists _, _. split; [exact (proj1 C40_demo)|]. split; [reflexivity|]. split; [vm_compute; reflexivity|]. split; [discriminate|].
  exists REP_ERR_INVALID, (text "NBD_OPT_LIST with nonzero data length is not a valid request"), REP_ERR_POLICY, (text "Listing of exports denied by server configuration").
  split; [vm_compute; reflexivity|]. split; reflexivity.
Qed.
Print Assumptions C40_list_with_data_refuted.

(** An INFO whose name length exceeds its declared length is answered with an error,
    its declared length is skipped, and then the server goes on to read a name
    and more from what follows (nbd-server.c:2567-2590). *)
Theorem C40_info_bad_length_refuted :
  exists E s payload rest s' t, healthy E (n_exports s) /\ n_in s = be 4 (zlen payload) ++ payload ++ rest /\
    do_option E OPT_INFO s = NRet t s' /\ zlen (n_in s') < zlen rest.
Proof.
  exists demo_env, (fresh demo_exports 0 (be 4 6 ++ (be 4 1 ++ [0;0]) ++ repeat 0 20) []), (be 4 1 ++ [0;0]), (repeat 0 20).
  eexists _, _. split; [exact (proj1 C40_demo)|]. split; [reflexivity|]. split; [vm_compute; reflexivity|]. vm_compute. reflexivity.
Qed.
Print Assumptions C40_info_bad_length_refuted.

(** ** C41: INFO/GO and memory *)
(** All requests: undefined behaviour only with name length 2^32-1, or (GO) from
    the authorization file or the export's files. *)
Theorem C41_info_memory_safe_partial :
  forall E opt s s', Forall is_byte (n_in s) -> handle_info E opt s = NUb s' ->
    (exists b r, n_in s = b ++ be 4 4294967295 ++ r /\ zlen b = 4) \/
    (opt = OPT_GO /\ exists e, (e = no_export \/ In e (n_exports s)) /\
       (authorized_client (e_gai E) (x_auth e) (e_peer E) = AUb \/ setupexport (x_flags e) (x_expected e) (x_files e) = SetupUb)).
Proof.
  intros E opt s s' Hb H. destruct (info_ub E opt s s' Hb H) as [K|(K1 & i & K2)]; [left; exact K|]. right. split; [exact K1|].
  exists (nth_export i s). split; [|exact K2]. unfold nth_export. destruct (nth_in_or_default i (n_exports s) no_export); auto.
Qed.
Print Assumptions C41_info_memory_safe_partial.

Example C41_demo :
  match handle_info demo_env OPT_INFO (fresh demo_exports 0 (be 4 5 ++ be 4 100 ++ repeat 65 100 ++ [0;1;0;0] ++ [7]) []) with
  | NRet None s => n_in s = [7]
  | _ => False
  end /\
  match handle_info demo_env OPT_INFO (fresh demo_exports 0 (be 4 8 ++ be 4 2 ++ [97;0] ++ [0;0] ++ [1]) []) with
  | NRet (Some i) s => i = 0%nat /\ n_in s = [1]
  | _ => False
  end.
Proof. vm_compute. auto. Qed.

(** With declared length 5 and name length 2^32-1 neither check refuses to go on:
    malloc(namelen + 1) is malloc(0) and the name is read into it
    (nbd-server.c:2566-2585). *)
Theorem C41_info_overflow_refuted :
  exists E s s', Forall is_byte (n_in s) /\ handle_info E OPT_INFO s = NUb s'.
Proof.
  set (big := repeat 0 (Z.to_nat 4294967295)).
  assert (Lb : zlen big = 4294967295) by (unfold big, zlen; rewrite repeat_length; lia).
  assert (Bb : Forall is_byte big) by (apply Forall_forall; intros x Hx; apply repeat_spec in Hx; subst x; unfold is_byte; lia).
  clearbody big.
  destruct (info_overflow demo_env demo_exports (proj1 C40_demo) 4294967295 big
    (fresh demo_exports 0 (be 4 5 ++ be 4 4294967295 ++ big) []) eq_refl Lb eq_refl (fun _ => eq_refl)) as (s' & H).
  exists demo_env, (fresh demo_exports 0 (be 4 5 ++ be 4 4294967295 ++ big) []), s'. split; [|exact H].
  cbn [n_in fresh]. apply Forall_app. split; [repeat (constructor; [vm_compute; split; discriminate || reflexivity|]); constructor|].
  apply Forall_app. split; [repeat (constructor; [vm_compute; split; discriminate || reflexivity|]); constructor|exact Bb].
Qed.
Print Assumptions C41_info_overflow_refuted.

(** ** C42: EXPORT_NAME and GO *)
Theorem C42_same_export_partial :
  forall tls name l, NoDup (map x_name l) -> fst (find_last tls name 0 l (None, false)) = find_first tls name 0 l.
Proof. intros. apply finds_agree. assumption. Qed.
Print Assumptions C42_same_export_partial.

Example C42_demo : NoDup (map x_name demo_exports) /\ find_first true [98] 0 demo_exports = Some 1%nat /\ find_first false [98] 0 demo_exports = None.
Proof. split; [repeat constructor; cbn; intuition discriminate|]. split; reflexivity. Qed.

(** two exports of the same name: EXPORT_NAME enters the first, GO the last *)
Theorem C42_duplicates_refuted :
  exists E l plain1 plain2 i j s1 s2,
    plain1 = start 3 ++ option_bytes OPT_EXPORT_NAME [97] /\ plain2 = start 3 ++ go OPT_GO [97] /\
    negotiate E (fresh l 0 plain1 []) = NRet (Some i) s1 /\ negotiate E (fresh l 0 plain2 []) = NRet (Some j) s2 /\ i <> j.
Proof.
  exists demo_env, [xa; mkX [97] 0 None 0 false (file_of 10)], (start 3 ++ option_bytes OPT_EXPORT_NAME [97]), (start 3 ++ go OPT_GO [97]), 0%nat, 1%nat.
  eexists _, _. split; [reflexivity|]. split; [reflexivity|]. split; [vm_compute; reflexivity|]. split; [vm_compute; reflexivity|]. discriminate.
Qed.
Print Assumptions C42_duplicates_refuted.

(** ** C43: the announcement *)
Lemma announced_bits f st : let w := export_flags f st in
  0 <= w < 65536 /\ flag w NBD_FLAG_HAS_FLAGS = true /\ flag w NBD_FLAG_SEND_WRITE_ZEROES = true /\
  flag w NBD_FLAG_READ_ONLY = flag f F_READONLY /\ flag w NBD_FLAG_SEND_FLUSH = flag f F_FLUSH /\ flag w NBD_FLAG_SEND_FUA = flag f F_FUA /\
  flag w NBD_FLAG_ROTATIONAL = flag f F_ROTATIONAL /\ flag w NBD_FLAG_SEND_TRIM = flag f F_TRIM /\
  flag w NBD_FLAG_CAN_MULTI_CONN = negb (flag f F_COPYONWRITE) /\ flag w NBD_FLAG_SEND_DF = st.
Proof.
  unfold export_flags. destruct (flag f F_READONLY), (flag f F_FLUSH), (flag f F_FUA), (flag f F_ROTATIONAL), (flag f F_TRIM), (flag f F_COPYONWRITE), st;
    vm_compute; repeat split; discriminate.
Qed.
Lemma zeroes_due glob cf : flag (glob_of glob cf) F_NO_ZEROES = flag glob F_NO_ZEROES || flag cf 2.
Proof.
  unfold glob_of. destruct (flag cf 2) eqn:C; [|rewrite orb_false_r; reflexivity]. rewrite orb_true_r. unfold flag, F_NO_ZEROES.
  destruct (Z.land (Z.lor glob 4) 4 =? 0) eqn:K; [|reflexivity]. exfalso.
  assert (T : Z.testbit (Z.land (Z.lor glob 4) 4) 2 = false) by (replace (Z.land (Z.lor glob 4) 4) with 0 by lia; reflexivity).
  rewrite Z.land_spec, Z.lor_spec in T. cbn in T. rewrite orb_true_r in T. discriminate.
Qed.

(** Whatever the client sent: the session's export was announced with the size that
    the range check uses and flags [w]; read-only is announced exactly if writes
    are refused, flush, FUA, trim and rotational as configured, structured reads
    (DF) exactly if negotiated; the reserved zero bytes follow exactly if the
    option was EXPORT_NAME and the client did not set the no-zeroes flag ([cf] is
    the flag word it sent). *)
Theorem C43_announcement_matches :
  forall E l glob plain secure i s files namelen, Forall is_byte plain -> Forall is_byte secure ->
    negotiate E (fresh l glob plain secure) = NRet (Some i) s -> flag glob F_NO_ZEROES = false ->
    Forall (fun e => flag (x_flags e) F_AUTOREADONLY = true -> flag (x_flags e) F_READONLY = true) l ->
    let c := client_of i s files namelen in
    exists e cf rest pre name sel w tr msgs,
      nth_error l i = Some e /\ plain = be 4 cf ++ rest /\ (if n_tls s then secure else rest) = pre ++ be 8 OPTS_MAGIC ++ sel ++ n_in s /\
      selects name sel /\ n_tr s = tr ++ msgs /\ announces (n_tls s) (c_size c) w (negb (flag cf 2)) sel msgs /\
      0 <= w < 65536 /\ flag w NBD_FLAG_HAS_FLAGS = true /\
      flag w NBD_FLAG_READ_ONLY = bad_write c /\ (flag (x_flags e) F_READONLY = true -> bad_write c = true) /\
      flag w NBD_FLAG_SEND_FLUSH = flag (x_flags e) F_FLUSH /\ flag w NBD_FLAG_SEND_FUA = flag (x_flags e) F_FUA /\
      flag w NBD_FLAG_SEND_TRIM = flag (x_flags e) F_TRIM /\ flag w NBD_FLAG_ROTATIONAL = flag (x_flags e) F_ROTATIONAL /\
      flag w NBD_FLAG_SEND_WRITE_ZEROES = true /\ flag w NBD_FLAG_CAN_MULTI_CONN = negb (flag (x_flags e) F_COPYONWRITE) /\
      flag w NBD_FLAG_SEND_DF = c_structured c.
Proof.
  intros E l glob plain secure i s files namelen Hp Hs H Hz Ha c. destruct (negotiate_serves _ _ _ _ _ _ _ H) as (_ & _ & _ & Hx).
  apply negotiate_enters in H; [|exact Hp|exact Hs].
  destruct H as (cf & rest0 & pre & name & sel & e0 & e & parent & before & seg & sends & su & A1 & A2 & A3 & A4 & A5 & A6 & A7 & A8 & A9 & A10 & A11 & A12 & A13 & A14 & A15 & A16 & tr & msgs & A17 & A18).
  rewrite zeroes_due, Hz in A18. cbn [orb] in A18.
  assert (Dm : demoted (x_flags e0) (su_flags su)).
  { destruct A6 as (_ & _ & _ & _ & _ & D). eapply demoted_trans; [exact D|]. rewrite (setup_flags_ok _ _ _ _ A14). apply setup_flags_demoted. }
  pose proof (announced_bits (su_flags su) (n_struct s)) as W. cbv zeta in W. destruct W as (W1 & W2 & W3 & W4 & W5 & W6 & W7 & W8 & W9 & W10).
  rewrite Forall_forall in Ha. specialize (Ha e0 (nth_error_In _ _ A5)). cbv beta in Ha.
  assert (Dem : forall f, flag (Z.lor f F_READONLY) F_READONLY = true).
  { intros f. unfold flag. destruct (Z.land _ _ =? 0) eqn:K; [|reflexivity]. exfalso.
    assert (T : Z.testbit (Z.land (Z.lor f F_READONLY) F_READONLY) 0 = false) by (rewrite (proj1 (Z.eqb_eq _ _) K); reflexivity).
    rewrite Z.land_spec, Z.lor_spec in T. change (Z.testbit F_READONLY 0) with true in T. rewrite orb_true_r in T. discriminate. }
  assert (Ro : flag (su_flags su) F_READONLY = bad_write c).
  { unfold bad_write, cflag, c, client_of. cbn [c_flags]. rewrite A16. destruct Dm as [-> | ->].
    - destruct (flag (x_flags e0) F_READONLY); [reflexivity|]. destruct (flag (x_flags e0) F_AUTOREADONLY); [|reflexivity]. discriminate (Ha eq_refl).
    - rewrite Dem. reflexivity. }
  exists e0, cf, rest0, pre, name, sel, (export_flags (su_flags su) (n_struct s)), tr, msgs.
  split; [exact A5|]. split; [exact A1|]. split; [exact A3|]. split; [exact A4|]. split; [exact A17|].
  split; [unfold c, client_of; cbn [c_size]; rewrite A15; exact A18|].
  split; [exact W1|]. split; [exact W2|]. split; [rewrite W4; exact Ro|].
  split; [intros K; rewrite <- Ro; destruct Dm as [-> | ->]; [exact K|apply Dem]|].
  split; [rewrite W5; apply (demoted_flag _ _ _ Dm); [discriminate|discriminate|exists 7; split; [lia|reflexivity]]|].
  split; [rewrite W6; apply (demoted_flag _ _ _ Dm); [discriminate|discriminate|exists 8; split; [lia|reflexivity]]|].
  split; [rewrite W8; apply (demoted_flag _ _ _ Dm); [discriminate|discriminate|exists 11; split; [lia|reflexivity]]|].
  split; [rewrite W7; apply (demoted_flag _ _ _ Dm); [discriminate|discriminate|exists 9; split; [lia|reflexivity]]|].
  split; [exact W3|].
  split; [rewrite W9; f_equal; apply (demoted_flag _ _ _ Dm); [discriminate|discriminate|exists 2; split; [lia|reflexivity]]|].
  exact W10.
Qed.
Print Assumptions C43_announcement_matches.

(** "a" by EXPORT_NAME: size 5000, flush, multi-connection, write-zeroes; then 124
    zero bytes, or none if the client set the flag *)
Example C43_demo :
  match negotiate demo_env (fresh demo_exports 0 (start 1 ++ option_bytes OPT_EXPORT_NAME [97]) []) with
  | NRet (Some i) s => i = 0%nat /\ exists tr, n_tr s = tr ++ [NSend false (be 8 5000); NSend false (be 2 325); NSend false (repeat 0 124)]
  | _ => False
  end /\
  match negotiate demo_env (fresh demo_exports 0 (start 3 ++ option_bytes OPT_EXPORT_NAME [97]) []) with
  | NRet (Some i) s => i = 0%nat /\ exists tr, n_tr s = tr ++ [NSend false (be 8 5000); NSend false (be 2 325)]
  | _ => False
  end /\
  flag 0 F_NO_ZEROES = false /\ Forall (fun e => flag (x_flags e) F_AUTOREADONLY = true -> flag (x_flags e) F_READONLY = true) demo_exports.
Proof.
  split; [|split; [|split; [reflexivity|repeat (constructor; [discriminate|]); constructor]]].
  - vm_compute. split; [reflexivity|]. eexists [_; _; _; _; _; _; _]. reflexivity.
  - vm_compute. split; [reflexivity|]. eexists [_; _; _; _; _; _; _]. reflexivity.
Qed.

(** ** C44: the size in INFO *)
(** The size reported by an INFO is the size field of the connection, whatever
    export is asked about ... *)
Theorem C44_info_reports_connection_size :
  forall E s i s', Forall is_byte (n_in s) -> handle_info E OPT_INFO s = NRet (Some i) s' ->
    n_size s' = n_size s /\
    exists tr k w, k <> O /\ n_tr s' = tr ++
      concat (repeat [NSend (n_tls s') (optreply OPT_INFO REP_INFO 12); NSend (n_tls s') (be 2 INFO_EXPORT); NSend (n_tls s') (be 8 (n_size s)); NSend (n_tls s') (be 2 w)] k) ++
      [NSend (n_tls s') (optreply OPT_INFO REP_ACK 0)].
Proof. exact info_reports_size. Qed.
Print Assumptions C44_info_reports_connection_size.

(** ... which is 0 before anything was opened: INFO about "a" (size 5000) reports
    0 (nbd-server.c:2169-2172, 2636). *)
Theorem C44_info_size_refuted :
  exists E l plain e su tr, nth_error l 0 = Some e /\ setupexport (x_flags e) (x_expected e) (x_files e) = SetupOk su /\ su_size su = 5000 /\
    trace_of (negotiate E (fresh l 0 plain [])) = Some (tr ++
      [NSend false (optreply OPT_INFO REP_INFO 12); NSend false (be 2 INFO_EXPORT); NSend false (be 8 0); NSend false (be 2 325); NSend false (optreply OPT_INFO REP_ACK 0)]) /\
    plain = start 3 ++ go OPT_INFO (x_name e).
Proof.
  exists demo_env, demo_exports, (start 3 ++ go OPT_INFO [97]), xa. eexists _, _. split; [reflexivity|]. split; [vm_compute; reflexivity|].
  split; [reflexivity|]. split; [vm_compute; apply f_equal; instantiate (1 := [_; _; _]); reflexivity|reflexivity].
Qed.
Print Assumptions C44_info_size_refuted.

Example C44_demo :
  match handle_info demo_env OPT_INFO (fresh demo_exports 0 (be 4 7 ++ be 4 1 ++ [97] ++ [0;0]) []) with
  | NRet (Some i) s => i = 0%nat /\ n_size s = 0
  | _ => False
  end.
Proof. vm_compute. auto. Qed.

(** ** C45: connections are independent *)
(** A process that forks starts every connection from the same global flags (the
    parent never negotiates); then the zero bytes depend on the client's own
    flag word only. *)
Theorem C45_zeroes_depend_on_client_partial :
  forall E l glob plain secure i s, Forall is_byte plain -> Forall is_byte secure ->
    negotiate E (fresh l glob plain secure) = NRet (Some i) s -> flag glob F_NO_ZEROES = false ->
    exists cf rest pre name sel size w tr msgs,
      plain = be 4 cf ++ rest /\ (if n_tls s then secure else rest) = pre ++ be 8 OPTS_MAGIC ++ sel ++ n_in s /\ selects name sel /\
      n_tr s = tr ++ msgs /\ announces (n_tls s) size w (negb (flag cf 2)) sel msgs.
Proof.
  intros E l glob plain secure i s Hp Hs H Hz. apply negotiate_enters in H; [|exact Hp|exact Hs].
  destruct H as (cf & rest0 & pre & name & sel & e0 & e & parent & before & seg & sends & su & A1 & A2 & A3 & A4 & A5 & A6 & A7 & A8 & A9 & A10 & A11 & A12 & A13 & A14 & A15 & A16 & tr & msgs & A17 & A18).
  rewrite zeroes_due, Hz in A18. cbn [orb] in A18. exists cf, rest0, pre, name, sel. eexists _, _, tr, msgs.
  split; [exact A1|]. split; [exact A3|]. split; [exact A4|]. split; [exact A17|]. exact A18.
Qed.
Print Assumptions C45_zeroes_depend_on_client_partial.

(** A process that does not fork keeps the flag of an earlier client: a client that
    does not set the flag gets its zero bytes if it comes first, and not if it
    comes after one that set it and aborted (nbd-server.c:2674-2675). *)
Theorem C45_leak_refuted :
  exists E l first second l' glob' s1 s2,
    e_dontfork E = true /\ serve_all E l 0 [(first, [])] = Some (l', glob') /\ l' = l /\
    negotiate E (fresh l 0 second []) = NRet (Some 0%nat) s1 /\ In (NSend false (repeat 0 124)) (n_tr s1) /\
    negotiate E (fresh l' glob' second []) = NRet (Some 0%nat) s2 /\ ~ In (NSend false (repeat 0 124)) (n_tr s2).
Proof.
  exists (mkE (fun _ => None) (V4 [10;0;0;1]) true true (fun _ => true) (fun _ => 89) (fun _ => true)), demo_exports,
    (start 3 ++ option_bytes OPT_ABORT []), (start 1 ++ option_bytes OPT_EXPORT_NAME [97]).
  eexists _, _, _, _. split; [reflexivity|]. split; [vm_compute; reflexivity|]. split; [reflexivity|]. split; [vm_compute; reflexivity|].
  split; [vm_compute; auto 20|]. split; [vm_compute; reflexivity|]. intros Hv. cbn in Hv.
  repeat (destruct Hv as [Hv|Hv]; [discriminate|]). exact Hv.
Qed.
Print Assumptions C45_leak_refuted.
Example C45_demo :
  match negotiate demo_env (fresh demo_exports 0 (start 1 ++ option_bytes OPT_EXPORT_NAME [97]) []) with
  | NRet (Some i) s => In (NSend false (repeat 0 124)) (n_tr s)
  | _ => False
  end.
Proof. vm_compute. auto 20. Qed.

(** ** C66: listing *)
(** LIST stays within its buffer for names up to 1020 bytes ... *)
Theorem C66_list_in_bounds_partial :
  forall E s s', Forall (fun e => zlen (x_name e) <= 1020) (n_exports s) -> handle_list E s <> NUb s'.
Proof. exact list_no_ub. Qed.
Print Assumptions C66_list_in_bounds_partial.
Example C66_demo :
  Forall (fun e => zlen (x_name e) <= 1020) demo_exports /\
  match handle_list demo_env (fresh demo_exports F_LIST (be 4 0 ++ [1]) []) with
  | NRet _ s => n_in s = [1] /\ sent_bytes (n_tr s) =
      reply_msg OPT_LIST REP_SERVER (be 4 1 ++ [97]) ++ reply_msg OPT_LIST REP_SERVER (be 4 1 ++ [99]) ++ reply_msg OPT_LIST REP_ACK []
  | _ => False
  end.
Proof. split; [repeat (constructor; [discriminate|]); constructor|]. vm_compute. auto. Qed.

(** ... and a longer name makes it read past the 1024-byte buffer: the length sent
    is that of the name, the copy is cut (nbd-server.c:2404, 2421-2424). *)
Theorem C66_long_name_refuted :
  exists E s s', Forall is_byte (n_in s) /\ n_in s = be 4 0 /\ zlen (n_exports s) = 1 /\ handle_list E s = NUb s'.
Proof.
  exists demo_env, (fresh [mkX (repeat 97 1021) 0 None 0 false (file_of 1)] F_LIST (be 4 0) []). eexists.
  split; [repeat (constructor; [vm_compute; split; discriminate || reflexivity|]); constructor|]. split; [reflexivity|]. split; [reflexivity|]. vm_compute. reflexivity.
Qed.
Print Assumptions C66_long_name_refuted.
