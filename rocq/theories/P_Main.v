(** * Starting the server: C72 command line, C73 printed section, C74 generic
    settings, C75 listening, C76 user and group, C77 going to the background,
    C78 the exports served *)
From Coq Require Import String.
From Verif Require Import Base M_Const M_Acl M_Nego M_Conf M_Main S_Root S_Acl S_Conf S_Main L_Conf L_Main L_Main2 L_Main3 L_Main4.
Open Scope list_scope.
Open Scope Z_scope.

Ltac parts := repeat match goal with |- _ /\ _ => split end.

Ltac printed A := let g := eval vm_compute in (cmdline A) in match g with CPrint ?g => exists g end.
Ltac parsed A := let g := eval vm_compute in (cmdline A) in
  match g with CPrint ?g => let s := eval vm_compute in (parse_export g) in match s with Some ?s => exists s end end.
Ltac cmd_of A := let g := eval vm_compute in (cmdline A) in match g with CRun ?c _ => exists c end.
Ltac serve_of A := let g := eval vm_compute in (cmdline A) in match g with CRun _ (Some ?s) => exists s end.
Ltac calc := vm_compute; reflexivity.

(** ** C72: the command line is taken as given *)
Theorem C72_as_given :
  forall args c s, cmdline args = CRun c (Some s) ->
    exists w0 w1 rest t, words args = w0 :: w1 :: rest /\ s_export s = Some w1 /\ w1 = 47 :: t
    /\ (forall b, 0 <= b -> (Z.testbit (s_flags s) b = true <->
          (b = 0 /\ given "r" args) \/ (b = 1 /\ given "m" args) \/ (b = 2 /\ given "c" args)))
    /\ s_auth s = Some (match last_arg "l" args with Some a => a | None => text "/etc/nbd-server/allow" end)
    /\ c_file c = (match last_arg "C" args with Some a => a | None => text "/etc/nbd-server/config" end)
    /\ (c_nodaemon c = true <-> given "n" args \/ given "d" args) /\ (c_dontfork c = true <-> given "d" args)
    /\ (last_arg "M" args = None -> s_max s = 0) /\ (rest = [] -> s_size s = 0).
Proof.
  intros args c s K. destruct (cmdline_run _ _ _ K) as (O & _ & -> & W).
  destruct (export_given _ _ O W) as (w0 & w1 & r & E & X & t & T). exists w0, w1, r, t.
  parts; [exact E|exact X|exact T| | | | | | |].
  - intros b Hb. rewrite (opts_flags _ _ _ O b Hb). change (s_flags (c_serve cmd0)) with 0. rewrite Z.testbit_0_l.
    split; [intros [Q|Q]; [discriminate Q|exact Q]|intros Q; right; exact Q].
  - rewrite (opts_auth _ _ _ O). destruct (last_arg "l" args); reflexivity.
  - rewrite (opts_file _ _ _ O). destruct (last_arg "C" args); reflexivity.
  - rewrite (proj1 (opts_modes _ _ _ O)). change (c_nodaemon cmd0) with false.
    split; [intros [Q|Q]; [discriminate Q|exact Q]|intros Q; right; exact Q].
  - rewrite (proj2 (opts_modes _ _ _ O)). change (c_dontfork cmd0) with false.
    split; [intros [Q|Q]; [discriminate Q|exact Q]|intros Q; right; exact Q].
  - intros M. rewrite (opts_max _ _ _ O), M. reflexivity.
  - intros ->. pose proof (opts_size _ _ _ O) as Z. change (c_words cmd0) with 0 in Z. specialize (Z ltac:(lia)).
    rewrite E in Z. exact Z.
Qed.
Print Assumptions C72_as_given.

Theorem C72_address :
  forall args c serve w0 rest a p, cmdline args = CRun c serve -> words args = w0 :: rest -> names_port w0 a p ->
    gs_addr (c_gs c) = a /\ gs_port (c_gs c) = Some p.
Proof.
  intros args c serve w0 rest a p K E N. destruct (cmdline_run _ _ _ K) as (O & _).
  pose proof (opts_gs _ _ _ O eq_refl) as G. rewrite E in G. destruct G as (a' & p' & G & A & P).
  rewrite (addr_port_ok _ _ _ N) in G. injection G as <- <-. split; assumption.
Qed.
Print Assumptions C72_address.

Theorem C72_size :
  forall args c s w0 w1 w2 rest n, cmdline args = CRun c (Some s) -> words args = w0 :: w1 :: w2 :: rest ->
    names_size w2 n -> n < 2 ^ 63 -> s_size s = n.
Proof.
  intros args c s w0 w1 w2 rest n K E N Hn. destruct (cmdline_run _ _ _ K) as (O & _ & -> & _).
  pose proof (opts_size _ _ _ O) as Z. change (c_words cmd0) with 0 in Z. specialize (Z ltac:(lia)). rewrite E in Z.
  change (Z.to_nat (2 - 0)) with 2%nat in Z. cbn [nth_error] in Z. rewrite (size_arg_ok _ _ N Hn) in Z. congruence.
Qed.
Print Assumptions C72_size.

Definition demo_args : list sarg :=
  [SOpt "r" []; SWord (text "::1@2000"); SOpt "l" (text "/etc/hosts.nbd"); SWord (text "/srv/disk"); SWord (text "64M"); SOpt "n" []].
Example C72_example :
  exists c s, cmdline demo_args = CRun c (Some s) /\ s_flags s = 1 /\ s_size s = 67108864
    /\ names_port (text "::1@2000") (Some (text "::1")) (text "2000") /\ names_size (text "64M") 67108864
    /\ gs_addr (c_gs c) = Some (text "::1") /\ gs_port (c_gs c) = Some (text "2000").
Proof.
  cmd_of demo_args. serve_of demo_args. split; [calc|]. split; [calc|]. split; [calc|]. split; [|split].
  - right. split; [reflexivity|]. split; [vm_compute; intuition discriminate|]. right. exists [], [], [49]. reflexivity.
  - exists 64. split; [lia|]. right. right. split; [right; calc|calc].
  - split; calc.
Qed.

(** a unit the manual does not name is dropped without a word: 10G is 10 bytes *)
Theorem C72_unknown_unit_refuted :
  exists args c s, cmdline args = CRun c (Some s) /\ nth_error (words args) 2 = Some (text "10G") /\ s_size s = 10.
Proof.
  exists [SWord (text "2000"); SWord (text "/srv/disk"); SWord (text "10G")].
  cmd_of [SWord (text "2000"); SWord (text "/srv/disk"); SWord (text "10G")].
  serve_of [SWord (text "2000"); SWord (text "/srv/disk"); SWord (text "10G")]. repeat split; calc.
Qed.
Print Assumptions C72_unknown_unit_refuted.
(** an empty word for the port or the size: memory outside the argument is read *)
Theorem C72_empty_word_refuted :
  exists args1 args2, words args1 = [[]; text "/srv/disk"] /\ words args2 = [text "2000"; text "/srv/disk"; []]
    /\ cmdline args1 = CUb /\ cmdline args2 = CUb.
Proof.
  exists [SWord []; SWord (text "/srv/disk")], [SWord (text "2000"); SWord (text "/srv/disk"); SWord []].
  repeat split; vm_compute; reflexivity.
Qed.
Print Assumptions C72_empty_word_refuted.
(** a size whose value in bytes does not fit: shifted out of a signed number *)
Theorem C72_size_overflow_refuted :
  exists args, nth_error (words args) 2 = Some (decimal 9007199254740992 ++ text "k") /\ cmdline args = CUb.
Proof.
  exists [SWord (text "2000"); SWord (text "/srv/disk"); SWord (decimal 9007199254740992 ++ text "k")].
  split; vm_compute; reflexivity.
Qed.
Print Assumptions C72_size_overflow_refuted.

(** ** C73: the section printed by -o describes the export of the command line *)
Theorem C73_output_config_partial :
  forall args1 args2 h c s, cmdline (args1 ++ args2) = CRun c (Some s) ->
    exists g s', cmdline (args1 ++ SOpt "o" h :: args2) = CPrint g /\ g_name g = h
      /\ parse_export g = Some s' /\ s_name s' = h
      /\ (s_max s = 0 -> same_export s s').
Proof.
  intros args1 args2 h c s K. destruct (cmdline_run _ _ _ K) as (O & Eo & -> & W).
  pose proof O as O1. rewrite opts_app in O1. destruct (opts args1 cmd0) as [c1|?|] eqn:E1; try discriminate O1.
  assert (O2 : opts (args1 ++ SOpt "o" h :: args2) cmd0 = ClGo (set_out h c)).
  { rewrite opts_app, E1. change (opts args2 (set_out h c1) = ClGo (set_out h c)). apply opts_set_out; assumption. }
  assert (W2 : words (args1 ++ SOpt "o" h :: args2) = words (args1 ++ args2)) by (unfold words; rewrite !flat_map_app; reflexivity).
  destruct (export_given _ _ O W) as (w0 & w1 & r & E & X & t & T).
  pose proof (opts_untouched _ _ _ O untouched0) as U.
  assert (exists a, s_auth (c_serve c) = Some a) as (a & A).
  { destruct U as (_ & _ & _ & _ & _ & _ & _ & _ & _ & NA & _). destruct (s_auth (c_serve c)) as [a|]; [exists a; reflexivity|congruence]. }
  exists (mkG h (dump_section (c_serve c))). eexists. split.
  { unfold cmdline. rewrite O2. destruct (args1 ++ SOpt "o" h :: args2) as [|? ?] eqn:En; [destruct args1; discriminate En|].
    cbn [c_words set_out c_out c_serve].
    pose proof (opts_words _ _ _ O) as Wd. change (c_words cmd0) with 0 in Wd. rewrite Wd, (proj2 (Z.ltb_ge _ 2)) by lia. reflexivity. }
  split; [reflexivity|]. split; [apply (dump_parse h _ w1 a U X A)|]. split; [reflexivity|].
  intros M. destruct U as (_ & E2 & E3 & E4 & E5 & E6 & E7 & _). unfold same_export. cbn. rewrite X, A, E2, E4, E5, E6, E7, M. repeat split.
Qed.
Print Assumptions C73_output_config_partial.
Example C73_example :
  exists g s s', cmdline (demo_args ++ [SOpt "o" (text "disk")]) = CPrint g /\ parse_export g = Some s'
    /\ cmdline demo_args = CRun s (Some (c_serve s)) /\ same_export (c_serve s) s' /\ s_size s' = 67108864.
Proof.
  printed (demo_args ++ [SOpt "o" (text "disk")]). cmd_of demo_args. parsed (demo_args ++ [SOpt "o" (text "disk")]).
  split; [calc|]. split; [calc|]. split; [calc|]. split; [|calc].
  unfold same_export. cbn. repeat split; calc.
Qed.
(** -M is not printed: the described export has no limit *)
Definition limited := demo_args ++ [SOpt "M" (text "3")].
Theorem C73_limit_lost_refuted :
  exists args h c s g s', cmdline args = CRun c (Some s) /\ cmdline (args ++ [SOpt "o" h]) = CPrint g
    /\ parse_export g = Some s' /\ s_max s = 3 /\ s_max s' = 0.
Proof.
  exists limited, (text "disk"). cmd_of limited. serve_of limited. printed (limited ++ [SOpt "o" (text "disk")]).
  parsed (limited ++ [SOpt "o" (text "disk")]). repeat split; calc.
Qed.
Print Assumptions C73_limit_lost_refuted.
(** the section names an address "(null)" *)
Theorem C73_null_address_refuted :
  exists args g, cmdline args = CPrint g /\ last_value "listenaddr" (g_keys g) = Some (text "(null)").
Proof.
  exists (demo_args ++ [SOpt "o" (text "disk")]). printed (demo_args ++ [SOpt "o" (text "disk")]). split; calc.
Qed.
Print Assumptions C73_null_address_refuted.

(** ** C74: what the configuration file says in its generic section is used,
    else what the command line says, else the default *)
Theorem C74_settings_partial :
  forall args e r g gs, main args e = MServe r ->
    me_file e (resolve (dp_cwd (me_proc e)) (c_file (ru_cmd r))) = Some (g :: gs) ->
    let said k cmd := match last_value k (g_keys g) with Some v => Some v | None => cmd end in
    gs_user (ru_gs r) = said "user"%string None /\ gs_group (ru_gs r) = said "group"%string None
    /\ gs_addr (ru_gs r) = said "listenaddr"%string (gs_addr (c_gs (ru_cmd r)))
    /\ gs_port (ru_gs r) = said "port"%string (gs_port (c_gs (ru_cmd r)))
    /\ gs_unix (ru_gs r) = said "unixsock"%string None /\ gs_cert (ru_gs r) = said "certfile"%string None
    /\ gs_key (ru_gs r) = said "keyfile"%string None /\ gs_ca (ru_gs r) = said "cacertfile"%string None
    /\ gs_prio (ru_gs r) = said "tlsprio"%string None.
Proof. exact main_settings. Qed.
Print Assumptions C74_settings_partial.
Theorem C74_without_file :
  forall args e r, main args e = MServe r ->
    me_file e (resolve (dp_cwd (me_proc e)) (c_file (ru_cmd r))) = None -> ru_gs r = c_gs (ru_cmd r).
Proof. exact main_settings_none. Qed.
Print Assumptions C74_without_file.

Definition here : dproc := mkDp [Some (text "tty"); Some (text "tty"); Some (text "tty")] (text "/root") None.
Definition two_names (p : option (list Z)) (n : list Z) : option (list (list Z)) :=
  if list_eq_dec Z.eq_dec n (text "::") then Some [text "[::]"]
  else if list_eq_dec Z.eq_dec n (text "0.0.0.0") then Some [text "0.0.0.0"]
  else if list_eq_dec Z.eq_dec n (text "lan") then Some [text "192.168.0.1"; text "[fe80::1]"] else None.
Definition rootcred : cred := mkCr (0, 0, 0) (0, 0, 0) [0; 4; 27].
Definition on_disk (p : list Z) (f : list group) : menv :=
  mkEnv (fun q => if list_eq_dec Z.eq_dec q p then Some f else None) (fun _ => None) here rootcred two_names (fun _ => SockOk)
        (fun n => if list_eq_dec Z.eq_dec n (text "nbd") then Some 110 else None)
        (fun n => if list_eq_dec Z.eq_dec n (text "nbd") then Some 105 else None).
Definition conf (gen : list (string * list Z)) : list group :=
  [mkG (text "generic") gen; mkG (text "disk") [("exportname"%string, text "/srv/disk")]].
Definition etc := text "/etc/nbd-server/config".
Definition run_of (m : mainres) : option running := match m with MServe r => Some r | _ => None end.
(** what a running server shows *)
Definition shows (args : list sarg) (e : menv) {A} (f : running -> A) : option A := option_map f (run_of (main args e)).
Lemma shows_run args e A (f : running -> A) a : shows args e f = Some a -> exists r, main args e = MServe r /\ f r = a.
Proof. unfold shows, run_of. destruct (main args e) as [r|?|?|]; cbn; try discriminate. intros K. injection K as <-. exists r. split; reflexivity. Qed.

Example C74_example :
  exists r, main [SOpt "n" []] (on_disk etc (conf [("port"%string, text "2000"); ("user"%string, text "nbd")])) = MServe r
    /\ (gs_port (ru_gs r), gs_user (ru_gs r), gs_addr (ru_gs r)) = (Some (text "2000"), Some (text "nbd"), None).
Proof. apply (shows_run _ _ _ (fun r => (gs_port (ru_gs r), gs_user (ru_gs r), gs_addr (ru_gs r)))). calc. Qed.

(** the default priority string of the manual, which excludes old versions of
    TLS, is never used: it is overwritten before the file is read *)
Theorem C74_tls_default_refuted :
  exists args e r, main args e = MServe r
    /\ (forall g gs, me_file e (resolve (dp_cwd (me_proc e)) (c_file (ru_cmd r))) = Some (g :: gs) -> last_value "tlsprio" (g_keys g) = None)
    /\ gs_prio (ru_gs r) = None.
Proof.
  destruct (shows_run [SOpt "n" []] (on_disk etc (conf [])) _ (fun r => (gs_prio (ru_gs r), c_file (ru_cmd r))) (None, etc) ltac:(calc)) as (r & K & E).
  injection E as E1 E2. exists [SOpt "n" []], (on_disk etc (conf [])), r. split; [exact K|]. split; [|exact E1].
  rewrite E2. intros g gs. vm_compute. intros Q. injection Q as <- _. reflexivity.
Qed.
Print Assumptions C74_tls_default_refuted.
(** a port in the file wins over the one on the command line *)
Theorem C74_port_of_command_line_refuted :
  exists args e r, main args e = MServe r /\ words args = [text "2000"; text "/srv/other"] /\ gs_port (ru_gs r) = Some (text "10809").
Proof.
  destruct (shows_run [SWord (text "2000"); SWord (text "/srv/other")] (on_disk etc (conf [("port"%string, text "10809")])) _
             (fun r => gs_port (ru_gs r)) (Some (text "10809")) ltac:(calc)) as (r & K & E).
  eexists _, _, r. split; [exact K|]. split; [reflexivity|exact E].
Qed.
Print Assumptions C74_port_of_command_line_refuted.

(** ** C75: the server listens on every address it is told to *)
(** without errors "address in use", exactly the addresses of the listed names,
    in order, after the Unix socket *)
Theorem C75_listens_partial :
  forall args e r names, main args e = MServe r -> (forall i, me_sock e i <> BindInUse) ->
    gs_unix (ru_gs r) = None -> listed (match gs_addr (ru_gs r) with None | Some [] => text "::, 0.0.0.0" | Some a => a end) names ->
    l_socks (ru_listen r) = map LTcp (flat_map (fun n => match me_gai e (gs_port (ru_gs r)) n with Some l => l | None => [] end) names)
    /\ l_lost (ru_listen r) = 0.
Proof. exact main_listens. Qed.
Print Assumptions C75_listens_partial.
(** in any case an address is listened on, or one was reported in use *)
Theorem C75_accounted :
  forall args e r names, main args e = MServe r -> (gs_unix (ru_gs r) = None \/ flag (gc_flags (ru_gen r)) 8 = true) ->
    listed (match gs_addr (ru_gs r) with None | Some [] => text "::, 0.0.0.0" | Some a => a end) names ->
    forall n ais a, In n names -> me_gai e (gs_port (ru_gs r)) n = Some ais -> In a ais ->
      In (LTcp a) (l_socks (ru_listen r)) \/ exists i, me_sock e i = BindInUse.
Proof. exact main_accounted. Qed.
Print Assumptions C75_accounted.
(** a server that starts listens somewhere, provided the list of addresses does
    not end in a separator *)
Theorem C75_somewhere :
  forall args e r, main args e = MServe r ->
    (forall p n l, me_gai e p n = Some l -> l <> []) ->
    (forall a, gs_addr (ru_gs r) = Some a -> ~ sep (last a 0)) ->
    l_socks (ru_listen r) <> [].
Proof. exact main_somewhere. Qed.
Print Assumptions C75_somewhere.
Example C75_example :
  exists r, main [SOpt "n" []] (on_disk etc (conf [("listenaddr"%string, text "lan, 0.0.0.0"); ("unixsock"%string, text "/run/nbd"); ("duallisten"%string, text "true")])) = MServe r
    /\ l_socks (ru_listen r) = [LUnix (text "/run/nbd"); LTcp (text "192.168.0.1"); LTcp (text "[fe80::1]"); LTcp (text "0.0.0.0")]
  /\ listed (text "lan, 0.0.0.0") [text "lan"; text "0.0.0.0"].
Proof.
  destruct (shows_run [SOpt "n" []] (on_disk etc (conf [("listenaddr"%string, text "lan, 0.0.0.0"); ("unixsock"%string, text "/run/nbd"); ("duallisten"%string, text "true")])) _
              (fun r => l_socks (ru_listen r))
              [LUnix (text "/run/nbd"); LTcp (text "192.168.0.1"); LTcp (text "[fe80::1]"); LTcp (text "0.0.0.0")] ltac:(calc)) as (r & K & E).
  exists r. split; [exact K|]. split; [exact E|].
  apply (listed_word (text "lan") 44 (text " 0.0.0.0")); [discriminate| |left; reflexivity|].
  - repeat constructor; unfold sep; vm_compute; intuition discriminate.
  - apply (listed_sep 32); [right; left; reflexivity|]. apply listed_end; [discriminate|].
    repeat constructor; unfold sep; vm_compute; intuition discriminate.
Qed.
Definition sockets_then (l : list sres) (e : menv) : menv :=
  mkEnv (me_file e) (me_dir e) (me_proc e) (me_cred e) (me_gai e) (fun i => nth i l SockOk) (me_grnam e) (me_pwnam e).
(** a name that cannot be resolved is left out without a word *)
Theorem C75_unknown_name_refuted :
  exists args e r, main args e = MServe r /\ gs_addr (ru_gs r) = Some (text "lam, 0.0.0.0")
    /\ me_gai e (gs_port (ru_gs r)) (text "lam") = None /\ l_socks (ru_listen r) = [LTcp (text "0.0.0.0")].
Proof.
  destruct (shows_run [SOpt "n" []] (on_disk etc (conf [("listenaddr"%string, text "lam, 0.0.0.0")])) _
             (fun r => (gs_addr (ru_gs r), l_socks (ru_listen r))) (Some (text "lam, 0.0.0.0"), [LTcp (text "0.0.0.0")]) ltac:(calc)) as (r & K & E).
  injection E as E1 E2. eexists _, _, r. split; [exact K|]. split; [exact E1|]. split; [reflexivity|exact E2].
Qed.
Print Assumptions C75_unknown_name_refuted.
(** the server starts and listens nowhere *)
Theorem C75_nowhere_refuted :
  exists args e r, main args e = MServe r /\ gs_addr (ru_gs r) = Some (text "lam,") /\ l_socks (ru_listen r) = [].
Proof.
  destruct (shows_run [SOpt "n" []] (on_disk etc (conf [("listenaddr"%string, text "lam,")])) _
             (fun r => (gs_addr (ru_gs r), l_socks (ru_listen r))) (Some (text "lam,"), []) ltac:(calc)) as (r & K & E).
  injection E as E1 E2. eexists _, _, r. split; [exact K|]. split; [exact E1|exact E2].
Qed.
Print Assumptions C75_nowhere_refuted.
(** with a Unix socket, a TCP port that is taken by another program is no error *)
Theorem C75_port_taken_refuted :
  exists args e r, main args e = MServe r /\ (forall i, (1 <= i)%nat -> me_sock e i = BindInUse \/ (3 <= i)%nat)
    /\ flag (gc_flags (ru_gen r)) 8 = true /\ l_socks (ru_listen r) = [LUnix (text "/run/nbd")] /\ l_lost (ru_listen r) = 2.
Proof.
  pose (e := sockets_then [SockOk; BindInUse; BindInUse] (on_disk etc (conf [("unixsock"%string, text "/run/nbd"); ("duallisten"%string, text "true")]))).
  destruct (shows_run [SOpt "n" []] e _ (fun r => (flag (gc_flags (ru_gen r)) 8, l_socks (ru_listen r), l_lost (ru_listen r)))
             (true, [LUnix (text "/run/nbd")], 2) ltac:(calc)) as (r & K & E).
  injection E as E1 E2 E3. exists [SOpt "n" []], e, r. split; [exact K|]. split; [|repeat split; assumption].
  intros [|[|[|i]]] Hi; [lia|left; reflexivity|left; reflexivity|right; lia].
Qed.
Print Assumptions C75_port_taken_refuted.
(** the path of the Unix socket is cut *)
Theorem C75_unix_path_cut_refuted :
  exists args e r p, main args e = MServe r /\ gs_unix (ru_gs r) = Some p /\ zlen p = 109 /\ l_socks (ru_listen r) = [LUnix (firstn 107 p)].
Proof.
  pose (p := text "/run/" ++ repeat 110 104).
  destruct (shows_run [SOpt "n" []] (on_disk etc (conf [("unixsock"%string, p)])) _
             (fun r => (gs_unix (ru_gs r), l_socks (ru_listen r))) (Some p, [LUnix (firstn 107 p)]) ltac:(calc)) as (r & K & E).
  injection E as E1 E2. eexists _, _, r, p. split; [exact K|]. split; [exact E1|]. split; [reflexivity|exact E2].
Qed.
Print Assumptions C75_unix_path_cut_refuted.

(** ** C76: a server told a user and a group runs as these and nothing else *)
Theorem C76_user_and_group_partial :
  forall args e r un gn u g, main args e = MServe r -> as_root (me_cred e) ->
    gs_user (ru_gs r) = Some un -> gs_group (ru_gs r) = Some gn -> me_pwnam e un = Some u -> me_grnam e gn = Some g ->
    only u g (ru_cred r).
Proof. exact main_users. Qed.
Print Assumptions C76_user_and_group_partial.
(** and cannot get anything back *)
Theorem C76_for_good :
  forall u g c, only u g c -> u <> 0 ->
    (forall u' c', setuid u' c = Some c' -> c' = c) /\ (forall g' c', setgid g' c = Some c' -> c' = c)
    /\ (forall l, setgroups l c = None).
Proof. exact only_stuck. Qed.
Print Assumptions C76_for_good.
(** unknown names, or no right to change the user, stop the server *)
Theorem C76_or_not_at_all :
  forall args e r, main args e = MServe r ->
    (forall un, gs_user (ru_gs r) = Some un -> me_pwnam e un <> None /\ as_root (me_cred e))
    /\ (forall gn, gs_group (ru_gs r) = Some gn -> me_grnam e gn <> None).
Proof. exact main_users_known. Qed.
Print Assumptions C76_or_not_at_all.
Definition both := conf [("user"%string, text "nbd"); ("group"%string, text "nbd")].
Example C76_example :
  exists r, main [SOpt "n" []] (on_disk etc both) = MServe r /\ as_root (me_cred (on_disk etc both))
    /\ (gs_user (ru_gs r), gs_group (ru_gs r)) = (Some (text "nbd"), Some (text "nbd")) /\ only 105 110 (ru_cred r).
Proof.
  destruct (shows_run [SOpt "n" []] (on_disk etc both) _ (fun r => (gs_user (ru_gs r), gs_group (ru_gs r), ru_cred r))
             (Some (text "nbd"), Some (text "nbd"), mkCr (105, 105, 105) (110, 110, 110) []) ltac:(calc)) as (r & K & E).
  injection E as E1 E2 E3. exists r. split; [exact K|]. split; [exists 0, 0; reflexivity|]. split; [congruence|]. rewrite E3. repeat split.
Qed.
(** with a user and no group it keeps the group of the caller, here root *)
Theorem C76_user_alone_refuted :
  exists args e r, main args e = MServe r /\ as_root (me_cred e) /\ gs_user (ru_gs r) = Some (text "nbd")
    /\ ru_cred r = mkCr (105, 105, 105) (0, 0, 0) [].
Proof.
  destruct (shows_run [SOpt "n" []] (on_disk etc (conf [("user"%string, text "nbd")])) _ (fun r => (gs_user (ru_gs r), ru_cred r))
             (Some (text "nbd"), mkCr (105, 105, 105) (0, 0, 0) []) ltac:(calc)) as (r & K & E).
  injection E as E1 E2. eexists _, _, r. split; [exact K|]. split; [exists 0, 0; reflexivity|]. split; assumption.
Qed.
Print Assumptions C76_user_alone_refuted.
(** with a group and no user it keeps all other groups, and root *)
Theorem C76_group_alone_refuted :
  exists args e r, main args e = MServe r /\ as_root (me_cred e) /\ gs_group (ru_gs r) = Some (text "nbd")
    /\ ru_cred r = mkCr (0, 0, 0) (110, 110, 110) [0; 4; 27].
Proof.
  destruct (shows_run [SOpt "n" []] (on_disk etc (conf [("group"%string, text "nbd")])) _ (fun r => (gs_group (ru_gs r), ru_cred r))
             (Some (text "nbd"), mkCr (0, 0, 0) (110, 110, 110) [0; 4; 27]) ltac:(calc)) as (r & K & E).
  injection E as E1 E2. eexists _, _, r. split; [exact K|]. split; [exists 0, 0; reflexivity|]. split; assumption.
Qed.
Print Assumptions C76_group_alone_refuted.

(** ** C77: going to the background *)
(** the configuration read again on SIGHUP is the file read at the start *)
Theorem C77_same_file_partial :
  forall args e r, main args e = MServe r ->
    (exists t, c_file (ru_cmd r) = 47 :: t) \/ c_nodaemon (ru_cmd r) = true ->
    reload_path r = resolve (dp_cwd (me_proc e)) (c_file (ru_cmd r)).
Proof. exact main_same_file. Qed.
Print Assumptions C77_same_file_partial.
(** a server in the background removes at its end the PID file it wrote *)
Theorem C77_pid_file_partial :
  forall args e r, main args e = MServe r -> c_nodaemon (ru_cmd r) = false ->
    dp_pid (ru_proc r) = unlinked r /\ dp_pid (ru_proc r) <> None
    /\ (forall t, last_arg "p" args = Some (47 :: t) -> (length t < 255)%nat -> dp_pid (ru_proc r) = Some (47 :: t)).
Proof. exact main_pid. Qed.
Print Assumptions C77_pid_file_partial.
(** descriptors that are open stay what they are *)
Theorem C77_descriptors :
  forall args e r i, main args e = MServe r -> nth i (dp_fds (me_proc e)) None <> None ->
    nth i (dp_fds (ru_proc r)) None = nth i (dp_fds (me_proc e)) None.
Proof. exact main_fds. Qed.
Print Assumptions C77_descriptors.
Example C77_example :
  exists r, main [SOpt "p" (text "/run/n.pid")] (on_disk etc (conf [])) = MServe r /\ c_nodaemon (ru_cmd r) = false
    /\ dp_pid (ru_proc r) = Some (text "/run/n.pid") /\ reload_path r = etc.
Proof.
  destruct (shows_run [SOpt "p" (text "/run/n.pid")] (on_disk etc (conf [])) _
              (fun r => (c_nodaemon (ru_cmd r), dp_pid (ru_proc r), reload_path r)) (false, Some (text "/run/n.pid"), etc) ltac:(calc)) as (r & K & E).
  injection E as E1 E2 E3. exists r. repeat split; assumption.
Qed.
(** standard input, output and error are not moved to /dev/null: dup2 has its
    arguments the wrong way round *)
Theorem C77_stdio_refuted :
  exists args e r, main args e = MServe r /\ c_nodaemon (ru_cmd r) = false
    /\ dp_fds (ru_proc r) = [Some (text "tty"); Some (text "tty"); Some (text "tty"); Some (text "tty")].
Proof.
  destruct (shows_run [] (on_disk etc (conf [])) _ (fun r => (c_nodaemon (ru_cmd r), dp_fds (ru_proc r)))
              (false, [Some (text "tty"); Some (text "tty"); Some (text "tty"); Some (text "tty")]) ltac:(calc)) as (r & K & E).
  injection E as E1 E2. eexists _, _, r. repeat split; eassumption.
Qed.
Print Assumptions C77_stdio_refuted.
(** a configuration file named relative to the current directory: SIGHUP reads
    another file *)
Theorem C77_relative_file_refuted :
  exists args e r, main args e = MServe r /\ c_file (ru_cmd r) = text "nbd.conf"
    /\ resolve (dp_cwd (me_proc e)) (c_file (ru_cmd r)) = text "/root/nbd.conf" /\ reload_path r = text "/nbd.conf".
Proof.
  destruct (shows_run [SOpt "C" (text "nbd.conf")] (on_disk (text "/root/nbd.conf") (conf [])) _
              (fun r => (c_file (ru_cmd r), reload_path r)) (text "nbd.conf", text "/nbd.conf") ltac:(calc)) as (r & K & E).
  injection E as E1 E2. eexists _, _, r. split; [exact K|]. split; [exact E1|]. split; [rewrite E1; calc|exact E2].
Qed.
Print Assumptions C77_relative_file_refuted.
(** -n with -p: no PID file is written, and the file of that name is removed at
    the end *)
Theorem C77_foreign_file_removed_refuted :
  exists args e r, main args e = MServe r /\ dp_pid (ru_proc r) = None /\ unlinked r = Some (text "/srv/precious").
Proof.
  destruct (shows_run [SOpt "n" []; SOpt "p" (text "/srv/precious")] (on_disk etc (conf [])) _
              (fun r => (dp_pid (ru_proc r), unlinked r)) (None, Some (text "/srv/precious")) ltac:(calc)) as (r & K & E).
  injection E as E1 E2. eexists _, _, r. repeat split; eassumption.
Qed.
Print Assumptions C77_foreign_file_removed_refuted.

(** ** C78: the exports served are those of the configuration and that of the
    command line *)
Theorem C78_exports :
  forall args e r, main args e = MServe r ->
    exists l, ru_exports r = l ++ match cmdline args with CRun _ (Some s) => [s] | _ => [] end /\ ru_exports r <> []
      /\ match me_file e (resolve (dp_cwd (me_proc e)) (c_file (ru_cmd r))) with
         | None | Some [] => l = []
         | Some (g :: gs) =>
             exists l1 l2, l = l1 ++ l2 /\ Forall2 from_section gs l1
               /\ forall s, In s l2 -> exists g', included (me_dir e) (g_keys g) g' /\ from_section g' s
         end.
Proof. exact main_exports. Qed.
Print Assumptions C78_exports.
(** without a configuration file, the export of the command line alone *)
Theorem C78_command_line_alone :
  forall args e c s, cmdline args = CRun c (Some s) -> me_file e (resolve (dp_cwd (me_proc e)) (c_file c)) = None ->
    match main args e with MServe r => ru_exports r = [s] | MExit _ => True | _ => False end.
Proof. exact main_alone. Qed.
Print Assumptions C78_command_line_alone.
(** no export at all: the server does not start *)
Theorem C78_none :
  forall args e c, cmdline args = CRun c None -> me_file e (resolve (dp_cwd (me_proc e)) (c_file c)) = None ->
    main args e = MExit false.
Proof. exact main_none. Qed.
Print Assumptions C78_none.
Example C78_example :
  exists r, main [SWord (text "2000"); SWord (text "/srv/other"); SWord (text "5k")] (on_disk etc (conf [])) = MServe r
    /\ map (fun s => (s_name s, s_export s, s_size s)) (ru_exports r) = [(text "disk", Some (text "/srv/disk"), 0); ([], Some (text "/srv/other"), 5120)].
Proof. apply (shows_run _ _ _ (fun r => map (fun s => (s_name s, s_export s, s_size s)) (ru_exports r))). calc. Qed.
(** an invalid configuration file is not harmless, as the manual says it is,
    when the command line names an export *)
Theorem C78_invalid_file_refuted :
  exists args e c s, cmdline args = CRun c (Some s) /\ main args e = MUb.
Proof.
  exists [SWord (text "2000"); SWord (text "/srv/other")], (on_disk etc [mkG (text "disk") [("exportname"%string, text "/srv/disk")]]).
  cmd_of [SWord (text "2000"); SWord (text "/srv/other")]. serve_of [SWord (text "2000"); SWord (text "/srv/other")]. split; calc.
Qed.
Print Assumptions C78_invalid_file_refuted.
(** serving standard input for inetd, the server also opens TCP sockets, which
    nobody serves *)
Theorem C78_inetd_listens_refuted :
  exists args e r, main args e = MServe r /\ ru_inetd r = true /\ l_socks (ru_listen r) = [LTcp (text "[::]"); LTcp (text "0.0.0.0")].
Proof.
  destruct (shows_run [SWord (text "0"); SWord (text "/srv/disk")] (on_disk etc (conf [])) _
              (fun r => (ru_inetd r, l_socks (ru_listen r))) (true, [LTcp (text "[::]"); LTcp (text "0.0.0.0")]) ltac:(calc)) as (r & K & E).
  injection E as E1 E2. eexists _, _, r. repeat split; eassumption.
Qed.
Print Assumptions C78_inetd_listens_refuted.
