(** Configuration and the root process: C46, C47, C48, C49, C50. *)
From Coq Require Import String Ascii.
From Verif Require Import Base M_Const M_Acl M_Io M_Nego M_Conf M_Root S_Root S_Conf L_Conf L_Root.
Open Scope list_scope.
Open Scope Z_scope.

(** ** Example configurations *)
Definition demo_server (n : string) (max : Z) : server :=
  mkS (text n) (Some (text "/srv/disk")) None 0 VirtIplit 0 None None None None None max 0.
Definition gen0 : genconf := mkGen 0 4 None.
Definition demo_generic : group := mkG (text "generic") [].
Definition demo_section (n : string) (more : list (string * list Z)) : group :=
  mkG (text n) (("exportname"%string, text "/srv/disk") :: more).
Definition no_dir : list Z -> option (list dirent) := fun _ => None.
Definition ask_a : rev := EvAsk (ask_msg (text "a")).
Definition ask_b : rev := EvAsk (ask_msg (text "b")).
Definition demo_two : list server := [demo_server "a" 2; demo_server "b" 0].
Definition hup_c : rev := EvHup no_dir (Some [demo_generic; demo_section "a" []; demo_section "c" []; demo_section "c" []]).

(** ** C46: the connection limit is never exceeded *)
(** In whatever state the root process has come to, a message asking for a name is
    answered "X" when no export has it, "Y" when its export has no limit or fewer
    connections than the limit have been granted, "N" otherwise. *)
Theorem C46_answers_as_due :
  forall l c es s a log m,
    flag (gc_flags c) F_OLDSTYLE = false -> Z.of_nat (length es) < INT_MAX ->
    root_run es (root_init l c) [] = (RGo s a, log) ->
    match wanted m with
    | None => root_step (EvAsk m) s = RGo s None
    | Some n => exists s', root_step (EvAsk m) s = RGo s' (Some (due n s log)) /\ served s' = served s
    end.
Proof.
  intros l c es s a log m Hc Hn H.
  destruct (root_run_inv es 0 _ _ _ _ (inv_init l c Hc) ltac:(lia) Hn H) as [I _].
  pose proof (inv_ask _ s log m I Hn) as A. destruct (wanted m) as [n|]; [|exact A].
  destruct A as [s' [A1 [_ [A3 _]]]]. exists s'. split; assumption.
Qed.
Print Assumptions C46_answers_as_due.

(** The number of connections ever granted for a name stays within the limit of
    its export; a name without export is never granted. *)
Theorem C46_grants_within_limit :
  forall l c es s a log n,
    flag (gc_flags c) F_OLDSTYLE = false -> Z.of_nat (length es) < INT_MAX ->
    root_run es (root_init l c) [] = (RGo s a, log) ->
    match export_named n s with
    | None => granted n log = 0
    | Some x => s_max x <> 0 -> granted n log <= Z.max 0 (s_max x)
    end.
Proof.
  intros l c es s a log n Hc Hn H.
  destruct (root_run_inv es 0 _ _ _ _ (inv_init l c Hc) ltac:(lia) Hn H) as [I _].
  exact (inv_limit _ _ _ n I).
Qed.
Print Assumptions C46_grants_within_limit.

Example C46_ex :
  exists s log, root_run [ask_a; ask_b; hup_c; ask_a; EvChild; ask_a; EvAsk (ask_msg (text "zz"))] (root_init demo_two gen0) [] = (RGo s None, log)
    /\ map snd log = [89; 89; 89; 78; 88] /\ granted (text "a") log = 2
    /\ option_map s_max (export_named (text "a") s) = Some 2.
Proof. eexists. eexists. split; [vm_compute; reflexivity|]. vm_compute. repeat split. Qed.

(** Two exports of one name (a second one can come from an included file): the GO
    option of the protocol serves the last, the limit of the first is applied. *)
Theorem C46_duplicate_names_refuted :
  exists dir file c r l es s log x,
    parse_cfile dir file c = PcfRet r /\ cf_list r = Some l
    /\ nth_error l 1 = Some x /\ s_max x = 1
    /\ fst (find_last false (s_name x) 0 (map (fun y => mkX (s_name y) (s_flags y) None 0 false []) l) (None, false)) = Some 1%nat
    /\ root_run es (root_init l c) [] = (RGo s None, log)
    /\ granted (s_name x) log = 3.
Proof.
  exists (fun _ => Some [mkDe (text "more.conf") true (Some [demo_section "a" [("maxconnections"%string, text "1")]])]).
  exists (Some [mkG (text "generic") [("includedir"%string, text "/etc/more")]; demo_section "a" []]).
  exists gen0. eexists. eexists. exists [ask_a; ask_a; ask_a]. eexists. eexists. eexists.
  split; [vm_compute; reflexivity|]. split; [reflexivity|]. split; [reflexivity|]. split; [reflexivity|].
  split; [vm_compute; reflexivity|]. split; [vm_compute; reflexivity|]. vm_compute. reflexivity.
Qed.
Print Assumptions C46_duplicate_names_refuted.

(** ** C47: a released slot becomes available again -- it does not *)
(** One connection is allowed, one was granted, the process serving it has ended:
    the next client is still turned away. *)
Theorem C47_slot_not_given_back_refuted :
  exists l c s log s',
    root_run [ask_a; EvChild] (root_init l c) [] = (RGo s None, log)
    /\ map snd log = [89]
    /\ option_map s_max (export_named (text "a") s) = Some 1
    /\ root_step ask_a s = RGo s' (Some 78).
Proof.
  exists [demo_server "a" 1], gen0. eexists. eexists. eexists.
  split; [vm_compute; reflexivity|]. split; [reflexivity|]. split; [vm_compute; reflexivity|]. vm_compute. reflexivity.
Qed.
Print Assumptions C47_slot_not_given_back_refuted.

(** Once the limit is reached no later client of that name is admitted, whatever
    happens in between. *)
Theorem C47_full_stays_full :
  forall l c es1 es2 s1 s2 a1 a2 log1 log2 m n x,
    flag (gc_flags c) F_OLDSTYLE = false -> Z.of_nat (length es1 + length es2) < INT_MAX ->
    root_run es1 (root_init l c) [] = (RGo s1 a1, log1) ->
    export_named n s1 = Some x -> 0 < s_max x -> granted n log1 = s_max x ->
    root_run es2 s1 log1 = (RGo s2 a2, log2) -> wanted m = Some n ->
    exists s', root_step (EvAsk m) s2 = RGo s' (Some 78).
Proof.
  intros l c es1 es2 s1 s2 a1 a2 log1 log2 m n x Hc Hn H1 Hx Hm Hg H2 Hw.
  rewrite Nat2Z.inj_add in Hn.
  destruct (root_run_inv es1 0 _ _ _ _ (inv_init l c Hc) ltac:(lia) ltac:(lia) H1) as [I1 _].
  destruct (root_run_inv es2 _ _ _ _ _ I1 ltac:(lia) ltac:(lia) H2) as [I2 _].
  destruct (root_run_grows es2 _ _ _ _ _ _ I1 ltac:(lia) ltac:(lia) H2) as [[lx Lx] [y Y]].
  pose proof (export_named_more n s1 s2 y x Y Hx) as Hx2.
  pose proof (inv_ask _ s2 log2 m I2 ltac:(lia)) as A. rewrite Hw in A.
  destruct A as [s' [A _]]. exists s'. rewrite A. unfold due. rewrite Hx2.
  pose proof (granted_more n log1 lx) as G. rewrite <- Lx in G.
  replace (s_max x =? 0) with false by lia. replace (granted n log2 <? s_max x) with false by lia. reflexivity.
Qed.
Print Assumptions C47_full_stays_full.

(** What remains true: an export without a limit, or whose limit has not been
    reached by all connections since the start, admits the next client. *)
Theorem C47_unused_slots_partial :
  forall l c es s a log m n x,
    flag (gc_flags c) F_OLDSTYLE = false -> Z.of_nat (length es) < INT_MAX ->
    root_run es (root_init l c) [] = (RGo s a, log) ->
    wanted m = Some n -> export_named n s = Some x -> s_max x = 0 \/ granted n log < s_max x ->
    exists s', root_step (EvAsk m) s = RGo s' (Some 89).
Proof.
  intros l c es s a log m n x Hc Hn H Hw Hx Hm.
  pose proof (C46_answers_as_due l c es s a log m Hc Hn H) as A. rewrite Hw in A.
  destruct A as [s' [A _]]. exists s'. rewrite A. unfold due. rewrite Hx.
  destruct Hm as [-> | Hm]; [reflexivity|]. replace (granted n log <? s_max x) with true by lia.
  rewrite orb_true_r. reflexivity.
Qed.
Print Assumptions C47_unused_slots_partial.

Example C47_ex :
  exists s log, root_run [ask_a; ask_a] (root_init demo_two gen0) [] = (RGo s None, log)
    /\ option_map s_max (export_named (text "a") s) = Some 2 /\ granted (text "a") log = 2
    /\ exists s2 log2, root_run [EvChild; hup_c; EvChild; ask_b] s log = (RGo s2 None, log2)
         /\ exists s3, root_step ask_a s2 = RGo s3 (Some 78).
Proof.
  eexists. eexists. split; [vm_compute; reflexivity|]. split; [vm_compute; reflexivity|]. split; [reflexivity|].
  eexists. eexists. split; [vm_compute; reflexivity|]. eexists. vm_compute. reflexivity.
Qed.
Example C47_ex_free :
  exists s log s', root_run [ask_a; ask_b; ask_b; ask_b] (root_init demo_two gen0) [] = (RGo s None, log)
    /\ granted (text "a") log = 1 /\ root_step ask_a s = RGo s' (Some 89).
Proof. eexists. eexists. eexists. split; [vm_compute; reflexivity|]. split; [reflexivity|]. vm_compute. reflexivity. Qed.

(** ** C48: a reload only adds exports *)
(** In any state the server can come to: the exports known stay, in their order,
    and their records (with the number of connections and references) are not
    touched; what is added is the first section of each name not known before.  A
    configuration that cannot be read changes nothing. *)
Theorem C48_reload_adds :
  forall l c es s a log dir file r s' b,
    flag (gc_flags c) F_OLDSTYLE = false -> Z.of_nat (length es) < INT_MAX ->
    root_run es (root_init l c) [] = (RGo s a, log) ->
    parse_cfile dir file (pr_gen s) = PcfRet r ->
    root_step (EvHup dir file) s = RGo s' b ->
    b = None /\
    match cf_list r with
    | None => s' = s
    | Some new => exists cs, serves s cs
        /\ serves s' (cs ++ new_names (map s_name cs) new)
        /\ firstn (length (pr_heap s)) (pr_heap s') = pr_heap s
        /\ firstn (length (pr_servers s)) (pr_servers s') = pr_servers s
    end.
Proof.
  intros l c es s a log dir file r s' b Hc Hn H Hp Hs.
  destruct (root_run_inv es 0 _ _ _ _ (inv_init l c Hc) ltac:(lia) Hn H) as [I _].
  pose proof (inv_reload _ s log dir file I ltac:(lia)) as A. rewrite Hs, Hp in A.
  destruct A as [A1 [_ A2]]. split; [exact A1|]. destruct (cf_list r) as [new|]; [|exact A2].
  destruct A2 as [cs [B1 [B2 [B3 [B4 _]]]]]. exists cs. auto.
Qed.
Print Assumptions C48_reload_adds.

(** What [new_names] adds: only sections of the new configuration, with names not
    known before, no name twice, each the first of its name; and every name of
    the new configuration is known afterwards. *)
Theorem C48_added_names :
  forall known new,
    (forall x, In x (new_names known new) -> In x new /\ ~ In (s_name x) known
       /\ exists p q, new = p ++ x :: q /\ forall y, In y p -> s_name y <> s_name x)
    /\ NoDup (map s_name (new_names known new))
    /\ (forall x, In x new -> In (s_name x) known \/ In (s_name x) (map s_name (new_names known new))).
Proof.
  intros known new. split; [|split; [apply new_names_nodup|intros x; apply new_names_all]].
  intros x Hx. destruct (new_names_in new known x Hx) as [H1 H2]. split; [exact H1|]. split; [exact H2|].
  exact (new_names_first new known x Hx).
Qed.
Print Assumptions C48_added_names.

(** Over any further history, whatever is reloaded, an export once there stays and
    is what its name stands for. *)
Theorem C48_exports_stay :
  forall l c es1 es2 s1 s2 a1 a2 log1 log2,
    flag (gc_flags c) F_OLDSTYLE = false -> Z.of_nat (length es1 + length es2) < INT_MAX ->
    root_run es1 (root_init l c) [] = (RGo s1 a1, log1) ->
    root_run es2 s1 log1 = (RGo s2 a2, log2) ->
    (exists more, served s2 = served s1 ++ more)
    /\ forall n x, export_named n s1 = Some x -> export_named n s2 = Some x.
Proof.
  intros l c es1 es2 s1 s2 a1 a2 log1 log2 Hc Hn H1 H2. rewrite Nat2Z.inj_add in Hn.
  destruct (root_run_inv es1 0 _ _ _ _ (inv_init l c Hc) ltac:(lia) ltac:(lia) H1) as [I1 _].
  destruct (root_run_grows es2 _ _ _ _ _ _ I1 ltac:(lia) ltac:(lia) H2) as [_ [y Y]].
  split; [exists y; exact Y|]. intros n x. exact (export_named_more n s1 s2 y x Y).
Qed.
Print Assumptions C48_exports_stay.

Example C48_ex :
  exists s s' log, root_run [ask_a; EvCommit 1] (root_init demo_two gen0) [] = (RGo s None, log)
    /\ root_step hup_c s = RGo s' None
    /\ map (option_map s_name) (served s') = [Some (text "a"); Some (text "b"); Some (text "c")]
    /\ map (fun r => (r_num r, r_ref r, r_freed r)) (pr_heap s')
       = [(1, 1, false); (0, 2, false); (0, 0, true); (0, 1, false); (0, 0, true)].
Proof.
  eexists. eexists. eexists. split; [vm_compute; reflexivity|]. split; [vm_compute; reflexivity|].
  split; [reflexivity|]. vm_compute. reflexivity.
Qed.
Example C48_ex_names :
  map s_name (new_names [text "a"] [demo_server "b" 0; demo_server "a" 0; demo_server "b" 1; demo_server "d" 0])
  = [text "b"; text "d"].
Proof. vm_compute. reflexivity. Qed.

(** When the new configuration asks for the old protocol, reading it yields
    neither exports nor an error, and the message of an error that is not there
    is used: the server crashes instead of keeping its exports. *)
Theorem C48_oldstyle_reload_refuted :
  exists l c dir file, flag (gc_flags c) F_OLDSTYLE = false
    /\ root_step (EvHup dir file) (root_init l c) = RUb.
Proof.
  exists demo_two, gen0, no_dir, (Some [mkG (text "generic") [("oldstyle"%string, text "true")]; demo_section "a" []]).
  split; [reflexivity|]. vm_compute. reflexivity.
Qed.
Print Assumptions C48_oldstyle_reload_refuted.

(** ** C49: contradictory export options are rejected *)
(** Every export that comes out of a configuration stems from a section of that
    name, its flags are those the section says yes to and no others, its strings
    are those written, and the section does not combine what cannot be combined. *)
Theorem C49_accepted_as_written :
  forall dir gs c r l s,
    parse_cfile dir (Some gs) c = PcfRet r -> cf_list r = Some l -> In s l ->
    exists g, section dir gs g /\ s_name s = g_name g
      /\ flags_as_written (g_keys g) (s_flags s) /\ ~ clash (g_keys g)
      /\ s_export s = last_value "exportname" (g_keys g) /\ s_auth s = last_value "authfile" (g_keys g)
      /\ s_prerun s = last_value "prerun" (g_keys g) /\ s_postrun s = last_value "postrun" (g_keys g)
      /\ s_log s = last_value "transactionlog" (g_keys g) /\ s_cow s = last_value "cowdir" (g_keys g)
      /\ s_listen s = last_value "listenaddr" (g_keys g).
Proof.
  intros dir gs c r l s H Hl Hin. destruct (parse_cfile_ok dir gs c r l H Hl s Hin) as [g [Hg Hp]].
  exists g. destruct (parse_export_ok g s Hp) as [H1 [H2 H3]].
  split; [exact Hg|]. split; [exact H1|]. split; [exact H2|]. split; [exact H3|]. exact (parse_export_strings g s Hp).
Qed.
Print Assumptions C49_accepted_as_written.

(** One such section makes the whole file be refused. *)
Theorem C49_clash_rejects_file :
  forall dir g gs c r g0,
    parse_cfile dir (Some (g :: gs)) c = PcfRet r -> In g0 gs -> clash (g_keys g0) -> cf_list r = None.
Proof. exact parse_cfile_clash. Qed.
Print Assumptions C49_clash_rejects_file.

(** And not more than that is refused: a section with an exportname, yes/no values
    for its yes/no options and none of the combinations is accepted. *)
Theorem C49_harmless_accepted :
  forall g,
    last_value "exportname" (g_keys g) <> None -> well_formed (g_keys g) ->
    last_value "virtstyle" (g_keys g) = None -> last_value "filesize" (g_keys g) = None ->
    last_value "maxconnections" (g_keys g) = None ->
    ~ clash (g_keys g) -> ~ says_yes "sdp" (g_keys g) ->
    exists s, parse_export g = Some s /\ s_max s = 0 /\ s_virt s = VirtIplit.
Proof. exact harmless_accepted. Qed.
Print Assumptions C49_harmless_accepted.

Definition demo_conf : list group :=
  [demo_generic; demo_section "a" [("readonly"%string, text "true "); ("copyonwrite"%string, text "1"); ("flush"%string, text "false")]].
Example C49_ex :
  exists r l, parse_cfile no_dir (Some demo_conf) gen0 = PcfRet r /\ cf_list r = Some l
    /\ map (fun s => (s_name s, s_flags s)) l = [(text "a", F_READONLY + F_COPYONWRITE)].
Proof. eexists. eexists. split; [vm_compute; reflexivity|]. split; [reflexivity|]. vm_compute. reflexivity. Qed.
Example C49_ex_clash :
  let g := demo_section "a" [("waitfile"%string, text "true"); ("copyonwrite"%string, text "1")] in
  clash (g_keys g) /\ exists r, parse_cfile no_dir (Some [demo_generic; demo_section "b" []; g]) gen0 = PcfRet r /\ cf_list r = None.
Proof.
  split.
  - right. left. split; [exists (text "1")|exists (text "true")]; (split; [reflexivity|exists []; split; [constructor|]]);
      [right|left]; reflexivity.
  - eexists. split; [vm_compute; reflexivity|reflexivity].
Qed.
Example C49_ex_harmless :
  exists s, parse_export (demo_section "a" [("readonly"%string, text "true "); ("splice"%string, text "0")]) = Some s
    /\ s_flags s = F_READONLY.
Proof. eexists. split; [vm_compute; reflexivity|reflexivity]. Qed.

(** ** C50: export records live exactly as long as they are used *)
(** No history makes the server use or release a record that has been freed: the
    only undefined behaviour is the reload of C48_oldstyle_reload_refuted. *)
Theorem C50_no_use_after_free :
  forall l c es o log,
    flag (gc_flags c) F_OLDSTYLE = false -> Z.of_nat (length es) < INT_MAX ->
    (forall e, In e es -> ~ wants_oldstyle e) ->
    root_run es (root_init l c) [] = (o, log) -> o <> RUb.
Proof.
  intros l c es o log Hc Hn He H ->.
  destruct (root_run_inv es 0 _ _ _ _ (inv_init l c Hc) ltac:(lia) Hn H) as [pre [e [post [s1 [E [_ W]]]]]].
  apply (He e); [rewrite E; apply in_elt|exact W].
Qed.
Print Assumptions C50_no_use_after_free.

(** While the process runs, exactly the records that are held (by the list of
    exports or by the connection being served) are not freed. *)
Theorem C50_held_iff_alive :
  forall l c es s a log p,
    flag (gc_flags c) F_OLDSTYLE = false -> Z.of_nat (length es) < INT_MAX ->
    root_run es (root_init l c) [] = (RGo s a, log) ->
    (held s p <-> alive s p).
Proof.
  intros l c es s a log p Hc Hn H.
  destruct (root_run_inv es 0 _ _ _ _ (inv_init l c Hc) ltac:(lia) Hn H) as [I _].
  split; [exact (inv_held _ s log p I)|]. intros [r [R1 R2]].
  destruct (in_dec Nat.eq_dec p (pr_servers s)) as [i|i]; [left; exact i|].
  rewrite (i_dead _ _ _ I p r R1 i) in R2. discriminate.
Qed.
Print Assumptions C50_held_iff_alive.

(** At the end of a connection too, what the list still holds is there. *)
Theorem C50_end_keeps_the_rest :
  forall l c es s log p,
    flag (gc_flags c) F_OLDSTYLE = false -> Z.of_nat (length es) < INT_MAX ->
    root_run es (root_init l c) [] = (RExit s, log) ->
    pr_client s = None /\ (In p (pr_servers s) -> alive s p).
Proof.
  intros l c es s log p Hc Hn H.
  destruct (root_run_inv es 0 _ _ _ _ (inv_init l c Hc) ltac:(lia) Hn H) as [pre [f [post [s1 [E [_ [I W]]]]]]].
  pose proof (inv_end _ s1 log f I) as A. rewrite W in A. destruct A as [A1 [A2 A3]]. split; [exact A2|].
  intros Hp. rewrite A3 in Hp. destruct f; [destruct Hp|].
  destruct (i_know _ _ _ I) as [cs Kn]. destruct (know_in _ _ _ _ Kn Hp) as [r [R1 R2]].
  cbn [root_step] in W. destruct (pr_client s1) as [q|]; [|discriminate].
  destruct (serve_dec_ref (pr_heap s1) q) as [h|] eqn:Eh; [|discriminate]. injection W as <-.
  cbn [pr_heap] in *. assert (L : length h = length (pr_heap s1)).
  { unfold serve_dec_ref in Eh. destruct (deref (pr_heap s1) q); [|discriminate]. injection Eh as <-. apply set_rec_len. }
  assert (Lt : (p < length h)%nat) by (rewrite L; apply nth_error_Some; congruence).
  destruct (nth_error h p) as [x|] eqn:Ex; [|apply nth_error_Some in Lt; congruence].
  exists x. split; [exact Ex|]. exact (A1 p x Ex Hp).
Qed.
Print Assumptions C50_end_keeps_the_rest.

(** But a record outlives its last holder: the process serving a connection gives
    the list up without releasing its elements, so the record of the export it
    served is never freed; and a connection whose first choice was refused keeps a
    reference to it. *)
Theorem C50_not_freed_when_unused_refuted :
  exists l c es s log r,
    root_run es (root_init l c) [] = (RExit s, log)
    /\ ~ held s 0 /\ nth_error (pr_heap s) 0 = Some r /\ r_freed r = false.
Proof.
  exists demo_two, gen0, [EvCommit 0; EvEnd true]. eexists. eexists. eexists.
  split; [vm_compute; reflexivity|]. split; [intros [H|H]; [destruct H|discriminate]|].
  split; reflexivity.
Qed.
Print Assumptions C50_not_freed_when_unused_refuted.
Theorem C50_reference_leak_refuted :
  exists l c es s log r,
    root_run es (root_init l c) [] = (RExit s, log)
    /\ pr_servers s = [0%nat; 1%nat] /\ pr_client s = None
    /\ nth_error (pr_heap s) 0 = Some r /\ r_ref r = 2.
Proof.
  exists demo_two, gen0, [EvCommit 0; EvCommit 1; EvEnd false]. eexists. eexists. eexists.
  split; [vm_compute; reflexivity|]. repeat split.
Qed.
Print Assumptions C50_reference_leak_refuted.

Example C50_ex :
  exists s log, root_run [hup_c; EvCommit 0; hup_c; EvCommit 2] (root_init demo_two gen0) [] = (RGo s None, log)
    /\ pr_servers s = [0; 1; 3]%nat
    /\ map (fun r => (r_ref r, r_freed r)) (pr_heap s)
       = [(2, false); (1, false); (0, true); (2, false); (0, true); (0, true); (0, true); (0, true)].
Proof. eexists. eexists. split; [vm_compute; reflexivity|]. split; [reflexivity|]. vm_compute. reflexivity. Qed.
