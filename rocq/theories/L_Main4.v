(** Lemmas about main. *)
From Coq Require Import String.
From Verif Require Import Base M_Const M_Acl M_Nego M_Conf M_Main S_Root S_Acl S_Conf S_Main L_Acl L_Conf L_Main L_Main2 L_Main3.
Open Scope list_scope.
Open Scope Z_scope.

Lemma cmdline_run args c serve : cmdline args = CRun c serve ->
  opts args cmd0 = ClGo c /\ c_out c = None /\
  match serve with
  | Some s => s = c_serve c /\ 2 <= zlen (words args)
  | None => zlen (words args) < 2
  end.
Proof.
  unfold cmdline. destruct args as [|a t].
  - intros K. injection K as <- <-. cbn. unfold zlen. cbn. repeat split; lia.
  - destruct (opts (a :: t) cmd0) as [c1|ok|] eqn:E; try discriminate.
    pose proof (opts_words _ _ _ E) as W. change (c_words cmd0) with 0 in W. rewrite W.
    destruct (Z.ltb_spec (0 + zlen (words (a :: t))) 2); destruct (c_out c1) eqn:Eo; try discriminate; intros K; injection K as <- <-;
      (split; [reflexivity|]; split; [exact Eo|]); [lia|]. split; [reflexivity|lia].
Qed.
Lemma cmdline_print args g : cmdline args = CPrint g ->
  exists c, opts args cmd0 = ClGo c /\ c_out c = Some (g_name g) /\ g = mkG (g_name g) (dump_section (c_serve c)) /\ 2 <= zlen (words args).
Proof.
  unfold cmdline. destruct args as [|a t]; [discriminate|].
  destruct (opts (a :: t) cmd0) as [c1|ok|] eqn:E; try discriminate.
  pose proof (opts_words _ _ _ E) as W. change (c_words cmd0) with 0 in W. rewrite W.
  destruct (Z.ltb_spec (0 + zlen (words (a :: t))) 2); destruct (c_out c1) eqn:Eo; try discriminate.
  intros K. injection K as <-. exists c1. cbn [g_name]. repeat split; [exact Eo|lia].
Qed.
Lemma two_words args : 2 <= zlen (words args) -> exists w0 w1 r, words args = w0 :: w1 :: r.
Proof.
  intros H. unfold zlen in H. destruct (words args) as [|w0 [|w1 r]]; cbn in H; try lia. exists w0, w1, r. reflexivity.
Qed.
Lemma export_given args c : opts args cmd0 = ClGo c -> 2 <= zlen (words args) ->
  exists w0 w1 r, words args = w0 :: w1 :: r /\ s_export (c_serve c) = Some w1 /\ exists t, w1 = 47 :: t.
Proof.
  intros K W. destruct (two_words _ W) as (w0 & w1 & r & E).
  pose proof (opts_export _ _ _ K) as X. change (c_words cmd0) with 0 in X. specialize (X ltac:(lia)).
  rewrite E in X. change (Z.to_nat (1 - 0)) with 1%nat in X. cbn [nth_error] in X.
  exists w0, w1, r. split; [exact E|]. exact X.
Qed.

(** -o changes nothing else *)
Definition is_o (a : sarg) : bool := match a with SOpt o _ => (o =? "o")%string | SWord _ => false end.
Lemma do_opt_set_out h a c0 : is_o a = false ->
  do_opt (set_out h c0) a = match do_opt c0 a with ClGo c1 => ClGo (set_out h c1) | r => r end.
Proof.
  intros N. destruct a as [w|o w].
  - cbn [do_opt]. change (c_words (set_out h c0)) with (c_words c0).
    destruct (c_words c0 =? 0); [destruct (addr_port w) as [[? ?]|]; reflexivity|].
    destruct (c_words c0 =? 1).
    { destruct w as [|x t]; [reflexivity|]. destruct x as [|x|x]; try reflexivity; do 6 (destruct x as [x|x|]; try reflexivity). }
    destruct (c_words c0 =? 2); [destruct (size_arg w); reflexivity|reflexivity].
  - cbn [do_opt is_o] in *. rewrite N.
    destruct (o =? "r")%string; [reflexivity|]. destruct (o =? "m")%string; [reflexivity|].
    destruct (o =? "p")%string; [reflexivity|]. destruct (o =? "c")%string; [reflexivity|].
    destruct (o =? "n")%string; [reflexivity|]. destruct (o =? "d")%string; [reflexivity|].
    destruct (o =? "C")%string; [reflexivity|]. destruct (o =? "l")%string; [reflexivity|].
    destruct (o =? "M")%string; [reflexivity|]. destruct (o =? "V")%string; reflexivity.
Qed.
Lemma opts_set_out h l : forall c0 c1, opts l c0 = ClGo c1 -> c_out c1 = None -> opts l (set_out h c0) = ClGo (set_out h c1).
Proof.
  induction l as [|a t IH]; intros c0 c1 Q N; [cbn in *; congruence|].
  pose proof (opts_out _ _ _ Q) as U. rewrite N in U. cbn [last_arg] in U.
  destruct (last_arg "o" t) eqn:Et; [discriminate U|].
  destruct (opts_cons _ _ _ _ Q) as (c2 & Q1 & Q2). cbn [opts].
  assert (M : is_o a = false).
  { destruct a as [w|o w]; [reflexivity|]. cbn [is_o]. destruct (o =? "o")%string; [discriminate U|reflexivity]. }
  rewrite do_opt_set_out, Q1 by exact M. apply IH; assumption.
Qed.
Lemma opts_app l1 : forall l2 c0, opts (l1 ++ l2) c0 = match opts l1 c0 with ClGo c1 => opts l2 c1 | r => r end.
Proof. induction l1 as [|a t IH]; intros l2 c0; [reflexivity|]. cbn [app opts]. destruct (do_opt c0 a); [apply IH| |]; reflexivity. Qed.

Lemma main_run args e r : main args e = MServe r ->
  exists c serve rr,
    cmdline args = CRun c serve
    /\ parse_cfile (me_dir e) (me_file e (resolve (dp_cwd (me_proc e)) (c_file c))) (mkGen 0 4 None) = PcfRet rr
    /\ ru_cmd r = c
    /\ ru_gs r = strings_after (me_file e (resolve (dp_cwd (me_proc e)) (c_file c))) rr (c_gs c)
    /\ ru_gen r = cf_gen rr
    /\ ru_exports r = match cf_list rr with Some l => l | None => [] end ++ match serve with Some s => [s] | None => [] end
    /\ (serve <> None -> cf_list rr <> None) /\ ru_exports r <> []
    /\ (if c_nodaemon c then (ru_pid r, ru_proc r) = (c_pid c, me_proc e)
        else daemonize (c_pid c) (me_proc e) = Some (ru_pid r, ru_proc r))
    /\ setup_servers (me_gai e (gs_port (ru_gs r))) (me_sock e) (ru_gs r) (gc_flags (ru_gen r)) = Some (ru_listen r)
    /\ dousers (me_grnam e) (me_pwnam e) (gs_user (ru_gs r)) (gs_group (ru_gs r)) (me_cred e) = Some (ru_cred r)
    /\ ru_inetd r = match gs_port (ru_gs r) with Some p => is_text p "0" | None => false end.
Proof.
  unfold main. destruct (cmdline args) as [c serve|g|ok|] eqn:Ec; try discriminate.
  destruct (parse_cfile _ _ _) as [rr|] eqn:Ep; [|discriminate]. cbv zeta.
  intros K. exists c, serve, rr. split; [reflexivity|]. split; [exact Ep|].
  set (gs := strings_after _ rr (c_gs c)) in *. clearbody gs.
  assert (N : serve <> None -> cf_list rr <> None).
  { intros Hs Hr. rewrite Hr in K. destruct serve; [discriminate K|congruence]. }
  set (l := match cf_list rr with Some l => l | None => [] end ++ match serve with Some s => [s] | None => [] end) in *.
  assert (K2 : (match l with
              | [] => MExit false
              | _ =>
                  match (if c_nodaemon c then Some (c_pid c, me_proc e) else daemonize (c_pid c) (me_proc e)) with
                  | None => MExit false
                  | Some (pid, p) =>
                      match setup_servers (me_gai e (gs_port gs)) (me_sock e) gs (gc_flags (cf_gen rr)) with
                      | None => MExit false
                      | Some ls =>
                          match dousers (me_grnam e) (me_pwnam e) (gs_user gs) (gs_group gs) (me_cred e) with
                          | None => MExit false
                          | Some cr =>
                              MServe (mkRun l (cf_gen rr) gs c pid ls p cr
                                        match gs_port gs with Some p => is_text p "0" | None => false end)
                          end
                      end
                  end
              end) = MServe r).
  { destruct serve, (cf_list rr); try exact K. exfalso. apply N; congruence. }
  clear K. clearbody l. destruct l as [|x l]; [discriminate K2|].
  destruct (if c_nodaemon c then _ else _) as [[pid p]|] eqn:Ed; [|discriminate K2].
  destruct (setup_servers _ _ _ _) as [ls|] eqn:Es; [|discriminate K2].
  destruct (dousers _ _ _ _ _) as [cr|] eqn:Eu; [|discriminate K2].
  injection K2 as <-. cbn [ru_cmd ru_gs ru_gen ru_exports ru_pid ru_proc ru_listen ru_cred ru_inetd].
  repeat apply conj; auto; try discriminate.
  destruct (c_nodaemon c); [congruence|exact Ed].
Qed.

(** * User and group *)
Lemma dousers_only grnam pwnam un gn u g c c' : grnam gn = Some g -> pwnam un = Some u -> as_root c ->
  dousers grnam pwnam (Some un) (Some gn) c = Some c' -> only u g c'.
Proof.
  intros Hg Hu (r & s & Hc). unfold dousers. rewrite Hg, Hu. unfold setgid, setgroups, setuid, root_like.
  destruct c as [cu cg gr]. cbn [cr_u cr_g cr_groups] in *. subst cu. destruct cg as [[a b] d].
  rewrite Z.eqb_refl. cbn [cr_u cr_g cr_groups]. rewrite Z.eqb_refl. cbn. intros K. injection K as <-. repeat split.
Qed.
Lemma dousers_ok grnam pwnam un gn u g c : grnam gn = Some g -> pwnam un = Some u -> as_root c ->
  exists c', dousers grnam pwnam (Some un) (Some gn) c = Some c'.
Proof.
  intros Hg Hu (r & s & Hc). unfold dousers. rewrite Hg, Hu. unfold setgid, setgroups, setuid, root_like.
  destruct c as [cu cg gr]. cbn [cr_u cr_g cr_groups] in *. subst cu. destruct cg as [[a b] d].
  rewrite Z.eqb_refl. cbn [cr_u cr_g cr_groups]. rewrite Z.eqb_refl. cbn. eexists. reflexivity.
Qed.
Lemma dousers_user_only grnam pwnam un u c c' : pwnam un = Some u -> as_root c ->
  dousers grnam pwnam (Some un) None c = Some c' -> cr_u c' = (u, u, u) /\ cr_g c' = cr_g c /\ cr_groups c' = [].
Proof.
  intros Hu (r & s & Hc). unfold dousers. rewrite Hu. unfold setgroups, setuid, root_like.
  destruct c as [cu cg gr]. cbn [cr_u cr_g cr_groups] in *. subst cu.
  rewrite Z.eqb_refl. cbn [cr_u cr_g cr_groups]. rewrite Z.eqb_refl. intros K. injection K as <-. repeat split.
Qed.
Lemma dousers_group_only grnam pwnam gn g c c' : grnam gn = Some g -> as_root c ->
  dousers grnam pwnam None (Some gn) c = Some c' -> cr_u c' = cr_u c /\ cr_g c' = (g, g, g) /\ cr_groups c' = cr_groups c.
Proof.
  intros Hg (r & s & Hc). unfold dousers. rewrite Hg. unfold setgid, root_like.
  destruct c as [cu cg gr]. cbn [cr_u cr_g cr_groups] in *. subst cu. destruct cg as [[a b] d].
  rewrite Z.eqb_refl. intros K. injection K as <-. repeat split.
Qed.
Lemma dousers_not_root grnam pwnam un gn r e s c : cr_u c = (r, e, s) -> e <> 0 -> dousers grnam pwnam (Some un) gn c = None.
Proof.
  intros Hc He. unfold dousers.
  assert (G : forall c', match gn with None => Some c | Some n => match grnam n with None => None | Some g => setgid g c end end = Some c' ->
              cr_u c' = (r, e, s)).
  { intros c'. destruct gn as [n|]; [|congruence]. destruct (grnam n) as [g|]; [|discriminate].
    unfold setgid. destruct (cr_g c) as [[a b] d]. destruct (root_like c); [intros K; injection K as <-; exact Hc|].
    destruct ((g =? a) || (g =? d)); [intros K; injection K as <-; exact Hc|discriminate]. }
  destruct (match gn with None => _ | Some _ => _ end) as [c1|]; [|reflexivity]. specialize (G _ eq_refl).
  destruct (pwnam un); [|reflexivity]. unfold setgroups, root_like. rewrite G, (proj2 (Z.eqb_neq e 0) He). reflexivity.
Qed.
(** without privileges nothing can be regained *)
Lemma only_stuck u g c : only u g c -> u <> 0 ->
  (forall u' c', setuid u' c = Some c' -> c' = c) /\ (forall g' c', setgid g' c = Some c' -> c' = c) /\ (forall l, setgroups l c = None).
Proof.
  intros (A & B & C) Hu. destruct c as [cu cg gr]. cbn in A, B, C. subst.
  unfold setuid, setgid, setgroups, root_like. cbn. rewrite (proj2 (Z.eqb_neq u 0) Hu). repeat split.
  - intros u' c'. destruct (Z.eqb_spec u' u); cbn; [|discriminate]. subst. congruence.
  - intros g' c'. destruct (Z.eqb_spec g' g); cbn; [|discriminate]. subst. congruence.
Qed.

(** * The background process *)
Lemma open_fd_spec o l : exists n, fst (open_fd o l) = n /\ nth n l None = None /\
  (forall i, i <> n -> nth i (snd (open_fd o l)) None = nth i l None) /\ (n < length (snd (open_fd o l)))%nat.
Proof.
  induction l as [|x t IH]; cbn [open_fd].
  - exists O. cbn. repeat apply conj; auto. intros [|i] Hi; [congruence|]. destruct i; reflexivity.
  - destruct x as [x|].
    + destruct (open_fd o t) as [m t'] eqn:E. cbn [fst snd] in IH. destruct IH as (n & -> & A & B & C).
      exists (S n). cbn. repeat apply conj; auto; [|lia]. intros [|i] Hi; [reflexivity|]. apply B. congruence.
    + exists O. cbn. repeat apply conj; auto; [|lia]. intros [|i] Hi; [congruence|reflexivity].
Qed.
Lemma set_fd_other n v l i : i <> n -> nth i (set_fd n v l) None = nth i l None.
Proof.
  revert n i. induction l as [|x t IH]; intros [|n] [|i] Hi; cbn [set_fd nth]; try reflexivity; try congruence. apply IH. congruence.
Qed.
Lemma daemonize_stdio pid p pid' p' : daemonize pid p = Some (pid', p') ->
  forall i, nth i (dp_fds p) None <> None -> nth i (dp_fds p') None = nth i (dp_fds p) None.
Proof.
  unfold daemonize. destruct (open_fd (text "/dev/null") (dp_fds p)) as [n l] eqn:E.
  destruct (open_fd_spec (text "/dev/null") (dp_fds p)) as (m & A & B & C & D). rewrite E in A, C, D. cbn [fst snd] in A, C, D. subst m.
  unfold dup2. destruct (nth 0 l None); [|discriminate].
  destruct (nth 1 (set_fd n _ l) None); [|discriminate].
  destruct (nth 2 (set_fd n _ (set_fd n _ l)) None); [|discriminate].
  intros K i Hi. injection K as <- <-. cbn [dp_fds]. assert (i <> n) by (intros ->; congruence).
  rewrite !set_fd_other by assumption. apply C. assumption.
Qed.
Lemma daemonize_rest pid p pid' p' : daemonize pid p = Some (pid', p') ->
  dp_cwd p' = [47] /\ dp_pid p' = Some (resolve [47] pid') /\ pid' <> []
  /\ (pid <> [] -> pid' = pid).
Proof.
  unfold daemonize. destruct (open_fd (text "/dev/null") (dp_fds p)) as [n l].
  destruct (dup2 0 n l) as [l1|]; [|discriminate]. destruct (dup2 1 n l1) as [l2|]; [|discriminate].
  destruct (dup2 2 n l2) as [l3|]; [|discriminate]. intros K. injection K as <- <-. cbn [dp_cwd dp_pid].
  change (text "/") with [47]. destruct pid; repeat apply conj; auto; try discriminate; intros; congruence.
Qed.
Lemma resolve_absolute cwd t : resolve cwd (47 :: t) = 47 :: t.
Proof. reflexivity. Qed.

(** * main, put together *)
Lemma do_opt_gs c a c' : do_opt c a = ClGo c' ->
  gs_user (c_gs c') = gs_user (c_gs c) /\ gs_group (c_gs c') = gs_group (c_gs c) /\ gs_unix (c_gs c') = gs_unix (c_gs c)
  /\ gs_cert (c_gs c') = gs_cert (c_gs c) /\ gs_key (c_gs c') = gs_key (c_gs c) /\ gs_ca (c_gs c') = gs_ca (c_gs c)
  /\ gs_prio (c_gs c') = gs_prio (c_gs c).
Proof.
  intros K. destruct a as [w|o w].
  - destruct (Z.eq_dec (c_words c) 0) as [W|W].
    + cbn [do_opt] in K. rewrite W in K. change (0 =? 0) with true in K. cbn iota in K.
      destruct (addr_port w) as [[a p]|]; [|discriminate K]. injection K as <-. repeat split.
    + destruct (do_opt_word _ _ _ K) as (_ & _ & _ & _ & _ & _ & _ & _ & _ & _ & _ & X & _).
      rewrite (proj2 (Z.eqb_neq _ _) W) in X. rewrite X. repeat split.
  - destruct (do_opt_opt _ _ _ _ K) as (_ & X & _). rewrite X. repeat split.
Qed.
Lemma opts_gs_rest l : forall c c', opts l c = ClGo c' ->
  gs_user (c_gs c') = gs_user (c_gs c) /\ gs_group (c_gs c') = gs_group (c_gs c) /\ gs_unix (c_gs c') = gs_unix (c_gs c)
  /\ gs_cert (c_gs c') = gs_cert (c_gs c) /\ gs_key (c_gs c') = gs_key (c_gs c) /\ gs_ca (c_gs c') = gs_ca (c_gs c)
  /\ gs_prio (c_gs c') = gs_prio (c_gs c).
Proof.
  induction l as [|a t IH]; intros c c' K; [cbn in K; injection K as <-; repeat split|].
  destruct (opts_cons _ _ _ _ K) as (c1 & K1 & K2).
  destruct (do_opt_gs _ _ _ K1) as (A1 & A2 & A3 & A4 & A5 & A6 & A7).
  destruct (IH _ _ K2) as (B1 & B2 & B3 & B4 & B5 & B6 & B7).
  repeat apply conj; congruence.
Qed.
Ltac run_parts H :=
  let c := fresh "c" in let serve := fresh "serve" in let rr := fresh "rr" in
  destruct (main_run _ _ _ H) as (c & serve & rr & Hcmd & Hparse & Hc & Hgs & Hgen & Hexp & Hnul & Hne & Hd & Hsock & Husr & Hinetd).

Lemma main_list args e r : main args e = MServe r ->
  exists c serve rr l, cmdline args = CRun c serve /\ ru_cmd r = c
    /\ parse_cfile (me_dir e) (me_file e (resolve (dp_cwd (me_proc e)) (c_file c))) (mkGen 0 4 None) = PcfRet rr
    /\ cf_list rr = Some l /\ ru_exports r = l ++ match serve with Some s => [s] | None => [] end.
Proof.
  intros H. run_parts H. destruct (cf_list rr) as [l|] eqn:El.
  - exists c, serve, rr, l. repeat apply conj; auto.
  - destruct serve; [exfalso; apply Hnul; congruence|]. cbn in Hexp. congruence.
Qed.
Lemma main_settings args e r g gs : main args e = MServe r ->
  me_file e (resolve (dp_cwd (me_proc e)) (c_file (ru_cmd r))) = Some (g :: gs) ->
  let said k cmd := match last_value k (g_keys g) with Some v => Some v | None => cmd end in
  gs_user (ru_gs r) = said "user"%string None /\ gs_group (ru_gs r) = said "group"%string None
  /\ gs_addr (ru_gs r) = said "listenaddr"%string (gs_addr (c_gs (ru_cmd r)))
  /\ gs_port (ru_gs r) = said "port"%string (gs_port (c_gs (ru_cmd r)))
  /\ gs_unix (ru_gs r) = said "unixsock"%string None /\ gs_cert (ru_gs r) = said "certfile"%string None
  /\ gs_key (ru_gs r) = said "keyfile"%string None /\ gs_ca (ru_gs r) = said "cacertfile"%string None
  /\ gs_prio (ru_gs r) = said "tlsprio"%string None.
Proof.
  intros H F. destruct (main_list _ _ _ H) as (c' & serve' & rr' & l & Q1 & Q2 & Q3 & Q4 & _).
  run_parts H. subst c'. rewrite Hc in *. rewrite F in *. rewrite Q3 in Hparse. injection Hparse as <-.
  unfold strings_after in Hgs. rewrite Q4 in Hgs. cbn [genconftmp] in Hgs.
  destruct (cmdline_run _ _ _ Hcmd) as (O & _).
  destruct (opts_gs_rest _ _ _ O) as (A1 & A2 & A3 & A4 & A5 & A6 & A7). cbn in A1, A2, A3, A4, A5, A6, A7.
  rewrite Hgs. unfold M_Main.read_strings, M_Main.str_param. cbn [gs_user gs_group gs_addr gs_port gs_unix gs_cert gs_key gs_ca gs_prio].
  rewrite A1, A2, A3, A4, A5, A6, A7, !lookup_last. cbv zeta. repeat apply conj; reflexivity.
Qed.
Lemma main_settings_none args e r : main args e = MServe r ->
  me_file e (resolve (dp_cwd (me_proc e)) (c_file (ru_cmd r))) = None -> ru_gs r = c_gs (ru_cmd r).
Proof. intros H F. run_parts H. rewrite Hc in *. rewrite F in Hgs. exact Hgs. Qed.

(** listening *)
Definition the_list (a : option (list Z)) : list Z := match a with None | Some [] => text "::, 0.0.0.0" | Some a => a end.
Lemma the_list_ne a : the_list a <> [].
Proof. unfold the_list. destruct a as [[|x t]|]; discriminate. Qed.
Lemma open_modern_names gai k a s : open_modern gai k a s = open_names gai k (split_set (the_list a)) s.
Proof.
  unfold open_modern. fold (the_list a). pose proof (the_list_ne a) as N. destruct (the_list a) as [|x t]; [congruence|reflexivity].
Qed.
Lemma setup_parts gai k g flags ls : setup_servers gai k g flags = Some ls ->
  exists s0, (match gs_unix g with None => s0 = mkL [] 0 0 | Some u => s0 = mkL [LUnix (firstn 107 u)] 0 1 end)
    /\ (if flag flags F_DUAL_LISTEN || match gs_unix g with None => true | Some _ => false end
        then open_names gai k (split_set (the_list (gs_addr g))) s0 = inl ls else ls = s0).
Proof.
  unfold setup_servers. destruct (gs_unix g) as [u|].
  - unfold open_unix. cbn [l_tick l_socks l_lost]. destruct (k O); try discriminate.
    intros K. exists (mkL [LUnix (firstn 107 u)] 0 1). split; [reflexivity|]. cbn [app] in K.
    destruct (flag flags F_DUAL_LISTEN || false); [|congruence]. rewrite open_modern_names in K.
    destruct (open_names gai k (split_set (the_list (gs_addr g))) _); congruence.
  - intros K. exists (mkL [] 0 0). split; [reflexivity|]. destruct (flag flags F_DUAL_LISTEN || true); [|congruence].
    rewrite open_modern_names in K. destruct (open_names gai k (split_set (the_list (gs_addr g))) _); congruence.
Qed.
Lemma main_listens args e r names : main args e = MServe r -> (forall i, me_sock e i <> BindInUse) ->
  gs_unix (ru_gs r) = None -> listed (match gs_addr (ru_gs r) with None | Some [] => text "::, 0.0.0.0" | Some a => a end) names ->
  l_socks (ru_listen r) = map LTcp (flat_map (fun n => match me_gai e (gs_port (ru_gs r)) n with Some l => l | None => [] end) names)
  /\ l_lost (ru_listen r) = 0.
Proof.
  intros H N U L. run_parts H. destruct (setup_parts _ _ _ _ _ Hsock) as (s0 & A & B). rewrite U in A, B. subst s0.
  rewrite orb_true_r in B. destruct (names_all _ _ _ _ _ B N) as (C & D). unfold the_list in C. rewrite (listed_split _ _ L) in C.
  split; [exact C|exact D].
Qed.
Lemma main_accounted args e r names : main args e = MServe r -> (gs_unix (ru_gs r) = None \/ flag (gc_flags (ru_gen r)) 8 = true) ->
  listed (match gs_addr (ru_gs r) with None | Some [] => text "::, 0.0.0.0" | Some a => a end) names ->
  forall n ais a, In n names -> me_gai e (gs_port (ru_gs r)) n = Some ais -> In a ais ->
    In (LTcp a) (l_socks (ru_listen r)) \/ exists i, me_sock e i = BindInUse.
Proof.
  intros H U L n ais a Hn Hg Ha. run_parts H. destruct (setup_parts _ _ _ _ _ Hsock) as (s0 & _ & B).
  replace (flag (gc_flags (ru_gen r)) F_DUAL_LISTEN || match gs_unix (ru_gs r) with None => true | Some _ => false end) with true in B.
  2: { destruct U as [-> | U]; [rewrite orb_true_r; reflexivity|]. change F_DUAL_LISTEN with 8. rewrite U. reflexivity. }
  destruct (names_each _ _ _ _ _ B) as (l & C & _ & D & _). unfold the_list in D. rewrite (listed_split _ _ L) in D.
  destruct (D a) as [E|E]; [|left|right; exact E].
  - apply in_flat_map. exists n. split; [exact Hn|]. unfold answers. rewrite Hg. exact Ha.
  - rewrite C. apply in_or_app. right. apply in_map. exact E.
Qed.
Lemma main_somewhere args e r : main args e = MServe r ->
  (forall p n l, me_gai e p n = Some l -> l <> []) ->
  (forall a, gs_addr (ru_gs r) = Some a -> ~ sep (last a 0)) ->
  l_socks (ru_listen r) <> [].
Proof.
  intros H G A. run_parts H. destruct (setup_parts _ _ _ _ _ Hsock) as (s0 & B & C).
  destruct (flag (gc_flags (ru_gen r)) F_DUAL_LISTEN || match gs_unix (ru_gs r) with None => true | Some _ => false end) eqn:E.
  - apply (names_some _ _ _ (G _)) with (2 := C). apply last_split; [apply the_list_ne|].
    unfold the_list. destruct (gs_addr (ru_gs r)) as [[|x t]|] eqn:Ea.
    + vm_compute. intuition discriminate.
    + apply A. reflexivity.
    + vm_compute. intuition discriminate.
  - destruct (gs_unix (ru_gs r)); [|rewrite orb_true_r in E; discriminate E]. rewrite C, B. discriminate.
Qed.

(** users *)
Lemma main_users args e r un gn u g : main args e = MServe r -> as_root (me_cred e) ->
  gs_user (ru_gs r) = Some un -> gs_group (ru_gs r) = Some gn -> me_pwnam e un = Some u -> me_grnam e gn = Some g ->
  only u g (ru_cred r).
Proof.
  intros H R Hu Hg Pu Pg. run_parts H. rewrite Hu, Hg in Husr. exact (dousers_only _ _ _ _ _ _ _ _ Pg Pu R Husr).
Qed.
Lemma main_users_known args e r : main args e = MServe r ->
  (forall un, gs_user (ru_gs r) = Some un -> me_pwnam e un <> None /\ as_root (me_cred e))
  /\ (forall gn, gs_group (ru_gs r) = Some gn -> me_grnam e gn <> None).
Proof.
  intros H. run_parts H. split.
  - intros un Hu. rewrite Hu in Husr. split.
    + intros Q. unfold dousers in Husr. rewrite Q in Husr.
      destruct (match gs_group (ru_gs r) with Some _ => _ | None => _ end); discriminate Husr.
    + destruct (cr_u (me_cred e)) as [[a b] d] eqn:Ec. exists a, d. rewrite Ec. f_equal. f_equal.
      destruct (Z.eq_dec b 0) as [->|Nb]; [reflexivity|]. rewrite (dousers_not_root _ _ _ _ _ _ _ _ Ec Nb) in Husr. discriminate Husr.
  - intros gn Hg Q. unfold dousers in Husr. rewrite Hg, Q in Husr. discriminate Husr.
Qed.

(** the background *)
Lemma main_same_file args e r : main args e = MServe r ->
  (exists t, c_file (ru_cmd r) = 47 :: t) \/ c_nodaemon (ru_cmd r) = true ->
  reload_path r = resolve (dp_cwd (me_proc e)) (c_file (ru_cmd r)).
Proof.
  intros H [(t & T)|N]; unfold reload_path.
  - rewrite T. reflexivity.
  - run_parts H. rewrite Hc in N. rewrite N in Hd. injection Hd as _ ->. reflexivity.
Qed.
Lemma main_pid args e r : main args e = MServe r -> c_nodaemon (ru_cmd r) = false ->
  dp_pid (ru_proc r) = unlinked r /\ dp_pid (ru_proc r) <> None
  /\ (forall t, last_arg "p" args = Some (47 :: t) -> (length t < 255)%nat -> dp_pid (ru_proc r) = Some (47 :: t)).
Proof.
  intros H N. run_parts H. rewrite Hc in N. rewrite N in Hd.
  destruct (daemonize_rest _ _ _ _ Hd) as (A & B & C & D). unfold unlinked. rewrite A, B.
  split; [destruct (ru_pid r); [congruence|reflexivity]|]. split; [discriminate|].
  intros t T L. destruct (cmdline_run _ _ _ Hcmd) as (O & _). pose proof (opts_pid _ _ _ O) as P. rewrite T in P.
  rewrite firstn_all2 in P by (cbn [length]; lia).
  rewrite D by (rewrite P; discriminate). rewrite P. reflexivity.
Qed.
Lemma main_fds args e r i : main args e = MServe r -> nth i (dp_fds (me_proc e)) None <> None ->
  nth i (dp_fds (ru_proc r)) None = nth i (dp_fds (me_proc e)) None.
Proof.
  intros H Hi. run_parts H. destruct (c_nodaemon c); [injection Hd as _ ->; reflexivity|].
  exact (daemonize_stdio _ _ _ _ Hd i Hi).
Qed.

(** exports *)
Lemma parse_from g s : parse_export g = Some s -> from_section g s.
Proof.
  intros H. destruct (parse_export_ok g s H) as (A & B & _). destruct (parse_export_strings g s H) as (C & D & _).
  unfold from_section. repeat apply conj; auto.
Qed.
Lemma forall2_from gs : forall l, map (fun s => Some s) l = map parse_export gs -> Forall2 from_section gs l.
Proof.
  induction gs as [|g t IH]; intros [|s l] E; cbn in E; try discriminate E; constructor.
  - apply parse_from. congruence.
  - apply IH. congruence.
Qed.
Lemma parse_cfile_sections dir g gs c r l : parse_cfile dir (Some (g :: gs)) c = PcfRet r -> cf_list r = Some l ->
  exists l1 l2, l = l1 ++ l2 /\ Forall2 from_section gs l1
    /\ forall s, In s l2 -> exists g', included dir (g_keys g) g' /\ from_section g' s.
Proof.
  unfold parse_cfile.
  destruct (negb (is_text (g_name g) "generic")); [intros [= <-]; discriminate|].
  destruct (parse_generic g _) as [c1|] eqn:Eg; [|intros [= <-]; discriminate].
  destruct (flag (gc_flags c1) F_OLDSTYLE); [intros [= <-]; discriminate|].
  destruct (parse_exports gs (gc_flags c1) []) as [b|l1] eqn:Ep; [intros [= <-]; discriminate|].
  destruct (parse_exports_ok _ _ _ _ Ep) as [l' [El Hm]]. cbn [app] in El. subst l'. pose proof (forall2_from _ _ Hm) as F2.
  assert (Hdir : gc_dir c1 = last_value "includedir" (g_keys g)).
  { unfold parse_generic in Eg. destruct (read_flags _ _ _); [|discriminate].
    destruct (match lookup "max_threads" (g_keys g) with Some v => as_int v | None => _ end); [|discriminate].
    injection Eg as <-. cbn [gc_dir]. rewrite lookup_last. destruct (last_value _ _); reflexivity. }
  assert (Hmain : exists l0 l2, l1 = l0 ++ l2 /\ Forall2 from_section gs l0
            /\ forall s, In s l2 -> exists g', included dir (g_keys g) g' /\ from_section g' s).
  { exists l1, []. rewrite app_nil_r. repeat apply conj; auto. intros s []. }
  destruct (gc_dir c1) as [d|] eqn:Ed; [|intros [= <-] [= <-]; exact Hmain].
  destruct (dir d) as [es|] eqn:Edir; [|intros [= <-]; discriminate].
  destruct (do_cfile_dir es c1 None) as [[x|] err|] eqn:Edo; [| |discriminate].
  - intros [= <-] [= <-]. exists l1, x. repeat apply conj; auto. intros s Hs.
    destruct (do_dir_ok _ _ _ _ _ Edo) as [_ [K _]].
    destruct (K s x eq_refl Hs) as [[y [Hy _]]|K2]; [discriminate|].
    destruct K2 as [e [gs' [g0 [H1 [H2 [H3 [H4 [H5 H6]]]]]]]].
    exists g0. split; [|apply parse_from; exact H6]. exists d, es, e, gs'. repeat split; auto.
  - destruct err; [intros [= <-]; discriminate|]. intros [= <-] [= <-]. exact Hmain.
Qed.
Lemma main_exports args e r : main args e = MServe r ->
  exists l, ru_exports r = l ++ match cmdline args with CRun _ (Some s) => [s] | _ => [] end /\ ru_exports r <> []
    /\ match me_file e (resolve (dp_cwd (me_proc e)) (c_file (ru_cmd r))) with
       | None | Some [] => l = []
       | Some (g :: gs) =>
           exists l1 l2, l = l1 ++ l2 /\ Forall2 from_section gs l1
             /\ forall s, In s l2 -> exists g', included (me_dir e) (g_keys g) g' /\ from_section g' s
       end.
Proof.
  intros H. destruct (main_list _ _ _ H) as (c' & serve' & rr' & l & Q1 & Q2 & Q3 & Q4 & Q5).
  run_parts H. exists l. rewrite Q1. split; [rewrite Q5; destruct serve'; reflexivity|]. split; [exact Hne|].
  rewrite Q2. destruct (me_file e (resolve (dp_cwd (me_proc e)) (c_file c'))) as [[|g gs]|].
  - cbn in Q3. injection Q3 as <-. discriminate Q4.
  - exact (parse_cfile_sections _ _ _ _ _ _ Q3 Q4).
  - cbn in Q3. injection Q3 as <-. cbn in Q4. congruence.
Qed.
Lemma main_alone args e c s : cmdline args = CRun c (Some s) -> me_file e (resolve (dp_cwd (me_proc e)) (c_file c)) = None ->
  match main args e with MServe r => ru_exports r = [s] | MExit _ => True | _ => False end.
Proof.
  intros K F. unfold main. rewrite K, F. cbn [parse_cfile cf_list app gc_flags gc_threads].
  destruct (if c_nodaemon c then _ else _) as [[pid p]|]; [|exact I].
  destruct (setup_servers _ _ _ _); [|exact I]. destruct (dousers _ _ _ _ _); [|exact I]. reflexivity.
Qed.
Lemma main_none args e c : cmdline args = CRun c None -> me_file e (resolve (dp_cwd (me_proc e)) (c_file c)) = None ->
  main args e = MExit false.
Proof. intros K F. unfold main. rewrite K, F. reflexivity. Qed.
