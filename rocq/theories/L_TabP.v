(** Proofs about main of nbd-client. *)
From Coq Require Import String.
From Verif Require Import Base M_Acl M_Nego M_Conf M_Tab S_Tab L_Tab.
Local Open Scope list_scope.

(** ** options *)
Ltac arg_cases H :=
  repeat match type of H with
  | (if ?b then _ else _) = Some _ => let E := fresh "E" in destruct b eqn:E; try discriminate H
  end; try (injection H as <-).

Definition cl_keep (v v' : mvars) : Prop :=
  t_port (v_cl v') = t_port (v_cl v) /\ t_persist (v_cl v') = t_persist (v_cl v) /\
  (t_bs (v_cl v) <> 0 -> t_bs (v_cl v') <> 0) /\ (t_tls (v_cl v) = true -> t_tls (v_cl v') = true) /\
  (v_netlink v' = true -> v_netlink v = true).

Lemma do_bs_keep s v v' : do_bs s v = Some v' -> cl_keep v v' /\ v_cont v' = v_cont v /\ v_list v' = v_list v /\ v_disc v' = v_disc v /\
  v_nonspecial v' = v_nonspecial v /\ t_host (v_cl v') = t_host (v_cl v) /\ t_dev (v_cl v') = t_dev (v_cl v).
Proof.
  unfold do_bs. intros H. arg_cases H. apply orb_false_iff in E as [E _]. apply Z.eqb_neq in E.
  unfold cl_keep. cbn. conj; auto.
Qed.

Lemma do_arg_keep v a v' : do_arg v a = Some v' -> cl_keep v v'.
Proof.
  intros H. destruct a as [s|o s]; cbn [do_arg] in H.
  - arg_cases H; try (now apply do_bs_keep in H); unfold cl_keep; cbn; tauto.
  - arg_cases H; try (now apply do_bs_keep in H); unfold cl_keep; cbn; try tauto; conj; auto; discriminate.
Qed.
Lemma do_args_keep l : forall v v', do_args v l = Some v' -> cl_keep v v'.
Proof.
  induction l as [|a l IH]; intros v v'; cbn [do_args].
  - intros H. injection H as <-. unfold cl_keep. tauto.
  - destruct (do_arg v a) as [v1|] eqn:E; [|discriminate]. intros H. apply IH in H. apply do_arg_keep in E.
    unfold cl_keep in *. intuition congruence.
Qed.

Lemma do_arg_cont v a v' : do_arg v a = Some v' -> v_cont v' = true -> v_cont v = true \/ exists s, a = AOpt "p" s.
Proof.
  intros H Hc. destruct a as [s|o s]; cbn [do_arg] in H.
  - arg_cases H; try (left; exact Hc); apply do_bs_keep in H as [_ [H _]]; left; congruence.
  - arg_cases H; try (left; exact Hc).
    + apply do_bs_keep in H as [_ [H _]]; left; congruence.
    + right. exists s. match goal with E : String.eqb _ _ = true |- _ => apply String.eqb_eq in E; subst o end. congruence.
Qed.
Lemma do_args_cont l : forall v v', do_args v l = Some v' -> v_cont v' = true -> v_cont v = true \/ given "p" l.
Proof.
  induction l as [|a l IH]; intros v v'; cbn [do_args].
  - intros H. injection H as <-. auto.
  - destruct (do_arg v a) as [v1|] eqn:E; [|discriminate]. intros H Hc. destruct (IH _ _ H Hc) as [H1|[s H1]].
    + destruct (do_arg_cont _ _ _ E H1) as [?|[s ->]]; [auto|]. right. exists s. now left.
    + right. exists s. now right.
Qed.

Lemma do_arg_tls v a v' : do_arg v a = Some v' -> (exists s, a = AOpt "x" s) -> t_tls (v_cl v') = true.
Proof. intros H [s ->]. cbn in H. injection H as <-. reflexivity. Qed.
Lemma do_args_tls l : forall v v', do_args v l = Some v' -> given "x" l -> t_tls (v_cl v') = true.
Proof.
  induction l as [|a l IH]; intros v v'; cbn [do_args].
  - intros _ [s []].
  - destruct (do_arg v a) as [v1|] eqn:E; [|discriminate]. intros H [s [->|Hs]].
    + apply do_args_keep in H. apply H. eapply do_arg_tls; eauto.
    + eapply IH; eauto. now exists s.
Qed.

(** the words, host and device *)
Definition plain_arg (a : arg) : Prop := forall s, a <> AOpt "l" s /\ a <> AOpt "d" s.
Lemma do_arg_opt v o s v' : do_arg v (AOpt o s) = Some v' -> plain_arg (AOpt o s) ->
  t_host (v_cl v') = t_host (v_cl v) /\ t_dev (v_cl v') = t_dev (v_cl v) /\ v_nonspecial v' = v_nonspecial v /\
  v_list v' = v_list v /\ v_disc v' = v_disc v.
Proof.
  intros H Hp. cbn [do_arg] in H. arg_cases H; try (cbn; tauto).
  - apply do_bs_keep in H. tauto.
  - exfalso. match goal with E : String.eqb _ _ = true |- _ => apply String.eqb_eq in E; subst o end. apply (proj2 (Hp s)). congruence.
  - exfalso. match goal with E : String.eqb _ _ = true |- _ => apply String.eqb_eq in E; subst o end. apply (proj1 (Hp s)). congruence.
Qed.
Lemma do_arg_eqword v s v' : existsb (fun x => x =? 61) s = true -> do_arg v (AWord s) = Some v' ->
  t_host (v_cl v') = t_host (v_cl v) /\ t_dev (v_cl v') = t_dev (v_cl v) /\ v_nonspecial v' = v_nonspecial v /\
  v_list v' = v_list v /\ v_disc v' = v_disc v.
Proof.
  intros Hs H. cbn [do_arg] in H. rewrite Hs in H. arg_cases H; [|cbn; tauto].
  apply do_bs_keep in H. tauto.
Qed.
Lemma do_args_words l : forall v v', Forall plain_arg l -> do_args v l = Some v' -> v_disc v = false -> v_list v = false ->
  t_dev (v_cl v) = None ->
  (words l = [] -> t_host (v_cl v') = t_host (v_cl v) /\ t_dev (v_cl v') = None /\ v_disc v' = false /\ v_list v' = false) /\
  (forall w, v_nonspecial v = 0 -> words l = [w] -> t_host (v_cl v') = Some w /\ t_dev (v_cl v') = None /\ v_disc v' = false /\ v_list v' = false).
Proof.
  induction l as [|a l IH]; intros v v' Hp H Hd Hl Hv; cbn [do_args] in H.
  - injection H as <-. split; [auto|]. intros w _ H. discriminate.
  - destruct (do_arg v a) as [v1|] eqn:E; [|discriminate]. pose proof (Forall_inv Hp) as Ha. apply Forall_inv_tail in Hp.
    destruct a as [s|o s].
    + unfold words. cbn [flat_map]. destruct (existsb (fun x => x =? 61) s) eqn:Es.
      * destruct (do_arg_eqword _ _ _ Es E) as [A [B [C [D F]]]]. cbn [app].
        destruct (IH v1 v' Hp H) as [I1 I2]; try congruence. split; [now rewrite <- A|]. intros w Hw. apply I2. congruence.
      * split; [discriminate|]. intros w Hn Hw. cbn [app] in Hw. injection Hw as <- Hw.
        cbn [do_arg] in E. rewrite Es, Hn in E. cbn in E. injection E as <-.
        destruct (IH _ v' Hp H Hd Hl Hv) as [I1 _]. apply I1 in Hw. exact Hw.
    + unfold words. cbn [flat_map app]. destruct (do_arg_opt _ _ _ _ E Ha) as [A [B [C [D F]]]].
      destruct (IH v1 v' Hp H) as [I1 I2]; try congruence. split; [now rewrite <- A|]. intros w Hw. apply I2. congruence.
Qed.

(** ** the settings used *)
Lemma prepare_go v v' : prepare v = MGo v' ->
  v_cont v' = v_cont v /\ v_netlink v' = v_netlink v /\ v_ident v' = v_ident v /\ v_list v' = v_list v /\
  t_dev (v_cl v') = t_dev (v_cl v) /\ t_host (v_cl v') = t_host (v_cl v) /\ t_port (v_cl v') = t_port (v_cl v) /\
  t_unix (v_cl v') = t_unix (v_cl v) /\ t_name (v_cl v') = or_else (t_name (v_cl v)) (Some []) /\
  t_bs (v_cl v') = t_bs (v_cl v) /\ t_bs (v_cl v) <> 0 /\ t_timeout (v_cl v') = t_timeout (v_cl v) /\ t_nconn (v_cl v') = t_nconn (v_cl v) /\
  t_swap (v_cl v') = t_swap (v_cl v) /\ t_no_optgo (v_cl v') = t_no_optgo (v_cl v) /\ t_preinit (v_cl v') = t_preinit (v_cl v) /\
  t_key (v_cl v') = t_key (v_cl v) /\ t_cacert (v_cl v') = t_cacert (v_cl v) /\
  t_cert (v_cl v') = or_else (t_cert (v_cl v)) (t_key (v_cl v)) /\
  t_force (v_cl v') = t_force (v_cl v) /\ t_ro (v_cl v') = t_ro (v_cl v) /\
  t_tlshost (v_cl v') = or_else (t_tlshost (v_cl v)) (if t_unix (v_cl v) then None else t_host (v_cl v)) /\
  (t_tls (v_cl v') = true <-> t_tls (v_cl v) = true \/ t_cert (v_cl v) <> None \/ t_key (v_cl v) <> None \/
                              t_cacert (v_cl v) <> None \/ t_tlshost (v_cl v) <> None).
Proof.
  destruct v as [c ns po co li nl id di]. destruct c as [na de ho po' ce ke ca tl pr bs ti nc fo go pe sw un pi ro ts].
  unfold prepare. cbn [v_cl t_key t_cert v_netlink v_ident].
  destruct ke as [k|], ce as [c0|], ca as [a|], tl as [tl|], ho as [h|], na as [n|], un;
  cbv [is_set orb andb negb set_cert set_tls set_tlshost set_name with_cl v_cl t_name t_dev t_host t_port t_cert t_key t_cacert t_tlshost t_prio t_bs t_timeout t_nconn t_force t_no_optgo t_persist t_swap t_unix t_preinit t_ro t_tls v_nonspecial v_port v_cont v_list v_netlink v_ident v_disc or_else];
  intros H; repeat match type of H with
  | MUb = _ => discriminate H
  | MExit = _ => discriminate H
  | (if ?b then _ else _) = _ => let E := fresh "E" in destruct b eqn:E
  end; try discriminate H; injection H as <-;
  cbv [v_cl t_name t_dev t_host t_port t_cert t_key t_cacert t_tlshost t_prio t_bs t_timeout t_nconn t_force t_no_optgo t_persist t_swap t_unix t_preinit t_ro t_tls v_nonspecial v_port v_cont v_list v_netlink v_ident v_disc];
  repeat match goal with E : (_ =? _) = false |- _ => apply Z.eqb_neq in E end;
  conj; try reflexivity; try assumption; try (split; [intros ?; first [now left | right; first [left; discriminate | right; left; discriminate | right; right; left; discriminate | right; right; right; discriminate]] | intros _; reflexivity]);
  try (split; [intros ?; left; assumption | intros [?|[?|[?|[?|?]]]]; congruence]).
Qed.

Definition start_vars (nl : bool) : mvars := mkV initial 0 (text "10809") false false nl None false.

(** how main got to its end *)
Lemma main_inv file nl l : match main file nl l with
  | MExit | MDisconnect _ => True
  | r => exists v0, do_args (start_vars nl) l = Some v0 /\
      ((prepare v0 = r /\ (forall h, t_host (v_cl v0) = Some h -> names_device h -> v_list v0 = true \/ (t_name (v_cl v0) <> None /\ t_dev (v_cl v0) <> None))) \/
       exists h c, t_host (v_cl v0) = Some h /\ names_device h /\ get_from_config file (set_dev h (v_cl v0)) = Some c /\ prepare (with_cl v0 c) = r)
  end.
Proof.
  unfold main. fold (start_vars nl). destruct (do_args (start_vars nl) l) as [v|]; [|exact I].
  destruct (v_disc v); [exact I|]. destruct (t_host (v_cl v)) as [h|] eqn:Eh; [|exact I].
  assert (Hn : starts (text "nbd") h || starts (text "/dev/nbd") h = true <-> names_device h).
  { rewrite orb_true_iff, !starts_iff. unfold names_device. split.
    - intros [[t H]|[t H]]; eauto.
    - intros [t [H|H]]; eauto. }
  destruct (negb (is_set (t_name (v_cl v)) && is_set (t_dev (v_cl v))) && negb (v_list v)) eqn:Ec.
  - destruct (starts (text "nbd") h || starts (text "/dev/nbd") h) eqn:Es.
    + destruct (get_from_config file (set_dev h (v_cl v))) as [c|] eqn:Eg; [|exact I].
      destruct (prepare (with_cl v c)) eqn:Ep; try exact I; exists v; (split; [reflexivity|]); right; exists h, c; tauto.
    + destruct (v_netlink v); cbn [negb]; [|exact I].
      destruct (prepare v) eqn:Ep; try exact I; exists v; (split; [reflexivity|]); left; (split; [exact Ep|]);
        intros h' H' N; rewrite Eh in H'; injection H' as <-; apply Hn in N; discriminate.
  - destruct (prepare v) eqn:Ep; try exact I; exists v; (split; [reflexivity|]); left; (split; [exact Ep|]);
      intros h' H' N; destruct (v_list v); [now left | | now left | ]; right;
      destruct (t_name (v_cl v)), (t_dev (v_cl v)); try discriminate; (split; discriminate).
Qed.

(** with one word that names a device, main looks it up *)
Lemma main_lookup file nl l w v : Forall plain_arg l -> words l = [w] -> names_device w -> main file nl l = MGo v ->
  exists v0 c, do_args (start_vars nl) l = Some v0 /\ t_host (v_cl v0) = Some w /\
    get_from_config file (set_dev w (v_cl v0)) = Some c /\ prepare (with_cl v0 c) = MGo v.
Proof.
  intros Hp Hw Hn H. pose proof (main_inv file nl l) as I. rewrite H in I. destruct I as [v0 [E [[P Q]|[h [c [A [B [C D]]]]]]]].
  - destruct (do_args_words l _ _ Hp E eq_refl eq_refl eq_refl) as [_ W]. destruct (W w eq_refl Hw) as [W1 [W2 [W3 W4]]].
    destruct (Q _ W1 Hn) as [?|[_ ?]]; congruence.
  - exists v0, c. destruct (do_args_words l _ _ Hp E eq_refl eq_refl eq_refl) as [_ W]. destruct (W w eq_refl Hw) as [W1 _].
    rewrite W1 in A. injection A as <-. auto.
Qed.

Lemma device_short w s : names_device w -> short w s -> exists t, s = text "nbd" ++ t.
Proof.
  intros [t [-> | ->]] [H|[H N]].
  - exfalso. vm_compute in H. discriminate H.
  - eauto.
  - exists t. change (text "/dev/nbd" ++ t) with (text "/dev/" ++ (text "nbd" ++ t)) in H. now apply app_inv_head in H.
  - exfalso. now apply (N (text "nbd" ++ t)).
Qed.

Lemma short_of d : exists s, short d s.
Proof. exists (strip_dev d). now apply short_strip. Qed.

Lemma lookup_device file nl l w v : Forall plain_arg l -> words l = [w] -> names_device w -> main file nl l = MGo v ->
  exists t, t_dev (v_cl v) = Some (text "nbd" ++ t).
Proof.
  intros Hp Hw Hn H. destruct (main_lookup _ _ _ _ _ Hp Hw Hn H) as [v0 [c [E [A [B C]]]]].
  apply prepare_go in C as [_ [_ [_ [_ [C _]]]]]. cbn in C. rewrite C. rewrite (config_dev _ (set_dev w (v_cl v0)) w _ eq_refl B).
  destruct (device_short w (strip_dev w) Hn) as [t ->]; [now apply short_strip|eauto].
Qed.

Lemma lookup_netlink file nl l w v : Forall plain_arg l -> words l = [w] -> names_device w -> main file nl l = MGo v ->
  device_of v = (if v_netlink v then VNone else VOpen (t_dev (v_cl v))) /\ exists t, t_dev (v_cl v) = Some (text "nbd" ++ t).
Proof.
  intros Hp Hw Hn H. destruct (lookup_device _ _ _ _ _ Hp Hw Hn H) as [t E]. split; [|eauto].
  unfold device_of. rewrite E. reflexivity.
Qed.


(** no lookup: the port is the default one *)
Lemma main_plain file nl l v : main file nl l = MGo v ->
  (t_port (v_cl v) = Some (text "10809") /\ (given "x" l -> t_tls (v_cl v) = true)) \/
  exists v0 h c, do_args (start_vars nl) l = Some v0 /\ t_host (v_cl v0) = Some h /\ names_device h /\
    get_from_config file (set_dev h (v_cl v0)) = Some c /\ prepare (with_cl v0 c) = MGo v.
Proof.
  intros H. pose proof (main_inv file nl l) as I. rewrite H in I. destruct I as [v0 [E [[P Q]|[h [c [A [B [C D]]]]]]]].
  - left. pose proof (do_args_keep _ _ _ E) as [K _]. pose proof (do_args_tls _ _ _ E) as T.
    change (t_port (v_cl (start_vars nl))) with (Some (text "10809")) in K.
    apply prepare_go in P. decompose [and] P. split; [congruence|]. intros G.
    match goal with X : t_tls (v_cl v) = true <-> _ |- _ => apply X end. left. auto.
  - right. exists v0, h, c. auto.
Qed.

Lemma main_cont file nl l v : main file nl l = MGo v -> v_cont v = true -> given "p" l.
Proof.
  intros H Hc. pose proof (main_inv file nl l) as I. rewrite H in I. destruct I as [v0 [E [[P _]|[h [c [A [B [C D]]]]]]]].
  - apply prepare_go in P as [P _]. rewrite P in Hc. destruct (do_args_cont _ _ _ E Hc) as [X|X]; [discriminate X|exact X].
  - apply prepare_go in D as [P _]. rewrite P in Hc. destruct (do_args_cont _ _ _ E Hc) as [X|X]; [discriminate X|exact X].
Qed.

Lemma prepare_ub v : prepare v = MUb -> t_bs (v_cl v) = 0.
Proof.
  destruct v as [c ns po co li nl id di]. destruct c as [na de ho po' ce ke ca tl pr bs ti nc fo go pe sw un pi ro ts].
  unfold prepare. cbn [v_cl t_key t_cert v_netlink v_ident].
  destruct ke as [k|], ce as [c0|], ca as [a|], tl as [tl|], ho as [h|], un;
  cbv [is_set orb andb negb set_cert set_tls set_tlshost set_name with_cl v_cl t_name t_dev t_host t_port t_cert t_key t_cacert t_tlshost t_prio t_bs t_timeout t_nconn t_force t_no_optgo t_persist t_swap t_unix t_preinit t_ro t_tls v_nonspecial v_port v_cont v_list v_netlink v_ident v_disc or_else];
  intros H; repeat match type of H with
  | MUb = _ => fail 1
  | (if ?b then _ else _) = _ => let E := fresh "E" in destruct b eqn:E
  end; try discriminate H; match goal with E : (bs =? 0) = true |- _ => now apply Z.eqb_eq in E end.
Qed.

Lemma main_ub file nl l : main file nl l = MUb ->
  exists v0 h c, do_args (start_vars nl) l = Some v0 /\ t_host (v_cl v0) = Some h /\ names_device h /\
    get_from_config file (set_dev h (v_cl v0)) = Some c /\ t_bs c = 0.
Proof.
  intros H. pose proof (main_inv file nl l) as I. rewrite H in I. destruct I as [v0 [E [[P _]|[h [c [A [B [C D]]]]]]]].
  - exfalso. apply prepare_ub in P. pose proof (do_args_keep _ _ _ E) as [_ [_ [K _]]]. apply K; [|exact P]. cbn. lia.
  - exists v0, h, c. apply prepare_ub in D. auto.
Qed.

(** one entry for the device *)
Ltac rw f := match goal with X : f (v_cl _) = _ |- _ => rewrite X end.
Lemma connect_entry l nl w s v pre e post :
  Forall good_item l -> names_device w -> existsb (fun x => x =? 61) w = false -> short w s ->
  entries l = pre ++ e :: post -> about s e -> Forall (fun x => ~ about s x) (pre ++ post) ->
  main (Some (tab_text l)) nl [AWord w] = MGo v ->
  t_name (v_cl v) = Some (e_export e) /\
  (forall p, match value "port" (e_opts e) with Some q => p = Some q | None => p = match pre with [] => Some (text "10809") | _ => None end end ->
     (has "unix" (e_opts e) -> destination (v_cl v) = DUnix (Some (e_hostn e))) /\
     (~ has "unix" (e_opts e) -> destination (v_cl v) = DNet (Some (e_hostn e)) p)) /\
  t_bs (v_cl v) = match value "bs" (e_opts e) with Some x => i32 (strtol x) | None => 512 end /\
  t_timeout (v_cl v) = match value "timeout" (e_opts e) with Some x => i32 (strtol x) | None => 0 end /\
  t_nconn (v_cl v) = match value "conns" (e_opts e) with Some x => i32 (strtol x) | None => 1 end /\
  (t_swap (v_cl v) = true <-> has "swap" (e_opts e)) /\
  (t_no_optgo (v_cl v) = true <-> has "no_optgo" (e_opts e)) /\
  t_cacert (v_cl v) = value "cacertfile" (e_opts e) /\ t_key (v_cl v) = value "keyfile" (e_opts e) /\
  t_cert (v_cl v) = or_else (value "certfile" (e_opts e)) (value "keyfile" (e_opts e)) /\
  t_tlshost (v_cl v) = or_else (value "tlshostname" (e_opts e)) (if t_unix (v_cl v) then None else Some (e_hostn e)) /\
  (t_tls (v_cl v) = true <-> has "tls" (e_opts e) \/ exists k, In k ["certfile"; "keyfile"; "cacertfile"; "tlshostname"]%string /\ value k (e_opts e) <> None).
Proof.
  intros Hl Hn He Hs Hen Ha Hu H.
  assert (Hp : Forall plain_arg [AWord w]) by (constructor; [intros x; split; discriminate|constructor]).
  assert (Hw : words [AWord w] = [w]) by (unfold words; cbn [flat_map]; rewrite He; reflexivity).
  destruct (main_lookup _ _ _ _ _ Hp Hw Hn H) as [v0 [c [E [A [B C]]]]].
  assert (Hv0 : v_cl v0 = set_host w initial).
  { cbn [do_args do_arg start_vars v_nonspecial v_cl] in E. rewrite He in E. cbn in E. injection E as <-. reflexivity. }
  apply Forall_app in Hu as [Hu1 Hu2].
  destruct (config_found l (set_dev w (v_cl v0)) w s Hl eq_refl Hs pre e post Hen Hu1 Ha)
    as [r [pre' [el [z [R1 [R2 [R3 [R4 [R5 [R6 [R7 R8]]]]]]]]]]].
  assert (el = e) as ->.
  { destruct pre' as [|p pre']; injection R4; [congruence|]. intros R4' _. exfalso.
    rewrite R4' in Hu2. apply Forall_app in Hu2 as [_ Hu2]. now apply (Forall_inv Hu2). }
  rewrite B in R1. injection R1 as <-.
  set (b := base_of pre s (set_dev w (v_cl v0))) in R3.
  assert (Hb : t_bs b = 512 /\ t_timeout b = 0 /\ t_nconn b = 1 /\ t_swap b = false /\ t_no_optgo b = false /\ t_cacert b = None /\ t_key b = None /\
    t_cert b = None /\ t_tlshost b = None /\ t_tls b = false /\ t_unix b = false /\ t_port b = match pre with [] => Some (text "10809") | _ => None end).
  { subst b. rewrite Hv0. clear; destruct pre; cbn; tauto. }
  destruct Hb as [b1 [b2 [b3 [b4 [b5 [b6 [b7 [b8 [b9 [b10 [b11 b12]]]]]]]]]]].
  destruct R3. rewrite ?b1, ?b2, ?b3, ?b4, ?b5, ?b6, ?b7, ?b8, ?b9, ?b10, ?b11, ?b12 in *.
  apply prepare_go in C. cbn [with_cl v_cl] in C. decompose [and] C. clear C.
  conj.
  - rw t_name. rewrite R8. reflexivity.
  - intros p Hport. unfold destination. rw t_unix; rw t_host; rw t_port; rewrite R7.
    split; intros U.
    + now rewrite (proj2 conf_unix (or_introl U)).
    + destruct (t_unix c); [exfalso; destruct (proj1 conf_unix eq_refl); [contradiction|discriminate]|].
      rewrite conf_port. destruct (value "port" (e_opts e)); cbn [or_else]; now rewrite Hport.
  - congruence.
  - congruence.
  - congruence.
  - rw t_swap. rewrite conf_swap. split; [intros [?|?]; [assumption|discriminate]|now left].
  - rw t_no_optgo. rewrite conf_no_optgo. split; [intros [?|?]; [assumption|discriminate]|now left].
  - rw t_cacert. rewrite conf_cacert. now destruct (value "cacertfile" _).
  - rw t_key. rewrite conf_key. now destruct (value "keyfile" _).
  - rw t_cert. rewrite conf_cert, conf_key. now destruct (value "certfile" _), (value "keyfile" _).
  - rw t_tlshost. rw t_unix. rewrite conf_tlshost, R7. now destruct (value "tlshostname" _).
  - match goal with X : t_tls (v_cl v) = true <-> _ |- _ => rewrite X end. rewrite conf_cert, conf_key, conf_cacert, conf_tlshost, conf_tls. split.
    + intros [[?|?]|[U|[U|[U|U]]]]; [now left|discriminate|right..].
      * exists "certfile"%string. split; [cbn [In]; auto|]. now destruct (value "certfile" _).
      * exists "keyfile"%string. split; [cbn [In]; auto|]. now destruct (value "keyfile" _).
      * exists "cacertfile"%string. split; [cbn [In]; auto|]. now destruct (value "cacertfile" _).
      * exists "tlshostname"%string. split; [cbn [In]; auto|]. now destruct (value "tlshostname" _).
    + intros [?|[k [K V]]]; [left; now left|right]. destruct K as [<-|[<-|[<-|[<-|[]]]]].
      * left. now destruct (value "certfile" _).
      * right; left. now destruct (value "keyfile" _).
      * right; right; left. now destruct (value "cacertfile" _).
      * right; right; right. now destruct (value "tlshostname" _).
Qed.
