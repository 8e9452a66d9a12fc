(** C62: nbdtab entries and the command line are honoured.
    C68: a reconnect gives the kernel the same device. *)
From Coq Require Import String.
From Verif Require Import Base M_Acl M_Nego M_Conf M_Tab S_Tab L_Tab L_TabP.
Local Open Scope list_scope.

(** ** demo: the example of nbdtab(5) *)
Definition sp : list Z := [32].
Definition en (d h n : string) (o : list (list Z * option (list Z))) : entry := mkEn (text d) sp (text h) sp (text n) sp o.
Definition man_items : list item :=
  [ IComment (text " swap space, called ""swapexport"" on the server");
    IComment (text " optimize for swap, and try to reconnect upon disconnect.");
    IEntry (en "nbd0" "nbdserver.example.com" "swapexport" [(text "swap", None); (text "persist", None)]);
    IComment (text " other export, called ""data"" on the server. No options for this one.");
    IEntry (en "nbd1" "nbdserver.example.com" "data" []) ].
Definition man_file : option (list Z) := Some (tab_text man_items).
Ltac all_words := apply good_items_ok; vm_compute; reflexivity.
Lemma man_good : Forall good_item man_items.
Proof. all_words. Qed.

(** ** lookup *)
Theorem C62_found_iff : forall l c d s, Forall good_item l -> t_dev c = Some d -> short d s ->
  (get_from_config (Some (tab_text l)) c <> None <-> exists e, In e (entries l) /\ about s e).
Proof.
  intros l c d s Hl Hd Hs. split.
  - intros H. destruct (first_about s (entries l)) as [F|[pre [e [post [E [_ A]]]]]].
    + exfalso. apply H. eapply config_missing; eauto.
    + exists e. split; [|exact A]. rewrite E. apply in_elt.
  - intros [e [Hi Ha]]. destruct (first_about s (entries l)) as [F|[pre [e' [post [E [Hp A]]]]]].
    + exfalso. rewrite Forall_forall in F. eapply F; eauto.
    + destruct (config_found l c d s Hl Hd Hs pre e' post E Hp A) as [r [_ [_ [_ [R _]]]]]. rewrite R. discriminate.
Qed.
Print Assumptions C62_found_iff.
Example C62_found_iff_ex : Forall good_item man_items /\ short (text "/dev/nbd1") (text "nbd1") /\
  (exists e, In e (entries man_items) /\ about (text "nbd1") e).
Proof.
  split; [exact man_good|]. split; [now left|]. exists (en "nbd1" "nbdserver.example.com" "data" []).
  split; [vm_compute; auto|]. apply short_strip. reflexivity.
Qed.

(** the options come from the first line for the device, and only from it (and
    from the command line if there is no line before it); host and export come
    from the last *)
Theorem C62_lookup : forall l c d s, Forall good_item l -> t_dev c = Some d -> short d s ->
  forall pre e post, entries l = pre ++ e :: post -> Forall (fun x => ~ about s x) pre -> about s e ->
  exists r pre' el z, get_from_config (Some (tab_text l)) c = Some r /\ t_dev r = Some s /\
    (exists b, (pre = [] /\ b = c \/ pre <> [] /\ nothing_set b) /\ configured strtol (e_opts e) b r) /\
    e :: post = pre' ++ el :: z /\ about s el /\ Forall (fun x => ~ about s x) z /\
    t_host r = Some (e_hostn el) /\ t_name r = Some (e_export el).
Proof.
  intros l c d s Hl Hd Hs pre e post E Hp A.
  destruct (config_found l c d s Hl Hd Hs pre e post E Hp A) as [r [pre' [el [z [R1 [R2 [R3 [R4 [R5 [R6 [R7 R8]]]]]]]]]]].
  exists r, pre', el, z. conj; auto. exists (base_of pre s c). split; [|exact R3].
  destruct pre; [left; auto|right]. split; [discriminate|]. cbn [base_of]. unfold nothing_set. cbn. tauto.
Qed.
Print Assumptions C62_lookup.
Example C62_lookup_ex : exists pre e, entries man_items = pre ++ e :: [] /\ pre <> [] /\
  Forall (fun x => ~ about (text "nbd1") x) pre /\ about (text "nbd1") e.
Proof.
  exists [en "nbd0" "nbdserver.example.com" "swapexport" [(text "swap", None); (text "persist", None)]],
         (en "nbd1" "nbdserver.example.com" "data" []).
  split; [reflexivity|]. split; [discriminate|]. split.
  - constructor; [|constructor]. intros H. apply short_strip in H. vm_compute in H. discriminate.
  - apply short_strip. reflexivity.
Qed.

(** "nbd-client nbd1" with one entry for the device: everything is as the entry
    says, except for the default port (see the refutation below) *)
Theorem C62_connect_partial : forall l nl w s v pre e post,
  Forall good_item l -> names_device w -> existsb (fun x => x =? 61) w = false -> short w s ->
  entries l = pre ++ e :: post -> about s e -> Forall (fun x => ~ about s x) (pre ++ post) ->
  main (Some (tab_text l)) nl [AWord w] = MGo v ->
  t_name (v_cl v) = Some (e_export e) /\
  (forall p, match value "port" (e_opts e) with Some q => p = Some q | None => p = match pre with [] => Some (text "10809") | _ => None end end ->
     (has "unix" (e_opts e) -> destination (v_cl v) = DUnix (Some (e_hostn e))) /\
     (~ has "unix" (e_opts e) -> destination (v_cl v) = DNet (Some (e_hostn e)) p)) /\
  t_bs (v_cl v) = match value "bs" (e_opts e) with Some x => i32 (strtol x) | None => 512 end /\
  t_timeout (v_cl v) = match value "timeout" (e_opts e) with Some x => i32 (strtol x) | None => 0 end /\
  t_nconn (v_cl v) = match value "conns" (e_opts e) with Some x => i32 (strtol x) | None => 1 end /\
  (t_swap (v_cl v) = true <-> has "swap" (e_opts e)) /\
  (t_no_optgo (v_cl v) = true <-> has "no_optgo" (e_opts e)) /\
  t_cacert (v_cl v) = value "cacertfile" (e_opts e) /\ t_key (v_cl v) = value "keyfile" (e_opts e) /\
  t_cert (v_cl v) = or_else (value "certfile" (e_opts e)) (value "keyfile" (e_opts e)) /\
  t_tlshost (v_cl v) = or_else (value "tlshostname" (e_opts e)) (if t_unix (v_cl v) then None else Some (e_hostn e)) /\
  (t_tls (v_cl v) = true <-> has "tls" (e_opts e) \/ exists k, In k ["certfile"; "keyfile"; "cacertfile"; "tlshostname"]%string /\ value k (e_opts e) <> None).
Proof. exact connect_entry. Qed.
Print Assumptions C62_connect_partial.
Definition tls_items : list item :=
  [ IEntry (en "nbd0" "a" "x" []); IBlank;
    IEntry (mkEn (text "/dev/nbd3") [9; 32] (text "b#c") sp (text "y") [32; 32]
       [(text "port", Some (text "99")); (text "bs", Some (text "4096")); (text "cacertfile", Some (text "/ca.pem")); (text "_x", None)]) ].
Example C62_connect_ex : Forall good_item tls_items /\ exists v, main (Some (tab_text tls_items)) false [AWord (text "nbd3")] = MGo v /\
  destination (v_cl v) = DNet (Some (text "b#c")) (Some (text "99")) /\ t_bs (v_cl v) = 4096 /\ t_tls (v_cl v) = true /\
  t_tlshost (v_cl v) = Some (text "b#c") /\ t_name (v_cl v) = Some (text "y").
Proof. split; [all_words|]. eexists. split; [vm_compute; reflexivity|]. repeat split; vm_compute; reflexivity. Qed.

(** ** what goes wrong *)
(** nbdtab(5): "Defaults to the IANA-assigned port for NBD, 10809".  With a line
    for another device before it, the port is NULL, which is port 0. *)
Theorem C62_default_port_refuted : exists v, main man_file false [AWord (text "nbd1")] = MGo v /\
  destination (v_cl v) = DNet (Some (text "nbdserver.example.com")) None.
Proof. eexists. split; [vm_compute; reflexivity|]. vm_compute; reflexivity. Qed.
Print Assumptions C62_default_port_refuted.

(** the port on the command line is not used: unless nbdtab is looked up, it is
    always 10809 *)
Theorem C62_port_always_default : forall file nl l v, main file nl l = MGo v ->
  t_port (v_cl v) = Some (text "10809") \/
  exists v0 h c, t_host (v_cl v0) = Some h /\ names_device h /\ get_from_config file (set_dev h (v_cl v0)) = Some c.
Proof.
  intros file nl l v H. destruct (main_plain _ _ _ _ H) as [[? _]|[v0 [h [c [_ [A [B [C _]]]]]]]]; [now left|].
  right. exists v0, h, c. auto.
Qed.
Print Assumptions C62_port_always_default.
Definition port_args : list arg := [AWord (text "server"); AWord (text "2000"); AWord (text "/dev/nbd0"); AOpt "N" (text "data")].
Theorem C62_command_line_port_refuted : exists v, main None false port_args = MGo v /\ v_port v = text "2000" /\
  destination (v_cl v) = DNet (Some (text "server")) (Some (text "10809")) /\ device_of v = VOpen (Some (text "/dev/nbd0")).
Proof. eexists. split; [vm_compute; reflexivity|]. repeat split; vm_compute; reflexivity. Qed.
Print Assumptions C62_command_line_port_refuted.

(** a lost connection is made again only with -p, and never with netlink *)
Theorem C62_persist_only_option : forall file nl l v, main file nl l = MGo v -> reconnects v = true ->
  given "p" l /\ v_netlink v = false.
Proof.
  intros file nl l v H R. unfold reconnects in R. apply andb_true_iff in R as [R1 R2]. split.
  - eapply main_cont; eauto.
  - now apply negb_true_iff.
Qed.
Print Assumptions C62_persist_only_option.
Example C62_persist_only_option_ex : exists v, main None false (AOpt "p" [] :: port_args) = MGo v /\ reconnects v = true.
Proof. eexists. split; [vm_compute; reflexivity|]. vm_compute; reflexivity. Qed.
Theorem C62_persist_refuted : exists v, main man_file false [AWord (text "nbd0")] = MGo v /\
  has "persist" [(text "swap", None); (text "persist", None)] /\ t_persist (v_cl v) = true /\ reconnects v = false.
Proof.
  eexists. split; [vm_compute; reflexivity|]. split; [unfold has; cbn [In]; auto|]. split; vm_compute; reflexivity.
Qed.
Print Assumptions C62_persist_refuted.

(** with netlink (the default where it is compiled in) a device found in nbdtab is
    never set up, and without it a path relative to the working directory is
    opened: for all files and all options *)
Theorem C62_netlink_device : forall file nl l w v,
  Forall (fun a => forall s, a <> AOpt "l" s /\ a <> AOpt "d" s) l -> words l = [w] -> names_device w ->
  main file nl l = MGo v ->
  (v_netlink v = true -> device_of v = VNone) /\
  (v_netlink v = false -> exists t, device_of v = VOpen (Some (text "nbd" ++ t))).
Proof.
  intros file nl l w v Hp Hw Hn H. destruct (lookup_netlink _ _ _ _ _ Hp Hw Hn H) as [E [t T]].
  split; intros N; rewrite N in E; [exact E|]. exists t. now rewrite E, T.
Qed.
Print Assumptions C62_netlink_device.
Example C62_netlink_device_ex : exists v, main man_file true [AOpt "n" []; AWord (text "/dev/nbd0")] = MGo v /\ device_of v = VNone.
Proof. eexists. split; [vm_compute; reflexivity|]. vm_compute; reflexivity. Qed.
Theorem C62_device_refuted : exists v, main man_file false [AWord (text "/dev/nbd0")] = MGo v /\
  device_of v = VOpen (Some (text "nbd0")).
Proof. eexists. split; [vm_compute; reflexivity|]. vm_compute; reflexivity. Qed.
Print Assumptions C62_device_refuted.

(** the options of one line with the host and export of a later one *)
Definition twice_items : list item :=
  [ IEntry (en "nbd0" "good.example.com" "data" [(text "unix", None)]);
    IEntry (en "/dev/nbd0" "/other/socket" "private" [(text "bs", Some (text "1024"))]) ].
Theorem C62_mixed_lines_refuted : Forall good_item twice_items /\
  exists v, main (Some (tab_text twice_items)) false [AWord (text "nbd0")] = MGo v /\
    destination (v_cl v) = DUnix (Some (text "/other/socket")) /\ t_name (v_cl v) = Some (text "private") /\ t_bs (v_cl v) = 512.
Proof. split; [all_words|]. eexists. split; [vm_compute; reflexivity|]. repeat split; vm_compute; reflexivity. Qed.
Print Assumptions C62_mixed_lines_refuted.

(** "-x" is lost when another line comes first: no TLS *)
Theorem C62_tls_option_refuted : exists v, main man_file false [AOpt "x" []; AWord (text "nbd1")] = MGo v /\ t_tls (v_cl v) = false.
Proof. eexists. split; [vm_compute; reflexivity|]. vm_compute; reflexivity. Qed.
Print Assumptions C62_tls_option_refuted.
Theorem C62_tls_option : forall file nl l v, main file nl l = MGo v -> given "x" l ->
  t_tls (v_cl v) = true \/
  exists v0 h c, t_host (v_cl v0) = Some h /\ names_device h /\ get_from_config file (set_dev h (v_cl v0)) = Some c.
Proof.
  intros file nl l v H G. destruct (main_plain _ _ _ _ H) as [[_ T]|[v0 [h [c [_ [A [B [C _]]]]]]]]; [left; auto|].
  right. exists v0, h, c. auto.
Qed.
Print Assumptions C62_tls_option.
Example C62_tls_option_ex : exists v, main None false (AOpt "x" [] :: port_args) = MGo v /\ t_tls (v_cl v) = true.
Proof. eexists. split; [vm_compute; reflexivity|]. vm_compute; reflexivity. Qed.

(** the block size is checked on the command line and not in nbdtab: division by
    zero, and only that way *)
Theorem C62_block_size_refuted :
  main (Some (tab_text [IEntry (en "nbd0" "a" "x" [(text "bs", Some (text "4k")); (text "bs", Some (text "0"))])])) false [AWord (text "nbd0")] = MUb.
Proof. vm_compute; reflexivity. Qed.
Print Assumptions C62_block_size_refuted.
Theorem C62_division_only_nbdtab : forall file nl l, main file nl l = MUb ->
  exists v0 h c, t_host (v_cl v0) = Some h /\ names_device h /\ get_from_config file (set_dev h (v_cl v0)) = Some c /\ t_bs c = 0.
Proof. intros file nl l H. destruct (main_ub _ _ _ H) as [v0 [h [c [_ R]]]]. exists v0, h, c. exact R. Qed.
Print Assumptions C62_division_only_nbdtab.

(** a comment at the end of a line, a comment that the end of the file ends, and a
    blank at the end of a line are errors for the whole file; nbdtab(5): comments
    "continue until the end of the line or the end of the file" *)
Theorem C62_comment_refuted :
  yyparse (text "nbd0 a x # main disk" ++ [10]) = None /\
  yyparse (text "nbd0 a x" ++ [10] ++ text "#end") = None /\
  yyparse (text "# the end") = Some [mkLine (text "#") (text "the") (text "end") []] /\
  yyparse (text "nbd0 a x " ++ [10]) = None /\
  yyparse (text "nbd0 a x" ++ [10] ++ text " # note" ++ [10]) = None.
Proof. vm_compute; auto. Qed.
Print Assumptions C62_comment_refuted.

(** with netlink no device has to be given, but a server called nbd... is taken for
    a device *)
Theorem C62_host_name_refuted : forall n, main None true [AWord (text "nbdserver.example.com"); AOpt "N" n] = MExit /\
  exists v, main None true [AWord (text "server.example.com"); AOpt "N" n] = MGo v.
Proof. intros n. split; [vm_compute; reflexivity|]. eexists. vm_compute; reflexivity. Qed.
Print Assumptions C62_host_name_refuted.

(** ** C68 *)
Theorem C68_size_kept : forall c old neg new, again_told c old neg = Some new -> k_sz new = k_sz old.
Proof.
  intros c old [sz fl] new. unfold again_told. destruct (k_sz old =? sz) eqn:E; [|discriminate].
  intros H. injection H as <-. apply Z.eqb_eq in E. now rewrite E.
Qed.
Print Assumptions C68_size_kept.
Example C68_size_kept_ex : exists new, again_told initial (first_told initial (4096, 1)) (4096, 3) = Some new /\ k_fl new = 3.
Proof. eexists. split; reflexivity. Qed.

(** the same announcement gives the same device when neither size nor read-only is
    forced *)
Theorem C68_same_partial : forall c neg, t_force c = 0 -> t_ro c = false -> t_preinit c = false ->
  again_told c (first_told c neg) neg = Some (first_told c neg).
Proof.
  intros c [sz fl] F R P. unfold first_told, again_told. rewrite P, F, R. cbn. now rewrite Z.eqb_refl.
Qed.
Print Assumptions C68_same_partial.

(** -R is forgotten: a device set up read-only becomes writable *)
Theorem C68_readonly_refuted : exists c neg new, t_ro c = true /\ flag (k_fl (first_told c neg)) 2 = true /\
  again_told c (first_told c neg) neg = Some new /\ flag (k_fl new) 2 = false.
Proof. exists (set_ro initial), (4096, 1), (mkTold 4096 1). vm_compute; auto. Qed.
Print Assumptions C68_readonly_refuted.
(** ... always when the server itself announces it writable *)
Theorem C68_readonly_lost : forall c old sz fl new, flag fl 2 = false -> again_told c old (sz, fl) = Some new -> flag (k_fl new) 2 = false.
Proof.
  intros c old sz fl new Hf. unfold again_told. destruct (k_sz old =? sz); [|discriminate]. intros H. injection H as <-. exact Hf.
Qed.
Print Assumptions C68_readonly_lost.

(** with a forced size other than the one announced, a reconnect ends the client *)
Theorem C68_forced_size : forall c neg sz fl, t_force c <> 0 -> sz <> t_force c -> again_told c (first_told c neg) (sz, fl) = None.
Proof.
  intros c [s0 f0] sz fl F N. unfold first_told, again_told.
  destruct (t_preinit c); cbn [k_sz]; rewrite (proj2 (Z.eqb_neq _ _) F);
  (destruct (t_force c =? sz) eqn:E; [apply Z.eqb_eq in E; congruence|reflexivity]).
Qed.
Print Assumptions C68_forced_size.
Example C68_forced_size_ex : again_told (set_force 512 initial) (first_told (set_force 512 initial) (4096, 1)) (4096, 1) = None.
Proof. reflexivity. Qed.
