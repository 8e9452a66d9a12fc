(** C85, C86: who is let in by TLS. *)
From Coq Require Import String.
From Verif Require Import Base M_Acl M_Nego M_Conf M_Tab S_Tab S_Dev M_Tls S_Tls L_Tls P_Dev.
Local Open Scope list_scope.

(** ** C85: nbd-client and the server it talks to *)
(** Over TCP, with host, device and export on the command line and -A: whatever
    the server is and whatever GnuTLS finds, the client does not go on in clear,
    and it goes on within TLS only with a server whose certificate goes back to a CA
    of that file and is for the name of -H, or, without -H, for the host. *)
Theorem C85_server_is_certified_partial : forall file nl l v h d n a g p,
  Forall (fun a => forall s, a <> AOpt "l" s /\ a <> AOpt "d" s) l ->
  host_and_device strtol0 (words l) h d -> last_opt "N" l = Some n -> main file nl l = MGo v ->
  last_opt "A" l = Some a -> ~ given "u" l ->
  let name := match last_opt "H" l with Some x => x | None => h end in name <> [] ->
  start_tls (v_cl v) g p <> InClear /\
  (forall s, start_tls (v_cl v) g p = Open s -> certified a p /\ is_for name p).
Proof.
  intros file nl l v h d n a g p Hl Hw Hn Hm Ha Hu name Hne.
  destruct (C79_as_given _ _ _ _ _ _ _ Hl Hw Hn Hm) as (_ & _ & _ & _ & _ & _ & _ & _ & _ & _ & _ & U & _ & T & _ & _ & CA & _ & TH & _).
  assert (Hx : t_unix (v_cl v) = false).
  { destruct (t_unix (v_cl v)); [|reflexivity]. exfalso. apply Hu. now apply U. }
  rewrite Hx in TH. assert (TH' : t_tlshost (v_cl v) = Some name) by (unfold name; destruct (last_opt "H" l); exact TH). rewrite Ha in CA.
  split.
  - unfold start_tls. rewrite (proj1 (main_tls _ _ _ _ Hm)) by congruence. cbn [negb]. destruct (tlssession_new _ _ _ _ _ _ _); [destruct (handshake _ _)|]; discriminate.
  - intros s Hs. destruct (open_spec _ _ _ _ Hs) as (_ & _ & H). specialize (H _ _ CA TH'). apply verify_callback_spec in H as (A1 & A2 & A3 & A4 & A5 & A6 & A7).
    split; [repeat split; assumption|]. apply (A7 name eq_refl Hne).
Qed.
Print Assumptions C85_server_is_certified_partial.
(** the same for whatever comes from nbdtab: if a CA file is in the settings and
    the connection is not to a Unix socket *)
Theorem C85_settings_partial : forall file nl l v a g p s,
  main file nl l = MGo v -> t_cacert (v_cl v) = Some a -> t_unix (v_cl v) = false -> start_tls (v_cl v) g p = Open s ->
  certified a p /\ exists name, t_tlshost (v_cl v) = Some name /\ (name <> [] -> is_for name p).
Proof.
  intros file nl l v a g p s Hm Ha Hu Hs. destruct (proj2 (main_tls _ _ _ _ Hm) Hu) as [Hh|Hh]; [|exfalso; exact (main_host _ _ _ _ Hm Hh)].
  destruct (t_tlshost (v_cl v)) as [name|] eqn:En; [|congruence]. destruct (open_spec _ _ _ _ Hs) as (_ & _ & H). specialize (H _ _ Ha En).
  apply verify_callback_spec in H as (A1 & A2 & A3 & A4 & A5 & A6 & A7). split; [repeat split; assumption|]. exists name. split; [reflexivity|]. intros Hne. apply (A7 name eq_refl Hne).
Qed.
Print Assumptions C85_settings_partial.
(** -x, -F, -K, -A, -H each lead to TLS *)
Theorem C85_tls_is_used_partial : forall file nl l v h d n g p,
  Forall (fun a => forall s, a <> AOpt "l" s /\ a <> AOpt "d" s) l ->
  host_and_device strtol0 (words l) h d -> last_opt "N" l = Some n -> main file nl l = MGo v ->
  (start_tls (v_cl v) g p <> InClear <-> given "x" l \/ given "F" l \/ given "K" l \/ given "A" l \/ given "H" l).
Proof.
  intros file nl l v h d n g p Hl Hw Hn Hm.
  destruct (C79_as_given _ _ _ _ _ _ _ Hl Hw Hn Hm) as (_ & _ & _ & _ & _ & _ & _ & _ & _ & _ & _ & _ & _ & T & _). rewrite <- T.
  unfold start_tls. destruct (t_tls (v_cl v)); cbn [negb]; [|split; congruence]. split; [reflexivity|]. intros _.
  destruct (tlssession_new _ _ _ _ _ _ _); [destruct (handshake _ _)|]; discriminate.
Qed.
Print Assumptions C85_tls_is_used_partial.
(** a CA file or a key that cannot be used is never passed over: with one of them
    among the settings, a session means that it was loaded *)
Theorem C85_files_are_loaded : forall c g p s, start_tls c g p = Open s ->
  (forall a, t_cacert c = Some a -> h_trust g (Some a) = true) /\
  (forall k, t_key c = Some k -> h_key g (match t_cert c with Some x => x | None => k end) k = true).
Proof.
  intros c g p s. unfold start_tls. destruct (negb (t_tls c)); [discriminate|].
  destruct (tlssession_new _ _ _ _ _ _ _) as [s0|] eqn:E; [|discriminate]. intros _. unfold tlssession_new in E.
  destruct (negb (h_creds g)); [discriminate|].
  destruct (match t_cacert c with Some _ => negb (h_trust g (t_cacert c)) | None => false end) eqn:E1; [discriminate|].
  match type of E with (if ?b then _ else _) = _ => destruct b eqn:E2; [discriminate|] end. clear E. split.
  - intros a Ha. rewrite Ha in E1. now apply negb_false_iff in E1.
  - intros k Hk. rewrite Hk in E2. destruct (t_cert c); now apply negb_false_iff in E2.
Qed.
Print Assumptions C85_files_are_loaded.
Definition good_lib : lib := mkLib true (fun _ => true) (fun _ _ => true) true true (fun _ => true) true.
(** a server certified by ca.pem for the host "h", and one that is not certified *)
Definition honest : peer :=
  mkPeer (fun f => match f with Some f => if list_eq_dec Z.eq_dec f (text "ca.pem") then (0, 0) else (0, 66) | None => (0, 66) end) true true true true
    (fun n => if list_eq_dec Z.eq_dec n (text "h") then true else false) 1000 2000 true.
Definition impostor : peer := mkPeer (fun _ => (0, 66)) true true true true (fun _ => false) 1000 2000 true.
Definition tls_args (more : list arg) : list arg := [AOpt "N" (text "x"); AWord (text "h"); AWord (text "/dev/nbd0")] ++ more.
Definition on_run (l : list arg) (p : peer) : option tls_end := match main None false l with MGo v => Some (start_tls (v_cl v) good_lib p) | _ => None end.
Example C85_demo : host_and_device strtol0 (words (tls_args [AOpt "A" (text "ca.pem")])) (text "h") (text "/dev/nbd0") /\
  (exists s, on_run (tls_args [AOpt "A" (text "ca.pem")]) honest = Some (Open s)) /\
  on_run (tls_args [AOpt "A" (text "ca.pem")]) impostor = Some Closed /\
  on_run (tls_args [AOpt "A" (text "ca.pem"); AOpt "H" (text "other")]) honest = Some Closed /\
  on_run (tls_args [AOpt "A" (text "other.pem")]) honest = Some Closed /\
  certified (text "ca.pem") honest /\ is_for (text "h") honest /\ ~ certified (text "ca.pem") impostor.
Proof.
  split; [left; split; vm_compute; reflexivity|]. split; [eexists; vm_compute; reflexivity|].
  split; [vm_compute; reflexivity|]. split; [vm_compute; reflexivity|]. split; [vm_compute; reflexivity|].
  split; [repeat split; vm_compute; congruence|]. split; [vm_compute; reflexivity|]. intros (_ & H & _). vm_compute in H. discriminate H.
Qed.

Example C85_files_are_loaded_ex : match main None false (tls_args [AOpt "A" (text "ca.pem"); AOpt "K" (text "k.pem")]) with
  | MGo v => t_cacert (v_cl v) = Some (text "ca.pem") /\ t_key (v_cl v) = Some (text "k.pem") /\ (exists s, start_tls (v_cl v) good_lib honest = Open s)
      /\ start_tls (v_cl v) (mkLib true (fun _ => false) (fun _ _ => true) true true (fun _ => true) true) honest = Ended
      /\ start_tls (v_cl v) (mkLib true (fun _ => true) (fun _ _ => false) true true (fun _ => true) true) honest = Ended
  | _ => False end.
Proof. vm_compute main. split; [reflexivity|]. split; [reflexivity|]. split; [eexists; vm_compute; reflexivity|]. split; vm_compute; reflexivity. Qed.

(** Refuted: on a Unix socket without -H, a CA file is given and any server is
    accepted.  Without a CA file the same holds for TCP. *)
Theorem C85_unix_socket_refuted : exists l a v s, last_opt "A" l = Some a /\ given "u" l /\ main None false l = MGo v /\
  start_tls (v_cl v) good_lib impostor = Open s /\ ~ certified a impostor.
Proof.
  exists (tls_args [AOpt "u" []; AOpt "A" (text "ca.pem")]), (text "ca.pem").
  destruct (main None false (tls_args [AOpt "u" []; AOpt "A" (text "ca.pem")])) as [| | |v] eqn:E; try (vm_compute in E; discriminate E).
  exists v. vm_compute in E. injection E as <-. eexists. split; [reflexivity|]. split; [eexists; right; right; right; left; reflexivity|]. split; [reflexivity|]. split; [vm_compute; reflexivity|].
  intros (_ & H & _). vm_compute in H. discriminate H.
Qed.
Print Assumptions C85_unix_socket_refuted.
Theorem C85_no_ca_refuted : exists l v s, given "x" l /\ main None false l = MGo v /\ start_tls (v_cl v) good_lib impostor = Open s.
Proof.
  exists (tls_args [AOpt "x" []]). destruct (main None false (tls_args [AOpt "x" []])) as [| | |v] eqn:E; try (vm_compute in E; discriminate E).
  exists v. vm_compute in E. injection E as <-. eexists. split; [eexists; right; right; right; left; reflexivity|]. split; [reflexivity|]. vm_compute. reflexivity.
Qed.
Print Assumptions C85_no_ca_refuted.
(** an empty -H switches the check of the name off *)
Definition other_host : peer := mkPeer (y_verify honest) true true true true (fun _ => false) 1000 2000 true.
Theorem C85_empty_name_refuted : exists l v s, last_opt "A" l = Some (text "ca.pem") /\ main None false l = MGo v /\
  start_tls (v_cl v) good_lib other_host = Open s /\ forall n, ~ is_for n other_host.
Proof.
  exists (tls_args [AOpt "A" (text "ca.pem"); AOpt "H" []]). destruct (main None false (tls_args [AOpt "A" (text "ca.pem"); AOpt "H" []])) as [| | |v] eqn:E; try (vm_compute in E; discriminate E).
  exists v. vm_compute in E. injection E as <-. eexists. split; [reflexivity|]. split; [reflexivity|]. split; [vm_compute; reflexivity|]. intros n H. discriminate H.
Qed.
Print Assumptions C85_empty_name_refuted.
(** -y is one of the TLS options and does not lead to TLS, against the manual *)
Theorem C85_priority_in_clear_refuted : exists l v, given "y" l /\ main None false l = MGo v /\ forall g p, start_tls (v_cl v) g p = InClear.
Proof.
  exists (tls_args [AOpt "y" (text "NORMAL")]). destruct (main None false (tls_args [AOpt "y" (text "NORMAL")])) as [| | |v] eqn:E; try (vm_compute in E; discriminate E).
  exists v. vm_compute in E. injection E as <-. split; [eexists; right; right; right; left; reflexivity|]. split; [reflexivity|]. intros g p. reflexivity.
Qed.
Print Assumptions C85_priority_in_clear_refuted.

(** ** C86: nbd-server and its clients *)
(** TLS is in effect only with a client whose certificate goes back to a CA of
    cacertfile and is valid at the time, whatever GnuTLS finds. *)
Theorem C86_client_is_certified : forall k g now p ca, k_cacert k = Some ca -> server_tls k g now p = InEffect ->
  certified ca p /\ valid_at now p.
Proof.
  intros k g now p ca Hc H. destruct (server_spec _ _ _ _ H) as (key & cert & _ & _ & _ & Hv). rewrite Hc in Hv.
  apply verify_cert_spec in Hv as (A1 & A2 & A3 & A4 & A5 & A6 & A7). split; [repeat split; assumption|exact A7].
Qed.
Print Assumptions C86_client_is_certified.
(** and every such client gets in when key and certificate are set and can be loaded *)
Theorem C86_certified_clients_get_in : forall k g now p ca key cert,
  k_cacert k = Some ca -> k_key k = Some key -> k_cert k = Some cert -> works g p -> certified ca p -> valid_at now p ->
  server_tls k g now p = InEffect.
Proof.
  intros k g now p ca key cert Hc Hk Ht (W1 & W2 & W3 & W4 & W5 & W6 & W7 & W8 & W9 & W10) (A1 & A2 & A3 & A4) Hv.
  unfold server_tls. rewrite Hk, Ht, W1, W2, W3, W4, W6, W7, W8. cbn [negb andb].
  assert (verify_cert (k_cacert k) now p = 0) as ->; [|reflexivity]. apply verify_cert_spec. rewrite Hc. conj; auto; apply Hv.
Qed.
Print Assumptions C86_certified_clients_get_in.
Definition demo_tls : tls_conf := mkTlsC (Some (text "cert.pem")) (Some (text "key.pem")) (Some (text "ca.pem")) None.
Example C86_demo : server_tls demo_tls good_lib 1500 honest = InEffect /\ works good_lib honest /\ certified (text "ca.pem") honest /\ valid_at 1500 honest /\
  server_tls demo_tls good_lib 2001 honest = Failed /\ server_tls demo_tls good_lib 1500 impostor = Failed /\
  server_tls (mkTlsC (Some (text "c")) (Some (text "k")) (Some (text "other")) None) good_lib 1500 honest = Failed.
Proof.
  split; [vm_compute; reflexivity|]. split; [repeat split|]. split; [repeat split; vm_compute; congruence|]. split; [vm_compute; split; congruence|].
  split; [vm_compute; reflexivity|]. split; vm_compute; reflexivity.
Qed.
(** A client without certificate gets in nowhere, also where no cacertfile is set. *)
Theorem C86_no_certificate_no_entry : forall k g now p, no_certificate p -> server_tls k g now p <> InEffect.
Proof.
  intros k g now p [Hl Hv] H. destruct (server_spec _ _ _ _ H) as (key & cert & _ & _ & _ & Hc).
  apply verify_cert_spec in Hc as (A1 & _). rewrite Hv in A1. lia.
Qed.
Print Assumptions C86_no_certificate_no_entry.
Example C86_none_demo : exists p, no_certificate p /\ y_rest p = true /\ server_tls demo_tls good_lib 1500 p = Failed.
Proof. exists (mkPeer (fun _ => (-49, 0)) true true false false (fun _ => false) 0 0 true). split; [split; [reflexivity|intros ca; reflexivity]|]. split; vm_compute; reflexivity. Qed.

(** ** C87: what the manual says of missing TLS files (nbd-server.5) *)
(** Without certfile the certificate is not read from keyfile: NULL is handed on
    as the name of the file. *)
Theorem C87_certificate_from_keyfile_refuted : exists k g now p, k_key k <> None /\ k_cert k = None /\ works g p /\
  (exists ca, k_cacert k = Some ca /\ certified ca p) /\ valid_at now p /\ server_tls k g now p = NullName.
Proof.
  exists (mkTlsC None (Some (text "both.pem")) (Some (text "ca.pem")) None), good_lib, 1500, honest.
  split; [discriminate|]. split; [reflexivity|]. split; [repeat split|]. split; [exists (text "ca.pem"); split; [reflexivity|repeat split; vm_compute; congruence]|].
  split; [vm_compute; split; congruence|]. vm_compute. reflexivity.
Qed.
Print Assumptions C87_certificate_from_keyfile_refuted.
(** in general *)
Theorem C87_no_certfile_no_tls : forall k g now p, k_cert k = None -> server_tls k g now p <> InEffect.
Proof. intros k g now p Hc H. destruct (server_spec _ _ _ _ H) as (key & cert & _ & E & _). congruence. Qed.
Print Assumptions C87_no_certfile_no_tls.
Example C87_demo : server_tls (mkTlsC None (Some (text "both.pem")) (Some (text "ca.pem")) None) (mkLib true (fun _ => false) (fun _ _ => true) true true (fun _ => true) true) 1500 honest = Failed.
Proof. vm_compute. reflexivity. Qed.
(** Without cacertfile certificates of clients are checked all the same, and a
    client that sends none is refused. *)
Theorem C87_unchecked_without_ca_refuted : exists k g now p, k_cacert k = None /\ k_key k <> None /\ k_cert k <> None /\ works g p /\ no_certificate p /\
  server_tls k g now p = Failed.
Proof.
  exists (mkTlsC (Some (text "cert.pem")) (Some (text "key.pem")) None None), good_lib, 1500, (mkPeer (fun _ => (-49, 0)) true true false false (fun _ => false) 0 0 true).
  split; [reflexivity|]. split; [discriminate|]. split; [discriminate|]. split; [repeat split; discriminate|]. split; [split; [reflexivity|intros ca; reflexivity]|]. vm_compute. reflexivity.
Qed.
Print Assumptions C87_unchecked_without_ca_refuted.
(** What holds: without keyfile STARTTLS is refused by policy. *)
Theorem C87_no_keyfile_partial : forall k g now p, server_tls k g now p = Refused <-> k_key k = None.
Proof.
  intros k g now p. unfold server_tls. destruct (k_key k) as [key|]; [|split; reflexivity]. split; [|discriminate].
  destruct (negb (h_creds g)); [discriminate|]. destruct (negb (h_trust g _)); [discriminate|].
  destruct (k_cert k) as [cert|]; [|discriminate]. destruct (negb (h_key g cert key)); [discriminate|].
  destruct (negb (h_prio g _)); [discriminate|]. destruct (negb (h_session g)); [discriminate|]. destruct (negb (h_set g)); [discriminate|].
  destruct (y_rest p && _); discriminate.
Qed.
Print Assumptions C87_no_keyfile_partial.
Example C87_refused_demo : server_tls (mkTlsC (Some (text "cert.pem")) None None None) good_lib 1500 honest = Refused.
Proof. vm_compute. reflexivity. Qed.
