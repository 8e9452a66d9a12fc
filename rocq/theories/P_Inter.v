(** C67: nbd-client and nbd-server talking to each other. *)
From Coq Require Import String.
From Verif Require Import Base M_Const M_Setup M_Acl M_Nego M_Client S_Nego S_Client S_Inter L_InterP P_Nego P_Client.
Local Open Scope list_scope.

(** ** GO, in clear and inside TLS *)
(** The server gets what the client sends (that the client sends just this is
    part of the claim), the client what the server sends. *)
Theorem C67_go_agreement : forall Es Ec l glob g fuel,
  connected Es Ec g -> asks g -> g_no_optgo g = false -> (2 <= fuel)%nat ->
  let input := to_server g (go_request (g_name g)) in
  let server := negotiate Es (fresh l glob (fst input) (snd input)) in
  exists tr, trace_of server = Some tr /\
  let client := knegotiate fuel Ec g (kstart (sent_on false tr) (sent_on true tr)) in
  match server with
  | NRet (Some i) s => exists k, client = KRet tt k /\
      M_Client.k_size k = n_size s mod 2 ^ 64 /\
      k_flags k = export_flags (x_flags (nth_export i s)) (n_struct s) /\
      n_tls s = g_tls g /\ k_sec k = g_tls g /\
      k_in k = [] /\ n_in s = [] /\
      all_sent k = hello g 3 ++ go_request (g_name g)
  | _ => exists k, client = KFail k /\ prefix (all_sent k) (hello g 3 ++ go_request (g_name g))
  end.
Proof. exact inter_go. Qed.
Print Assumptions C67_go_agreement.

(** hypotheses hold, and both get into transmission with "a" (5000 bytes); for
    "b" the server wants TLS, with TLS (and a key) it is served inside TLS *)
Definition tls_env : nenv := M_Nego.mkE (fun _ => None) (V4 [10;0;0;1]) true true (fun _ => true) (fun _ => 89) (fun _ => true).
Definition ask_for (tls no_optgo : bool) (name : list Z) : kcfg := mkCfg tls false no_optgo name 0 1.
Definition both (Es : nenv) (g : kcfg) (request : list Z) : option (nout (option nat) * kout unit) :=
  let r := negotiate Es (fresh demo_exports 0 (fst (to_server g request)) (snd (to_server g request))) in
  match trace_of r with
  | Some tr => Some (r, knegotiate 10 demo_kenv g (kstart (sent_on false tr) (sent_on true tr)))
  | None => None
  end.
Example C67_demo1 :
  connected tls_env demo_kenv (ask_for true false [98]) /\ asks (ask_for true false [98]) /\
  match both demo_env (ask_for false false [97]) (go_request [97]) with
  | Some (NRet (Some 0%nat) s, KRet _ k) => M_Client.k_size k = 5000 /\ n_size s = 5000 /\ k_flags k = 325
  | _ => False end /\
  match both demo_env (ask_for false false [98]) (go_request [98]) with Some (NDie _, KFail _) => True | _ => False end /\
  match both tls_env (ask_for true false [98]) (go_request [98]) with
  | Some (NRet (Some 1%nat) s, KRet _ k) => M_Client.k_size k = 7000 /\ n_tls s = true /\ k_sec k = true
  | _ => False end.
Proof.
  split; [split; [reflexivity|split; [exact demo_full|split; reflexivity]]|]. split; [repeat split; vm_compute; congruence|].
  vm_compute. repeat split.
Qed.

(** ** EXPORT_NAME (option -g) *)
Theorem C67_export_name_agreement : forall Es Ec l glob g fuel i s,
  connected Es Ec g -> asks g -> g_no_optgo g = true -> g_tls g = false ->
  negotiate Es (fresh l glob (hello g 3 ++ export_name_request (g_name g)) []) = NRet (Some i) s ->
  exists k, knegotiate fuel Ec g (kstart (sent_on false (n_tr s)) (sent_on true (n_tr s))) = KRet tt k /\
    M_Client.k_size k = n_size s mod 2 ^ 64 /\
    k_flags k = export_flags (x_flags (nth_export i s)) (n_struct s) /\
    k_in k = [] /\ n_in s = [] /\
    all_sent k = hello g 3 ++ export_name_request (g_name g).
Proof. exact inter_name. Qed.
Print Assumptions C67_export_name_agreement.
Example C67_demo2 :
  connected demo_env demo_kenv (ask_for false true [97]) /\ asks (ask_for false true [97]) /\
  match both demo_env (ask_for false true [97]) (export_name_request [97]) with
  | Some (NRet (Some 0%nat) s, KRet _ k) => M_Client.k_size k = 5000 /\ k_flags k = 325
  | _ => False end.
Proof.
  split; [split; [reflexivity|split; [exact demo_full|reflexivity]]|]. split; [repeat split; vm_compute; congruence|].
  vm_compute. repeat split.
Qed.

(** A server that refuses EXPORT_NAME just closes the connection, and the client
    then goes on with what its stack held: the two do not agree. *)
Theorem C67_export_name_refused_refuted : exists Es Ec l g s k,
  connected Es Ec g /\ asks g /\ g_no_optgo g = true /\
  negotiate Es (fresh l 0 (hello g 3 ++ export_name_request (g_name g)) []) = NDie s /\
  knegotiate 10 Ec g (kstart (sent_on false (n_tr s)) (sent_on true (n_tr s))) = KRet tt k /\ M_Client.k_size k <> 0.
Proof.
  exists demo_env, demo_kenv, demo_exports, (ask_for false true [100]). do 2 eexists.
  split; [split; [reflexivity|split; [exact demo_full|reflexivity]]|]. split; [repeat split; vm_compute; congruence|]. split; [reflexivity|].
  split; [vm_compute; reflexivity|]. split; [vm_compute; reflexivity|]. vm_compute. discriminate.
Qed.
Print Assumptions C67_export_name_refused_refuted.
