(** C59-C61: the negotiation of nbd-client. *)
From Coq Require Import String.
From Verif Require Import Base M_Nego M_Client S_Client L_Client L_ClientP.
Local Open Scope list_scope.

(** example: a cooperative environment, a user who wants the export "disk" *)
Definition demo_kenv : kenv := mkE (fun _ => RdSome 4096) (fun _ _ => 170) true (text "Success") (text "Resolver Error 0 (no error)").
Definition demo_cfg (tls list no_optgo : bool) : kcfg := mkCfg tls list no_optgo (text "disk") 0 1.
Definition demo_server : list Z := greeting 3 ++ reply 7 3 (export_info 1048576 45) ++ reply 7 1 [].
Example demo_full : full_reads demo_kenv. Proof. intros i. exists 4096. split; [reflexivity|lia]. Qed.
Definition run_of (g : kcfg) (plain tls : list Z) : kout unit := knegotiate 10 demo_kenv g (kstart plain tls).

(** ** C59 *)
Theorem C59_nothing_else_in_clear :
  forall fuel E g plain tls, g_tls g = true ->
  let o := knegotiate fuel E g (kstart plain tls) in
  (exists cf, prefix (clear_bytes (k_out (end_of o))) (be 4 cf ++ starttls_request)) /\
  (succeeded o -> k_sec (end_of o) = true /\ e_tls E = true).
Proof. exact tls_client. Qed.
Print Assumptions C59_nothing_else_in_clear.

(** the name of the export is sent, but inside TLS *)
Example C59_ex1 :
  match run_of (demo_cfg true false false) (greeting 3 ++ reply 5 1 []) (reply 7 3 (export_info 1048576 45) ++ reply 7 1 []) with
  | KRet _ s => clear_bytes (k_out s) = be 4 3 ++ starttls_request /\ secret_bytes (k_out s) = go_request (text "disk") /\ k_size s = 1048576
  | _ => False
  end.
Proof. vm_compute. auto. Qed.
(** a server that refuses, or answers in clear as if nothing had been asked *)
Example C59_ex2 :
  match run_of (demo_cfg true false false) (greeting 3 ++ reply 5 (2 ^ 31 + 2) []) [] with
  | KFail s => clear_bytes (k_out s) = be 4 3 ++ starttls_request | _ => False end /\
  match run_of (demo_cfg true false true) (greeting 3 ++ be 8 1048576 ++ be 2 45) [] with
  | KFail s => clear_bytes (k_out s) = be 4 3 ++ starttls_request | _ => False end.
Proof. vm_compute. auto. Qed.

Theorem C59_starttls_was_accepted :
  forall fuel E g plain tls, g_tls g = true -> full_reads E -> Forall is_byte plain ->
  succeeded (knegotiate fuel E g (kstart plain tls)) ->
  exists pre rest, plain = pre ++ REPLY_MAGIC ++ [0; 0; 0; 5] ++ [0; 0; 0; 1] ++ rest /\
    zlen pre = 18 /\ prefix (firstn 4 rest) [0; 0; 0; 0].
Proof. exact tls_accepted. Qed.
Print Assumptions C59_starttls_was_accepted.
Example C59_ex3 : full_reads demo_kenv /\ succeeded (run_of (demo_cfg true true false) (greeting 3 ++ reply 5 1 []) (reply 3 2 (be 4 4 ++ text "disk") ++ reply 3 1 [])).
Proof. split; [exact demo_full|]. vm_compute. auto. Qed.

(** ** C60 *)
Theorem C60_listing_in_bounds : forall fuel E s s', ask_list fuel E s <> KUb s'.
Proof. exact ask_no_ub. Qed.
Print Assumptions C60_listing_in_bounds.
(** an entry with a description, one whose lengths contradict each other *)
Example C60_ex1 :
  succeeded (run_of (demo_cfg false true false) (greeting 3 ++ reply 3 2 (be 4 4 ++ text "disk" ++ text "a disk") ++ reply 3 1 []) []) /\
  match run_of (demo_cfg false true false) (greeting 3 ++ reply 3 2 (be 4 1023 ++ text "disk") ++ reply 3 1 []) [] with KFail _ => True | _ => False end.
Proof. vm_compute. auto. Qed.

Theorem C60_negotiation_in_bounds_partial :
  forall fuel E g plain tls, Forall is_byte plain -> Forall is_byte tls ->
  (forall pre rest, (if g_tls g then tls else plain) = pre ++ rest -> ~ wary rest) ->
  forall s, knegotiate fuel E g (kstart plain tls) <> KUb s.
Proof.
  intros fuel E g plain tls Bp Bt H s Hs. destruct (client_ub _ _ _ _ _ _ Bp Bt Hs) as (pre & rest & Hp & Hw). exact (H pre rest Hp Hw).
Qed.
Print Assumptions C60_negotiation_in_bounds_partial.
(** A stream without a reply to be wary of: every one is fully 20 bytes long, and
    the only places of this one that are are a greeting, an acknowledgement and
    their insides. *)
Example C60_ex2 : forall pre rest, greeting 3 ++ reply 7 1 [] = pre ++ rest -> ~ wary rest.
Proof.
  assert (L : zlen (greeting 3 ++ reply 7 1 []) = 38) by (vm_compute; reflexivity).
  intros pre rest H (opt & type & size & d & Hr & Lo & Ht & Hz & Hw).
  assert (Lr : zlen rest = 20 + zlen d) by (rewrite Hr; unfold zlen in *; rewrite !app_length, !be_length; cbn [length REPLY_MAGIC]; lia).
  assert (Ld := zlen_nonneg d).
  assert (Hl : (length pre <= 18)%nat) by (rewrite H in L; unfold zlen in *; rewrite app_length in L; lia).
  assert (Hs : rest = skipn (length pre) (greeting 3 ++ reply 7 1 [])) by (rewrite H, skipn_app, skipn_all, Nat.sub_diag; reflexivity).
  rewrite Hr in Hs. clear H Hr Lr L.
  destruct opt as [|o1 [|o2 [|o3 [|o4 [|o5 opt]]]]]; try (unfold zlen in Lo; cbn [length] in Lo; lia).
  assert (Hk : length pre = 18%nat).
  { remember (length pre) as k eqn:Ek. clear Ek.
    do 18 (destruct k as [|k]; [exfalso; apply (f_equal (firstn 8)) in Hs; cbn [app firstn REPLY_MAGIC] in Hs; vm_compute in Hs; discriminate|]).
    lia. }
  rewrite Hk in Hs. assert (Hsk : skipn 18 (greeting 3 ++ reply 7 1 []) = REPLY_MAGIC ++ be 4 7 ++ be 4 1 ++ be 4 0) by (vm_compute; reflexivity).
  rewrite Hsk in Hs. apply app_inv_head in Hs. apply app_eq_len in Hs; [|reflexivity]. destruct Hs as [_ Hs].
  apply app_eq_len in Hs; [|reflexivity]. destruct Hs as [Hs _].
  apply (f_equal unbe) in Hs. rewrite unbe_be in Hs. change (unbe (be 4 1)) with 1 in Hs. rewrite Z.mod_small in Hs by exact Ht. subst type.
  destruct Hw as [[Hx _]|[Hx _]]; lia.
Qed.

(** an error reply that announces 4096 bytes: the byte before their end is set
    to 0 though none were allocated *)
Theorem C60_long_error_refuted : exists E g plain s, full_reads E /\ Forall is_byte plain /\
  knegotiate 10 E g (kstart plain []) = KUb s.
Proof.
  exists demo_kenv, (demo_cfg false false false), (greeting 3 ++ REPLY_MAGIC ++ be 4 7 ++ be 4 (2 ^ 31 + 2) ++ be 4 4096).
  eexists. split; [exact demo_full|]. split; [|vm_compute; reflexivity]. apply Forall_forall. intros x Hx. vm_compute in Hx. unfold is_byte. intuition lia.
Qed.
Print Assumptions C60_long_error_refuted.
(** an information reply without data, and one of kind "export" with 4 bytes *)
Theorem C60_short_info_refuted : exists E g plain1 s1 plain2 s2, full_reads E /\ Forall is_byte (plain1 ++ plain2) /\
  plain1 = greeting 3 ++ reply 7 3 [] /\ knegotiate 10 E g (kstart plain1 []) = KUb s1 /\
  plain2 = greeting 3 ++ reply 7 3 [0; 0; 1; 1] /\ knegotiate 10 E g (kstart plain2 []) = KUb s2.
Proof.
  exists demo_kenv, (demo_cfg false false false), (greeting 3 ++ reply 7 3 []). eexists. exists (greeting 3 ++ reply 7 3 [0; 0; 1; 1]). eexists.
  split; [exact demo_full|]. split; [|split; [reflexivity|split; [vm_compute; reflexivity|split; [reflexivity|vm_compute; reflexivity]]]].
  apply Forall_forall. intros x Hx. vm_compute in Hx. unfold is_byte. intuition lia.
Qed.
Print Assumptions C60_short_info_refuted.
(** a refusal whose text contains %m far enough to the right *)
Theorem C60_percent_m_refuted : exists E g plain s, full_reads E /\ Forall is_byte plain /\
  plain = greeting 3 ++ reply 7 (2 ^ 31 + 2) (repeat 97 100 ++ [37; 109; 0]) /\
  knegotiate 10 E g (kstart plain []) = KUb s.
Proof.
  exists demo_kenv, (demo_cfg false false false), (greeting 3 ++ reply 7 (2 ^ 31 + 2) (repeat 97 100 ++ [37; 109; 0])).
  eexists. split; [exact demo_full|]. split; [|split; [reflexivity|vm_compute; reflexivity]].
  apply forallb_Forall with (f := fun x => (0 <=? x) && (x <? 256)); [|vm_compute; reflexivity].
  intros x Hx. apply andb_prop in Hx. destruct Hx as [H1 H2]. apply Z.leb_le in H1. apply Z.ltb_lt in H2. split; assumption.
Qed.
Print Assumptions C60_percent_m_refuted.

(** ** C61 *)
Theorem C61_go_uses_the_last_announcement :
  forall fuel E g gf plain tls rs1 rs2 o size flags more o' ack rest,
  serves E g gf (msgs rs1 ++ reply o 3 (export_info size flags ++ more) ++ msgs rs2 ++ reply o' 1 ack ++ rest) plain tls ->
  g_list g = false -> g_no_optgo g = false ->
  Forall (fun r : Z * Z * list Z => digestible (snd (fst r)) (snd r)) rs1 ->
  Forall (fun r : Z * Z * list Z => announces_nothing (snd (fst r)) (snd r)) rs2 ->
  zlen (export_info size flags ++ more) < 4096 -> zlen ack < 4096 -> 0 <= size < 2 ^ 64 -> 0 <= flags < 2 ^ 16 ->
  (length rs1 + length rs2 + 2 <= fuel)%nat ->
  exists s, knegotiate fuel E g (kstart plain tls) = KRet tt s /\ k_size s = size /\ k_flags s = flags /\ k_in s = rest /\
    all_sent s = hello g gf ++ go_request (g_name g) /\ k_sec s = g_tls g.
Proof. exact client_go_result. Qed.
Print Assumptions C61_go_uses_the_last_announcement.
(** a name and a block size besides the size, inside TLS, data following *)
Example C61_ex1 :
  let rs1 := [(7, 3, [0; 1] ++ text "disk"); (7, 3, export_info 4096 1)] in
  let rs2 := [(7, 3, [0; 3] ++ be 4 1 ++ be 4 4096 ++ be 4 1048576)] in
  serves demo_kenv (demo_cfg true false false) 3 (msgs rs1 ++ reply 7 3 (export_info (2 ^ 63 + 5) 45 ++ []) ++ msgs rs2 ++ reply 7 1 [] ++ [1; 2; 3])
    (greeting 3 ++ reply 5 1 []) (msgs rs1 ++ reply 7 3 (export_info (2 ^ 63 + 5) 45 ++ []) ++ msgs rs2 ++ reply 7 1 [] ++ [1; 2; 3]) /\
  Forall (fun r : Z * Z * list Z => digestible (snd (fst r)) (snd r)) rs1 /\
  Forall (fun r : Z * Z * list Z => announces_nothing (snd (fst r)) (snd r)) rs2 /\ (length rs1 + length rs2 + 2 <= 10)%nat.
Proof.
  cbv zeta. split.
  - unfold serves. cbn [demo_cfg g_tls g_needed g_name]. split; [lia|]. split; [reflexivity|]. split; [vm_compute; reflexivity|].
    split; [exact demo_full|]. repeat split; reflexivity.
  - split; [|split].
    + constructor; [left|constructor; [right|constructor]]; cbn [fst snd].
      * split; [cbn; lia|]. split; [vm_compute; reflexivity|]. left. split; [reflexivity|]. exists 0, 1, (text "disk").
        split; [reflexivity|]. split; [discriminate|]. unfold is_byte. split; lia.
      * split; [reflexivity|]. split; [vm_compute; reflexivity|]. exists 4096, 1, []. reflexivity.
    + constructor; [|constructor]. cbn [fst snd]. split; [cbn; lia|]. split; [vm_compute; reflexivity|]. left. split; [reflexivity|].
      exists 0, 3, (be 4 1 ++ be 4 4096 ++ be 4 1048576). split; [reflexivity|]. split; [discriminate|]. unfold is_byte. split; lia.
    + cbn. lia.
Qed.

Theorem C61_export_name_uses_the_answer :
  forall fuel E g gf plain tls size flags zeroes rest,
  serves E g gf (be 8 size ++ be 2 flags ++ zeroes ++ rest) plain tls -> g_list g = false -> g_no_optgo g = true ->
  zlen zeroes = (if Z.testbit gf 1 then 0 else 124) -> 0 <= size < 2 ^ 64 -> 0 <= flags < 2 ^ 16 ->
  exists s, knegotiate fuel E g (kstart plain tls) = KRet tt s /\ k_size s = size /\ k_flags s = flags /\ k_in s = rest /\
    all_sent s = hello g gf ++ export_name_request (g_name g) /\ k_sec s = g_tls g.
Proof. exact client_name_result. Qed.
Print Assumptions C61_export_name_uses_the_answer.
(** with the 124 reserved bytes, because the server does not offer to drop them *)
Example C61_ex2 :
  serves demo_kenv (demo_cfg false false true) 1 (be 8 4096 ++ be 2 45 ++ repeat 0 124 ++ [9]) (greeting 1 ++ be 8 4096 ++ be 2 45 ++ repeat 0 124 ++ [9]) [] /\
  zlen (repeat 0 124) = (if Z.testbit 1 1 then 0 else 124).
Proof. split; [|reflexivity]. unfold serves. cbn [demo_cfg g_tls g_needed g_name]. split; [lia|]. split; [reflexivity|]. split; [vm_compute; reflexivity|reflexivity]. Qed.

Theorem C61_fallback_uses_the_answer :
  forall fuel E g gf plain tls rs o d size flags zeroes rest,
  serves E g gf (msgs rs ++ reply o (2 ^ 31 + 1) d ++ be 8 size ++ be 2 flags ++ zeroes ++ rest) plain tls -> g_list g = false -> g_no_optgo g = false ->
  Forall (fun r : Z * Z * list Z => digestible (snd (fst r)) (snd r)) rs -> zlen d < 4096 -> (length rs < fuel)%nat ->
  zlen zeroes = (if Z.testbit gf 1 then 0 else 124) -> 0 <= size < 2 ^ 64 -> 0 <= flags < 2 ^ 16 ->
  exists s, knegotiate fuel E g (kstart plain tls) = KRet tt s /\ k_size s = size /\ k_flags s = flags /\ k_in s = rest /\
    all_sent s = hello g gf ++ go_request (g_name g) ++ export_name_request (g_name g) /\ k_sec s = g_tls g.
Proof. exact client_fallback_result. Qed.
Print Assumptions C61_fallback_uses_the_answer.
Example C61_ex3 :
  serves demo_kenv (demo_cfg false false false) 3 (msgs [] ++ reply 7 (2 ^ 31 + 1) (text "no") ++ be 8 4096 ++ be 2 45 ++ [] ++ [9])
    (greeting 3 ++ msgs [] ++ reply 7 (2 ^ 31 + 1) (text "no") ++ be 8 4096 ++ be 2 45 ++ [] ++ [9]) [] /\
  zlen (@nil Z) = (if Z.testbit 3 1 then 0 else 124).
Proof. split; [|reflexivity]. unfold serves. cbn [demo_cfg g_tls g_needed g_name]. split; [lia|]. split; [reflexivity|]. split; [vm_compute; reflexivity|reflexivity]. Qed.

(** whatever the server sends, size and flags are not made up, unless -g is given *)
Theorem C61_sizes_come_from_the_server_partial :
  forall fuel E g plain tls s, Forall is_byte plain -> Forall is_byte tls -> g_no_optgo g = false ->
  knegotiate fuel E g (kstart plain tls) = KRet tt s ->
  (k_size s, k_flags s) = (0, 0) \/ announced_in (if g_tls g then tls else plain) (k_size s) (k_flags s).
Proof. exact client_sound. Qed.
Print Assumptions C61_sizes_come_from_the_server_partial.
Example C61_ex4 : match run_of (demo_cfg false false false) demo_server [] with KRet _ s => k_size s = 1048576 /\ k_flags s = 45 | _ => False end.
Proof. vm_compute. auto. Qed.

(** an acknowledgement that no announcement came before is accepted: size 0 *)
Theorem C61_no_announcement_refuted : exists E g plain s, full_reads E /\ plain = greeting 3 ++ reply 7 1 [] /\ g_no_optgo g = false /\
  knegotiate 10 E g (kstart plain []) = KRet tt s /\ k_size s = 0 /\ k_flags s = 0.
Proof.
  exists demo_kenv, (demo_cfg false false false), (greeting 3 ++ reply 7 1 []). eexists. split; [exact demo_full|]. split; [reflexivity|]. split; [reflexivity|].
  split; [vm_compute; reflexivity|]. split; reflexivity.
Qed.
Print Assumptions C61_no_announcement_refuted.
(** with -g, a server that closes the connection instead of answering gives a
    device of any size *)
Theorem C61_dropped_connection_refuted : exists g plain, g_no_optgo g = true /\ plain = greeting 3 /\
  forall size flags, 0 <= size < 2 ^ 64 -> 0 <= flags < 2 ^ 16 -> exists E s, full_reads E /\
  knegotiate 10 E g (kstart plain []) = KRet tt s /\ k_size s = size /\ k_flags s = flags.
Proof. exact dropped_any_size. Qed.
Print Assumptions C61_dropped_connection_refuted.
(** the option a reply belongs to is not looked at, nor is the second half of the
    greeting *)
Theorem C61_foreign_reply_refuted : exists E g plain1 s1 plain2 s2, full_reads E /\
  plain1 = greeting 3 ++ reply 6 3 (export_info 4096 1) ++ reply 3 1 [] /\
  knegotiate 10 E g (kstart plain1 []) = KRet tt s1 /\ k_size s1 = 4096 /\
  plain2 = text "NBDMAGICwhatever" ++ be 2 3 ++ reply 7 3 (export_info 4096 1) ++ reply 7 1 [] /\
  knegotiate 10 E g (kstart plain2 []) = KRet tt s2 /\ k_size s2 = 4096.
Proof.
  exists demo_kenv, (demo_cfg false false false), (greeting 3 ++ reply 6 3 (export_info 4096 1) ++ reply 3 1 []). eexists.
  exists (text "NBDMAGICwhatever" ++ be 2 3 ++ reply 7 3 (export_info 4096 1) ++ reply 7 1 []). eexists.
  split; [exact demo_full|]. split; [reflexivity|]. split; [vm_compute; reflexivity|]. split; [reflexivity|].
  split; [reflexivity|]. split; [vm_compute; reflexivity|reflexivity].
Qed.
Print Assumptions C61_foreign_reply_refuted.
