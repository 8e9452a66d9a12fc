(** Client and server talking to each other: the two ends put together. *)
From Coq Require Import String.
From Verif Require Import Base M_Const M_Io M_Setup M_Acl M_Nego M_Client S_Nego S_Client S_Inter L_Nego L_NegoServe L_NegoOpt L_Client L_ClientGo L_ClientP L_Inter.
Local Open Scope list_scope.

(** ** together *)
Lemma flags_range xf st : 0 <= export_flags xf st < 2 ^ 16.
Proof.
  unfold export_flags. destruct (flag xf F_READONLY), (flag xf F_FLUSH), (flag xf F_FUA), (flag xf F_ROTATIONAL), (flag xf F_TRIM), (flag xf F_COPYONWRITE), st;
    vm_compute; split; congruence.
Qed.
Lemma be_mod n x : be n x = be n (x mod 2 ^ (8 * Z.of_nat n)).
Proof. rewrite <- unbe_be. rewrite <- (be_length n x) at 2. symmetry. apply be_unbe, be_bytes. Qed.
Lemma info_small size flags : export_info size flags = export_info (size mod 2 ^ 64) flags.
Proof. unfold export_info. rewrite (be_mod 8 size). reflexivity. Qed.
Lemma cflags_range x : 0 <= x < 2 ^ 32 -> 0 <= Z.lor x 2 < 2 ^ 32.
Proof.
  intros H. assert (0 <= Z.lor x 2) by (apply Z.lor_nonneg; lia). split; [assumption|].
  destruct (Z.eq_dec (Z.lor x 2) 0) as [->|Hn]; [reflexivity|]. apply Z.log2_lt_pow2; [lia|].
  rewrite Z.log2_lor by lia. apply Z.max_lub_lt; [|reflexivity].
  destruct (Z.eq_dec x 0) as [->|]; [reflexivity|]. apply Z.log2_lt_pow2; lia.
Qed.
Lemma cflags_2 x : flag (Z.lor x 2) 2 = true.
Proof.
  unfold flag. rewrite Z.land_comm, Z.land_lor_distr_r. change (Z.land 2 2) with 2.
  assert (H : Z.testbit (Z.lor (Z.land 2 x) 2) 1 = true) by (rewrite Z.lor_spec; apply orb_true_r).
  destruct (Z.lor (Z.land 2 x) 2 =? 0) eqn:E0; [|reflexivity]. apply Z.eqb_eq in E0. rewrite E0 in H. discriminate.
Qed.
Lemma glob_4 x : flag (Z.lor x F_NO_ZEROES) F_NO_ZEROES = true.
Proof.
  unfold flag, F_NO_ZEROES. rewrite Z.land_comm, Z.land_lor_distr_r. change (Z.land 4 4) with 4.
  assert (H : Z.testbit (Z.lor (Z.land 4 x) 4) 2 = true) by (rewrite Z.lor_spec; apply orb_true_r).
  destruct (Z.lor (Z.land 4 x) 4 =? 0) eqn:E0; [|reflexivity]. apply Z.eqb_eq in E0. rewrite E0 in H. discriminate.
Qed.

Lemma info_len size flags : zlen (export_info size flags) = 12.
Proof. reflexivity. Qed.
Lemma hello_eq g : hello g 3 = be 4 (Z.lor (g_cflags g) 2) ++ (if g_tls g then starttls_request else []).
Proof. reflexivity. Qed.
Local Opaque go_request hello reply greeting export_info knegotiate.

(** what the client gets to see, given what the server ended with *)
Definition meets (Ec : kenv) (g : kcfg) (fuel : nat) (r : nout (option nat)) : Prop :=
  exists tr, trace_of r = Some tr /\
  let c := knegotiate fuel Ec g (kstart (sent_on false tr) (sent_on true tr)) in
  match r with
  | NRet (Some i) s => exists k, c = KRet tt k /\
      M_Client.k_size k = n_size s mod 2 ^ 64 /\ k_flags k = export_flags (x_flags (nth_export i s)) (n_struct s) /\
      n_tls s = g_tls g /\ k_sec k = g_tls g /\ k_in k = [] /\ n_in s = [] /\
      all_sent k = hello g 3 ++ go_request (g_name g)
  | _ => exists k, c = KFail k /\ prefix (all_sent k) (hello g 3 ++ go_request (g_name g))
  end.
Lemma inter_go Es Ec l glob g fuel : connected Es Ec g -> asks g -> g_no_optgo g = false -> (2 <= fuel)%nat ->
  meets Ec g fuel (negotiate Es (fresh l glob (fst (to_server g (go_request (g_name g)))) (snd (to_server g (go_request (g_name g)))))).
Proof.
  intros (W & F & Hc) (Hl & Hn & Hcf & Hname) Hgo Hf. set (cf := Z.lor (g_cflags g) 2).
  assert (Rcf : 0 <= cf < 2 ^ 32) by now apply cflags_range.
  destruct fuel as [|[|fuel]]; [lia|lia|].
  assert (Serve : forall (i : nat) (s : nst) plain tls,
    serves Ec g 3 (info_reply i s ++ reply OPT_GO REP_ACK []) plain tls ->
    exists k, knegotiate (S (S fuel)) Ec g (kstart plain tls) = KRet tt k /\
      M_Client.k_size k = n_size s mod 2 ^ 64 /\ k_flags k = export_flags (x_flags (nth_export i s)) (n_struct s) /\
      k_sec k = g_tls g /\ k_in k = [] /\ all_sent k = hello g 3 ++ go_request (g_name g)).
  { intros i s plain tls HS. unfold info_reply in HS. rewrite info_small in HS. set (w := export_flags _ _) in *.
    assert (Hw : 0 <= w < 2 ^ 16) by apply flags_range. assert (Hz : 0 <= n_size s mod 2 ^ 64 < 2 ^ 64) by (apply Z.mod_pos_bound; reflexivity).
    destruct (client_go_result (S (S fuel)) Ec g 3 plain tls [] [] OPT_GO (n_size s mod 2 ^ 64) w [] OPT_GO [] []) as (k & Hk & K1 & K2 & K3 & K4 & K5); auto.
    - rewrite app_nil_r. rewrite info_len. reflexivity.
    - reflexivity.
    - exists k. repeat split; auto. }
  assert (Refuse : forall stream plain tls, (stream = [] \/ exists t d, refusal t d /\ stream = reply OPT_GO t d) -> serves Ec g 3 stream plain tls ->
    exists k, knegotiate (S (S fuel)) Ec g (kstart plain tls) = KFail k /\ prefix (all_sent k) (hello g 3 ++ go_request (g_name g))).
  { intros stream plain tls Hst HS. destruct (client_go (S (S fuel)) Ec g 3 plain tls stream HS Hl Hgo) as (s & -> & Hin & Hsent & _).
    destruct Hst as [->|(t & d & Hr & ->)].
    - destruct (nothing_fails (S fuel) Ec (g_name g) 3 s Hin) as (n & ->). eexists. split; [reflexivity|]. exists []. rewrite app_nil_r. symmetry. exact Hsent.
    - destruct (refusal_fails (S fuel) Ec (g_name g) 3 s t d [] Hr) as (n & ->); [now rewrite app_nil_r|]. eexists. split; [reflexivity|].
      exists []. rewrite app_nil_r. symmetry. exact Hsent. }
  assert (Ser : forall stream plain tls, (if g_tls g then e_tls Ec = true /\ plain = greeting 3 ++ reply 5 1 [] /\ tls = stream else plain = greeting 3 ++ stream) -> serves Ec g 3 stream plain tls).
  { intros stream plain tls HH. unfold serves. split; [lia|]. split; [exact Hn|]. split; [lia|]. destruct (g_tls g); [|exact HH]. tauto. }
  unfold to_server. destruct (g_tls g) eqn:Hg; cbn [fst snd]; rewrite hello_eq, Hg; fold cf.
  - destruct Hc as (He & Hm). pose proof (tls_w Es W l glob cf (g_name g) Rcf Hname Hm) as R. unfold tls_res in R.
    set (r := negotiate _ _) in *. clearbody r.
    destruct (e_key Es) eqn:Ek; cbn [andb] in R.
    2:{ destruct R as ((s' & Hr) & d & Bd & tr & T1 & T2 & T3). exists tr. split; [exact T1|]. cbv zeta.
        destruct (tls_refused (S (S fuel)) Ec g (sent_on false tr) (sent_on true tr) Hg F Hn) as (k & Hk & Hs).
        { left. exists REP_ERR_POLICY, d. split; [exact T2|]. split; [vm_compute; split; congruence|]. split; [discriminate|exact Bd]. }
        destruct Hr as [-> | ->]; exists k; (split; [exact Hk|]); exists (go_request (g_name g)); now rewrite Hs. }
    destruct (e_ok Es 4) eqn:E4.
    2:{ destruct R as ((s' & Hr) & tr & T1 & T2 & T3). exists tr. split; [exact T1|]. cbv zeta.
        destruct (tls_refused (S (S fuel)) Ec g (sent_on false tr) (sent_on true tr) Hg F Hn) as (k & Hk & Hs).
        { right. auto. }
        destruct Hr as [-> | ->]; exists k; (split; [exact Hk|]); exists (go_request (g_name g)); now rewrite Hs. }
    symmetry in He. destruct r as [[i|] s'|s'|s'|]; try contradiction.
    + destruct R as (I & T & tr & T1 & T2 & T3). exists tr. split; [exact T1|]. cbv zeta.
      destruct (Serve i s' (sent_on false tr) (sent_on true tr)) as (k & K0 & K1 & K2 & K3 & K4 & K5); [apply Ser; auto|].
      exists k. rewrite Hg in *. repeat split; auto; congruence.
    + destruct R as (tr & T1 & T2 & T3). exists tr. split; [exact T1|]. cbv zeta. apply (Refuse []); [auto|]. apply Ser. auto.
    + destruct R as [(tr & T1 & T2 & T3)|(t & d & Hr & tr & T1 & T2 & T3)]; exists tr; (split; [exact T1|]); cbv zeta.
      * apply (Refuse []); [auto|]. apply Ser. auto.
      * apply (Refuse (reply OPT_GO t d)); [eauto|]. apply Ser. auto.
  - rewrite app_nil_r. pose proof (plain_w Es W l glob cf (g_name g) [] Rcf Hname Hc) as R. cbv zeta in R.
    set (r := negotiate _ _) in *. clearbody r. destruct r as [[i|] s'|s'|s'|]; try contradiction.
    + destruct R as (I & T & tr & T1 & T2 & T3). exists tr. split; [exact T1|]. cbv zeta.
      destruct (Serve i s' (sent_on false tr) (sent_on true tr)) as (k & K0 & K1 & K2 & K3 & K4 & K5); [apply Ser; auto|].
      exists k. rewrite Hg in *. repeat split; auto; congruence.
    + destruct R as (tr & T1 & T2 & T3). exists tr. split; [exact T1|]. cbv zeta. apply (Refuse []); [auto|]. apply Ser. now rewrite app_nil_r.
    + destruct R as [(tr & T1 & T2 & T3)|(t & d & Hr & tr & T1 & T2 & T3)]; exists tr; (split; [exact T1|]); cbv zeta.
      * apply (Refuse []); [auto|]. apply Ser. now rewrite app_nil_r.
      * apply (Refuse (reply OPT_GO t d)); [eauto|]. apply Ser. auto.
Qed.

(** EXPORT_NAME, in clear *)
Lemma inter_name Es Ec l glob g fuel i s : connected Es Ec g -> asks g -> g_no_optgo g = true -> g_tls g = false ->
  negotiate Es (fresh l glob (hello g 3 ++ export_name_request (g_name g)) []) = NRet (Some i) s ->
  exists k, knegotiate fuel Ec g (kstart (sent_on false (n_tr s)) (sent_on true (n_tr s))) = KRet tt k /\
    M_Client.k_size k = n_size s mod 2 ^ 64 /\ k_flags k = export_flags (x_flags (nth_export i s)) (n_struct s) /\
    k_in k = [] /\ n_in s = [] /\ all_sent k = hello g 3 ++ export_name_request (g_name g).
Proof.
  intros (W & _ & Hc) (Hl & Hn & Hcf & Hname) Hgo Hg. rewrite Hg in Hc. set (cf := Z.lor (g_cflags g) 2).
  assert (Rcf : 0 <= cf < 2 ^ 32) by now apply cflags_range.
  assert (Hh : hello g 3 = be 4 cf) by (rewrite hello_eq, Hg, app_nil_r; reflexivity). rewrite Hh.
  destruct (greet_w Es W l glob cf (export_name_request (g_name g)) [] Rcf) as (s0 & f & -> & Hf & Hi & _ & Ht & Hst & Hk & _ & Hglob & G1 & G2). unfold cf in Hglob. rewrite cflags_2 in Hglob.
  intros HR. destruct (name_w Es W f s0 (g_name g) i s Hi Hname) as (I & T); [rewrite Hglob; apply glob_4|exact HR|].
  destruct T as (_ & _ & _ & evs & T1 & T2 & T3). rewrite Ht in *. cbn [negb] in T3.
  rewrite T1, !on_app, G1, G2, T2, T3. unfold name_reply. rewrite (be_mod 8 (n_size s)). change (8 * Z.of_nat 8) with 64.
  destruct (client_name_result fuel Ec g 3 (greeting 3 ++ be 8 (n_size s mod 2 ^ 64) ++ be 2 (export_flags (x_flags (nth_export i s)) (n_struct s))) [] (n_size s mod 2 ^ 64)
     (export_flags (x_flags (nth_export i s)) (n_struct s)) [] []) as (k & Hk' & K1 & K2 & K3 & K4 & K5); auto.
  - unfold serves. rewrite Hg. split; [lia|]. split; [exact Hn|]. split; [lia|]. cbn [app]. now rewrite !app_nil_r.
  - apply Z.mod_pos_bound. reflexivity.
  - apply flags_range.
  - exists k. rewrite <- Hh. repeat split; auto.
Qed.
