(** From one option to the whole negotiation. *)
From Coq Require Import String.
From Verif Require Import Base M_Const M_Disk M_Tree M_Raw M_Setup M_Io M_Acl M_Nego S_Nego L_Nego L_NegoTls L_NegoServe.
Open Scope list_scope.
Open Scope nego_scope.

Section Loop.
Variable E : nenv.

Definition bytes_ok (s : nst) : Prop := Forall is_byte (n_in s) /\ Forall is_byte (n_next s).
Lemma R_bytes s s' : R s s' -> bytes_ok s -> bytes_ok s'.
Proof.
  intros (_ & _ & [(_ & A2 & u & A3)|(_ & _ & A3 & u & A4)] & _) [B1 B2]; split.
  - rewrite A3 in B1. apply Forall_suffix in B1. tauto.
  - rewrite A2. exact B2.
  - rewrite A4 in B2. apply Forall_suffix in B2. tauto.
  - rewrite A3. constructor.
Qed.

Lemma option_serve opt s i s' : do_option E opt s = NRet (Serve i) s' ->
  (opt = OPT_EXPORT_NAME /\ handle_export_name E s = NRet (Some i) s') \/
  (opt = OPT_GO /\ handle_info E OPT_GO s = NRet (Some i) s').
Proof.
  unfold do_option. unfold nbind at 1, nget at 1. unfold nbind at 1, nget at 1. intros H.
  destruct (negb (n_tls s) && flag (n_glob s) F_FORCEDTLS && negb (opt =? OPT_STARTTLS)).
  { destruct (opt =? OPT_EXPORT_NAME); [discriminate|]. destruct (opt =? OPT_ABORT); [discriminate|].
    apply bind_inv in H. destruct H as ([] & s1 & _ & H). apply bind_inv in H. destruct H as ([] & s2 & _ & H). discriminate. }
  destruct (opt =? OPT_EXPORT_NAME) eqn:O1.
  { apply bind_inv in H. destruct H as (r & s1 & H1 & H). destruct r as [j|]; [|discriminate]. injection H as <- <-.
    left. split; [lia|exact H1]. }
  destruct (opt =? OPT_LIST); [apply bind_inv in H; destruct H as ([] & s1 & _ & H); discriminate|].
  destruct (opt =? OPT_ABORT); [discriminate|].
  destruct (opt =? OPT_STARTTLS).
  { destruct (n_tls s).
    { apply bind_inv in H. destruct H as ([] & s1 & _ & H). apply bind_inv in H. destruct H as ([] & s2 & _ & H). discriminate. }
    destruct (negb (e_key E)).
    { apply bind_inv in H. destruct H as ([] & s1 & _ & H). apply bind_inv in H. destruct H as ([] & s2 & _ & H). discriminate. }
    apply bind_inv in H. destruct H as ([] & s1 & _ & H); [|discriminate].
    apply bind_inv in H. destruct H as ([] & s2 & _ & H). discriminate. }
  destruct ((opt =? OPT_GO) || (opt =? OPT_INFO)) eqn:O2.
  { apply bind_inv in H. destruct H as (r & s1 & H1 & H). destruct r as [j|]; [|discriminate].
    destruct (opt =? OPT_GO) eqn:O3; [|discriminate]. injection H as <- <-. right. assert (opt = OPT_GO) by lia. subst opt. auto. }
  destruct (opt =? OPT_STRUCTURED); [apply bind_inv in H; destruct H as ([] & s1 & _ & H); discriminate|].
  apply bind_inv in H. destruct H as ([] & s1 & _ & H). apply bind_inv in H. destruct H as ([] & s2 & _ & H). discriminate.
Qed.

Lemma unbe4 b opt : zlen b = 4 -> Forall is_byte b -> opt = unbe b -> be 4 opt = b.
Proof. intros H1 H2 ->. apply be_unbe'; auto. Qed.

Lemma loop_serve fuel : forall s i s', bytes_ok s -> nego_loop E fuel s = NRet (Some i) s' ->
  exists sa s0 opt, R s sa /\ n_in sa = be 8 OPTS_MAGIC ++ be 4 opt ++ n_in s0 /\ quiet sa s0 /\ bytes_ok s0 /\
    do_option E opt s0 = NRet (Serve i) s'.
Proof.
  induction fuel as [|fuel IH]; intros s i s' Hb H; [discriminate|]. cbn [nego_loop] in H.
  apply bind_inv in H. destruct H as (z & s1 & H1 & H). apply nread_be_inv in H1; [|lia]. destruct H1 as (b & A1 & A2 & A3 & A4).
  destruct (negb (z =? OPTS_MAGIC)) eqn:Mg; [discriminate|].
  apply bind_inv in H. destruct H as (opt & s2 & H1 & H). apply nread_be_inv in H1; [|lia]. destruct H1 as (b4 & B1 & B2 & B3 & B4).
  apply bind_inv in H. destruct H as (t & s3 & H3 & H).
  pose proof (quiet_read _ _ _ A1 A4) as QA. pose proof (quiet_trans _ _ _ QA (quiet_read _ _ _ B1 B4)) as QB.
  pose proof (R_bytes _ _ (quiet_R _ _ QB) Hb) as Hb2.
  assert (Bb : Forall is_byte b /\ Forall is_byte b4).
  { destruct Hb as [Hb _]. rewrite A1, B1 in Hb. apply Forall_suffix in Hb. destruct Hb as [Hb1 Hb]. apply Forall_suffix in Hb. tauto. }
  destruct t as [| |j]; [|discriminate|].
  - pose proof (option_R E opt s2) as P. rewrite H3 in P.
    apply IH in H; [|exact (R_bytes _ _ P Hb2)]. destruct H as (sa & s0 & o & C1 & C2). exists sa, s0, o. split; [|exact C2].
    eapply R_trans; [apply quiet_R; exact QB|]. eapply R_trans; [exact P|exact C1].
  - injection H as <- <-. exists s, s2, opt. split; [apply R_refl|]. split.
    { rewrite A1, B1. f_equal; [|f_equal].
      - rewrite <- (be_unbe' b 8 (proj1 Bb) A2). f_equal. lia.
      - symmetry. apply unbe4; tauto. }
    split; [exact QB|]. split; [exact Hb2|exact H3].
Qed.


Definition glob_of (glob cf : Z) : Z := if flag cf 2 then Z.lor glob F_NO_ZEROES else glob.

Lemma negotiate_start l glob plain secure r s' : Forall is_byte plain ->
  negotiate E (fresh l glob plain secure) = NRet r s' ->
  exists cf s1, 0 <= cf < 2 ^ 32 /\ plain = be 4 cf ++ n_in s1 /\ n_next s1 = secure /\ n_tls s1 = false /\ n_struct s1 = false /\
    n_size s1 = 0 /\ n_exports s1 = l /\ n_glob s1 = glob_of glob cf /\ n_comm s1 = true /\
    n_tr s1 = [NSend false (be 8 0x4e42444d41474943); NSend false (be 8 OPTS_MAGIC); NSend false (be 2 3)] /\
    nego_loop E (S (left_over s1)) s1 = NRet r s'.
Proof.
  intros Hb H. unfold negotiate in H.
  apply bind_inv in H. destruct H as ([] & s1 & H1 & H). apply nsend_inv in H1.
  apply bind_inv in H. destruct H as ([] & s2 & H2 & H). apply nsend_inv in H2.
  apply bind_inv in H. destruct H as ([] & s3 & H3 & H). apply nsend_inv in H3.
  apply bind_inv in H. destruct H as (cf & s4 & H4 & H). apply nread_be_inv in H4; [|lia]. destruct H4 as (b & A1 & A2 & A3 & A4).
  subst s3 s2 s1. unfold fresh in *. cbn [n_in n_next n_tls n_struct n_size n_exports n_glob n_comm n_tick n_tr app] in A1, A4.
  apply bind_inv in H. destruct H as ([] & s5 & H5 & H).
  assert (K : s5 = mkN (n_in s4) secure false false 0 l (glob_of glob cf) true (n_tick s4) (n_tr s4)).
  { rewrite A4 in *. unfold glob_of. destruct (flag cf 2); [unfold nbind, nget, put_glob in H5|unfold nret in H5]; injection H5 as <-; reflexivity. }
  unfold nbind at 1, nget at 1 in H. rewrite A1 in Hb. apply Forall_suffix in Hb. destruct Hb as [Hb1 Hb2].
  exists cf, s5. split; [subst cf; pose proof (unbe_range b Hb1); replace (8 * Z.of_nat (length b)) with 32 in * by (unfold zlen in A2; lia); lia|].
  split; [rewrite K; cbn [n_in]; rewrite A1; f_equal; symmetry; apply unbe4; auto|].
  rewrite K. cbn [n_in n_next n_tls n_struct n_size n_exports n_glob n_comm n_tick n_tr].
  repeat (split; [reflexivity|]). split; [rewrite A4; reflexivity|]. rewrite <- K. exact H.
Qed.

(** everything about the moment an export is entered *)
Lemma negotiate_enters l glob plain secure i s' : Forall is_byte plain -> Forall is_byte secure ->
  negotiate E (fresh l glob plain secure) = NRet (Some i) s' ->
  exists cf rest0 pre name sel e0 e parent before seg sends su,
    plain = be 4 cf ++ rest0 /\ 0 <= cf < 2 ^ 32 /\
    (if n_tls s' then secure else rest0) = pre ++ be 8 OPTS_MAGIC ++ sel ++ n_in s' /\ selects name sel /\
    nth_error l i = Some e0 /\ xrel e0 e /\ x_name e0 = cstr name /\ hidden (n_tls s') e0 = false /\
    n_tr s' = before ++ seg ++ sends /\ granted i e0 parent seg /\ Forall is_send sends /\
    (asked E e0 parent \/ exists v nm a, parent = [NStale v] /\ v <> 78 /\ v <> 88 /\ In (NParent nm a) before) /\
    authorized_client (e_gai E) (x_auth e0) (e_peer E) = AYes /\
    setupexport (x_flags e) (x_expected e0) (x_files e0) = SetupOk su /\
    n_size s' = su_size su /\ x_flags (nth_export i s') = su_flags su /\
    exists tr msgs, n_tr s' = tr ++ msgs /\
      announces (n_tls s') (su_size su) (export_flags (su_flags su) (n_struct s')) (negb (flag (glob_of glob cf) F_NO_ZEROES)) sel msgs.
Proof.
  intros Hp Hs H. apply negotiate_start in H; [|exact Hp].
  destruct H as (cf & s1 & Hcf & A1 & A2 & A3 & A4 & A5 & A6 & A7 & A8 & A9 & H).
  assert (Hb1 : bytes_ok s1).
  { split; [rewrite A1 in Hp; apply Forall_suffix in Hp; tauto|rewrite A2; exact Hs]. }
  apply loop_serve in H; [|exact Hb1]. destruct H as (sa & s0 & opt & RA & B1 & B2 & B3 & H).
  assert (Main : exists name body sm msgs tr, selects name (be 4 opt ++ body) /\ n_in s0 = body ++ n_in s' /\ quiet s0 sm /\
     x_name (nth_export i s0) = cstr name /\ serving E i sm s' /\
     n_tr s' = tr ++ msgs /\ announces (n_tls s') (n_size s') (export_flags (x_flags (nth_export i s')) (n_struct s'))
        (negb (flag (n_glob s') F_NO_ZEROES)) (be 4 opt ++ body) msgs).
  { apply option_serve in H. destruct H as [[-> H]|[-> H]].
    - apply export_name_inv in H; [|exact (proj1 B3)]. destruct H as (name & C1 & C2 & C3 & C4 & C5 & tr & C6).
      exists name, (be 4 (zlen name) ++ name), s0, (name_messages (n_tls s0) (n_size s') (x_flags (nth_export i s')) (n_struct s0) (n_glob s0)), tr.
      split; [apply sel_name; exact C1|]. split; [rewrite C2, <- app_assoc; reflexivity|]. split; [apply quiet_refl|]. split; [exact C4|].
      split; [exact C5|]. split; [exact C6|].
      destruct C5 as (? & ? & ? & ? & ? & _ & _ & _ & _ & _ & _ & _ & _ & _ & _ & _ & D1 & D2 & D3 & _). rewrite D1, D2, D3.
      unfold name_messages. destruct (negb (flag (n_glob s0) F_NO_ZEROES)) eqn:Z; [apply (an_name _ _ _ true)|apply (an_name _ _ _ false)].
    - apply info_inv in H; [|exact (proj1 B3)].
      destruct H as (len & name & junk & n2 & infos & sm & C1 & C2 & C3 & C4 & C5 & C6 & C7 & C8 & C9 & k & tr & C10 & C11).
      exists name, (len ++ be 4 (zlen name) ++ junk ++ name ++ n2 ++ infos), sm, (concat (repeat (info_of OPT_GO i s') k) ++ [NSend (n_tls s') (optreply OPT_GO REP_ACK 0)]), tr.
      split; [apply sel_go; auto|]. split; [rewrite C4, <- !app_assoc; reflexivity|]. split; [exact C6|]. split; [exact C8|].
      split; [auto|]. split; [exact C11|]. unfold info_of, info_messages. apply an_go. exact C10. }
  destruct Main as (name & body & sm & msgs & tr & M1 & M2 & M3 & M4 & M5 & M6 & M7).
  destruct M5 as (parent & seg & sends & su & e1 & S1 & S2 & S3 & S4 & S5 & S6 & S7 & S8 & S9 & S10 & S11 & S12 & S13 & S14 & S15).
  assert (RM : R s1 sm) by (eapply R_trans; [exact RA|]; eapply R_trans; [apply quiet_R; exact B2|apply quiet_R; exact M3]).
  destruct RM as (T1 & T2 & T3 & T4 & T5).
  pose proof M3 as (Cm & Nm & _). unfold core_of in Cm. injection Cm as Y1 Y2 Y3 Y4 Y5 Y6.
  assert (Ne : nth_export i sm = nth_export i s0) by (unfold nth_export; rewrite Y4; reflexivity).
  rewrite A6 in T4. destruct (rel_nth _ _ T4 _ _ S1) as (e0 & E0 & _ & X0).
  set (e := nth_export i sm) in *.
  destruct X0 as (X1 & X2 & X3 & X4 & X5 & X6).
  assert (Fl : x_flags (nth_export i s') = su_flags su).
  { unfold nth_export at 1. rewrite S11, (set_nth_same _ _ _ _ _ S1), S10. reflexivity. }
  pose proof B2 as (Ca & Na & _). unfold core_of in Ca. injection Ca as W1 W2 W3 W4 W5 W6.
  assert (In0 : exists pre, (if n_tls s' then secure else n_in s1) = pre ++ n_in sa).
  { destruct RA as (_ & _ & [(K1 & K2 & u & K3)|(K1 & K2 & K3 & u & K4)] & _).
    - assert (n_tls s' = false) as -> by congruence. exists u. exact K3.
    - assert (n_tls s' = true) as -> by congruence. exists u. congruence. }
  destruct In0 as (pre & In0).
  exists cf, (n_in s1), pre, name, (be 4 opt ++ body), e0, e, parent, (n_tr sm), seg, sends, su.
  split; [exact A1|]. split; [exact Hcf|]. split; [rewrite In0, B1, M2, <- !app_assoc; reflexivity|]. split; [exact M1|].
  split; [exact E0|]. split; [unfold xrel; auto 10|]. split; [rewrite <- X1, <- M4, <- Ne; reflexivity|].
  split; [unfold hidden in *; rewrite S12; rewrite (demoted_forced _ _ X6) in S2; exact S2|].
  split; [exact S3|]. split.
  { destruct S4 as (pr & cow & G1 & G2 & G3). exists pr, cow. rewrite <- X4. auto. }
  split; [exact S6|]. split.
  { destruct S5 as [P1 P2]. destruct (e_dontfork E) eqn:Df.
    - left. unfold asked in *. rewrite Df in *. apply P1. left; reflexivity.
    - destruct (n_comm sm) eqn:Cm.
      + left. unfold asked in *. rewrite Df in *. rewrite <- X1. apply P1. right; reflexivity.
      + right. destruct (P2 eq_refl eq_refl) as (v & V1 & V2 & V3). destruct (T2 eq_refl) as [K|(nm & a & K)]; [congruence|].
        exists v, nm, a. auto. }
  split; [rewrite <- X2; exact S7|]. split; [rewrite <- X3, <- X5; exact S8|]. split; [exact S9|]. split; [exact Fl|].
  exists tr, msgs. split; [exact M6|]. rewrite <- S9, <- Fl. rewrite S14, T5, A7 in M7. exact M7.
Qed.

(** negotiation always comes to an end *)
Lemma negotiate_ends l glob plain secure : negotiate E (fresh l glob plain secure) <> NStuck.
Proof.
  unfold negotiate. intros H.
  assert (K : forall A B (m : N A) (f : A -> N B) s, nbind m f s = NStuck -> pr m -> exists a s1, m s = NRet a s1 /\ f a s1 = NStuck).
  { intros A B m f s Hk Hm. unfold nbind in Hk. specialize (Hm s). destruct (m s) as [a s1|s1|s1|]; try discriminate; [eauto|contradiction]. }
  apply K in H; [|apply pr_send]. destruct H as ([] & s1 & H1 & H).
  apply K in H; [|apply pr_send]. destruct H as ([] & s2 & H2 & H).
  apply K in H; [|apply pr_send]. destruct H as ([] & s3 & H3 & H).
  apply K in H; [|apply pr_read_be]. destruct H as (cf & s4 & H4 & H).
  assert (G : exists s5, nbind (nget (fun s => S (length (n_in s) + length (n_next s)))) (fun fuel => nego_loop E fuel) s5 = NStuck).
  { destruct (flag cf 2); unfold nbind, nget, put_glob, nret in H; eexists; exact H. }
  destruct G as (s5 & G). unfold nbind, nget in G. revert G. apply loop_not_stuck. unfold left_over. lia.
Qed.
End Loop.
