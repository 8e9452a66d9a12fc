(** Client and server talking to each other. *)
From Coq Require Import String.
From Verif Require Import Base M_Const M_Io M_Setup M_Acl M_Nego M_Client S_Nego S_Client S_Inter L_Nego L_NegoServe L_NegoOpt L_Client L_ClientGo L_ClientP.
Local Open Scope list_scope.
Open Scope nego_scope.

Section Server.
Variable E : nenv.
Hypothesis W : forall k, e_write E k = true.

(** [s] leads to [s'] having sent [b], on the transport in use *)
Definition told (s s' : nst) (b : list Z) : Prop :=
  n_tls s' = n_tls s /\ n_struct s' = n_struct s /\ n_glob s' = n_glob s /\ exists evs, n_tr s' = n_tr s ++ evs /\ sent_on (n_tls s) evs = b /\ sent_on (negb (n_tls s)) evs = [].
Lemma on_app t a b : sent_on t (a ++ b) = sent_on t a ++ sent_on t b.
Proof. unfold sent_on. rewrite map_app, concat_app. reflexivity. Qed.
Lemma told_refl s : told s s [].
Proof. repeat split. exists []. rewrite app_nil_r. auto. Qed.
Lemma told_trans a b c x y : told a b x -> told b c y -> told a c (x ++ y).
Proof.
  intros (T1 & S1 & N1 & e1 & A1 & A2 & A3) (T2 & S2 & N2 & e2 & B1 & B2 & B3). rewrite T1 in *. split; [congruence|]. split; [congruence|]. split; [congruence|].
  exists (e1 ++ e2). rewrite B1, A1, app_assoc, !on_app, A2, A3, B2, B3. auto.
Qed.
Lemma told_push s b : told s (push b s) b.
Proof.
  repeat split. exists [NSend (n_tls s) b]. split; [reflexivity|]. unfold sent_on. cbn [map concat].
  rewrite Bool.eqb_reflx, app_nil_r. split; [reflexivity|]. now destruct (n_tls s).
Qed.
Lemma told_in s b : told s (set_in b s) [].
Proof. repeat split. exists []. cbn. rewrite app_nil_r. auto. Qed.
Lemma send_w b s : nsend E b s = NRet tt (push b s).
Proof. unfold nsend, nbind, npull, nget, emit. rewrite W. reflexivity. Qed.
Lemma data_w opt t d s : send_data E opt t d s = NRet tt (push d (push (optreply opt t (zlen d)) s)).
Proof. unfold send_data. rewrite (bind_ret _ _ _ _ _ (send_w _ s)). apply send_w. Qed.
Lemma told_data opt t d s : told s (push d (push (optreply opt t (zlen d)) s)) (reply opt t d).
Proof.
  replace (reply opt t d) with (optreply opt t (zlen d) ++ d) by (unfold reply, optreply; rewrite <- !app_assoc; reflexivity).
  eapply told_trans; apply told_push.
Qed.

(** commitment sends and reads nothing, however it ends *)
Definition still {A} (m : N A) : Prop := forall s, match m s with
  | NRet _ s' => n_in s' = n_in s /\ told s s' [] | NUb s' | NDie s' => told s s' [] | NStuck => True end.
Lemma still_bind {A B} (m : N A) (f : A -> N B) : still m -> (forall a, still (f a)) -> still (nbind m f).
Proof.
  intros H1 H2 s. unfold nbind. specialize (H1 s). destruct (m s) as [a s1|s1|s1|]; auto.
  specialize (H2 a s1). destruct H1 as [A1 A2]. destruct (f a s1) as [b s2|s2|s2|]; auto; try exact (told_trans _ _ _ _ _ A2 H2).
  destruct H2 as [B1 B2]. split; [congruence|]. exact (told_trans _ _ _ _ _ A2 B2).
Qed.
Lemma still_emit v : (forall t b, v <> NSend t b) -> still (emit v).
Proof.
  intros H s. cbn. split; [reflexivity|]. repeat split. exists [v]. split; [reflexivity|].
  assert (K : forall t, sent_on t [v] = []) by (intros t; destruct v; try reflexivity; exfalso; eapply H; reflexivity). auto.
Qed.
Lemma commit_still i : still (commit_client E i).
Proof.
  assert (M0 : forall A (m : N A), (forall s, match m s with NRet _ s' => n_in s' = n_in s /\ n_tr s' = n_tr s /\ n_tls s' = n_tls s /\ n_struct s' = n_struct s /\ n_glob s' = n_glob s
     | NUb s' | NDie s' => s' = s | NStuck => True end) -> still m).
  { intros A m H s. specialize (H s). destruct (m s) as [a s1|s1|s1|]; auto; try (rewrite H; apply told_refl).
    destruct H as (H1 & H2 & H3 & H4 & H5). split; [exact H1|]. split; [exact H3|]. split; [exact H4|]. split; [exact H5|]. exists []. rewrite app_nil_r. auto. }
  unfold commit_client, ask_parent, nprepare.
  repeat match goal with
  | |- still (nbind _ _) => apply still_bind; [|intros ?]
  | |- still (if ?b then _ else _) => destruct b
  | |- still (match ?b with _ => _ end) => destruct b
  | |- still (emit _) => apply still_emit; discriminate
  | _ => apply M0; intros st; cbn; auto end.
Qed.

(** the error replies this server sends to GO *)
Definition refusal (t : Z) (d : list Z) : Prop :=
  t = REP_ERR_TLS_REQD /\ d = text "TLS is required for that export" \/
  t = REP_ERR_TLS_REQD /\ d = text "TLS is required on this server" \/
  t = REP_ERR_UNKNOWN /\ d = text "Export unknown" \/
  t = REP_ERR_POLICY /\ d = text "Access denied by server configuration".

Definition info_reply (i : nat) (s : nst) : list Z :=
  reply OPT_GO REP_INFO (export_info (n_size s) (export_flags (x_flags (nth_export i s)) (n_struct s))).
Lemma info_w i s : exists s', send_info E OPT_GO i s = NRet tt s' /\ n_in s' = n_in s /\ told s s' (info_reply i s) /\
  n_size s' = n_size s /\ nth_export i s' = nth_export i s.
Proof.
  unfold send_info, send_head. rewrite (bind_ret _ _ _ _ _ (send_w _ s)).
  set (s1 := push _ s). rewrite (bind_ret _ _ _ _ _ (send_w _ s1)). set (s2 := push _ s1).
  unfold send_export_info. unfold nbind at 1, nget at 1. rewrite (bind_ret _ _ _ _ _ (send_w _ s2)). set (s3 := push _ s2).
  unfold nbind at 1, nget at 1. unfold nbind at 1, nget at 1. set (w := export_flags _ _). rewrite (bind_ret _ _ _ _ _ (send_w _ s3)). set (s4 := push _ s3).
  unfold nbind at 1, nget at 1. rewrite andb_false_r. exists s4. split; [reflexivity|]. split; [reflexivity|]. split; [|split; reflexivity].
  unfold info_reply, reply. change (n_size s) with (n_size s2). change (nth_export i s) with (nth_export i s3). change (n_struct s) with (n_struct s3). fold w.
  replace (zlen (export_info (n_size s2) w)) with 12 by (unfold export_info; rewrite !zlen_app, !zlen_be; reflexivity).
  replace (REPLY_MAGIC ++ be 4 OPT_GO ++ be 4 REP_INFO ++ be 4 12 ++ export_info (n_size s2) w) with
    (optreply OPT_GO REP_INFO 12 ++ be 2 INFO_EXPORT ++ be 8 (n_size s2) ++ be 2 w) by reflexivity.
  eapply told_trans; [apply told_push|]. eapply told_trans; [apply told_push|]. eapply told_trans; [apply told_push|]. apply told_push.
Qed.

(** what GO comes to *)
Definition go_end (s : nst) (r : nout (option nat)) : Prop :=
  match r with
  | NRet (Some i) s' => n_in s' = [] /\ told s s' (info_reply i s' ++ reply OPT_GO REP_ACK [])
  | NRet None s' => n_in s' = [] /\ exists t d, refusal t d /\ told s s' (reply OPT_GO t d)
  | NUb s' | NDie s' => told s s' []
  | NStuck => False
  end.
Lemma go_end_from s0 s r : told s0 s [] -> go_end s r -> go_end s0 r.
Proof.
  intros T. destruct r as [[i|] s'|s'|s'|]; cbn; auto; try (intros H; exact (told_trans _ _ _ _ _ T H)).
  - intros (H1 & H2). split; [exact H1|exact (told_trans _ _ _ _ _ T H2)].
  - intros (H1 & t & d & H2 & H3). split; [exact H1|]. exists t, d. split; [exact H2|exact (told_trans _ _ _ _ _ T H3)].
Qed.
Lemma go_w s name : n_in s = be 4 (zlen name + 6) ++ be 4 (zlen name) ++ name ++ [0; 0] -> zlen name <= 4096 ->
  e_ok E (n_tick s) = true -> go_end s (handle_info E OPT_GO s).
Proof.
  intros H Hn Hm. pose proof (zlen_nonneg name) as Pn.
  unfold handle_info. rewrite (bind_ret _ _ _ _ _ (nread_be_app 4 4 _ _ s H eq_refl ltac:(lia))). set (s1 := set_in _ s).
  rewrite (bind_ret _ _ _ _ _ (nread_be_app 4 4 (zlen name) (name ++ [0; 0]) s1 eq_refl eq_refl ltac:(lia))). set (s2 := set_in _ s1).
  replace (u32 (zlen name + 6 - 6)) with (zlen name) by (unfold u32; rewrite Z.mod_small; lia).
  replace (zlen name <? zlen name) with false by lia.
  unfold nbind at 1, nret at 1. replace (4096 <? zlen name) with false by lia. unfold nbind at 1, nret at 1.
  assert (Mem : exists s3, (if 0 <? zlen name then npull (e_ok E) else nret true) s2 = NRet true s3 /\ n_in s3 = name ++ [0; 0] /\ told s s3 []).
  { destruct (0 <? zlen name).
    - unfold npull. change (n_tick s2) with (n_tick s). rewrite Hm. eexists. split; [reflexivity|]. split; [reflexivity|].
      repeat split. exists []. cbn. rewrite app_nil_r. auto.
    - eexists. split; [reflexivity|]. split; [reflexivity|]. apply told_in with (s := s). }
  destruct Mem as (s3 & M1 & M2 & M3). rewrite (bind_ret _ _ _ _ _ M1). cbn [negb]. apply (go_end_from _ _ _ M3). clear M1 M3 H Hm s1 s2.
  replace (zlen name =? 4294967295) with false by lia. unfold nbind at 1, nret at 1.
  rewrite (bind_ret _ _ _ _ _ (nread_app _ _ _ s3 M2 eq_refl)). set (s4 := set_in _ s3).
  unfold nbind at 1, nget at 1. unfold nbind at 1, nget at 1.
  rewrite (bind_ret _ _ _ _ _ (nread_be_app 2 2 0 [] s4 eq_refl eq_refl ltac:(lia))). set (s5 := set_in _ s4).
  apply (go_end_from _ s5); [exact (told_in s3 [])|].
  assert (Errs : forall t d s6, refusal t d -> n_in s6 = [] -> go_end s6 ((nconsume (0 * 2) ;;~ send_data E OPT_GO t d ;;~ nret None) s6)).
  { intros t d s6 Ht I6. assert (K : nconsume (0 * 2) s6 = NRet tt (set_in [] s6)) by (apply (consume_app [] [] s6 0 I6 eq_refl)).
    rewrite (bind_ret _ _ _ _ _ K), (bind_ret _ _ _ _ _ (data_w _ _ _ _)). split; [reflexivity|]. exists t, d. split; [exact Ht|].
    change (reply OPT_GO t d) with ([] ++ reply OPT_GO t d). eapply told_trans; [apply told_in|apply told_data]. }
  destruct (fst (find_last (n_tls s4) name 0 (n_exports s4) (None, false))) as [j|].
  2:{ destruct (snd (find_last (n_tls s4) name 0 (n_exports s4) (None, false))); apply Errs; try reflexivity; unfold refusal; auto. }
  change (OPT_GO =? OPT_GO) with true. cbv iota. pose proof (commit_still j s5) as Mu. unfold nbind at 1.
  destruct (commit_client E j s5) as [ok s6|s6|s6|] eqn:C; auto.
  2:{ pose proof (pr_commit E j s5) as P. rewrite C in P. contradiction. }
  destruct Mu as (I6 & T6). apply (go_end_from _ _ _ T6). destruct ok; cbn [negb].
  2:{ apply Errs; [unfold refusal; auto|exact I6]. }
  change (Z.to_nat 0) with O. cbn [info_loop]. unfold nbind at 1, nret at 1.
  destruct (info_w j s6) as (s8 & G1 & G2 & G3 & G4 & G5). rewrite (bind_ret _ _ _ _ _ G1). unfold send_head. rewrite (bind_ret _ _ _ _ _ (send_w _ s8)).
  split; [change (n_in s8 = []); rewrite G2, I6; reflexivity|]. pose proof G3 as (_ & G6 & _).
  replace (info_reply j (push (optreply OPT_GO REP_ACK 0) s8)) with (info_reply j s6).
  2:{ unfold info_reply. change (n_size (push ?b s8)) with (n_size s8). change (nth_export j (push ?b s8)) with (nth_export j s8). change (n_struct (push ?b s8)) with (n_struct s8). now rewrite G4, G5, G6. }
  eapply told_trans; [exact G3|]. replace (reply OPT_GO REP_ACK []) with (optreply OPT_GO REP_ACK 0) by reflexivity. apply told_push.
Qed.

(** one turn of the loop on GO, and the connection closed by the client after it *)
Definition request_end (s : nst) (r : nout (option nat)) : Prop :=
  match r with
  | NRet (Some i) s' => n_in s' = [] /\ told s s' (info_reply i s' ++ reply OPT_GO REP_ACK [])
  | NDie s' => told s s' [] \/ exists t d, refusal t d /\ told s s' (reply OPT_GO t d)
  | NUb s' => told s s' []
  | _ => False
  end.
Lemma request_from s0 s r : told s0 s [] -> request_end s r -> request_end s0 r.
Proof.
  intros T. destruct r as [[i|] s'|s'|s'|]; cbn; auto; try (intros H; exact (told_trans _ _ _ _ _ T H)).
  - intros (H1 & H2). split; [exact H1|exact (told_trans _ _ _ _ _ T H2)].
  - intros [H|(t & d & H2 & H3)]; [left; exact (told_trans _ _ _ _ _ T H)|]. right. exists t, d. split; [exact H2|exact (told_trans _ _ _ _ _ T H3)].
Qed.
Lemma request_w fuel s name : n_in s = go_request name -> zlen name <= 4096 -> e_ok E (n_tick s) = true ->
  request_end s (nego_loop E (S (S fuel)) s).
Proof.
  intros H Hn Hm. pose proof (zlen_nonneg name) as Pn. unfold go_request in H. remember (S fuel) as f1 eqn:Ef. cbn [nego_loop].
  change IHAVEOPT with (be 8 OPTS_MAGIC) in H.
  rewrite (bind_ret _ _ _ _ _ (nread_be_app 8 8 OPTS_MAGIC _ s H eq_refl ltac:(vm_compute; split; [discriminate|reflexivity]))). set (s1 := set_in _ s).
  rewrite Z.eqb_refl. cbn [negb].
  change [0; 0; 0; 7] with (be 4 OPT_GO) in s1.
  rewrite (bind_ret _ _ _ _ _ (nread_be_app 4 4 OPT_GO (be 4 (zlen name + 6) ++ be 4 (zlen name) ++ name ++ [0; 0]) s1 eq_refl eq_refl ltac:(vm_compute; split; [discriminate|reflexivity]))). set (s2 := set_in _ s1).
  apply (request_from _ s2); [exact (told_in s _)|].
  assert (Die : forall t d s3, n_in s3 = [] -> refusal t d -> told s2 s3 (reply OPT_GO t d) -> request_end s2 (nego_loop E f1 s3)).
  { intros t d s3 I3 Hr T3. subst f1. cbn [nego_loop]. unfold nread_be at 1. unfold nread at 1. unfold nbind at 1 2. rewrite I3. change (zlen [] <? 8) with true. cbv iota. right. exists t, d. auto. }
  unfold do_option, nbind at 1 2 3, nget. change (OPT_GO =? OPT_STARTTLS) with false. cbn [negb]. rewrite andb_true_r.
  change (OPT_GO =? OPT_EXPORT_NAME) with false. change (OPT_GO =? OPT_ABORT) with false. change (OPT_GO =? OPT_LIST) with false. cbv iota.
  destruct (negb (n_tls s2) && flag (n_glob s2) F_FORCEDTLS).
  - assert (K : nconsume_len s2 = NRet tt (set_in [] s2)).
    { unfold nconsume_len. rewrite (bind_ret _ _ _ _ _ (nread_be_app 4 4 (zlen name + 6) (be 4 (zlen name) ++ name ++ [0; 0]) s2 eq_refl eq_refl ltac:(lia))).
      rewrite (consume_app (be 4 (zlen name) ++ name ++ [0; 0]) [] _ (zlen name + 6)).
      - reflexivity.
      - cbn. now rewrite app_nil_r.
      - rewrite !zlen_app, zlen_be. change (zlen [0; 0]) with 2. lia. }
    rewrite (bind_ret _ _ _ _ _ K), (bind_ret _ _ _ _ _ (data_w _ _ _ _)). unfold nret at 1.
    eapply Die; [reflexivity| |exact (told_trans _ _ _ [] _ (told_in s2 []) (told_data OPT_GO _ _ (set_in [] s2)))].
    unfold refusal. auto.
  - change ((OPT_GO =? OPT_GO) || (OPT_GO =? OPT_INFO)) with true. change (OPT_GO =? OPT_GO) with true. cbv iota. unfold nbind at 1.
    assert (G := go_w s2 name eq_refl Hn Hm). destruct (handle_info E OPT_GO s2) as [[i|] s3|s3|s3|]; cbn in G |- *; auto.
    destruct G as (I3 & t & d & Hr & T3). eapply Die; eauto.
Qed.

(** the whole negotiation *)
Definition spoken (r : nout (option nat)) (clear secret : list Z) : Prop :=
  exists tr, trace_of r = Some tr /\ sent_on false tr = clear /\ sent_on true tr = secret.
(** state when the request of the client has its turn *)
Lemma greet_w l glob cf request secure : 0 <= cf < 2 ^ 32 ->
  exists s fuel, negotiate E (fresh l glob (be 4 cf ++ request) secure) = nego_loop E (S fuel) s /\ fuel = (length request + length secure)%nat /\
    n_in s = request /\ n_next s = secure /\ n_tls s = false /\ n_struct s = false /\ n_tick s = 3%nat /\ n_exports s = l /\
    n_glob s = (if flag cf 2 then Z.lor glob F_NO_ZEROES else glob) /\
    sent_on false (n_tr s) = greeting 3 /\ sent_on true (n_tr s) = [].
Proof.
  intros Hc. unfold negotiate. rewrite (bind_ret _ _ _ _ _ (send_w _ _)). set (s1 := push _ _).
  rewrite (bind_ret _ _ _ _ _ (send_w _ s1)). set (s2 := push _ s1). rewrite (bind_ret _ _ _ _ _ (send_w _ s2)). set (s3 := push _ s2).
  rewrite (bind_ret _ _ _ _ _ (nread_be_app 4 4 cf request s3 eq_refl eq_refl Hc)). set (s4 := set_in _ s3).
  destruct (flag cf 2).
  - unfold nbind at 1 2, nget at 1, put_glob. eexists _, _. split; [reflexivity|]. repeat split.
  - unfold nbind at 1, nret at 1. eexists _, _. split; [reflexivity|]. repeat split.
Qed.

Lemma plain_w l glob cf name secure : 0 <= cf < 2 ^ 32 -> zlen name <= 4096 -> e_ok E 3 = true ->
  let r := negotiate E (fresh l glob (be 4 cf ++ go_request name) secure) in
  match r with
  | NRet (Some i) s' => n_in s' = [] /\ n_tls s' = false /\ spoken r (greeting 3 ++ info_reply i s' ++ reply OPT_GO REP_ACK []) []
  | NDie s' => spoken r (greeting 3) [] \/ exists t d, refusal t d /\ spoken r (greeting 3 ++ reply OPT_GO t d) []
  | NUb s' => spoken r (greeting 3) []
  | _ => False
  end.
Proof.
  intros Hc Hn Hm. cbv zeta. destruct (greet_w l glob cf (go_request name) secure Hc) as (s & fuel & -> & Hf & Hi & _ & Ht & _ & Hk & _ & _ & G1 & G2).
  destruct fuel as [|fuel]; [exfalso; unfold go_request in Hf; rewrite app_length in Hf; cbn in Hf; lia|].
  assert (R := request_w fuel s name Hi Hn ltac:(rewrite Hk; exact Hm)). 
  assert (Sp : forall s' b, told s s' b -> sent_on false (n_tr s') = greeting 3 ++ b /\ sent_on true (n_tr s') = []).
  { intros s' b (_ & _ & _ & evs & T1 & T2 & T3). rewrite Ht in *. cbn [negb] in T3. now rewrite T1, !on_app, G1, G2, T2, T3. }
  destruct (nego_loop E (S (S fuel)) s) as [[i|] s'|s'|s'|]; cbn [request_end] in R; auto.
  - destruct R as (I & T). split; [exact I|]. split; [destruct T as (T & _); congruence|]. exists (n_tr s'). split; [reflexivity|]. now apply Sp.
  - exists (n_tr s'). split; [reflexivity|]. apply Sp in R. now rewrite app_nil_r in R.
  - destruct R as [T|(t & d & Hr & T)]; [left|right; exists t, d; split; [exact Hr|]]; exists (n_tr s'); (split; [reflexivity|]); apply Sp in T; try rewrite app_nil_r in T; exact T.
Qed.

(** STARTTLS and GO inside TLS *)
Definition tls_res (r : nout (option nat)) : Prop :=
  if e_key E && e_ok E 4 then
    match r with
    | NRet (Some i) s' => n_in s' = [] /\ n_tls s' = true /\ spoken r (greeting 3 ++ reply 5 1 []) (info_reply i s' ++ reply OPT_GO REP_ACK [])
    | NDie s' => spoken r (greeting 3 ++ reply 5 1 []) [] \/ exists t d, refusal t d /\ spoken r (greeting 3 ++ reply 5 1 []) (reply OPT_GO t d)
    | NUb s' => spoken r (greeting 3 ++ reply 5 1 []) []
    | _ => False
    end
  else (exists s', r = NDie s' \/ r = NRet None s') /\
       if e_key E then spoken r (greeting 3 ++ reply 5 1 []) [] else exists d, Forall is_byte d /\ spoken r (greeting 3 ++ reply 5 REP_ERR_POLICY d) [].
Lemma tls_w l glob cf name : 0 <= cf < 2 ^ 32 -> zlen name <= 4096 -> e_ok E 5 = true ->
  tls_res (negotiate E (fresh l glob (be 4 cf ++ starttls_request) (go_request name))).
Proof.
  intros Hc Hn Hm. destruct (greet_w l glob cf starttls_request (go_request name) Hc) as (s & fuel & -> & Hf & Hi & Hx & Ht & _ & Hk & _ & _ & G1 & G2).
  assert (exists f2, fuel = S (S f2)) as (f2 & ->).
  { unfold go_request in Hf. rewrite app_length in Hf. cbn [length starttls_request IHAVEOPT app Nat.add] in Hf. destruct fuel as [|[|f2]]; try lia. exists f2. reflexivity. }
  remember (S (S f2)) as f1 eqn:Ef. cbn [nego_loop].
  change starttls_request with (be 8 OPTS_MAGIC ++ be 4 OPT_STARTTLS ++ [0; 0; 0; 0]) in Hi.
  rewrite (bind_ret _ _ _ _ _ (nread_be_app 8 8 OPTS_MAGIC _ s Hi eq_refl ltac:(vm_compute; split; [discriminate|reflexivity]))). set (s1 := set_in _ s).
  rewrite Z.eqb_refl. cbn [negb].
  rewrite (bind_ret _ _ _ _ _ (nread_be_app 4 4 OPT_STARTTLS [0; 0; 0; 0] s1 eq_refl eq_refl ltac:(vm_compute; split; [discriminate|reflexivity]))). set (s2 := set_in _ s1).
  unfold do_option, nbind at 1 2 3, nget. change (OPT_STARTTLS =? OPT_STARTTLS) with true. cbn [negb]. rewrite andb_false_r.
  change (OPT_STARTTLS =? OPT_EXPORT_NAME) with false. change (OPT_STARTTLS =? OPT_ABORT) with false. change (OPT_STARTTLS =? OPT_LIST) with false. cbv iota.
  change (n_tls s2) with (n_tls s). rewrite Ht.
  assert (Sp : forall s' b, told s2 s' b -> sent_on false (n_tr s') = greeting 3 ++ b /\ sent_on true (n_tr s') = []).
  { intros s' b (_ & _ & _ & evs & T1 & T2 & T3). change (n_tls s2) with (n_tls s) in *. rewrite Ht in *. cbn [negb] in T3. change (n_tr s2) with (n_tr s) in T1. now rewrite T1, !on_app, G1, G2, T2, T3. }
  destruct (e_key E) eqn:Ek; cbn [negb].
  2:{ assert (K : nconsume_len s2 = NRet tt (set_in [] s2)).
      { unfold nconsume_len. rewrite (bind_ret _ _ _ _ _ (nread_be_app 4 4 0 [] s2 eq_refl eq_refl ltac:(lia))).
        exact (consume_app [] [] (set_in [] s2) 0 eq_refl eq_refl). }
      rewrite (bind_ret _ _ _ _ _ K), (bind_ret _ _ _ _ _ (data_w _ _ _ _)). unfold nret at 1.
      set (d := text "TLS not allowed on this server"). set (s3 := push d _).
      assert (D : nego_loop E f1 s3 = NDie s3) by (subst f1; reflexivity). rewrite D. unfold tls_res. rewrite Ek. cbn [andb].
      split; [exists s3; auto|]. exists d. split.
      { apply forallb_Forall with (f := fun x => (0 <=? x) && (x <? 256)); [|vm_compute; reflexivity].
        intros x Hx2. apply andb_prop in Hx2. unfold is_byte. lia. }
      exists (n_tr s3). split; [reflexivity|]. apply Sp. exact (told_trans _ _ _ [] _ (told_in s2 []) (told_data OPT_STARTTLS _ _ (set_in [] s2))). }
  unfold handle_starttls. set (fin := fun ok : bool => if ok then put_struct false ;;~ nret Again else nret Closed).
  assert (K : nread 4 s2 = NRet [0; 0; 0; 0] (set_in [] s2)) by exact (nread_app 4 [0; 0; 0; 0] [] s2 eq_refl eq_refl).
  unfold nbind at 1. rewrite (bind_ret _ _ _ _ _ K). change (negb (unle [0; 0; 0; 0] =? 0)) with false. cbv iota.
  unfold send_head. rewrite (bind_ret _ _ _ _ _ (send_w _ _)). set (s3 := push _ _).
  unfold npull at 1. unfold nbind at 1. assert (K3 : n_tick s3 = 4%nat) by (cbn; rewrite Hk; reflexivity). rewrite K3.
  assert (T3 : told s2 s3 (reply 5 1 [])) by exact (told_trans _ _ _ [] _ (told_in s2 []) (told_push (set_in [] s2) (optreply OPT_STARTTLS REP_ACK 0))).
  destruct (Sp s3 _ T3) as (P1 & P2).
  destruct (e_ok E 4) eqn:Ek4.
  2:{ unfold nret at 1. cbv beta iota. unfold fin, nret. cbv beta iota. set (s4 := mkN _ _ _ _ _ _ _ _ _ _). unfold tls_res. rewrite Ek, Ek4. cbn [andb]. split; [exists s4; auto|]. exists (n_tr s4). split; [reflexivity|]. split; [exact P1|exact P2]. }
  unfold enter_tls, put_struct, nret, nbind, fin. cbv beta iota. cbn [n_in n_next n_tls n_struct n_size n_exports n_glob n_comm n_tick n_tr].
  set (s5 := mkN _ _ _ _ _ _ _ _ _ _). unfold put_struct, nret, nbind. cbv beta iota. set (s4 := mkN _ _ _ _ _ _ _ _ _ _).
  assert (I4 : n_in s4 = go_request name) by exact Hx. assert (Tk : n_tick s4 = 5%nat) by reflexivity.
  assert (Tr : n_tr s4 = n_tr s3 ++ [NTls]) by reflexivity. assert (Tl : n_tls s4 = true) by reflexivity. clearbody s4. subst f1.
  assert (R := request_w f2 s4 name I4 Hn ltac:(rewrite Tk; exact Hm)).
  assert (Sp4 : forall s' b, told s4 s' b -> sent_on false (n_tr s') = greeting 3 ++ reply 5 1 [] /\ sent_on true (n_tr s') = b).
  { intros s' b (_ & _ & _ & evs & T1 & T2 & T4). rewrite Tl in *. cbn [negb] in T4. rewrite T1, Tr, !on_app, P1, P2, T2, T4. change (sent_on false [NTls]) with (@nil Z). change (sent_on true [NTls]) with (@nil Z). rewrite !app_nil_r. auto. }
  unfold tls_res. rewrite Ek, Ek4. cbn [andb].
  destruct (nego_loop E (S (S f2)) s4) as [[i|] s'|s'|s'|]; cbn [request_end] in R; auto.
  - destruct R as (I & T). split; [exact I|]. split; [destruct T as (T & _); congruence|]. exists (n_tr s'). split; [reflexivity|]. now apply Sp4.
  - exists (n_tr s'). split; [reflexivity|]. now apply Sp4.
  - destruct R as [T|(t & d & Hr & T)]; [left|right; exists t, d; split; [exact Hr|]]; exists (n_tr s'); (split; [reflexivity|]); apply Sp4 in T; exact T.
Qed.

(** EXPORT_NAME *)
Definition name_reply (i : nat) (s : nst) : list Z :=
  be 8 (n_size s) ++ be 2 (export_flags (x_flags (nth_export i s)) (n_struct s)).
Lemma name_w fuel s name i s' : n_in s = export_name_request name -> zlen name <= 4096 -> flag (n_glob s) F_NO_ZEROES = true ->
  nego_loop E (S fuel) s = NRet (Some i) s' -> n_in s' = [] /\ told s s' (name_reply i s').
Proof.
  intros H Hn Hz. pose proof (zlen_nonneg name) as Pn. unfold export_name_request in H. cbn [nego_loop].
  change IHAVEOPT with (be 8 OPTS_MAGIC) in H.
  rewrite (bind_ret _ _ _ _ _ (nread_be_app 8 8 OPTS_MAGIC _ s H eq_refl ltac:(vm_compute; split; [discriminate|reflexivity]))). set (s1 := set_in _ s).
  rewrite Z.eqb_refl. cbn [negb].
  change [0; 0; 0; 1] with (be 4 OPT_EXPORT_NAME) in s1.
  rewrite (bind_ret _ _ _ _ _ (nread_be_app 4 4 OPT_EXPORT_NAME (be 4 (zlen name) ++ name) s1 eq_refl eq_refl ltac:(vm_compute; split; [discriminate|reflexivity]))). set (s2 := set_in _ s1).
  unfold do_option, nbind at 1 2 3, nget. change (OPT_EXPORT_NAME =? OPT_STARTTLS) with false. cbn [negb]. rewrite andb_true_r.
  change (OPT_EXPORT_NAME =? OPT_EXPORT_NAME) with true. cbv iota.
  destruct (negb (n_tls s2) && flag (n_glob s2) F_FORCEDTLS); [discriminate|].
  unfold handle_export_name. unfold nbind at 1.
  rewrite (bind_ret _ _ _ _ _ (nread_be_app 4 4 (zlen name) name s2 eq_refl eq_refl ltac:(lia))). set (s3 := set_in _ s2).
  destruct (Z.ltb_spec 4096 (zlen name)); [lia|].
  rewrite (bind_ret _ _ _ _ _ (nread_app (zlen name) name [] s3 (eq_sym (app_nil_r name)) eq_refl)). set (s4 := set_in _ s3).
  unfold nbind at 1, nget at 1. unfold nbind at 1, nget at 1.
  destruct (find_first _ _ _ _) as [j|]; [|discriminate].
  unfold nbind at 1. pose proof (commit_still j s4) as Mu. destruct (commit_client E j s4) as [ok s5|s5|s5|]; try discriminate.
  destruct Mu as (I5 & T5). destruct ok; [|discriminate].
  unfold send_export_info. unfold nbind at 1 2, nget at 1. rewrite (bind_ret _ _ _ _ _ (send_w _ s5)). set (s6 := push _ s5).
  unfold nbind at 1, nget at 1. unfold nbind at 1, nget at 1. set (w := export_flags _ _). rewrite (bind_ret _ _ _ _ _ (send_w _ s6)). set (s7 := push _ s6).
  unfold nbind at 1, nget at 1. assert (Hg : n_glob s7 = n_glob s) by (destruct T5 as (_ & _ & Tg & _); exact Tg). rewrite Hg, Hz. cbn [negb andb].
  unfold nret. intros K. injection K as <- <-. split; [exact I5|].
  change (told s s7 ([] ++ be 8 (n_size s5) ++ be 2 w)). eapply told_trans; [exact T5|]. eapply told_trans; apply told_push.
Qed.
End Server.

(** ** the client's side *)
Lemma refusal_fails fuel E name gf s t d rest : refusal t d -> k_in s = reply OPT_GO t d ++ rest ->
  exists n, go_loop (S fuel) E name gf s = KFail (with_in rest n s).
Proof.
  intros Hr Hin. assert (Ht : 0 <= t < 2 ^ 32 /\ zlen d < 4096).
  { destruct Hr as [(-> & ->)|[(-> & ->)|[(-> & ->)|(-> & ->)]]]; vm_compute; repeat split; discriminate. }
  destruct (read_reply_app E s OPT_GO t d rest Hin) as (n & Hrd); [apply Ht|apply Ht|].
  exists n. rewrite go_unfold. unfold kbind at 1. rewrite Hrd. generalize (with_in rest n s). intros s1. clear - Hr.
  destruct Hr as [(-> & ->)|[(-> & ->)|[(-> & ->)|(-> & ->)]]]; vm_compute; reflexivity.
Qed.

Lemma nothing_fails fuel E name gf s : k_in s = [] -> exists n, go_loop (S fuel) E name gf s = KFail (with_in [] n s).
Proof.
  intros H. rewrite go_unfold. unfold kbind at 1. unfold read_reply. unfold kbind at 1. unfold kreadit, kreadit_on. rewrite H.
  change (20 <=? zlen (@nil Z)) with false. cbv beta iota. cbn [fst negb]. eexists. reflexivity.
Qed.

(** up to STARTTLS *)
Lemma greet_c fuel E g gf tail tls : 0 <= gf < 65536 -> Z.land (g_needed g) gf = g_needed g ->
  exists s, knegotiate fuel E g (kstart (greeting gf ++ tail) tls) = kbind (if g_tls g then kstarttls E else kret tt) (fun _ => after_tls fuel E g gf) s /\
    k_in s = tail /\ k_tin s = tls /\ k_sec s = false /\ all_sent s = be 4 (if Z.testbit gf 1 then Z.lor (g_cflags g) 2 else g_cflags g).
Proof.
  intros Hgf Hn. rewrite negotiate_eq. unfold kgreeted.
  set (s0 := kstart _ tls). unfold kbind at 1.
  rewrite (readit_app (repeat 0 8) [0x4e; 0x42; 0x44; 0x4d; 0x41; 0x47; 0x49; 0x43] (IHAVEOPT ++ be 2 gf ++ tail) 8 s0);
    [|subst s0; cbn [kstart k_in]; unfold greeting; now rewrite <- !app_assoc|reflexivity].
  cbv beta iota. cbn [snd]. replace (negb _) with false by (vm_compute; reflexivity). cbv iota.
  set (s1 := with_in _ _ s0).
  rewrite (readit_bind E 8 _ IHAVEOPT (be 2 gf ++ tail) s1 eq_refl eq_refl). cbn [snd].
  replace (unbe IHAVEOPT =? CLISERV_MAGIC) with false by (vm_compute; reflexivity). cbv iota.
  set (s2 := with_in _ _ s1). rewrite (readit_bind E 2 _ (be 2 gf) tail s2 eq_refl) by (unfold zlen; now rewrite be_length). cbn [snd].
  rewrite unbe_be. change (2 ^ (8 * Z.of_nat 2)) with 65536. rewrite Z.mod_small by lia. rewrite Hn, Z.eqb_refl. cbn [negb].
  rewrite flag_2 by lia. set (cf := be 4 _). set (s3 := with_in _ _ s2).
  exists (mkK tail tls false [(false, cf)] (k_reads s3) 0 0). split; [reflexivity|]. repeat split.
Qed.
Lemma tls_refused fuel E g plain tls : g_tls g = true -> full_reads E -> Z.land (g_needed g) 3 = g_needed g ->
  (exists t d, plain = greeting 3 ++ reply 5 t d /\ 0 <= t < 2 ^ 32 /\ t <> 1 /\ Forall is_byte d) \/ (plain = greeting 3 ++ reply 5 1 [] /\ e_tls E = false) ->
  exists s, knegotiate fuel E g (kstart plain tls) = KFail s /\ all_sent s = hello g 3.
Proof.
  intros Hg F Hn HS.
  assert (exists tail, plain = greeting 3 ++ tail) as (tail & Hp) by (destruct HS as [(t & d & -> & _)|(-> & _)]; eexists; reflexivity).
  subst plain. destruct (greet_c fuel E g 3 tail tls) as (s & -> & Hin & Htin & Hs & Hsent); [lia|exact Hn|]. rewrite Hg.
  unfold kbind. destruct (starttls_spec E s Hs) as (Ho & He).
  assert (Hout : all_sent (end_of (kstarttls E s)) = hello g 3).
  { unfold all_sent in *. rewrite Ho, map_app, concat_app, Hsent. unfold hello. rewrite Hg. cbn [map snd concat]. now rewrite app_nil_r. }
  destruct (kstarttls E s) as [[] s1|s1|s1|s1|s1] eqn:Hk; try contradiction; [exfalso|exists s1; split; [reflexivity|exact Hout]].
  destruct HS as [(t & d & Ht & Hr & Hne & Bd)|(_ & Et)]; [|destruct He as (_ & _ & He); congruence].
  apply app_inv_head in Ht. subst tail.
  assert (B : Forall is_byte (k_in s)).
  { rewrite Hin. unfold reply. repeat (apply Forall_app; split); auto using be_bytes. apply Forall_forall. intros x Hx. vm_compute in Hx. unfold is_byte. intuition lia. }
  pose proof (starttls_accepted E s F B) as A. rewrite Hk in A. destruct (A s1 eq_refl) as (rest & Ha & _).
  rewrite Hin in Ha. unfold reply in Ha. apply app_inv_head in Ha. change [0; 0; 0; 5] with (be 4 5) in Ha. apply app_inv_head in Ha.
  apply app_eq_len in Ha; [|now rewrite be_length]. destruct Ha as (Ha & _). apply (f_equal unbe) in Ha. rewrite unbe_be, Z.mod_small in Ha by exact Hr.
  change (unbe [0; 0; 0; 1]) with 1 in Ha. contradiction.
Qed.

