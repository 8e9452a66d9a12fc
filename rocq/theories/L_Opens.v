(** What negotiation does to the exports: no prerun command, no opening of files and
    no diff file except for an export the client may use. *)
From Coq Require Import String.
From Verif Require Import Base M_Const M_Setup M_Io M_Acl M_Nego S_Nego L_Nego.
Open Scope list_scope.
Open Scope nego_scope.

Section Opens.
Variable E : nenv.
Variable l0 : list export.
Variable forced : bool.

Definition touches (v : nev) (i : nat) : Prop :=
  match v with NOpen j _ | NCow j _ | NPrerun j _ => j = i | _ => False end.
Definition allowed (tr : list nev) (i : nat) : Prop :=
  exists e0, nth_error l0 i = Some e0 /\ authorized_client (e_gai E) (x_auth e0) (e_peer E) = AYes /\
    (forced = true \/ flag (x_flags e0) F_FORCEDTLS = true -> In NTls tr).
Definition JD (tr : list nev) : Prop := forall v i, In v tr -> touches v i -> allowed tr i.
Definition J (c : core) (tr : list nev) : Prop :=
  Forall2 xrel l0 (k_exports c) /\ flag (k_glob c) F_FORCEDTLS = forced /\ (k_tls c = true -> In NTls tr) /\ JD tr.

Lemma J_JD c tr : J c tr -> JD tr.
Proof. intros (_ & _ & _ & D). exact D. Qed.
Lemma allowed_more tr v i : allowed tr i -> allowed (tr ++ [v]) i.
Proof. intros (e & A & B & C). exists e. split; [exact A|]. split; [exact B|]. intros H. apply in_app_iff. left. auto. Qed.
Lemma J_more c tr v : J c tr -> (forall i, touches v i -> allowed tr i) -> J c (tr ++ [v]).
Proof.
  intros (A & B & C & D) H. split; [exact A|]. split; [exact B|]. split; [intros K; apply in_app_iff; left; auto|].
  intros v' i Hin Ht. apply allowed_more. apply in_app_iff in Hin. destruct Hin as [Hin|[<-|[]]]; [eapply D; eauto|auto].
Qed.
Lemma J_env c tr v : J c tr -> (forall i, ~ touches v i) -> J c (tr ++ [v]).
Proof. intros H Hv. apply J_more; [exact H|]. intros i K. destruct (Hv i K). Qed.

Notation ok := (okc J JD).
Ltac jd ::= exact J_JD.

Lemma ok_nsend c b (Q : unit -> core -> Prop) : Q tt c -> ok c (nsend E b) Q.
Proof. intros H2. apply okc_send; [|exact H2]. intros tr Hj. split; [|apply (J_JD c)]; apply J_env; auto. Qed.
Lemma ok_nsend_bind {A} c b (f : unit -> N A) Q : ok c (f tt) Q -> ok c (nbind (nsend E b) f) Q.
Proof.
  intros H2. eapply okc_bind; [apply (ok_nsend c b (fun _ c' => c' = c)); auto|]. intros [] c' ->. exact H2.
Qed.
Lemma ok_emit_bind {A} c v (f : unit -> N A) Q : (forall i, ~ touches v i) -> ok c (f tt) Q -> ok c (nbind (emit v) f) Q.
Proof.
  intros H1 H2. eapply okc_bind; [apply (okc_emit J JD c v (fun _ c' => c' = c)); [|reflexivity]; intros; apply J_env; auto|].
  intros [] c' ->. exact H2.
Qed.
Lemma ok_data {A} c opt type t (f : unit -> N A) Q : ok c (f tt) Q -> ok c (nbind (send_data E opt type t) f) Q.
Proof. intros H3. unfold send_data. apply okc_assoc. apply ok_nsend_bind. apply ok_nsend_bind. exact H3. Qed.
Lemma ok_data_last c opt type t (Q : unit -> core -> Prop) : Q tt c -> ok c (send_data E opt type t) Q.
Proof. intros H3. unfold send_data. apply ok_nsend_bind. apply ok_nsend. exact H3. Qed.
Lemma ok_with {A} c (m : N A) Q : ((exists tr, J c tr) -> ok c m Q) -> ok c m Q.
Proof. intros H s Hj Hc. apply H; eauto. Qed.

Definition open (c : core) : Prop := forced = true -> k_tls c = true.
Definition shown (c : core) (i : nat) : Prop := exists e, nth_error (k_exports c) i = Some e /\ hidden (k_tls c) e = false.
Definition granted (c : core) (i : nat) : Prop :=
  exists e, nth_error (k_exports c) i = Some e /\ hidden (k_tls c) e = false /\
    authorized_client (e_gai E) (x_auth e) (e_peer E) = AYes.
Lemma granted_allowed c tr i : open c -> granted c i -> J c tr -> allowed tr i.
Proof.
  intros Ho (e & N & H & Au) (A & B & C & D). destruct (rel_nth _ _ A i e N) as (e0 & B1 & _ & (_ & X2 & _ & _ & _ & X6)).
  exists e0. split; [exact B1|]. split; [rewrite <- X2; exact Au|]. intros K. apply C. destruct K as [K|K]; [auto|].
  unfold hidden in H. rewrite (demoted_forced _ _ X6), K in H. cbn in H. destruct (k_tls c); [reflexivity|discriminate].
Qed.
Lemma ok_touch_bind {A} c v i (f : unit -> N A) Q : (forall j, touches v j -> j = i) -> open c -> granted c i ->
  ok c (f tt) Q -> ok c (nbind (emit v) f) Q.
Proof.
  intros H1 Ho Hg H2. eapply okc_bind; [apply (okc_emit J JD c v (fun _ c' => c' = c)); [|reflexivity]|].
  - intros tr Hj. apply J_more; [exact Hj|]. intros j Hj'. rewrite (H1 j Hj'). eapply granted_allowed; eauto.
  - intros [] c' ->. exact H2.
Qed.

Lemma ok_export_info c i z : ok c (send_export_info E i z) (fun _ c' => c' = c).
Proof.
  unfold send_export_info. ok1. apply ok_nsend_bind. ok1. ok1. apply ok_nsend_bind. ok1. ok1.
  - apply ok_nsend. reflexivity.
  - ok1. reflexivity.
Qed.
Definition same (c c' : core) : Prop := k_tls c' = k_tls c /\ k_glob c' = k_glob c /\ k_struct c' = k_struct c.
Lemma open_same c c' : same c c' -> open c -> open c'.
Proof. unfold open. intros (-> & _). auto. Qed.

Ltac tch := let j := fresh "j" in intros j; cbn; auto.
Lemma ok_prepare c i w : open c -> granted c i -> ok c (nprepare E i w) (fun _ c' => c' = c).
Proof.
  intros Ho Hg. unfold nprepare. ok1; [|ok1; reflexivity]. ok1. apply (ok_touch_bind _ _ i); [tch|auto|auto|]. ok1. reflexivity.
Qed.
Lemma ok_parent c name : ok c (ask_parent E name) (fun _ c' => same c c' /\ k_exports c' = k_exports c /\ k_size c' = k_size c).
Proof.
  unfold ask_parent. ok1; [ok1; unfold same; auto|]. ok1. ok1.
  assert (K : ok c (nbind close_comm (fun _ => nret o)) (fun _ c' => same c c' /\ k_exports c' = k_exports c /\ k_size c' = k_size c)).
  { eapply okc_bind; [apply (okc_comm J JD c (fun _ c' => same c c' /\ k_exports c' = k_exports c /\ k_size c' = k_size c))|].
    - intros tr (A & B & C & D). repeat (split; auto).
    - unfold same. auto.
    - intros [] c' H. ok1. exact H. }
  destruct (k_comm c); (apply ok_emit_bind; [tch|exact K]).
Qed.

Lemma ok_commit c i : open c -> shown c i -> ok c (commit_client E i) (fun _ c' => same c c' /\ shown c' i).
Proof.
  intros Ho Hs. unfold commit_client.
  set (c1 := mkCore (k_tls c) (k_struct c) OFFT_MAX (k_exports c) (k_glob c) (k_comm c)).
  eapply okc_bind; [apply (okc_size J JD c OFFT_MAX (fun _ c' => c' = c1)); [|reflexivity]|].
  { intros tr H. exact H. }
  intros [] c' ->. ok1. ok1.
  assert (Sc : same c c1 /\ shown c1 i) by (split; [unfold same; auto|exact Hs]).
  ok1; [ok1; exact Sc|].
  eapply okc_bind; [apply ok_parent|]. cbv beta. intros acl c2 (S2 & X2 & Z2).
  assert (Sc2 : same c c2 /\ shown c2 i).
  { destruct S2 as (T1 & T2 & T3). split; [unfold same; rewrite T1, T2, T3; auto|]. unfold shown. rewrite X2, T1. exact Hs. }
  ok1; [ok1; exact Sc2|]. ok1. apply ok_emit_bind; [tch|]. ok1; [ok1; exact Sc2|].
  set (e := nth i (k_exports c1) no_export).
  destruct (authorized_client (e_gai E) (x_auth e) (e_peer E)) eqn:Au; [|ok1; exact Sc2|ok1|ok1].
  assert (Ne : nth_error (k_exports c) i = Some e).
  { destruct Hs as (e' & N & _). rewrite N. f_equal. symmetry. apply nth_default_error. exact N. }
  assert (O2 : open c2) by (eapply open_same; [apply Sc2|exact Ho]).
  assert (G2 : granted c2 i).
  { exists e. split; [rewrite X2; exact Ne|]. split; [|exact Au]. destruct S2 as (-> & _). destruct Hs as (e' & N & Hh).
    rewrite Ne in N. injection N as <-. exact Hh. }
  assert (Hpre : ok c2 (if x_prerun e then nbind (npull (e_ok E)) (fun ok => nbind (emit (NPrerun i ok)) (fun _ => nret ok)) else nret true) (fun _ c' => c' = c2)).
  { ok1; [|ok1; reflexivity]. ok1. apply (ok_touch_bind _ _ i); [tch|auto|auto|]. ok1. reflexivity. }
  eapply okc_bind; [exact Hpre|]. intros pre c' ->. ok1; [ok1; exact Sc2|].
  ok1.
  set (e1 := set_xflags (setup_flags (x_flags e) (x_expected e) (x_files e)) e).
  set (c3 := mkCore (k_tls c2) (k_struct c2) (k_size c2) (set_nth i e1 (k_exports c2)) (k_glob c2) (k_comm c2)).
  assert (Xr : xrel e e1) by (unfold xrel, e1; cbn; repeat split; apply setup_flags_demoted).
  eapply okc_bind; [apply (okc_exports J JD c2 _ (fun _ c' => c' = c3)); [|reflexivity]|].
  { intros tr (A & B & C & D). split; [|split; [exact B|auto]]. cbn [k_exports].
    apply set_nth_rel; [exact A|]. intros e' N. rewrite X2 in N. change (k_exports c1) with (k_exports c) in N.
    rewrite Ne in N. injection N as <-. exact Xr. }
  intros [] c' ->.
  assert (Ne3 : nth_error (k_exports c3) i = Some e1).
  { cbn [c3 k_exports]. rewrite X2. change (k_exports c1) with (k_exports c). clearbody e1 e. revert Ne. clear. generalize (k_exports c) as l.
    revert i. induction i as [|i IH]; intros [|x l] H; try discriminate; cbn in *; auto. }
  assert (T2 : k_tls c2 = k_tls c) by apply S2.
  assert (Hid : hidden (k_tls c) e1 = false).
  { destruct Hs as (e' & N & Hh). rewrite Ne in N. injection N as <-. revert Hh. unfold hidden.
    rewrite (demoted_forced (x_flags e) (x_flags e1)) by apply Xr. auto. }
  assert (Sc3 : same c c3 /\ shown c3 i).
  { split; [destruct S2 as (U1 & U2 & U3); unfold same, c3; cbn; rewrite U1, U2, U3; auto|].
    exists e1. split; [exact Ne3|]. cbn [c3 k_tls]. rewrite T2. exact Hid. }
  assert (G3 : granted c3 i).
  { exists e1. split; [exact Ne3|]. split; [cbn [c3 k_tls]; rewrite T2; exact Hid|]. exact Au. }
  assert (O3 : open c3) by (eapply open_same; [apply Sc3|exact Ho]).
  destruct (setupexport (x_flags e) (x_expected e) (x_files e)) as [| |su] eqn:SU.
  - apply (ok_touch_bind _ _ i); [tch|auto|auto|]. ok1. exact Sc3.
  - ok1.
  - apply (ok_touch_bind _ _ i); [tch|auto|auto|].
    set (c4 := mkCore (k_tls c3) (k_struct c3) (su_size su) (k_exports c3) (k_glob c3) (k_comm c3)).
    eapply okc_bind; [apply (okc_size J JD c3 _ (fun _ c' => c' = c4)); [|reflexivity]|].
    { intros tr H. exact H. }
    intros [] c' ->.
    assert (Sc4 : same c c4 /\ shown c4 i) by exact Sc3.
    eapply okc_bind; [apply (ok_prepare c4 i); auto|]. intros c1b c' ->. ok1; [ok1; exact Sc4|].
    eapply okc_mono; [apply (ok_prepare c4 i); auto|]. intros b c' ->. exact Sc4.
Qed.

Lemma ok_list_loop c : forall tls l (f : unit -> N unit) Q, ok c (f tt) Q -> ok c (nbind (list_loop E tls l) f) Q.
Proof.
  intros tls. induction l as [|e l IH]; intros f Q Hf; cbn [list_loop]; [ok1; exact Hf|].
  destruct (hidden tls e) eqn:Hh; [apply IH; auto|].
  destruct (1020 <? zlen (x_name e)); [apply okc_ub_bind; jd|].
  apply okc_assoc. apply ok_data. apply IH; auto.
Qed.
Lemma ok_list c : ok c (handle_list E) (fun _ c' => c' = c).
Proof.
  unfold handle_list. ok1.
  assert (K : ok c (nbind (nget n_glob) (fun g => if negb (flag g F_LIST)
     then send_data E OPT_LIST REP_ERR_POLICY (text "Listing of exports denied by server configuration")
     else nbind (nget n_tls) (fun tls => nbind (nget n_exports) (fun l => nbind (list_loop E tls l) (fun _ => send_head E OPT_LIST REP_ACK 0)))))
     (fun _ c' => c' = c)).
  { ok1. ok1; [apply ok_data_last; reflexivity|]. ok1. ok1. apply ok_list_loop. unfold send_head. apply ok_nsend. reflexivity. }
  ok1; [apply ok_data; exact K|]. ok1. exact K.
Qed.
Lemma ok_starttls c :
  ok c (nbind (handle_starttls E) (fun r => if r : bool then nbind (put_struct false) (fun _ => nret Again) else nret Closed))
    (fun r c' => k_glob c' = k_glob c /\ forall i, r <> Serve i).
Proof.
  unfold handle_starttls. ok1. ok1. ok1.
  - ok1. ok1. ok1. apply ok_data. ok1. ok1. split; [reflexivity|discriminate].
  - ok1. apply ok_nsend_bind. ok1. ok1. destruct o.
    + intros s Hj Hc. cbn. split; [|split; [rewrite <- Hc; reflexivity|discriminate]].
      assert (K : J c (n_tr s ++ [NTls])) by (apply J_env; [exact Hj|intros i []]).
      destruct K as (A & B & C & D). rewrite <- Hc in *. cbn [core_of k_tls k_struct k_size k_exports k_glob] in *.
      split; [exact A|]. split; [exact B|]. split; [|exact D]. intros _. apply in_app_iff. right. left. reflexivity.
    + ok1. ok1. split; [reflexivity|discriminate].
Qed.
Lemma ok_structured c : ok c (handle_structured_reply E) (fun _ c' => k_tls c' = k_tls c /\ k_glob c' = k_glob c).
Proof.
  unfold handle_structured_reply. ok1. ok1.
  - apply ok_data. intros s Hj Hc. unfold nconsume, nbind, nread. destruct (zlen (n_in s) <? z); [exact (J_JD _ _ Hj)|].
    cbn. change (core_of (mkN (skipn (Z.to_nat z) (n_in s)) (n_next s) (n_tls s) (n_struct s) (n_size s) (n_exports s) (n_glob s) (n_comm s) (n_tick s) (n_tr s))) with (core_of s).
    subst c. split; [exact Hj|split; reflexivity].
  - ok1. destruct (k_struct c) eqn:Es; [apply ok_data_last; auto|].
    set (c1 := mkCore (k_tls c) true (k_size c) (k_exports c) (k_glob c) (k_comm c)).
    eapply okc_bind; [apply (okc_struct J JD c true (fun _ c' => c' = c1)); [|reflexivity]|].
    { intros tr H. exact H. }
    intros [] c' ->. unfold send_head. apply ok_nsend. split; reflexivity.
Qed.
Lemma ok_send_info {A} c opt i (f : unit -> N A) Q : ok c (f tt) Q -> ok c (nbind (send_info E opt i) f) Q.
Proof.
  intros Hf. unfold send_info, send_head. ok1. apply ok_nsend_bind. ok1. apply ok_nsend_bind.
  eapply okc_bind; [apply ok_export_info|]. intros [] c' ->. exact Hf.
Qed.
Lemma ok_info_loop {A} c opt i (f : bool -> N A) Q : (forall b, ok c (f b) Q) ->
  forall n sent, ok c (nbind (info_loop E opt i n sent) f) Q.
Proof.
  intros Hf. induction n as [|n IH]; intros sent; cbn [info_loop]; [ok1; apply Hf|]. ok1. ok1. ok1; [|apply IH].
  ok1. apply ok_send_info; auto.
Qed.
Lemma ok_export_name c : open c -> ok c (handle_export_name E) (fun _ c' => same c c').
Proof.
  intros Ho. unfold handle_export_name. ok1. ok1; [ok1; unfold same; auto|]. ok1. ok1. ok1.
  destruct (find_first (k_tls c) b 0 (k_exports c)) as [i|] eqn:F; [|ok1].
  apply find_first_spec in F. destruct F as (e & _ & F1 & F2 & _). rewrite Nat.sub_0_r in F1.
  assert (Hs : shown c i) by (exists e; auto).
  eapply okc_bind; [apply ok_commit; auto|]. cbv beta. intros r c1 (S1 & Hs1). destruct r; [|ok1; exact S1].
  assert (open c1) by (unfold open; destruct S1 as (-> & _); exact Ho).
  eapply okc_bind; [apply ok_export_info|]. intros [] c' ->. ok1. exact S1.
Qed.
Lemma ok_info c opt : open c -> ok c (handle_info E opt) (fun _ c' => same c c').
Proof.
  intros Ho. unfold handle_info. ok1. ok1.
  match goal with |- ok _ (nbind _ ?f) _ => set (rest := f) end.
  assert (K : ok c (rest tt) (fun _ c' => same c c')).
  { subst rest. cbv beta.
    match goal with |- ok _ (nbind _ ?f) _ => set (rest := f) end.
    assert (K : ok c (rest tt) (fun _ c' => same c c')).
    { subst rest. cbv beta.
      match goal with |- ok _ (nbind _ ?f) _ => set (rest := f) end.
      assert (K : forall m, ok c (rest m) (fun _ c' => same c c')).
      { intros m. subst rest. cbv beta. ok1; [apply ok_data; ok1; unfold same; auto|].
        ok1; [ok1|]. ok1. ok1. ok1. ok1. ok1.
        destruct (fst (find_last (k_tls c) b 0 (k_exports c) (None, false))) as [i|] eqn:F.
        - apply find_last_spec in F. destruct F as [F|(e & _ & F1 & F2 & _)]; [discriminate|]. rewrite Nat.sub_0_r in F1.
          assert (Hs : shown c i) by (exists e; auto).
          assert (Hc : ok c (if opt =? OPT_GO then commit_client E i else nret true) (fun _ c' => same c c' /\ shown c' i)).
          { ok1; [apply ok_commit; auto|]. ok1. split; [unfold same; auto|exact Hs]. }
          eapply okc_bind; [exact Hc|]. cbv beta. intros r c1 (S1 & Hs1). ok1.
          + ok1. apply ok_data. ok1. exact S1.
          + assert (O1 : open c1) by (unfold open; destruct S1 as (-> & _); exact Ho).
            apply ok_info_loop. intros sent. 
            assert (L : ok c1 (nbind (send_head E opt REP_ACK 0) (fun _ => nret (Some i))) (fun _ c' => same c c')).
            { unfold send_head. apply ok_nsend_bind. ok1. exact S1. }
            destruct sent; [ok1; exact L|]. apply ok_send_info; auto.
        - ok1. destruct (snd (find_last (k_tls c) b 0 (k_exports c) (None, false)));
            (apply ok_data; ok1; unfold same; auto). }
      ok1; [ok1; apply K|]. ok1. apply K. }
    ok1; [|ok1; exact K]. ok1. apply ok_data. ok1. exact K. }
  ok1; [|ok1; exact K]. ok1. apply ok_data. ok1. exact K.
Qed.
Lemma ok_option c opt : ok c (do_option E opt)
  (fun r c' => k_glob c' = k_glob c /\ forall i, r = Serve i -> open c').
Proof.
  apply ok_with. intros (tr & Hj). assert (Hg : flag (k_glob c) F_FORCEDTLS = forced) by apply Hj.
  unfold do_option. ok1. ok1. rewrite Hg. ok1.
  - ok1; [ok1; split; [reflexivity|discriminate]|]. ok1; [ok1; split; [reflexivity|discriminate]|]. ok1.
    apply ok_data. ok1. split; [reflexivity|discriminate].
  - assert (Ho : opt <> OPT_STARTTLS -> open c).
    { intros Ne Hf. rewrite Hf in *. destruct (k_tls c); [reflexivity|]. cbn in Heqb.
      replace (opt =? OPT_STARTTLS) with false in Heqb by lia. discriminate. }
    ok1.
    { assert (open c) by (apply Ho; unfold OPT_EXPORT_NAME, OPT_STARTTLS in *; lia).
      eapply okc_bind; [apply ok_export_name; auto|]. cbv beta. intros [i|] c1 S1; ok1;
        (split; [apply S1|]); intros j Hj'; [|discriminate]. unfold open. destruct S1 as (-> & _). auto. }
    ok1.
    { eapply okc_bind; [apply ok_list|]. intros [] c1 ->. ok1.
      split; [reflexivity|discriminate]. }
    ok1; [ok1; split; [reflexivity|discriminate]|].
    ok1.
    { destruct (k_tls c) eqn:Ht.
      - ok1. apply ok_data. ok1. split; [reflexivity|discriminate].
      - ok1; [ok1; apply ok_data; ok1; split; [reflexivity|discriminate]|].
        eapply okc_mono; [apply ok_starttls|]. cbv beta. intros r c' (G & N). split; [exact G|].
        intros i ->. exfalso. eapply N. reflexivity. }
    assert (Ho' : open c) by (apply Ho; lia).
    ok1.
    { eapply okc_bind; [apply ok_info; auto|]. cbv beta. intros [i|] c1 S1; [|ok1; split; [apply S1|discriminate]].
      ok1; ok1; (split; [apply S1|]); intros j Hj'; [|discriminate]. unfold open. destruct S1 as (-> & _). auto. }
    ok1.
    { eapply okc_bind; [apply ok_structured|]. cbv beta. intros [] c1 (S1 & S2). ok1. split; [exact S2|discriminate]. }
    ok1. apply ok_data. ok1. split; [reflexivity|discriminate].
Qed.
Lemma ok_loop fuel : forall c, ok c (nego_loop E fuel) (fun r c' => forall i, r = Some i -> open c').
Proof.
  induction fuel as [|fuel IH]; intros c; cbn [nego_loop]; [intros s Hj Hc; exact I|].
  ok1. ok1; [ok1; discriminate|]. ok1. eapply okc_bind; [apply ok_option|]. cbv beta. intros r c1 (G & K).
  destruct r as [| |i]; [apply IH|ok1; discriminate|ok1]. intros j H. injection H as <-. apply (K i). reflexivity.
Qed.
Lemma ok_negotiate c : ok c (negotiate E) (fun r c' => forall i, r = Some i -> open c').
Proof.
  unfold negotiate.
  apply ok_nsend_bind.
  apply ok_nsend_bind.
  apply ok_nsend_bind. ok1.
  match goal with |- ok _ (nbind _ ?f) _ => set (rest := f) end.
  assert (K : forall c, ok c (rest tt) (fun r c' => forall i, r = Some i -> open c')).
  { intros c'. subst rest. cbv beta. intros s Hj Hc. unfold nbind, nget. exact (ok_loop _ c' s Hj Hc). }
  ok1; [|ok1; apply K]. ok1. ok1.
  eapply okc_bind; [apply (okc_glob J JD c _ (fun _ _ => True)); [|exact I]|].
  - intros tr (A & B & C & D). split; [exact A|]. split; [|auto]. cbn [k_glob]. rewrite <- B.
    unfold flag. rewrite Z.land_lor_distr_l. change (Z.land F_NO_ZEROES F_FORCEDTLS) with 0. rewrite Z.lor_0_r. reflexivity.
  - intros [] c' _. apply K.
Qed.
End Opens.

Lemma J_fresh E l glob plain secure : J E l (flag glob F_FORCEDTLS) (core_of (fresh l glob plain secure)) [].
Proof.
  split; [cbn; induction l; constructor; auto; apply xrel_refl|]. split; [reflexivity|]. split; [discriminate|]. intros v i [].
Qed.
Lemma negotiate_touches E l glob plain secure tr v i :
  trace_of (negotiate E (fresh l glob plain secure)) = Some tr -> In v tr -> touches v i ->
  exists e, nth_error l i = Some e /\ authorized_client (e_gai E) (x_auth e) (e_peer E) = AYes /\
    (flag glob F_FORCEDTLS = true \/ flag (x_flags e) F_FORCEDTLS = true -> In NTls tr).
Proof.
  intros Ht Hin Hc.
  pose proof (ok_negotiate E l (flag glob F_FORCEDTLS) _ (fresh l glob plain secure) (J_fresh E l glob plain secure) eq_refl) as H.
  destruct (negotiate E (fresh l glob plain secure)) as [r s|s|s|]; cbn in Ht; try discriminate; injection Ht as <-.
  - destruct H as ((_ & _ & _ & D) & _). exact (D v i Hin Hc).
  - exact (H v i Hin Hc).
  - exact (H v i Hin Hc).
Qed.
