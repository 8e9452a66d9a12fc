(** What is sent in clear, and what survives STARTTLS. *)
From Coq Require Import String.
From Verif Require Import Base M_Const M_Setup M_Io M_Acl M_Nego S_Nego L_Nego.
Open Scope list_scope.
Open Scope nego_scope.

Section Tls.
Variable E : nenv.
Variable l0 : list export.
Variable forced : bool.

Definition msg_ok (b : list Z) : Prop := if forced then neutral b else about_visible l0 b.
Definition size_ok (v : Z) : Prop :=
  v = 0 \/ v = OFFT_MAX \/
  exists e f su, visible l0 e /\ setupexport f (x_expected e) (x_files e) = SetupOk su /\ v = su_size su.

(** an event that is no message *)
Definition env_ev (v : nev) : Prop :=
  match v with NSend _ _ | NCut _ _ | NTls => False | _ => True end.
Definition clear_ev (v : nev) : Prop :=
  match v with NSend t _ | NCut t _ => t = false | NTls => False | _ => True end.
Definition secure_ev (v : nev) : Prop :=
  match v with NSend t _ | NCut t _ => t = true | NTls => False | _ => True end.
Definition shape (tls : bool) (tr : list nev) : Prop :=
  if tls then exists t1 t2, tr = t1 ++ NTls :: t2 /\ Forall clear_ev t1 /\ Forall secure_ev t2
  else Forall clear_ev tr.
Definition ack8 : list Z := optreply OPT_STRUCTURED REP_ACK 0.

Definition J (c : core) (tr : list nev) : Prop :=
  Forall2 xrel l0 (k_exports c) /\
  (k_tls c = false -> size_ok (k_size c)) /\
  flag (k_glob c) F_FORCEDTLS = forced /\
  (forall v b, In v tr -> in_clear v b -> msg_ok b) /\
  shape (k_tls c) tr /\
  (k_struct c = true -> In (NSend (k_tls c) ack8) tr).

Lemma shape_env tls tr v : shape tls tr -> env_ev v -> shape tls (tr ++ [v]).
Proof.
  destruct tls; cbn [shape].
  - intros (t1 & t2 & -> & H1 & H2) Hv. exists t1, (t2 ++ [v]). split; [rewrite <- app_assoc; reflexivity|].
    split; [exact H1|]. apply Forall_app. split; [exact H2|]. constructor; [|constructor]. destruct v; cbn in *; tauto.
  - intros H Hv. apply Forall_app. split; [exact H|]. constructor; [|constructor]. destruct v; cbn in *; tauto.
Qed.
Lemma shape_send tls tr v b : shape tls tr -> v = NSend tls b \/ v = NCut tls b -> shape tls (tr ++ [v]).
Proof.
  destruct tls; cbn [shape].
  - intros (t1 & t2 & -> & H1 & H2) Hv. exists t1, (t2 ++ [v]). split; [rewrite <- app_assoc; reflexivity|].
    split; [exact H1|]. apply Forall_app. split; [exact H2|]. constructor; [|constructor]. destruct Hv as [-> | ->]; reflexivity.
  - intros H Hv. apply Forall_app. split; [exact H|]. constructor; [|constructor]. destruct Hv as [-> | ->]; reflexivity.
Qed.
Lemma J_env c tr v : J c tr -> env_ev v -> J c (tr ++ [v]).
Proof.
  intros (A & B & C & D & F & G) Hv. split; [exact A|]. split; [exact B|]. split; [exact C|]. split; [|split].
  - intros v' b Hin Hc. apply in_app_iff in Hin. destruct Hin as [Hin|[<-|[]]]; [eapply D; eauto|].
    destruct Hc as [-> | ->]; cbn in Hv; tauto.
  - apply shape_env; auto.
  - intros K. apply in_app_iff. left. auto.
Qed.
Definition JD (tr : list nev) : Prop := forall v b, In v tr -> in_clear v b -> msg_ok b.
Lemma J_JD c tr : J c tr -> JD tr.
Proof. intros (_ & _ & _ & D & _). exact D. Qed.
Lemma J_send1 c tr b v : J c tr -> (k_tls c = false -> msg_ok b) -> v = NSend (k_tls c) b \/ v = NCut (k_tls c) b -> J c (tr ++ [v]).
Proof.
  intros (A & B & C & D & F & G) Hb Hv. split; [exact A|]. split; [exact B|]. split; [exact C|]. split; [|split].
  - intros v' b' Hin Hc. apply in_app_iff in Hin. destruct Hin as [Hin|[<-|[]]]; [eapply D; eauto|].
    destruct Hc as [-> | ->]; destruct Hv as [Hv|Hv]; try discriminate; injection Hv as Ht <-; auto.
  - eapply shape_send; eauto.
  - intros K. apply in_app_iff. left. auto.
Qed.
Lemma J_send c b : (k_tls c = false -> msg_ok b) -> forall tr, J c tr ->
  J c (tr ++ [NSend (k_tls c) b]) /\ JD (tr ++ [NCut (k_tls c) b]).
Proof. intros H tr Hj. split; [|apply (J_JD c)]; eapply J_send1; eauto. Qed.

Lemma neutral_ok b : neutral b -> msg_ok b.
Proof. unfold msg_ok. intros H. destruct forced; [exact H|apply av_neutral; exact H]. Qed.

Notation ok := (okc J JD).
Ltac jd ::= exact J_JD.

Lemma ok_nsend c b (Q : unit -> core -> Prop) : (k_tls c = false -> msg_ok b) -> Q tt c -> ok c (nsend E b) Q.
Proof. intros H1 H2. apply okc_send; [|exact H2]. intros tr Hj. apply J_send; auto. Qed.
Lemma ok_nsend_bind {A} c b (f : unit -> N A) Q : (k_tls c = false -> msg_ok b) -> ok c (f tt) Q -> ok c (nbind (nsend E b) f) Q.
Proof.
  intros H1 H2. eapply okc_bind; [apply (ok_nsend c b (fun _ c' => c' = c)); auto|]. intros [] c' ->. exact H2.
Qed.
Lemma ok_emit_bind {A} c v (f : unit -> N A) Q : env_ev v -> ok c (f tt) Q -> ok c (nbind (emit v) f) Q.
Proof.
  intros H1 H2. eapply okc_bind; [apply (okc_emit J JD c v (fun _ c' => c' = c)); [|reflexivity]; intros; apply J_env; auto|].
  intros [] c' ->. exact H2.
Qed.
(** error reply with a constant text: harmless in any state *)
Lemma ok_data {A} c opt type t (f : unit -> N A) Q : 2147483648 <= type -> In t reply_texts ->
  ok c (f tt) Q -> ok c (nbind (send_data E opt type (text t)) f) Q.
Proof.
  intros H1 H2 H3. unfold send_data. apply okc_assoc.
  apply ok_nsend_bind; [intros _; apply neutral_ok; constructor; exact H1|].
  apply ok_nsend_bind; [intros _; apply neutral_ok; constructor; exact H2|]. exact H3.
Qed.
Lemma ok_data_last c opt type t (Q : unit -> core -> Prop) : 2147483648 <= type -> In t reply_texts ->
  Q tt c -> ok c (send_data E opt type (text t)) Q.
Proof.
  intros H1 H2 H3. unfold send_data.
  apply ok_nsend_bind; [intros _; apply neutral_ok; constructor; exact H1|].
  apply ok_nsend; [intros _; apply neutral_ok; constructor; exact H2|]. exact H3.
Qed.

Definition open (c : core) : Prop := forced = true -> k_tls c = true.
Lemma open_ok c b : open c -> about_visible l0 b -> k_tls c = false -> msg_ok b.
Proof. unfold msg_ok, open. intros H1 H2 H3. destruct forced; [rewrite H1 in H3 by reflexivity; discriminate|exact H2]. Qed.

Definition shown (c : core) (i : nat) : Prop := exists e, nth_error (k_exports c) i = Some e /\ hidden (k_tls c) e = false.

Lemma shown_visible c i tr : J c tr -> shown c i -> k_tls c = false ->
  exists e0 e, visible l0 e0 /\ xrel e0 e /\ nth_error (k_exports c) i = Some e.
Proof.
  intros (A & _) (e & H1 & H2) Ht. destruct (rel_nth _ _ A i e H1) as (e0 & B1 & B2 & B3).
  exists e0, e. split; [split; [exact B2|]|auto]. unfold hidden in H2. rewrite Ht in H2.
  destruct B3 as (_ & _ & _ & _ & _ & D). rewrite <- (demoted_forced _ _ D).
  destruct (flag (x_flags e) F_FORCEDTLS); [discriminate|reflexivity].
Qed.

(** obligations may use that J holds of the current core with some trace *)
Lemma ok_with {A} c (m : N A) Q : ((exists tr, J c tr) -> ok c m Q) -> ok c m Q.
Proof. intros H s Hj Hc. apply H; eauto. Qed.

Lemma ok_export_info c i z : open c -> shown c i -> ok c (send_export_info E i z) (fun _ c' => c' = c).
Proof.
  intros Ho Hs. apply ok_with. intros (tr & Hj). unfold send_export_info. ok1.
  apply ok_nsend_bind.
  { intros Ht. apply (open_ok c); auto. destruct Hj as (_ & B & _). specialize (B Ht).
    destruct B as [B|[B|(e & f & su & V & S & ->)]]; [apply av_nosize; auto|apply av_nosize; auto|eapply av_size; eauto]. }
  ok1. ok1. apply ok_nsend_bind.
  { intros Ht. apply (open_ok c); auto. destruct (shown_visible _ _ _ Hj Hs Ht) as (e0 & e & V & X & N).
    rewrite (nth_default_error _ _ _ _ N). eapply av_bits; [exact V|]. apply X. }
  ok1. ok1.
  - apply ok_nsend; [|reflexivity]. intros Ht. apply (open_ok c); auto. apply av_zeroes.
  - ok1. reflexivity.
Qed.

Definition same (c c' : core) : Prop := k_tls c' = k_tls c /\ k_glob c' = k_glob c /\ k_struct c' = k_struct c.

Lemma ok_prepare c i w : ok c (nprepare E i w) (fun _ c' => c' = c).
Proof.
  unfold nprepare. ok1; [|ok1; reflexivity]. ok1. apply ok_emit_bind; [exact I|]. ok1. reflexivity.
Qed.
Lemma ok_parent c name : ok c (ask_parent E name) (fun _ c' => same c c' /\ k_exports c' = k_exports c /\ k_size c' = k_size c).
Proof.
  unfold ask_parent. ok1; [ok1; unfold same; auto|]. ok1. ok1.
  assert (K : ok c (nbind close_comm (fun _ => nret o)) (fun _ c' => same c c' /\ k_exports c' = k_exports c /\ k_size c' = k_size c)).
  { eapply okc_bind; [apply (okc_comm J JD c (fun _ c' => same c c' /\ k_exports c' = k_exports c /\ k_size c' = k_size c))|].
    - intros tr (A & B & C & D & F & G). repeat (split; auto).
    - unfold same. auto.
    - intros [] c' H. ok1. exact H. }
  destruct (k_comm c); (apply ok_emit_bind; [exact I|exact K]).
Qed.

Lemma ok_commit c i : open c -> shown c i -> ok c (commit_client E i) (fun _ c' => same c c' /\ shown c' i).
Proof.
  intros Ho Hs. apply ok_with. intros (tr0 & Hj0). unfold commit_client.
  set (c1 := mkCore (k_tls c) (k_struct c) OFFT_MAX (k_exports c) (k_glob c) (k_comm c)).
  eapply okc_bind; [apply (okc_size J JD c OFFT_MAX (fun _ c' => c' = c1)); [|reflexivity]|].
  { intros tr (A & B & C & D & F & G). split; [exact A|]. split; [intros _; right; left; reflexivity|]. auto. }
  intros [] c' ->. ok1. ok1.
  assert (Sc : same c c1 /\ shown c1 i) by (split; [unfold same; auto|exact Hs]).
  ok1; [ok1; exact Sc|].
  eapply okc_bind; [apply ok_parent|]. cbv beta. intros acl c2 (S2 & X2 & Z2).
  assert (Sc2 : same c c2 /\ shown c2 i).
  { destruct S2 as (T1 & T2 & T3). split; [unfold same; rewrite T1, T2, T3; auto|]. unfold shown. rewrite X2, T1. exact Hs. }
  ok1; [ok1; exact Sc2|]. ok1. apply ok_emit_bind; [exact I|]. ok1; [ok1; exact Sc2|].
  change (fun c0 => nth i (k_exports c0) no_export) with (fun c0 => nth i (k_exports c0) no_export).
  set (e := nth i (k_exports c1) no_export).
  destruct (authorized_client (e_gai E) (x_auth e) (e_peer E)); [|ok1; exact Sc2|ok1|ok1].
  assert (Ne : nth_error (k_exports c) i = Some e).
  { destruct Hs as (e' & N & _). rewrite N. f_equal. symmetry. apply nth_default_error. exact N. }
  assert (Hpre : ok c2 (if x_prerun e then nbind (npull (e_ok E)) (fun ok => nbind (emit (NPrerun i ok)) (fun _ => nret ok)) else nret true) (fun _ c' => c' = c2)).
  { ok1; [|ok1; reflexivity]. ok1. apply ok_emit_bind; [exact I|]. ok1. reflexivity. }
  eapply okc_bind; [exact Hpre|]. intros pre c' ->. ok1; [ok1; exact Sc2|].
  ok1.
  set (e1 := set_xflags (setup_flags (x_flags e) (x_expected e) (x_files e)) e).
  set (c3 := mkCore (k_tls c2) (k_struct c2) (k_size c2) (set_nth i e1 (k_exports c2)) (k_glob c2) (k_comm c2)).
  assert (Xr : xrel e e1) by (unfold xrel, e1; cbn; repeat split; apply setup_flags_demoted).
  eapply okc_bind; [apply (okc_exports J JD c2 _ (fun _ c' => c' = c3)); [|reflexivity]|].
  { intros tr (A & B & C & D & F & G). split; [|split; [exact B|auto]]. cbn [k_exports].
    apply set_nth_rel; [exact A|]. intros e' N. rewrite X2 in N. change (k_exports c1) with (k_exports c) in N.
    rewrite Ne in N. injection N as <-. exact Xr. }
  intros [] c' ->.
  assert (Ne3 : nth_error (k_exports c3) i = Some e1).
  { cbn [c3 k_exports]. rewrite X2. change (k_exports c1) with (k_exports c). clearbody e1 e. revert Ne. clear. generalize (k_exports c) as l.
    revert i. induction i as [|i IH]; intros [|x l] H; try discriminate; cbn in *; auto. }
  assert (T2 : k_tls c2 = k_tls c) by apply S2.
  assert (Hid : hidden (k_tls c) e1 = false).
  { destruct Hs as (e' & N & Hh). rewrite Ne in N. injection N as <-. revert Hh. unfold hidden.
    rewrite (demoted_forced (x_flags e) (x_flags e1)) by apply Xr. auto. }
  assert (Sc3 : same c c3 /\ shown c3 i).
  { split; [destruct S2 as (U1 & U2 & U3); unfold same, c3; cbn; rewrite U1, U2, U3; auto|].
    exists e1. split; [exact Ne3|]. cbn [c3 k_tls]. rewrite T2. exact Hid. }
  destruct (setupexport (x_flags e) (x_expected e) (x_files e)) as [| |su] eqn:SU.
  - apply ok_emit_bind; [exact I|]. ok1. exact Sc3.
  - ok1.
  - apply ok_emit_bind; [exact I|].
    set (c4 := mkCore (k_tls c3) (k_struct c3) (su_size su) (k_exports c3) (k_glob c3) (k_comm c3)).
    eapply okc_bind; [apply (okc_size J JD c3 _ (fun _ c' => c' = c4)); [|reflexivity]|].
    { intros tr (A & B & C & D & F & G). split; [exact A|]. split; [|auto]. cbn [k_tls k_size]. intros Ht.
      right. right. cbn [c3 k_tls] in Ht. rewrite T2 in Ht.
      destruct (shown_visible _ _ _ Hj0 Hs Ht) as (e0 & e' & V & X & N). rewrite Ne in N. injection N as <-.
      exists e0, (x_flags e), su. split; [exact V|]. destruct X as (_ & _ & X3 & _ & X5 & _). rewrite <- X3, <- X5. auto. }
    intros [] c' ->.
    assert (Sc4 : same c c4 /\ shown c4 i) by exact Sc3.
    eapply okc_bind; [apply ok_prepare|]. intros c1b c' ->. ok1; [ok1; exact Sc4|].
    eapply okc_mono; [apply ok_prepare|]. intros b c' ->. exact Sc4.
Qed.

Lemma ok_export_name c : open c -> ok c (handle_export_name E) (fun _ c' => same c c').
Proof.
  intros Ho. unfold handle_export_name. ok1. ok1; [ok1; unfold same; auto|]. ok1. ok1. ok1.
  destruct (find_first (k_tls c) b 0 (k_exports c)) as [i|] eqn:F; [|ok1].
  apply find_first_spec in F. destruct F as (e & _ & F1 & F2 & _). rewrite Nat.sub_0_r in F1.
  assert (Hs : shown c i) by (exists e; auto).
  eapply okc_bind; [apply ok_commit; auto|]. cbv beta. intros r c1 (S1 & Hs1). destruct r; [|ok1; exact S1].
  assert (open c1) by (unfold open; destruct S1 as (-> & _); exact Ho).
  eapply okc_bind; [apply ok_export_info; auto|]. intros [] c' ->. ok1. exact S1.
Qed.

Ltac txt := cbn; tauto.
Ltac big := vm_compute; discriminate.

Lemma ok_list_loop c : open c -> forall l, (forall e, In e l -> exists i, nth_error (k_exports c) i = Some e) ->
  forall (f : unit -> N unit) Q, ok c (f tt) Q -> ok c (nbind (list_loop E (k_tls c) l) f) Q.
Proof.
  intros Ho. induction l as [|e l IH]; intros Hl f Q Hf; cbn [list_loop]; [ok1; exact Hf|].
  destruct (hidden (k_tls c) e) eqn:Hh; [apply IH; auto; intros; apply Hl; right; auto|].
  destruct (1020 <? zlen (x_name e)); [apply okc_ub_bind; jd|]. apply ok_with. intros (tr & Hj).
  apply okc_assoc. unfold send_data. apply okc_assoc.
  apply ok_nsend_bind; [intros; apply (open_ok c); auto; apply av_header|].
  apply ok_nsend_bind.
  { intros Ht. apply (open_ok c); auto. destruct (Hl e ltac:(left; reflexivity)) as (i & N).
    destruct (shown_visible c i tr Hj ltac:(exists e; auto) Ht) as (e0 & e' & V & X & N').
    rewrite N in N'. injection N' as <-. destruct X as (X1 & _). rewrite X1. apply av_name. exact V. }
  apply IH; auto. intros; apply Hl; right; auto.
Qed.
Lemma ok_list c : open c -> ok c (handle_list E) (fun _ c' => c' = c).
Proof.
  intros Ho. unfold handle_list. ok1.
  assert (K : ok c (nbind (nget n_glob) (fun g => if negb (flag g F_LIST)
     then send_data E OPT_LIST REP_ERR_POLICY (text "Listing of exports denied by server configuration")
     else nbind (nget n_tls) (fun tls => nbind (nget n_exports) (fun l => nbind (list_loop E tls l) (fun _ => send_head E OPT_LIST REP_ACK 0)))))
     (fun _ c' => c' = c)).
  { ok1. ok1; [apply ok_data_last; [big|txt|reflexivity]|]. ok1. ok1. apply ok_list_loop; auto.
    - intros e Hin. apply In_nth_error in Hin. exact Hin.
    - unfold send_head. apply ok_nsend; [|reflexivity]. intros. apply (open_ok c); auto. apply av_header. }
  ok1; [apply ok_data; [big|txt|exact K]|]. ok1. exact K.
Qed.

(** STARTTLS together with the reset that follows it (nbd-server.c:2733-2739) *)
Lemma ok_starttls c : k_tls c = false ->
  ok c (nbind (handle_starttls E) (fun r => if r : bool then nbind (put_struct false) (fun _ => nret Again) else nret Closed))
    (fun r c' => k_glob c' = k_glob c /\ forall i, r <> Serve i).
Proof.
  intros Ht. unfold handle_starttls. ok1. ok1. ok1.
  - ok1. ok1. ok1. apply ok_data; [big|txt|]. ok1. ok1. split; [reflexivity|discriminate].
  - ok1. apply ok_nsend_bind; [intros _; apply neutral_ok; apply nt_starttls|]. ok1. ok1. destruct o.
    + intros s Hj Hc. cbn. split; [|split; [rewrite <- Hc; reflexivity|discriminate]].
      destruct Hj as (A & B & C & D & F & G). rewrite <- Hc in *. cbn [core_of k_tls k_struct k_size k_exports k_glob] in *.
      split; [exact A|]. split; [discriminate|]. split; [exact C|]. split; [|split; [|discriminate]].
      * intros v b' Hin Hcl. apply in_app_iff in Hin. destruct Hin as [Hin|[<-|[]]]; [eapply D; eauto|].
        destruct Hcl; discriminate.
      * cbn [shape]. exists (n_tr s), []. rewrite Ht in F. cbn in F. auto.
    + ok1. ok1. split; [reflexivity|discriminate].
Qed.

Lemma ok_structured c : open c -> ok c (handle_structured_reply E) (fun _ c' => k_tls c' = k_tls c /\ k_glob c' = k_glob c).
Proof.
  intros Ho. unfold handle_structured_reply. ok1. ok1.
  - apply ok_data; [big|txt|]. intros s Hj Hc. unfold nconsume, nbind, nread. destruct (zlen (n_in s) <? z); [exact (J_JD _ _ Hj)|].
    cbn. change (core_of (mkN (skipn (Z.to_nat z) (n_in s)) (n_next s) (n_tls s) (n_struct s) (n_size s) (n_exports s) (n_glob s) (n_comm s) (n_tick s) (n_tr s))) with (core_of s).
    subst c. split; [exact Hj|split; reflexivity].
  - ok1. destruct (k_struct c) eqn:Es; [apply ok_data_last; [big|txt|auto]|].
    (* the flag is set just before the acknowledgement *)
    intros s Hj Hc. unfold send_head. fold ack8. unfold nsend, put_struct, nbind, npull, nget, emit, ndie. cbn [n_tick n_tls n_tr n_in n_next].
    assert (K : J c (n_tr s ++ [NSend (k_tls c) ack8]) /\ JD (n_tr s ++ [NCut (k_tls c) ack8])).
    { apply J_send; [|exact Hj]. intros. apply (open_ok c); auto. apply av_header. }
    subst c. cbn [core_of k_tls] in K. destruct (e_write E (n_tick s)); cbn [n_tick n_tls n_struct n_size n_exports n_glob n_comm n_tr n_in n_next core_of k_tls k_glob].
    + split; [|auto]. destruct K as [(A & B & C & D & F & G) _]. cbn [core_of k_tls k_struct k_size k_exports k_glob] in *.
      repeat (split; [assumption|]). intros _. apply in_app_iff. right. left. reflexivity.
    + apply K.
Qed.

Lemma ok_send_info {A} c opt i (f : unit -> N A) Q : open c -> shown c i -> ok c (f tt) Q -> ok c (nbind (send_info E opt i) f) Q.
Proof.
  intros Ho Hs Hf. unfold send_info, send_head. ok1.
  apply ok_nsend_bind; [intros; apply (open_ok c); auto; apply av_header|]. ok1.
  apply ok_nsend_bind; [intros; apply (open_ok c); auto; apply av_kind|].
  eapply okc_bind; [apply ok_export_info; auto|]. intros [] c' ->. exact Hf.
Qed.
Lemma ok_info_loop {A} c opt i (f : bool -> N A) Q : open c -> shown c i -> (forall b, ok c (f b) Q) ->
  forall n sent, ok c (nbind (info_loop E opt i n sent) f) Q.
Proof.
  intros Ho Hs Hf. induction n as [|n IH]; intros sent; cbn [info_loop]; [ok1; apply Hf|]. ok1. ok1. ok1; [|apply IH].
  ok1. apply ok_send_info; auto.
Qed.
Lemma ok_info c opt : open c -> ok c (handle_info E opt) (fun _ c' => same c c').
Proof.
  intros Ho. unfold handle_info. ok1. ok1.
  match goal with |- ok _ (nbind _ ?f) _ => set (rest := f) end.
  assert (K : ok c (rest tt) (fun _ c' => same c c')).
  { subst rest. cbv beta.
    match goal with |- ok _ (nbind _ ?f) _ => set (rest := f) end.
    assert (K : ok c (rest tt) (fun _ c' => same c c')).
    { subst rest. cbv beta.
      match goal with |- ok _ (nbind _ ?f) _ => set (rest := f) end.
      assert (K : forall m, ok c (rest m) (fun _ c' => same c c')).
      { intros m. subst rest. cbv beta. ok1; [apply ok_data; [big|txt|]; ok1; unfold same; auto|].
        ok1; [ok1|]. ok1. ok1. ok1. ok1. ok1.
        destruct (fst (find_last (k_tls c) b 0 (k_exports c) (None, false))) as [i|] eqn:F.
        - apply find_last_spec in F. destruct F as [F|(e & _ & F1 & F2 & _)]; [discriminate|]. rewrite Nat.sub_0_r in F1.
          assert (Hs : shown c i) by (exists e; auto).
          assert (Hc : ok c (if opt =? OPT_GO then commit_client E i else nret true) (fun _ c' => same c c' /\ shown c' i)).
          { ok1; [apply ok_commit; auto|]. ok1. split; [unfold same; auto|exact Hs]. }
          eapply okc_bind; [exact Hc|]. cbv beta. intros r c1 (S1 & Hs1). ok1.
          + ok1. apply ok_data; [big|txt|]. ok1. exact S1.
          + assert (O1 : open c1) by (unfold open; destruct S1 as (-> & _); exact Ho).
            apply ok_info_loop; auto. intros sent. 
            assert (L : ok c1 (nbind (send_head E opt REP_ACK 0) (fun _ => nret (Some i))) (fun _ c' => same c c')).
            { unfold send_head. apply ok_nsend_bind; [intros; apply (open_ok c1); auto; apply av_header|]. ok1. exact S1. }
            destruct sent; [ok1; exact L|]. apply ok_send_info; auto.
        - ok1. destruct (snd (find_last (k_tls c) b 0 (k_exports c) (None, false)));
            (apply ok_data; [big|txt|]; ok1; unfold same; auto). }
      ok1; [ok1; apply K|]. ok1. apply K. }
    ok1; [|ok1; exact K]. ok1. apply ok_data; [big|txt|]. ok1. exact K. }
  ok1; [|ok1; exact K]. ok1. apply ok_data; [big|txt|]. ok1. exact K.
Qed.

Lemma ok_option c opt : ok c (do_option E opt)
  (fun r c' => k_glob c' = k_glob c /\ forall i, r = Serve i -> open c').
Proof.
  apply ok_with. intros (tr & Hj). assert (Hg : flag (k_glob c) F_FORCEDTLS = forced) by apply Hj.
  unfold do_option. ok1. ok1. rewrite Hg. ok1.
  - ok1; [ok1; split; [reflexivity|discriminate]|]. ok1; [ok1; split; [reflexivity|discriminate]|]. ok1.
    apply ok_data; [big|txt|]. ok1. split; [reflexivity|discriminate].
  - assert (Ho : opt <> OPT_STARTTLS -> open c).
    { intros Ne Hf. rewrite Hf in *. destruct (k_tls c); [reflexivity|]. cbn in Heqb.
      replace (opt =? OPT_STARTTLS) with false in Heqb by lia. discriminate. }
    ok1.
    { assert (open c) by (apply Ho; unfold OPT_EXPORT_NAME, OPT_STARTTLS in *; lia).
      eapply okc_bind; [apply ok_export_name; auto|]. cbv beta. intros [i|] c1 S1; ok1;
        (split; [apply S1|]); intros j Hj'; [|discriminate]. unfold open. destruct S1 as (-> & _). auto. }
    ok1.
    { eapply okc_bind; [apply ok_list; apply Ho; unfold OPT_LIST, OPT_STARTTLS in *; lia|]. intros [] c1 ->. ok1.
      split; [reflexivity|discriminate]. }
    ok1; [ok1; split; [reflexivity|discriminate]|].
    ok1.
    { destruct (k_tls c) eqn:Ht.
      - ok1. apply ok_data; [big|txt|]. ok1. split; [reflexivity|discriminate].
      - ok1; [ok1; apply ok_data; [big|txt|]; ok1; split; [reflexivity|discriminate]|].
        eapply okc_mono; [apply ok_starttls; exact Ht|]. cbv beta. intros r c' (G & N). split; [exact G|].
        intros i ->. exfalso. eapply N. reflexivity. }
    assert (Ho' : open c) by (apply Ho; lia).
    ok1.
    { eapply okc_bind; [apply ok_info; auto|]. cbv beta. intros [i|] c1 S1; [|ok1; split; [apply S1|discriminate]].
      ok1; ok1; (split; [apply S1|]); intros j Hj'; [|discriminate]. unfold open. destruct S1 as (-> & _). auto. }
    ok1.
    { eapply okc_bind; [apply ok_structured; auto|]. cbv beta. intros [] c1 (S1 & S2). ok1. split; [exact S2|discriminate]. }
    ok1. apply ok_data; [big|txt|]. ok1. split; [reflexivity|discriminate].
Qed.

Lemma ok_loop fuel : forall c, ok c (nego_loop E fuel) (fun r c' => forall i, r = Some i -> open c').
Proof.
  induction fuel as [|fuel IH]; intros c; cbn [nego_loop]; [intros s Hj Hc; exact I|].
  ok1. ok1; [ok1; discriminate|]. ok1. eapply okc_bind; [apply ok_option|]. cbv beta. intros r c1 (G & K).
  destruct r as [| |i]; [apply IH|ok1; discriminate|ok1]. intros j H. injection H as <-. apply (K i). reflexivity.
Qed.

Lemma ok_negotiate c : ok c (negotiate E) (fun r c' => forall i, r = Some i -> open c').
Proof.
  unfold negotiate.
  apply ok_nsend_bind; [intros _; apply neutral_ok; constructor|].
  apply ok_nsend_bind; [intros _; apply neutral_ok; constructor|].
  apply ok_nsend_bind; [intros _; apply neutral_ok; constructor|]. ok1.
  match goal with |- ok _ (nbind _ ?f) _ => set (rest := f) end.
  assert (K : forall c, ok c (rest tt) (fun r c' => forall i, r = Some i -> open c')).
  { intros c'. subst rest. cbv beta. intros s Hj Hc. unfold nbind, nget. exact (ok_loop _ c' s Hj Hc). }
  ok1; [|ok1; apply K]. ok1. ok1.
  eapply okc_bind; [apply (okc_glob J JD c _ (fun _ _ => True)); [|exact I]|].
  - intros tr (A & B & C & D & F & G). split; [exact A|]. split; [exact B|]. split; [|auto]. cbn [k_glob]. rewrite <- C.
    unfold flag. rewrite Z.land_lor_distr_l. change (Z.land F_NO_ZEROES F_FORCEDTLS) with 0. rewrite Z.lor_0_r. reflexivity.
  - intros [] c' _. apply K.
Qed.
End Tls.

Lemma J_fresh l glob plain secure : J l (flag glob F_FORCEDTLS) (core_of (fresh l glob plain secure)) [].
Proof.
  split; [cbn; induction l; constructor; auto; apply xrel_refl|]. split; [intros _; left; reflexivity|].
  split; [reflexivity|]. split; [intros v b []|]. split; [constructor|discriminate].
Qed.

Lemma negotiate_clear E l glob plain secure tr v b :
  trace_of (negotiate E (fresh l glob plain secure)) = Some tr -> In v tr -> in_clear v b ->
  if flag glob F_FORCEDTLS then neutral b else about_visible l b.
Proof.
  intros Ht Hin Hc.
  pose proof (ok_negotiate E l (flag glob F_FORCEDTLS) _ (fresh l glob plain secure) (J_fresh l glob plain secure) eq_refl) as H.
  destruct (negotiate E (fresh l glob plain secure)) as [r s|s|s|]; cbn in Ht; try discriminate; injection Ht as <-.
  - destruct H as ((_ & _ & _ & D & _) & _). exact (D v b Hin Hc).
  - exact (H v b Hin Hc).
  - exact (H v b Hin Hc).
Qed.

Lemma negotiate_serves E l glob plain secure i s :
  negotiate E (fresh l glob plain secure) = NRet (Some i) s ->
  (flag glob F_FORCEDTLS = true -> n_tls s = true) /\
  shape (n_tls s) (n_tr s) /\
  (n_struct s = true -> In (NSend (n_tls s) (optreply OPT_STRUCTURED REP_ACK 0)) (n_tr s)) /\
  Forall2 xrel l (n_exports s).
Proof.
  intros Hr.
  pose proof (ok_negotiate E l (flag glob F_FORCEDTLS) _ (fresh l glob plain secure) (J_fresh l glob plain secure) eq_refl) as H.
  rewrite Hr in H. destruct H as ((A & B & C & D & F & G) & K). 
  split; [intros Hf; exact (K i eq_refl Hf)|]. split; [exact F|]. split; [exact G|exact A].
Qed.
