(** Lemmas for C85. *)
From Coq Require Import String.
From Verif Require Import Base M_Nego M_Tab S_Tab L_TabP M_Tls S_Tls.
Local Open Scope list_scope.

Lemma verify_callback_spec trust host p : verify_callback trust host p = 0 <->
  0 <= fst (y_verify p trust) /\ snd (y_verify p trust) = 0 /\ y_x509 p = true /\ y_init p = true /\ y_list p = true /\ y_import p = true /\
  (forall n, host = Some n -> n <> [] -> y_names p n = true).
Proof.
  unfold verify_callback. destruct (y_verify p trust) as [ret st]. cbn [fst snd].
  destruct (Z.ltb_spec ret 0); [split; [discriminate|lia]|].
  destruct (Z.eqb_spec st 0); cbn [negb]; [|split; [discriminate|lia]].
  destruct (y_x509 p); cbn [negb]; [|split; [discriminate|intuition discriminate]].
  destruct (y_init p); cbn [negb]; [|split; [discriminate|intuition discriminate]].
  destruct (y_list p); cbn [negb]; [|split; [discriminate|intuition discriminate]].
  destruct (y_import p); cbn [negb]; [|split; [discriminate|intuition discriminate]].
  destruct host as [[|x t]|].
  - split; [intros _; repeat split; auto; intros n [= <-] Hn; congruence|reflexivity].
  - destruct (y_names p (x :: t)) eqn:E.
    + split; [intros _; repeat split; auto; intros n [= <-] Hn; exact E|reflexivity].
    + split; [discriminate|]. intros (_ & _ & _ & _ & _ & _ & H1). specialize (H1 _ eq_refl ltac:(discriminate)). congruence.
  - split; [intros _; repeat split; auto; intros n [=]|reflexivity].
Qed.
Lemma verify_cert_spec trust now p : verify_cert trust now p = 0 <->
  0 <= fst (y_verify p trust) /\ snd (y_verify p trust) = 0 /\ y_x509 p = true /\ y_init p = true /\ y_list p = true /\ y_import p = true /\
  y_from p <= now <= y_until p.
Proof.
  unfold verify_cert. destruct (y_verify p trust) as [ret st]. cbn [fst snd].
  destruct (Z.ltb_spec ret 0); [split; [discriminate|lia]|].
  destruct (Z.eqb_spec st 0); cbn [negb orb]; [|split; [discriminate|lia]].
  destruct (y_x509 p); cbn [negb orb]; [|split; [discriminate|intuition discriminate]].
  destruct (y_init p); cbn [negb]; [|split; [discriminate|intuition discriminate]].
  destruct (y_list p); cbn [negb]; [|split; [discriminate|intuition discriminate]].
  destruct (y_import p); cbn [negb]; [|split; [discriminate|intuition discriminate]].
  destruct (Z.ltb_spec now (y_from p)); [split; [discriminate|lia]|].
  destruct (Z.ltb_spec (y_until p) now); [split; [discriminate|lia]|]. split; [intros _; repeat split; auto|reflexivity].
Qed.

Lemma new_fields g k c a h pr i s : tlssession_new g k c a h pr i = Some s ->
  z_host s = h /\ z_trust s = a /\ (z_check s = true <-> a <> None /\ i = false).
Proof.
  unfold tlssession_new. intros H. repeat match type of H with (if ?b then _ else _) = _ => destruct b; [discriminate H|] end. injection H as <-. cbn [z_host z_trust z_check].
  split; [reflexivity|]. split; [reflexivity|]. destruct a, i; cbn; split; intros X; try discriminate X; try reflexivity; try (split; [discriminate|reflexivity]); destruct X as [X1 X2]; congruence.
Qed.
Lemma open_spec c g p s : start_tls c g p = Open s ->
  t_tls c = true /\ y_rest p = true /\
  (forall a n, t_cacert c = Some a -> t_tlshost c = Some n -> verify_callback (Some a) (Some n) p = 0).
Proof.
  unfold start_tls. destruct (t_tls c); cbn [negb]; [|discriminate].
  destruct (tlssession_new _ _ _ _ _ _ _) as [s0|] eqn:E; [|discriminate]. destruct (handshake s0 p) eqn:Hh; [|discriminate]. intros [= <-].
  destruct (new_fields _ _ _ _ _ _ _ _ E) as (E1 & E2 & E3). unfold handshake in Hh. apply andb_true_iff in Hh as [Hr Hv].
  split; [reflexivity|]. split; [exact Hr|]. intros a n Ha Hn. rewrite Ha, Hn in *. apply orb_true_iff in Hv as [Hv|Hv].
  - exfalso. assert (z_check s0 = true) as X by (apply E3; split; [discriminate|reflexivity]). rewrite X in Hv. discriminate Hv.
  - rewrite E1, E2 in Hv. now apply Z.eqb_eq.
Qed.

(** what main hands on, whatever the settings come from *)
Lemma main_tls file nl l v : main file nl l = MGo v ->
  (t_cacert (v_cl v) <> None -> t_tls (v_cl v) = true) /\
  (t_unix (v_cl v) = false -> t_tlshost (v_cl v) <> None \/ t_host (v_cl v) = None).
Proof.
  assert (G : forall v0, prepare v0 = MGo v -> (t_cacert (v_cl v) <> None -> t_tls (v_cl v) = true) /\
    (t_unix (v_cl v) = false -> t_tlshost (v_cl v) <> None \/ t_host (v_cl v) = None)).
  { intros v0 P. destruct (prepare_go _ _ P) as (_ & _ & _ & _ & _ & P6 & _ & P8 & _ & _ & _ & _ & _ & _ & _ & _ & _ & P18 & _ & _ & _ & P22 & P23).
    rewrite P18, P22, P8, P6. split.
    - intros Ha. apply P23. auto.
    - intros Hu. rewrite Hu. destruct (t_tlshost (v_cl v0)); [left; discriminate|]. destruct (t_host (v_cl v0)); [left; discriminate|right; reflexivity]. }
  unfold main. destruct (do_args _ l) as [v0|]; [|discriminate]. cbv zeta. destruct (v_disc v0); [discriminate|].
  destruct (t_host (v_cl v0)) as [h|]; [|discriminate]. destruct (_ && _); [|apply G].
  destruct (_ || _); [destruct (get_from_config _ _); [apply G|discriminate]|]. destruct (negb _); [discriminate|apply G].
Qed.
Lemma line_host c found ln c' : do_line (c, found) ln = (c', true) -> (found = true -> t_host c <> None) -> t_host c' <> None.
Proof.
  unfold do_line. set (c1 := if found then c else _). cbv zeta. destruct (match t_dev c1 with Some _ => _ | None => _ end); [intros [= <-] _; cbn; discriminate|].
  destruct found; [intros [= <-] H; now apply H|intros [=]].
Qed.
Lemma lines_host ls : forall c found c', fold_left do_line ls (c, found) = (c', true) -> (found = true -> t_host c <> None) -> t_host c' <> None.
Proof.
  induction ls as [|ln ls IH]; intros c found c' H Hf; cbn [fold_left] in H; [injection H as <- ->; auto|].
  destruct (do_line (c, found) ln) as [c1 f1] eqn:E. apply (IH c1 f1 c' H). intros ->. exact (line_host _ _ _ _ E Hf).
Qed.
Lemma config_host file c c' : get_from_config file c = Some c' -> t_host c' <> None.
Proof.
  unfold get_from_config. destruct file as [f|]; [|discriminate]. destruct (yyparse f) as [ls|]; [|discriminate].
  set (c0 := match t_dev c with Some d => set_dev (strip_dev d) c | None => c end). cbv zeta.
  destruct (fold_left do_line ls (c0, false)) as [c1 fd] eqn:E. destruct fd; [|discriminate]. intros [= <-].
  apply (lines_host ls c0 false c1 E). discriminate.
Qed.
Lemma main_host file nl l v : main file nl l = MGo v -> t_host (v_cl v) <> None.
Proof.
  assert (G : forall v0, t_host (v_cl v0) <> None -> prepare v0 = MGo v -> t_host (v_cl v) <> None).
  { intros v0 Hh P. destruct (prepare_go _ _ P) as (_ & _ & _ & _ & _ & P6 & _). now rewrite P6. }
  unfold main. destruct (do_args _ l) as [v0|]; [|discriminate]. cbv zeta. destruct (v_disc v0); [discriminate|].
  destruct (t_host (v_cl v0)) as [h|] eqn:Eh; [|discriminate].
  assert (Hh : t_host (v_cl v0) <> None) by congruence.
  destruct (_ && _); [|now apply G].
  destruct (_ || _).
  - destruct (get_from_config _ _) as [c|] eqn:Ec; [|discriminate]. apply G. cbn. now apply (config_host _ _ _ Ec).
  - destruct (negb _); [discriminate|now apply G].
Qed.

Lemma server_spec k g now p : server_tls k g now p = InEffect ->
  exists key cert, k_key k = Some key /\ k_cert k = Some cert /\ h_key g cert key = true /\ verify_cert (k_cacert k) now p = 0.
Proof.
  unfold server_tls. destruct (k_key k) as [key|]; [|discriminate]. destruct (negb (h_creds g)); [discriminate|]. destruct (negb (h_trust g _)); [discriminate|].
  destruct (k_cert k) as [cert|]; [|discriminate]. destruct (h_key g cert key) eqn:E; cbn [negb]; [|discriminate].
  destruct (negb (h_prio g _)); [discriminate|]. destruct (negb (h_session g)); [discriminate|]. destruct (negb (h_set g)); [discriminate|].
  destruct (y_rest p && _) eqn:Er; [|discriminate]. intros _. apply andb_true_iff in Er as [_ Er]. apply Z.eqb_eq in Er. exists key, cert. auto.
Qed.
