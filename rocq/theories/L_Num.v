(** Numbers of the configuration: the parser and the text. *)
From Coq Require Import String.
From Verif Require Import Base M_Const M_Acl M_Nego M_Conf S_Root S_Conf L_Conf S_Num.
Open Scope list_scope.
Open Scope Z_scope.

Lemma isspace_blank c : isspace c = true <-> blank c.
Proof. unfold isspace, blank. lia. Qed.
Lemma isdigit_digit c : isdigit c = true <-> digit c.
Proof. unfold isdigit, digit. lia. Qed.

Lemma digits_split s : exists ds rest, s = ds ++ rest /\ Forall digit ds /\ (forall c t, rest = c :: t -> ~ digit c) /\
  after_digits s = rest /\ (forall a, digits s a = fold_left (fun a c => 10 * a + (c - 48)) ds a) /\ (ds = [] <-> match s with c :: _ => isdigit c = false | [] => True end).
Proof.
  induction s as [|c s IH].
  - exists [], []. repeat split; auto. intros; discriminate.
  - destruct IH as (ds & rest & E & H1 & H2 & H3 & H4 & _). cbn [after_digits digits]. destruct (isdigit c) eqn:Ec.
    + exists (c :: ds), rest. split; [rewrite E; reflexivity|]. split; [constructor; [apply isdigit_digit, Ec|exact H1]|].
      split; [exact H2|]. split; [exact H3|]. split; [|split; [discriminate|congruence]].
      intros a. rewrite H4. cbn [fold_left]. f_equal. lia.
    + exists [], (c :: s). split; [reflexivity|]. split; [constructor|]. split.
      * intros c0 t [= -> ->] Hd. apply isdigit_digit in Hd. congruence.
      * repeat split; auto.
Qed.
Lemma digits_app ds rest : Forall digit ds -> (forall c t, rest = c :: t -> ~ digit c) ->
  after_digits (ds ++ rest) = rest /\ forall a, digits (ds ++ rest) a = fold_left (fun a c => 10 * a + (c - 48)) ds a.
Proof.
  intros H Hr. induction H as [|c ds Hc H IH]; cbn [app].
  - destruct rest as [|c t]; [split; reflexivity|]. cbn [after_digits digits].
    destruct (isdigit c) eqn:E; [apply isdigit_digit in E; destruct (Hr c t eq_refl E)|split; reflexivity].
  - cbn [after_digits digits]. apply isdigit_digit in Hc. rewrite Hc. destruct IH as [I1 I2]. split; [exact I1|].
    intros a. rewrite I2. cbn [fold_left]. f_equal. lia.
Qed.
Lemma skip_split s : exists b, s = b ++ skip_space s /\ Forall blank b.
Proof.
  induction s as [|c s (b & E & H)]; [exists []; split; [reflexivity|constructor]|]. cbn [skip_space]. destruct (isspace c) eqn:Ec.
  - exists (c :: b). split; [cbn; congruence|]. constructor; [apply isspace_blank, Ec|exact H].
  - exists []. split; [reflexivity|constructor].
Qed.
Lemma skip_app b s : Forall blank b -> match s with c :: _ => isspace c = false | [] => True end -> skip_space (b ++ s) = s.
Proof.
  intros H Hs. induction H as [|c b Hc H IH]; cbn [app skip_space].
  - destruct s as [|c t]; [reflexivity|]. cbn [skip_space]. rewrite Hs. reflexivity.
  - apply isspace_blank in Hc. rewrite Hc. exact IH.
Qed.

Lemma number_spec v n rest : number v = Some (n, rest) <-> begins_with v n rest.
Proof.
  unfold number, begins_with. split.
  - destruct (skip_split v) as (b & Ev & Hb). intros H.
    assert (K : forall sg neg s, skip_space v = sg ++ s -> (neg = true -> sg = [45]) -> (neg = false -> sg = [] \/ sg = [43]) ->
      match s with c :: _ => if isdigit c then Some ((if neg : bool then - digits s 0 else digits s 0), after_digits s) else None | [] => None end = Some (n, rest) ->
      exists blanks sign ds, v = blanks ++ sign ++ ds ++ rest /\ Forall blank blanks /\ Forall digit ds /\ ds <> [] /\
        (forall c t, rest = c :: t -> ~ digit c) /\ ((sign = [45] /\ n = - worth ds) \/ ((sign = [] \/ sign = [43]) /\ n = worth ds))).
    { intros sg neg s Es N1 N2 Hm. destruct (digits_split s) as (ds & r & E & D1 & D2 & D3 & D4 & D5).
      assert (Hne : ds <> []) by (intros E0; apply D5 in E0; destruct s as [|c s]; [discriminate|]; rewrite E0 in Hm; discriminate).
      assert (Hv : n = (if neg then - digits s 0 else digits s 0) /\ rest = r).
      { destruct s as [|c s]; [discriminate|]. destruct (isdigit c); [|discriminate]. rewrite D3 in Hm. split; congruence. }
      destruct Hv as [-> ->]. exists b, sg, ds. rewrite <- E, <- Es. split; [exact Ev|]. split; [exact Hb|]. split; [exact D1|]. split; [exact Hne|].
      split; [exact D2|]. rewrite D4. fold (worth ds). destruct neg; [left|right]; auto. }
    destruct (skip_space v) as [|c t] eqn:Es; [discriminate|].
    destruct (Z.eq_dec c 45) as [->|N1]; [exact (K [45] true t eq_refl (fun _ => eq_refl) ltac:(discriminate) H)|].
    destruct (Z.eq_dec c 43) as [->|N2]; [exact (K [43] false t eq_refl ltac:(discriminate) (fun _ => or_intror eq_refl) H)|].
    apply (K [] false (c :: t) eq_refl ltac:(discriminate) (fun _ => or_introl eq_refl)). rewrite <- H.
    destruct c as [|c|c]; try reflexivity. do 6 (destruct c as [c|c|]; try reflexivity); congruence.
  - intros (b & sg & ds & -> & Hb & Hd & Hne & Hr & Hs).
    destruct (digits_app ds rest Hd Hr) as [A1 A2].
    assert (Hc : exists c t, ds = c :: t /\ digit c) by (destruct ds as [|c t]; [congruence|inversion Hd; eauto]).
    destruct Hc as (c & t & -> & Hc). pose proof (proj2 (isdigit_digit c) Hc) as Ic.
    assert (Sp : isspace c = false) by (destruct (isspace c) eqn:E; [apply isspace_blank in E; unfold blank, digit in *; lia|reflexivity]).
    assert (N : c <> 45 /\ c <> 43) by (unfold digit in Hc; lia). destruct N as [N1 N2].
    destruct Hs as [[-> ->]|[[->| ->] ->]].
    + rewrite skip_app; [|exact Hb|reflexivity]. cbn [app] in *. rewrite Ic, A1, A2. reflexivity.
    + rewrite skip_app; [|exact Hb|exact Sp]. cbn [app] in *.
      assert (X : forall Y : bool * list Z -> option (Z * list Z), (match c :: t ++ rest with | 45 :: t0 => Y (true, t0) | 43 :: t0 => Y (false, t0) | _ => Y (false, c :: t ++ rest) end) = Y (false, c :: t ++ rest)).
      { intros Y. destruct c as [|c|c]; try reflexivity. do 6 (destruct c as [c|c|]; try reflexivity); congruence. }
      specialize (X (fun p => let '(neg, s) := p in match s with c :: _ => if isdigit c then Some ((if neg : bool then - digits s 0 else digits s 0), after_digits s) else None | [] => None end)).
      match type of X with _ = ?r => assert (X2 : r = Some (worth (c :: t), rest)) by (cbv beta iota; rewrite Ic, A1, A2; reflexivity) end.
      rewrite <- X2, <- X. clear X X2.
      destruct c as [|c|c]; try reflexivity. do 6 (destruct c as [c|c|]; try reflexivity).
    + rewrite skip_app; [|exact Hb|reflexivity]. cbn [app] in *. rewrite Ic, A1, A2. reflexivity.
Qed.
Lemma number_none v : number v = None <-> forall n rest, ~ begins_with v n rest.
Proof.
  split.
  - intros H n rest X. apply number_spec in X. congruence.
  - intros H. destruct (number v) as [[n rest]|] eqn:E; [|reflexivity]. apply number_spec in E. destruct (H _ _ E).
Qed.

Lemma as_int_spec v n : as_int v = Some n <-> an_int v n.
Proof.
  unfold as_int, an_int. destruct (number v) as [[m rest]|] eqn:E.
  - pose proof (proj1 (number_spec _ _ _) E) as B. split.
    + intros H. destruct (_ && _) eqn:Ec in H; [|discriminate]. injection H as <-. apply andb_true_iff in Ec as [Ec E3]. apply andb_true_iff in Ec as [E1 E2].
      split; [lia|]. exists rest. split; [exact B|]. destruct rest as [|c t]; [left; reflexivity|right]. exists c, t. split; [reflexivity|]. apply isspace_blank, E1.
    + intros [Hr (rest' & B' & Hrest)]. apply number_spec in B'. rewrite E in B'. injection B' as <- <-.
      assert (E1 : match rest with [] => true | c :: _ => isspace c end = true).
      { destruct Hrest as [->|(c & t & -> & Hc)]; [reflexivity|]. apply isspace_blank, Hc. }
      rewrite E1. cbn [andb]. replace (-2147483648 <=? m) with true by lia. replace (m <=? 2147483647) with true by lia. reflexivity.
  - split; [discriminate|]. intros [_ (rest & B & _)]. apply number_spec in B. congruence.
Qed.
Lemma as_int64_spec v n : as_int64 v = Some n <-> exists m, a_number v m /\ n = closest m.
Proof.
  unfold as_int64, a_number, closest. destruct (number v) as [[m rest]|] eqn:E.
  - destruct rest as [|c t].
    + pose proof (proj1 (number_spec _ _ _) E) as B. split; [intros [= <-]; eauto|]. intros (m' & B' & ->). apply number_spec in B'. congruence.
    + split; [discriminate|]. intros (m' & B' & _). apply number_spec in B'. congruence.
  - split; [discriminate|]. intros (m' & B' & _). apply number_spec in B'. congruence.
Qed.

(** ** what the section stores *)
Lemma read_params_app keys a : forall b d,
  read_params (a ++ b) keys d = match read_params a keys d with Some d1 => read_params b keys d1 | None => None end.
Proof.
  induction a as [|p a IH]; intros b d; [reflexivity|]. cbn [app]. rewrite !read_params_cons.
  destruct (lookup (p_name p) keys); [destruct (store_param _ _ _); [apply IH|reflexivity]|destruct (p_required p); [reflexivity|apply IH]].
Qed.
Lemma read_params_keep keys ps : Forall (fun p => p_target p <> TMax) ps -> forall d d', read_params ps keys d = Some d' -> d_max d' = d_max d.
Proof.
  induction 1 as [|p ps Hp _ IH]; intros d d' H; [injection H as <-; reflexivity|]. rewrite read_params_cons in H.
  destruct (lookup (p_name p) keys) as [v|].
  - destruct (store_param (p_target p) v d) as [d1|] eqn:Es; [|discriminate]. rewrite (IH _ _ H).
    destruct (p_target p); cbn [store_param] in Es; try congruence;
      try (destruct (as_int64 v); [|discriminate]); try (destruct (as_bool v); [|discriminate]); injection Es as <-; reflexivity.
  - destruct (p_required p); [discriminate|]. apply (IH _ _ H).
Qed.
Lemma read_params_keep' keys ps : Forall (fun p => p_target p <> TSize) ps -> forall d d', read_params ps keys d = Some d' -> d_size d' = d_size d.
Proof.
  induction 1 as [|p ps Hp _ IH]; intros d d' H; [injection H as <-; reflexivity|]. rewrite read_params_cons in H.
  destruct (lookup (p_name p) keys) as [v|].
  - destruct (store_param (p_target p) v d) as [d1|] eqn:Es; [|discriminate]. rewrite (IH _ _ H).
    destruct (p_target p); cbn [store_param] in Es; try congruence;
      try (destruct (as_int v); [|discriminate]); try (destruct (as_bool v); [|discriminate]); injection Es as <-; reflexivity.
  - destruct (p_required p); [discriminate|]. apply (IH _ _ H).
Qed.

Lemma read_max keys d : read_params lp keys draft0 = Some d ->
  match last_value "maxconnections" keys with
  | None => d_max d = 0
  | Some v => an_int v (d_max d)
  end.
Proof.
  change lp with (firstn 23 lp ++ mkPar "maxconnections" false TMax :: skipn 24 lp). rewrite read_params_app.
  destruct (read_params (firstn 23 lp) keys draft0) as [d1|] eqn:E1; [|discriminate].
  assert (K1 : d_max d1 = 0) by (apply (read_params_keep keys (firstn 23 lp)) in E1; [exact E1|cbn; repeat (constructor; [discriminate|]); constructor]).
  rewrite read_params_cons. cbn [p_name p_target p_required]. rewrite lookup_last.
  assert (K2 : forall d2, read_params (skipn 24 lp) keys d2 = Some d -> d_max d = d_max d2).
  { intros d2. apply read_params_keep. cbn. repeat (constructor; [discriminate|]). constructor. }
  destruct (last_value "maxconnections" keys) as [v|].
  - cbn [store_param]. destruct (as_int v) as [n|] eqn:En; [|discriminate]. intros H. apply K2 in H. rewrite H. cbn [d_max]. apply as_int_spec, En.
  - intros H. apply K2 in H. congruence.
Qed.
Lemma read_size keys d : read_params lp keys draft0 = Some d ->
  match last_value "filesize" keys with
  | None => d_size d = 0
  | Some v => exists n, a_number v n /\ d_size d = u64 (closest n)
  end.
Proof.
  change lp with (firstn 2 lp ++ mkPar "filesize" false TSize :: skipn 3 lp). rewrite read_params_app.
  destruct (read_params (firstn 2 lp) keys draft0) as [d1|] eqn:E1; [|discriminate].
  assert (K1 : d_size d1 = 0) by (apply (read_params_keep' keys (firstn 2 lp)) in E1; [exact E1|cbn; repeat (constructor; [discriminate|]); constructor]).
  rewrite read_params_cons. cbn [p_name p_target p_required]. rewrite lookup_last.
  assert (K2 : forall d2, read_params (skipn 3 lp) keys d2 = Some d -> d_size d = d_size d2).
  { intros d2. apply read_params_keep'. cbn. repeat (constructor; [discriminate|]). constructor. }
  destruct (last_value "filesize" keys) as [v|].
  - cbn [store_param]. destruct (as_int64 v) as [n|] eqn:En; [|discriminate]. intros H. apply K2 in H. rewrite H. cbn [d_size].
    apply as_int64_spec in En. destruct En as (m & Hm & ->). eauto.
  - intros H. apply K2 in H. congruence.
Qed.

(** a section is refused only for one of these reasons *)
Lemma numbers_accepted g :
  last_value "exportname" (g_keys g) <> None -> well_formed (g_keys g) ->
  last_value "virtstyle" (g_keys g) = None ->
  (forall v, last_value "filesize" (g_keys g) = Some v -> exists n, a_number v n) ->
  (forall v, last_value "maxconnections" (g_keys g) = Some v -> exists n, an_int v n) ->
  ~ clash (g_keys g) -> ~ says_yes "sdp" (g_keys g) ->
  exists s, parse_export g = Some s.
Proof.
  intros He Hw Hv Hf Hm Hc Hs.
  assert (E : exists d, read_params lp (g_keys g) draft0 = Some d).
  { apply read_params_some.
    - intros p Hin Hn. unfold lp in Hin. cbn [In] in Hin. rewrite <- lookup_last in He.
      repeat (destruct Hin as [<-|Hin]; [cbn [p_name p_required] in *; first [reflexivity|congruence]|]). destruct Hin.
    - intros p v Hin Hl d0.
      assert (B : forall f, p_target p = TFlag f -> exists b, as_bool v = Some b).
      { intros f Ef. assert (Hp : In (p_name p, Z.log2 f) options).
        { rewrite <- lp_options. apply in_flat_map. exists p. split; [exact Hin|].
          unfold pflag. rewrite Ef. left. reflexivity. }
        destruct (Hw _ _ v Hp) as [Y|N]; [rewrite <- lookup_last; exact Hl| |].
        - exists true. apply as_bool_yes. exact Y.
        - exists false. apply as_bool_no. exact N. }
      assert (B2 : p_name p = "filesize"%string -> exists n, as_int64 v = Some n).
      { intros En. rewrite En, lookup_last in Hl. destruct (Hf v Hl) as [n Hn]. exists (closest n). apply as_int64_spec. eauto. }
      assert (B3 : p_name p = "maxconnections"%string -> exists n, as_int v = Some n).
      { intros En. rewrite En, lookup_last in Hl. destruct (Hm v Hl) as [n Hn]. exists n. apply as_int_spec. exact Hn. }
      clear Hf Hm Hw. unfold lp in Hin. cbn [In] in Hin.
      repeat (destruct Hin as [<-|Hin];
        [cbn [p_name p_target] in *;
         first [destruct (B _ eq_refl) as [b Eb]; cbn [store_param]; rewrite Eb; eexists; reflexivity
               | destruct (B2 eq_refl) as [b Eb]; cbn [store_param]; rewrite Eb; eexists; reflexivity
               | destruct (B3 eq_refl) as [b Eb]; cbn [store_param]; rewrite Eb; eexists; reflexivity
               | cbn [store_param]; eexists; reflexivity]|]). destruct Hin. }
  destruct E as [d E]. pose proof (contradictory_only _ _ E Hc Hs) as Ct. unfold parse_export. rewrite E.
  assert (V : d_virt d = None).
  { clear -E Hv. rewrite <- lookup_last in Hv. assert (G : forall ps, Forall (fun p => p_target p = TVirt -> p_name p = "virtstyle"%string) ps ->
      forall d0, read_params ps (g_keys g) d0 = Some d -> d_virt d = d_virt d0).
    { induction 1 as [|p t Hp _ IH]; intros d0 Er; [injection Er as <-; reflexivity|].
      rewrite read_params_cons in Er. destruct (lookup (p_name p) (g_keys g)) as [v|] eqn:El.
      - destruct (store_param (p_target p) v d0) as [d1|] eqn:Es; [|discriminate]. rewrite (IH d1 Er).
        destruct (p_target p); cbn [store_param] in Es;
          try (destruct (as_int64 v); [|discriminate]); try (destruct (as_int v); [|discriminate]);
          try (destruct (as_bool v); [|discriminate]); injection Es as <-; try reflexivity.
        rewrite (Hp eq_refl) in El. congruence.
      - destruct (p_required p); [discriminate|]. exact (IH d0 Er). }
    change None with (d_virt draft0). apply (G lp); [|exact E]. unfold lp. repeat (constructor; [cbn [p_target p_name]; congruence|]). constructor. }
  rewrite V. cbn [virt_of]. rewrite Ct. eexists. reflexivity.
Qed.

Local Opaque read_params lp.
Lemma export_numbers g s : parse_export g = Some s ->
  s_name s = g_name g /\
  match last_value "maxconnections" (g_keys g) with
  | None => s_max s = 0
  | Some v => an_int v (s_max s)
  end /\
  match last_value "filesize" (g_keys g) with
  | None => s_size s = 0
  | Some v => exists n, a_number v n /\ (0 <= n < 9223372036854775808 -> s_size s = n) /\ s_size s = u64 (closest n)
  end.
Proof.
  unfold parse_export. intros Hp.
  destruct (read_params lp (g_keys g) draft0) as [d|] eqn:E; [|discriminate].
  destruct (virt_of (d_virt d)) as [[vs ci]|]; [|discriminate].
  destruct (contradictory (d_flags d)); [discriminate|]. injection Hp as <-. cbn [s_name s_max s_size].
  split; [reflexivity|]. split; [exact (read_max _ _ E)|]. pose proof (read_size _ _ E) as S.
  destruct (last_value "filesize" (g_keys g)); [|exact S]. destruct S as (n & S1 & S2). exists n. split; [exact S1|]. split; [|exact S2].
  intros Hn. rewrite S2. unfold closest. rewrite Z.min_r, Z.max_r by lia. unfold u64. apply Z.mod_small. lia.
Qed.
