(** Lemmas about reading the configuration. *)
From Coq Require Import String Ascii.
From Verif Require Import Base M_Const M_Acl M_Nego M_Conf S_Root S_Conf.
Open Scope list_scope.
Open Scope Z_scope.

Lemma lookup_last k l : lookup k l = last_value k l.
Proof.
  induction l as [|[k' v] t IH]; cbn [lookup last_value]; [reflexivity|].
  rewrite IH, String.eqb_sym. reflexivity.
Qed.

Lemma isspace_iff c : isspace c = true <-> c = 32 \/ 9 <= c <= 13.
Proof. unfold isspace. lia. Qed.

Lemma rtrim_split v : exists blanks, Forall (fun c => c = 32 \/ 9 <= c <= 13) blanks /\ v = rtrim v ++ blanks.
Proof.
  induction v as [|c t [bl [Hb Hv]]]; [exists []; split; [constructor|reflexivity]|].
  cbn [rtrim]. destruct (rtrim t) as [|x r] eqn:E.
  - destruct (isspace c) eqn:Ec.
    + exists (c :: bl). split; [constructor; [apply isspace_iff; exact Ec|exact Hb]|].
      cbn [app] in *. congruence.
    + exists bl. split; [exact Hb|]. cbn [app] in *. congruence.
  - exists bl. split; [exact Hb|]. cbn [app] in *. congruence.
Qed.

Lemma rtrim_blanks bl : Forall (fun c => c = 32 \/ 9 <= c <= 13) bl -> rtrim bl = [].
Proof.
  induction 1 as [|c t Hc _ IH]; [reflexivity|]. cbn [rtrim]. rewrite IH.
  apply isspace_iff in Hc. rewrite Hc. reflexivity.
Qed.

Lemma rtrim_app v c bl :
  isspace c = false -> Forall (fun c => c = 32 \/ 9 <= c <= 13) bl ->
  rtrim ((v ++ [c]) ++ bl) = v ++ [c].
Proof.
  intros Hc Hb. induction v as [|x t IH]; cbn [app rtrim].
  - rewrite (rtrim_blanks bl Hb), Hc. reflexivity.
  - rewrite IH. destruct t; reflexivity.
Qed.

Lemma is_text_iff v s : is_text v s = true <-> v = text s.
Proof. unfold is_text. destruct (list_eq_dec Z.eq_dec v (text s)); split; congruence. Qed.

Lemma as_bool_yes v : as_bool v = Some true <-> yes_value v.
Proof.
  unfold as_bool, yes_value. split.
  - intros H. destruct (rtrim_split v) as [bl [Hb Hv]]. exists bl. split; [exact Hb|].
    destruct (is_text (rtrim v) "true") eqn:E1.
    + apply is_text_iff in E1. left. rewrite Hv, E1. reflexivity.
    + destruct (is_text (rtrim v) "1") eqn:E2.
      * apply is_text_iff in E2. right. rewrite Hv, E2. reflexivity.
      * cbn [orb] in H. destruct (is_text (rtrim v) "false" || is_text (rtrim v) "0"); discriminate.
  - intros [bl [Hb [-> | ->]]].
    + pose proof (rtrim_app [116;114;117] 101 bl eq_refl Hb) as K. cbn [app] in K |- *.
      rewrite K. reflexivity.
    + pose proof (rtrim_app [] 49 bl eq_refl Hb) as K. cbn [app] in K |- *.
      rewrite K. reflexivity.
Qed.

Lemma yes_lookup k keys :
  says_yes k keys <-> exists v, lookup k keys = Some v /\ as_bool v = Some true.
Proof.
  unfold says_yes. split; intros [v [H1 H2]]; exists v; rewrite lookup_last in *;
    (split; [exact H1|apply as_bool_yes; exact H2]).
Qed.

(** ** Flags *)
Definition pow2 (f : Z) : Prop := 0 <= Z.log2 f /\ f = 2 ^ Z.log2 f.

Lemma put_flag_bit w f v b : pow2 f -> 0 <= b ->
  Z.testbit (put_flag w f v) b = if b =? Z.log2 f then v else Z.testbit w b.
Proof.
  intros [H0 H1] Hb. rewrite H1. set (k := Z.log2 f) in *.
  assert (K : Z.log2 (2 ^ k) = k) by (apply Z.log2_pow2; exact H0). rewrite K.
  unfold put_flag. destruct v.
  - rewrite Z.lor_spec, Z.pow2_bits_eqb by exact H0.
    destruct (b =? k) eqn:E; [replace (k =? b) with true by lia; apply orb_true_r|
      replace (k =? b) with false by lia; apply orb_false_r].
  - rewrite Z.ldiff_spec, Z.pow2_bits_eqb by exact H0.
    destruct (b =? k) eqn:E; [replace (k =? b) with true by lia; apply andb_false_r|
      replace (k =? b) with false by lia; apply andb_true_r].
Qed.

Definition pflag (p : param) : list (string * Z) :=
  match p_target p with TFlag f => [(p_name p, Z.log2 f)] | _ => [] end.

Lemma store_other t v d d' : store_param t v d = Some d' ->
  match t with TFlag _ => True | _ => d_flags d' = d_flags d end.
Proof.
  destruct t; cbn [store_param]; try (intros [= <-]; reflexivity); try exact (fun _ => I).
  - destruct (as_int64 v); [intros [= <-]; reflexivity|discriminate].
  - destruct (as_int v); [intros [= <-]; reflexivity|discriminate].
Qed.

Lemma read_params_bits keys ps : forall d d',
  Forall (fun p => match p_target p with TFlag f => pow2 f | _ => True end) ps ->
  NoDup (map snd (flat_map pflag ps)) ->
  read_params ps keys d = Some d' ->
  forall b, 0 <= b ->
  (Z.testbit (d_flags d') b = true <->
   (exists k, In (k, b) (flat_map pflag ps) /\ says_yes k keys)
   \/ (Z.testbit (d_flags d) b = true
       /\ forall k, In (k, b) (flat_map pflag ps) -> lookup k keys = None)).
Proof.
  induction ps as [|p t IH]; intros d d' Hp Hnd Hr b Hb; cbn [read_params flat_map] in *.
  - injection Hr as <-. split; [intros H; right; split; [exact H|intros k []]|].
    intros [[k [[] _]]|[H _]]; exact H.
  - inversion Hp as [|p' t' Hp1 Hp2]; subst p' t'. clear Hp.
    rewrite map_app in Hnd.
    assert (Hnd2 : NoDup (map snd (flat_map pflag t))).
    { clear -Hnd. induction (map snd (pflag p)) as [|x l IHl]; [exact Hnd|]. inversion Hnd. auto. }
    destruct (lookup (p_name p) keys) as [v|] eqn:El.
    + destruct (store_param (p_target p) v d) as [d1|] eqn:Es; [|discriminate].
      pose proof (IH d1 d' Hp2 Hnd2 Hr b Hb) as K. rewrite K. clear K.
      pose proof (store_other _ _ _ _ Es) as Ho.
      assert (Hpf : pflag p = match p_target p with TFlag f => [(p_name p, Z.log2 f)] | _ => [] end) by reflexivity.
      rewrite Hpf. destruct (p_target p) eqn:Et; try (rewrite Ho; reflexivity).
      cbn [store_param] in Es. destruct (as_bool v) as [x|] eqn:Eb; [|discriminate].
      injection Es as <-. cbn [d_flags]. rewrite (put_flag_bit _ _ _ _ Hp1 Hb).
      assert (Hnin : forall k, b = Z.log2 f -> ~ In (k, b) (flat_map pflag t)).
      { intros k Hbf Hin. rewrite Hpf in Hnd. cbn [map app snd] in Hnd.
        inversion Hnd as [|y l Hy _]. apply Hy. rewrite <- Hbf.
        apply (in_map snd) in Hin. exact Hin. }
      cbn [app]. destruct (b =? Z.log2 f) eqn:Ebf.
      * assert (Hbf : b = Z.log2 f) by lia. split.
        -- intros [[k [Hin _]]|[-> _]]; [destruct (Hnin k Hbf Hin)|].
           left. exists (p_name p). split; [left; congruence|].
           apply yes_lookup. exists v. split; [exact El|exact Eb].
        -- intros [[k [[Hk|Hin] Hy]]|[_ Hn]].
           ++ injection Hk as <- _. apply yes_lookup in Hy. destruct Hy as [v' [E1 E2]].
              rewrite El in E1. injection E1 as <-. rewrite Eb in E2. injection E2 as ->.
              right. split; [reflexivity|]. intros k Hin. destruct (Hnin k Hbf Hin).
           ++ destruct (Hnin k Hbf Hin).
           ++ specialize (Hn (p_name p) (or_introl (f_equal2 pair eq_refl (eq_sym Hbf)))). congruence.
      * assert (Hbf : b <> Z.log2 f) by lia. split.
        -- intros [[k [Hin Hy]]|[H Hn]].
           ++ left. exists k. split; [right; exact Hin|exact Hy].
           ++ right. split; [exact H|]. intros k [Hk|Hin]; [injection Hk as _ Hk; congruence|apply Hn; exact Hin].
        -- intros [[k [[Hk|Hin] Hy]]|[H Hn]].
           ++ injection Hk as _ Hk. congruence.
           ++ left. exists k. split; assumption.
           ++ right. split; [exact H|]. intros k Hin. apply Hn. right. exact Hin.
    + destruct (p_required p); [discriminate|].
      pose proof (IH d d' Hp2 Hnd2 Hr b Hb) as K. rewrite K. clear K.
      split.
      * intros [[k [Hin Hy]]|[H Hn]].
        -- left. exists k. split; [apply in_or_app; right; exact Hin|exact Hy].
        -- right. split; [exact H|]. intros k Hin. apply in_app_or in Hin. destruct Hin as [Hin|Hin]; [|auto].
           unfold pflag in Hin. destruct (p_target p); try solve [destruct Hin].
           destruct Hin as [Hk|[]]. injection Hk as <- _. exact El.
      * intros [[k [Hin Hy]]|[H Hn]].
        -- apply in_app_or in Hin. destruct Hin as [Hin|Hin]; [|left; exists k; split; assumption].
           unfold pflag in Hin. destruct (p_target p); try solve [destruct Hin].
           destruct Hin as [Hk|[]]. injection Hk as <- _. apply yes_lookup in Hy.
           destruct Hy as [v [E1 _]]. congruence.
        -- right. split; [exact H|]. intros k Hin. apply Hn. apply in_or_app. right. exact Hin.
Qed.

Lemma lp_pow2 : Forall (fun p => match p_target p with TFlag f => pow2 f | _ => True end) lp.
Proof. repeat constructor; vm_compute; congruence. Qed.
Lemma lp_nodup : NoDup (map snd (flat_map pflag lp)).
Proof.
  vm_compute. repeat (constructor; [cbn [In]; intuition congruence|]). constructor.
Qed.
Lemma lp_options : flat_map pflag lp = options.
Proof. vm_compute. reflexivity. Qed.
Lemma snd_unique (l : list (string * Z)) k k' b :
  NoDup (map snd l) -> In (k, b) l -> In (k', b) l -> k = k'.
Proof.
  induction l as [|[x y] t IH]; intros Hn H1 H2; [destruct H1|].
  cbn [map snd] in Hn. inversion Hn as [|z l' Hz Ht]; subst z l'.
  destruct H1 as [H1|H1], H2 as [H2|H2].
  - congruence.
  - injection H1 as _ ->. destruct Hz. apply (in_map snd) in H2. exact H2.
  - injection H2 as _ ->. destruct Hz. apply (in_map snd) in H1. exact H1.
  - exact (IH Ht H1 H2).
Qed.

Lemma read_flags_written keys d :
  read_params lp keys draft0 = Some d -> flags_as_written keys (d_flags d).
Proof.
  intros H b Hb. rewrite (read_params_bits keys lp draft0 d lp_pow2 lp_nodup H b Hb).
  cbn [draft0 d_flags]. rewrite Z.testbit_0_l. split.
  - intros [[k [Hin Hy]]|[E _]]; [|discriminate]. exists k. split; [rewrite lp_options in *; exact Hin|exact Hy].
  - intros [k [Hin Hy]]. left. exists k. split; [rewrite lp_options in *; exact Hin|exact Hy].
Qed.

Lemma flag_bit w k : 0 <= k -> flag w (2 ^ k) = Z.testbit w k.
Proof.
  intros Hk. unfold flag. destruct (Z.testbit w k) eqn:E.
  - apply negb_true_iff, Z.eqb_neq. intros K.
    assert (T : Z.testbit (Z.land w (2 ^ k)) k = true).
    { rewrite Z.land_spec, E, Z.pow2_bits_true by exact Hk. reflexivity. }
    rewrite K, Z.testbit_0_l in T. discriminate.
  - apply negb_false_iff, Z.eqb_eq. apply Z.bits_inj'. intros n Hn.
    rewrite Z.land_spec, Z.testbit_0_l, Z.pow2_bits_eqb by exact Hk.
    destruct (Z.eqb_spec k n) as [<-|]; [rewrite E; reflexivity|apply andb_false_r].
Qed.

Lemma option_bit keys d k b :
  read_params lp keys draft0 = Some d -> In (k, b) options -> 0 <= b ->
  (flag (d_flags d) (2 ^ b) = true <-> says_yes k keys).
Proof.
  intros H Hin Hb. rewrite (flag_bit _ _ Hb), (read_flags_written keys d H b Hb).
  split; [|intros Hy; exists k; split; assumption].
  intros [k' [Hin' Hy]]. replace k with k'; [exact Hy|].
  apply (snd_unique options k' k b); [rewrite <- lp_options; exact lp_nodup|exact Hin'|exact Hin].
Qed.

Lemma contradictory_clash keys d :
  read_params lp keys draft0 = Some d -> clash keys -> contradictory (d_flags d) = true.
Proof.
  intros H Hc. unfold contradictory.
  assert (O : forall k b, In (k, b) options -> 0 <= b -> says_yes k keys -> flag (d_flags d) (2 ^ b) = true)
    by (intros k b Hin Hb; apply (option_bit keys d k b H Hin Hb)).
  destruct Hc as [[H1 H2]|[[H1 H2]|[H1 H2]]].
  - pose proof (O _ 2 ltac:(unfold options; cbn [In]; tauto) ltac:(lia) H1) as K1.
    pose proof (O _ 15 ltac:(unfold options; cbn [In]; tauto) ltac:(lia) H2) as K2.
    change (2 ^ 2) with F_COPYONWRITE in K1. change (2 ^ 15) with F_SPLICE in K2.
    rewrite K1, K2. reflexivity.
  - pose proof (O _ 2 ltac:(unfold options; cbn [In]; tauto) ltac:(lia) H1) as K1.
    pose proof (O _ 16 ltac:(unfold options; cbn [In]; tauto) ltac:(lia) H2) as K2.
    change (2 ^ 2) with F_COPYONWRITE in K1. change (2 ^ 16) with F_WAIT in K2.
    rewrite K1, K2, !orb_true_r. reflexivity.
  - pose proof (O _ 17 ltac:(unfold options; cbn [In]; tauto) ltac:(lia) H1) as K1.
    pose proof (O _ 15 ltac:(unfold options; cbn [In]; tauto) ltac:(lia) H2) as K2.
    change (2 ^ 17) with F_DATALOG in K1. change (2 ^ 15) with F_SPLICE in K2.
    rewrite K1, K2, !orb_true_r. reflexivity.
Qed.

Lemma parse_export_ok g s : parse_export g = Some s ->
  s_name s = g_name g /\ flags_as_written (g_keys g) (s_flags s) /\ ~ clash (g_keys g).
Proof.
  unfold parse_export. intros H.
  destruct (read_params lp (g_keys g) draft0) as [d|] eqn:E; [|discriminate].
  destruct (virt_of (d_virt d)) as [[vs ci]|]; [|discriminate].
  destruct (contradictory (d_flags d)) eqn:Ec; [discriminate|]. injection H as <-.
  cbn [s_name s_flags]. split; [reflexivity|]. split; [apply read_flags_written; exact E|].
  intros Hc. rewrite (contradictory_clash _ _ E Hc) in Ec. discriminate.
Qed.

(** ** Strings are taken as written, and harmless sections are accepted *)
Lemma as_bool_no v : no_value v -> as_bool v = Some false.
Proof.
  unfold as_bool. intros [bl [Hb [-> | ->]]].
  - pose proof (rtrim_app [102;97;108;115] 101 bl eq_refl Hb) as K. cbn [app] in K |- *.
    rewrite K. reflexivity.
  - pose proof (rtrim_app [] 48 bl eq_refl Hb) as K. cbn [app] in K |- *.
    rewrite K. reflexivity.
Qed.

Lemma read_params_cons p t keys d :
  read_params (p :: t) keys d =
  match lookup (p_name p) keys with
  | None => if p_required p then None else read_params t keys d
  | Some v => match store_param (p_target p) v d with
              | None => None
              | Some d' => read_params t keys d'
              end
  end.
Proof. reflexivity. Qed.

Lemma read_params_string keys (proj : draft -> option (list Z)) (tg : target) ps : forall d d',
  (forall v d, exists d', store_param tg v d = Some d' /\ proj d' = Some v) ->
  (forall t v d d', t <> tg -> store_param t v d = Some d' -> proj d' = proj d) ->
  NoDup (map p_target ps) ->
  read_params ps keys d = Some d' ->
  (forall p, In p ps -> p_target p = tg -> proj d' = match lookup (p_name p) keys with Some v => Some v | None => proj d end)
  /\ ((forall p, In p ps -> p_target p <> tg) -> proj d' = proj d).
Proof.
  intros d d' Hs Ho. revert d d'.
  induction ps as [|p t IH]; intros d d' Hnd Hr.
  - injection Hr as <-. split; [intros p []|reflexivity].
  - rewrite read_params_cons in Hr. cbn [map] in Hnd. inversion Hnd as [|x l Hx Ht]; subst x l.
    assert (Hsame : forall q, In q t -> p_target q = tg -> p_target p <> tg).
    { intros q Hq Hqt E. apply Hx. rewrite E, <- Hqt. apply in_map. exact Hq. }
    destruct (lookup (p_name p) keys) as [v|] eqn:El.
    + destruct (store_param (p_target p) v d) as [d1|] eqn:Es; [|discriminate].
      destruct (IH d1 d' Ht Hr) as [K1 K2]. split.
      * intros q [<-|Hq] Hqt.
        -- rewrite El. destruct (Hs v d) as [d2 [E1 E2]]. rewrite Hqt, E1 in Es. injection Es as <-.
           rewrite K2; [exact E2|]. intros q Hq Hq2. exact (Hsame q Hq Hq2 Hqt).
        -- rewrite (K1 q Hq Hqt). rewrite (Ho _ _ _ _ (Hsame q Hq Hqt) Es). reflexivity.
      * intros Hn. rewrite K2; [|intros q Hq; apply Hn; right; exact Hq].
        exact (Ho _ _ _ _ (Hn p (or_introl eq_refl)) Es).
    + destruct (p_required p); [discriminate|]. destruct (IH d d' Ht Hr) as [K1 K2]. split.
      * intros q [<-|Hq] Hqt; [|exact (K1 q Hq Hqt)]. rewrite El. apply K2.
        intros q Hq Hq2. exact (Hsame q Hq Hq2 Hqt).
      * intros Hn. apply K2. intros q Hq. apply Hn. right. exact Hq.
Qed.

Lemma lp_targets : NoDup (map p_target lp).
Proof. unfold lp. cbn [map p_target]. repeat (constructor; [cbn [In]; intuition discriminate|]). constructor. Qed.

Definition string_targets : list (string * target * (draft -> option (list Z))) :=
  [("exportname"%string, TExport, d_export); ("authfile"%string, TAuth, d_auth);
   ("prerun"%string, TPrerun, d_prerun); ("postrun"%string, TPostrun, d_postrun);
   ("transactionlog"%string, TLog, d_log); ("cowdir"%string, TCow, d_cow); ("listenaddr"%string, TListen, d_listen)].

Lemma read_strings keys d :
  read_params lp keys draft0 = Some d ->
  d_export d = last_value "exportname" keys /\ d_auth d = last_value "authfile" keys
  /\ d_prerun d = last_value "prerun" keys /\ d_postrun d = last_value "postrun" keys
  /\ d_log d = last_value "transactionlog" keys /\ d_cow d = last_value "cowdir" keys
  /\ d_listen d = last_value "listenaddr" keys.
Proof.
  intros H.
  assert (G : forall k tg proj b, In (mkPar k b tg) lp -> proj draft0 = None ->
    (forall v d, exists d', store_param tg v d = Some d' /\ proj d' = Some v) ->
    (forall t v d d', t <> tg -> store_param t v d = Some d' -> proj d' = proj d) ->
    proj d = last_value k keys).
  { intros k tg proj b Hin H0 Hs Ho.
    destruct (read_params_string keys proj tg lp draft0 d Hs Ho lp_targets H) as [K _].
    specialize (K _ Hin eq_refl). cbn [p_name] in K. rewrite lookup_last, H0 in K.
    destruct (last_value k keys); exact K. }
  assert (Ho : forall (proj : draft -> option (list Z)) tg,
     In (tg, proj) [(TExport, d_export); (TAuth, d_auth); (TPrerun, d_prerun); (TPostrun, d_postrun);
                    (TLog, d_log); (TCow, d_cow); (TListen, d_listen)] ->
     forall t v d d', t <> tg -> store_param t v d = Some d' -> proj d' = proj d).
  { intros proj tg Hin t v d0 d1 Hn Hst.
    destruct t; cbn [store_param] in Hst;
      try (destruct (as_int64 v); [|discriminate]); try (destruct (as_int v); [|discriminate]);
      try (destruct (as_bool v); [|discriminate]); injection Hst as <-;
      cbn [In] in Hin; repeat (destruct Hin as [Hin|Hin]; [injection Hin as <- <-; first [reflexivity|congruence]|]); destruct Hin. }
  split; [apply (G "exportname"%string TExport d_export true)|split; [apply (G "authfile"%string TAuth d_auth false)|
  split; [apply (G "prerun"%string TPrerun d_prerun false)|split; [apply (G "postrun"%string TPostrun d_postrun false)|
  split; [apply (G "transactionlog"%string TLog d_log false)|split; [apply (G "cowdir"%string TCow d_cow false)|
  apply (G "listenaddr"%string TListen d_listen false)]]]]]];
  try reflexivity; try (apply Ho; cbn [In]; tauto); try (unfold lp; cbn [In]; tauto);
  intros v d0; eexists; (split; [reflexivity|reflexivity]).
Qed.

Lemma parse_export_strings g s : parse_export g = Some s ->
  s_export s = last_value "exportname" (g_keys g) /\ s_auth s = last_value "authfile" (g_keys g)
  /\ s_prerun s = last_value "prerun" (g_keys g) /\ s_postrun s = last_value "postrun" (g_keys g)
  /\ s_log s = last_value "transactionlog" (g_keys g) /\ s_cow s = last_value "cowdir" (g_keys g)
  /\ s_listen s = last_value "listenaddr" (g_keys g).
Proof.
  unfold parse_export. intros H.
  destruct (read_params lp (g_keys g) draft0) as [d|] eqn:E; [|discriminate].
  destruct (virt_of (d_virt d)) as [[vs ci]|]; [|discriminate].
  destruct (contradictory (d_flags d)) eqn:Ec; [discriminate|]. injection H as <-.
  cbn [s_export s_auth s_prerun s_postrun s_log s_cow s_listen]. exact (read_strings _ _ E).
Qed.

Lemma read_params_some keys ps : forall d,
  (forall p, In p ps -> lookup (p_name p) keys = None -> p_required p = false) ->
  (forall p v, In p ps -> lookup (p_name p) keys = Some v -> forall d, exists d', store_param (p_target p) v d = Some d') ->
  exists d', read_params ps keys d = Some d'.
Proof.
  induction ps as [|p t IH]; intros d H1 H2; [exists d; reflexivity|]. rewrite read_params_cons.
  destruct (lookup (p_name p) keys) as [v|] eqn:El.
  - destruct (H2 p v (or_introl eq_refl) El d) as [d1 E]. rewrite E. apply IH.
    + intros q Hq. apply H1. right. exact Hq.
    + intros q w Hq. apply H2. right. exact Hq.
  - rewrite (H1 p (or_introl eq_refl) El). apply IH.
    + intros q Hq. apply H1. right. exact Hq.
    + intros q w Hq. apply H2. right. exact Hq.
Qed.

Lemma says_yes_dec k keys : says_yes k keys \/ ~ says_yes k keys.
Proof.
  destruct (lookup k keys) as [v|] eqn:E.
  - destruct (as_bool v) as [[|]|] eqn:B.
    + left. apply yes_lookup. exists v. auto.
    + right. intros H. apply yes_lookup in H. destruct H as [w [H1 H2]]. congruence.
    + right. intros H. apply yes_lookup in H. destruct H as [w [H1 H2]]. congruence.
  - right. intros H. apply yes_lookup in H. destruct H as [w [H1 H2]]. congruence.
Qed.

Lemma contradictory_only keys d :
  read_params lp keys draft0 = Some d -> ~ clash keys -> ~ says_yes "sdp" keys -> contradictory (d_flags d) = false.
Proof.
  intros H Hc Hs. unfold contradictory.
  assert (O : forall k b, In (k, b) options -> 0 <= b -> flag (d_flags d) (2 ^ b) = true -> says_yes k keys)
    by (intros k b Hin Hb; apply (option_bit keys d k b H Hin Hb)).
  assert (O2 := O "copyonwrite"%string 2 ltac:(unfold options; cbn [In]; tauto) ltac:(lia)).
  assert (O15 := O "splice"%string 15 ltac:(unfold options; cbn [In]; tauto) ltac:(lia)).
  assert (O16 := O "waitfile"%string 16 ltac:(unfold options; cbn [In]; tauto) ltac:(lia)).
  assert (O17 := O "datalog"%string 17 ltac:(unfold options; cbn [In]; tauto) ltac:(lia)).
  assert (O5 := O "sdp"%string 5 ltac:(unfold options; cbn [In]; tauto) ltac:(lia)).
  change (2 ^ 2) with F_COPYONWRITE in O2. change (2 ^ 15) with F_SPLICE in O15.
  change (2 ^ 16) with F_WAIT in O16. change (2 ^ 17) with F_DATALOG in O17. change (2 ^ 5) with F_SDP in O5.
  unfold clash in Hc.
  destruct (flag (d_flags d) F_COPYONWRITE), (flag (d_flags d) F_SPLICE), (flag (d_flags d) F_WAIT),
    (flag (d_flags d) F_DATALOG), (flag (d_flags d) F_SDP); try reflexivity; exfalso; tauto.
Qed.

Lemma harmless_accepted g :
  last_value "exportname" (g_keys g) <> None -> well_formed (g_keys g) ->
  last_value "virtstyle" (g_keys g) = None -> last_value "filesize" (g_keys g) = None ->
  last_value "maxconnections" (g_keys g) = None ->
  ~ clash (g_keys g) -> ~ says_yes "sdp" (g_keys g) ->
  exists s, parse_export g = Some s /\ s_max s = 0 /\ s_virt s = VirtIplit.
Proof.
  intros He Hw Hv Hf Hm Hc Hs. rewrite <- lookup_last in *.
  destruct (read_params_some (g_keys g) lp draft0) as [d E].
  - intros p Hin Hn. unfold lp in Hin. cbn [In] in Hin.
    repeat (destruct Hin as [<-|Hin]; [cbn [p_name p_required] in *; first [reflexivity|congruence]|]). destruct Hin.
  - intros p v Hin Hl d0.
    assert (B : forall f, p_target p = TFlag f -> exists b, as_bool v = Some b).
    { intros f Ef. assert (Hp : In (p_name p, Z.log2 f) options).
      { rewrite <- lp_options. apply in_flat_map. exists p. split; [exact Hin|].
        unfold pflag. rewrite Ef. left. reflexivity. }
      destruct (Hw _ _ v Hp) as [Y|N]; [rewrite <- lookup_last; exact Hl| |].
      - exists true. apply as_bool_yes. exact Y.
      - exists false. apply as_bool_no. exact N. }
    unfold lp in Hin. cbn [In] in Hin.
    repeat (destruct Hin as [<-|Hin];
      [cbn [p_name p_target] in *;
       first [congruence | destruct (B _ eq_refl) as [b Eb]; cbn [store_param]; rewrite Eb; eexists; reflexivity
             | cbn [store_param]; eexists; reflexivity]|]). destruct Hin.
  - pose proof (contradictory_only _ _ E Hc Hs) as Ct. unfold parse_export. rewrite E.
    assert (V : d_virt d = None /\ d_max d = 0).
    { clear -E Hv Hm.
      assert (Hps : Forall (fun p => (p_target p = TVirt -> p_name p = "virtstyle"%string)
                                   /\ (p_target p = TMax -> p_name p = "maxconnections"%string)) lp).
      { unfold lp. repeat (constructor; [cbn [p_target p_name]; split; [congruence|congruence]|]). constructor. }
      assert (G : forall ps, Forall (fun p => (p_target p = TVirt -> p_name p = "virtstyle"%string)
                                   /\ (p_target p = TMax -> p_name p = "maxconnections"%string)) ps ->
                 forall d0, read_params ps (g_keys g) d0 = Some d -> d_virt d = d_virt d0 /\ d_max d = d_max d0);
        [|exact (G lp Hps draft0 E)].
      clear E Hps. induction 1 as [|p t Hp _ IH]; intros d0 Er.
      - injection Er as <-. split; reflexivity.
      - rewrite read_params_cons in Er. destruct (lookup (p_name p) (g_keys g)) as [v|] eqn:El.
        + destruct (store_param (p_target p) v d0) as [d1|] eqn:Es; [|discriminate].
          destruct (IH d1 Er) as [I1 I2]. destruct Hp as [P1 P2].
          destruct (p_target p); cbn [store_param] in Es;
            try (destruct (as_int64 v); [|discriminate]); try (destruct (as_int v); [|discriminate]);
            try (destruct (as_bool v); [|discriminate]); injection Es as <-; try (split; assumption).
          * rewrite (P1 eq_refl) in El. congruence.
          * rewrite (P2 eq_refl) in El. congruence.
        + destruct (p_required p); [discriminate|]. exact (IH d0 Er). }
    destruct V as [V1 V2]. rewrite V1. cbn [virt_of]. rewrite Ct. eexists. split; [reflexivity|].
    cbn [s_max s_virt]. split; [exact V2|reflexivity].
Qed.

Local Opaque read_params lp virt_of parse_export.
Lemma parse_exports_ok flags gs : forall acc l,
  parse_exports gs flags acc = inr l ->
  exists l', l = acc ++ l' /\ map (fun s => Some s) l' = map parse_export gs.
Proof.
  induction gs as [|g t IH]; intros acc l H; cbn [parse_exports] in H.
  - injection H as <-. exists []. rewrite app_nil_r. split; reflexivity.
  - destruct (read_params lp (g_keys g) draft0); [|discriminate].
    destruct (virt_of (d_virt d)); [|discriminate].
    destruct (flag flags F_OLDSTYLE); [discriminate|].
    destruct (parse_export g) as [s|] eqn:E; [|discriminate].
    destruct (IH _ _ H) as [l' [-> Hl]]. exists (s :: l'). rewrite <- app_assoc.
    split; [reflexivity|]. cbn [map]. rewrite E, Hl. reflexivity.
Qed.

Lemma parse_exports_in gs l s :
  map (fun s => Some s) l = map parse_export gs -> In s l -> exists g, In g gs /\ parse_export g = Some s.
Proof.
  intros H Hin. apply (in_map (fun s => Some s)) in Hin. rewrite H in Hin.
  apply in_map_iff in Hin. destruct Hin as [g [E Hg]]. exists g. split; assumption.
Qed.

Lemma parse_exports_clash flags gs g acc :
  In g gs -> clash (g_keys g) -> exists e, parse_exports gs flags acc = inl e.
Proof.
  intros Hin Hc. destruct (parse_exports gs flags acc) as [e|l] eqn:E; [exists e; reflexivity|exfalso].
  destruct (parse_exports_ok _ _ _ _ E) as [l' [_ Hm]].
  apply (in_map parse_export) in Hin. rewrite <- Hm in Hin. apply in_map_iff in Hin.
  destruct Hin as [s [Es _]]. symmetry in Es. destruct (parse_export_ok _ _ Es) as [_ [_ Hn]]. exact (Hn Hc).
Qed.

(** ** Included directory *)
Lemma conf_name_ends n : conf_name n = true -> ends_conf n.
Proof.
  unfold conf_name. intros H. apply andb_prop in H. destruct H as [H1 H2]. apply is_text_iff in H2.
  exists (firstn (Z.to_nat (zlen n - 5)) n). rewrite <- (firstn_skipn (Z.to_nat (zlen n - 5)) n) at 1.
  rewrite H2. reflexivity.
Qed.

Lemma do_dir_ok c es : forall acc l err,
  do_cfile_dir es c acc = DirOk l err ->
  (err = true -> l = None)
  /\ (forall s x, l = Some x -> In s x -> (exists y, acc = Some y /\ In s y)
       \/ exists e gs g, In e es /\ de_regular e = true /\ ends_conf (de_name e) /\ de_file e = Some gs
            /\ In g gs /\ parse_export g = Some s)
  /\ (l = None -> err = false -> acc = None).
Proof.
  induction es as [|e t IH]; intros acc l err H; cbn [do_cfile_dir] in H.
  - injection H as <- <-. split; [discriminate|]. split; [|auto].
    intros s x -> Hin. left. exists x. split; [reflexivity|exact Hin].
  - destruct (de_regular e && conf_name (de_name e)) eqn:Ee.
    + apply andb_prop in Ee. destruct Ee as [Er Ec].
      destruct (cf_err (parse_included (de_file e) c)) eqn:Er2.
      * injection H as <- <-. split; [auto|]. split; [discriminate|]. discriminate.
      * destruct (cf_list (parse_included (de_file e) c)) as [l1|] eqn:El; [|discriminate].
        destruct (IH _ _ _ H) as [K1 [K2 K3]]. split; [exact K1|]. split.
        -- intros s x Hl Hin. destruct (K2 s x Hl Hin) as [[y [Hy Hs]]|K].
           ++ injection Hy as <-. apply in_app_or in Hs. destruct Hs as [Hs|Hs].
              ** left. destruct acc as [a|]; [exists a; split; [reflexivity|exact Hs]|destruct Hs].
              ** right. unfold parse_included in El, Er2. destruct (de_file e) as [gs|] eqn:Ef; [|discriminate].
                 destruct (parse_exports gs (gc_flags c) []) as [b|l2] eqn:Ep; [discriminate|].
                 cbn [cf_list] in El. injection El as ->.
                 destruct (parse_exports_ok _ _ _ _ Ep) as [l' [El2 Hm]]. cbn [app] in El2. subst l'.
                 destruct (parse_exports_in _ _ _ Hm Hs) as [g [Hg Hps]].
                 exists e, gs, g. repeat split; auto using conf_name_ends. left; reflexivity.
           ++ right. destruct K as [e' [gs [g [Hin' K]]]]. exists e', gs, g. split; [right; exact Hin'|exact K].
        -- intros Hl He. specialize (K3 Hl He). discriminate.
    + destruct (IH _ _ _ H) as [K1 [K2 K3]]. split; [exact K1|]. split; [|exact K3].
      intros s x Hl Hin. destruct (K2 s x Hl Hin) as [K|[e' [gs [g [Hin' K]]]]]; [left; exact K|].
      right. exists e', gs, g. split; [right; exact Hin'|exact K].
Qed.

Lemma do_dir_no_ub c es : flag (gc_flags c) F_OLDSTYLE = false -> forall acc, do_cfile_dir es c acc <> DirUb.
Proof.
  intros Hf. induction es as [|e t IH]; intros acc; cbn [do_cfile_dir]; [discriminate|].
  destruct (de_regular e && conf_name (de_name e)); [|apply IH].
  destruct (parse_included (de_file e) c) as [l err g] eqn:E. cbn [cf_err cf_list].
  destruct err; [discriminate|]. destruct l as [l|]; [apply IH|].
  exfalso. unfold parse_included in E. destruct (de_file e) as [gs|]; [|discriminate].
  assert (K : forall acc b, parse_exports gs (gc_flags c) acc = inl b -> b = true).
  { clear -Hf. induction gs as [|g0 t0 IHg]; intros acc b H; cbn [parse_exports] in H; [discriminate|].
    destruct (read_params lp (g_keys g0) draft0); [|injection H as <-; reflexivity].
    destruct (virt_of (d_virt d)); [|injection H as <-; reflexivity].
    rewrite Hf in H. destruct (parse_export g0); [eapply IHg; exact H|injection H as <-; reflexivity]. }
  destruct (parse_exports gs (gc_flags c) []) as [b|l] eqn:Ep; [|discriminate].
  rewrite (K _ _ Ep) in E. discriminate.
Qed.

(** ** The whole file *)
Lemma parse_cfile_ok dir gs c r l :
  parse_cfile dir (Some gs) c = PcfRet r -> cf_list r = Some l ->
  forall s, In s l -> exists g, section dir gs g /\ parse_export g = Some s.
Proof.
  unfold parse_cfile. destruct gs as [|g gs]; [intros [= <-]; discriminate|].
  destruct (negb (is_text (g_name g) "generic")); [intros [= <-]; discriminate|].
  destruct (parse_generic g _) as [c1|] eqn:Eg; [|intros [= <-]; discriminate].
  destruct (flag (gc_flags c1) F_OLDSTYLE); [intros [= <-]; discriminate|].
  destruct (parse_exports gs (gc_flags c1) []) as [b|l1] eqn:Ep; [intros [= <-]; discriminate|].
  destruct (parse_exports_ok _ _ _ _ Ep) as [l' [El Hm]]. cbn [app] in El. subst l'.
  assert (Hmain : forall s, In s l1 -> exists g0, section dir (g :: gs) g0 /\ parse_export g0 = Some s).
  { intros s Hs. destruct (parse_exports_in _ _ _ Hm Hs) as [g0 [Hg Hps]]. exists g0. split; [left; exact Hg|exact Hps]. }
  assert (Hdir : gc_dir c1 = last_value "includedir" (g_keys g)).
  { unfold parse_generic in Eg. destruct (read_flags _ _ _); [|discriminate].
    destruct (match lookup "max_threads" (g_keys g) with Some v => as_int v | None => _ end); [|discriminate].
    injection Eg as <-. cbn [gc_dir]. rewrite lookup_last. destruct (last_value _ _); reflexivity. }
  destruct (gc_dir c1) as [d|] eqn:Ed; [|intros [= <-] [= <-]; exact Hmain].
  destruct (dir d) as [es|] eqn:Edir; [|intros [= <-]; discriminate].
  destruct (do_cfile_dir es c1 None) as [[x|] err|] eqn:Edo; [| |discriminate].
  - intros [= <-] [= <-] s Hs. apply in_app_or in Hs. destruct Hs as [Hs|Hs]; [exact (Hmain s Hs)|].
    destruct (do_dir_ok _ _ _ _ _ Edo) as [_ [K _]].
    destruct (K s x eq_refl Hs) as [[y [Hy _]]|K2]; [discriminate|].
    destruct K2 as [e [gs' [g0 [H1 [H2 [H3 [H4 [H5 H6]]]]]]]].
    exists g0. split; [|exact H6]. right. exists d, es, e, gs'. repeat split; auto.
  - destruct err; [intros [= <-]; discriminate|]. intros [= <-] [= <-]. exact Hmain.
Qed.

Lemma parse_cfile_clash dir g gs c r g0 :
  parse_cfile dir (Some (g :: gs)) c = PcfRet r -> In g0 gs -> clash (g_keys g0) -> cf_list r = None.
Proof.
  unfold parse_cfile. intros H Hin Hc.
  destruct (negb (is_text (g_name g) "generic")); [injection H as <-; reflexivity|].
  destruct (parse_generic g _) as [c1|]; [|injection H as <-; reflexivity].
  destruct (flag (gc_flags c1) F_OLDSTYLE); [injection H as <-; reflexivity|].
  destruct (parse_exports_clash (gc_flags c1) gs g0 [] Hin Hc) as [e E]. rewrite E in H.
  injection H as <-. reflexivity.
Qed.

Lemma oldstyle_yes g c c1 :
  flag (gc_flags c) F_OLDSTYLE = false -> parse_generic g c = Some c1 ->
  flag (gc_flags c1) F_OLDSTYLE = true -> says_yes "oldstyle" (g_keys g).
Proof.
  intros Hc Hp Hf. unfold parse_generic in Hp.
  destruct (read_flags gp_flags (g_keys g) (gc_flags c)) as [w|] eqn:Er; [|discriminate].
  destruct (match lookup "max_threads" (g_keys g) with Some v => as_int v | None => _ end); [|discriminate].
  injection Hp as <-. cbn [gc_flags] in Hf.
  assert (P : pow2 F_OLDSTYLE /\ pow2 F_LIST /\ pow2 F_DUAL_LISTEN /\ pow2 F_FORCEDTLS).
  { repeat split; vm_compute; congruence. }
  destruct P as [P1 [P2 [P3 P4]]].
  assert (B : forall w f v, pow2 f -> Z.log2 f <> 0 -> flag (put_flag w f v) F_OLDSTYLE = flag w F_OLDSTYLE).
  { intros w0 f v Pf Hl. change F_OLDSTYLE with (2 ^ 0). rewrite !flag_bit by lia.
    rewrite put_flag_bit by (auto; lia). replace (0 =? Z.log2 f) with false by lia. reflexivity. }
  unfold gp_flags in Er. cbn [read_flags] in Er.
  apply yes_lookup.
  assert (R : forall w0 w1, read_flags [("allowlist"%string, F_LIST); ("duallisten"%string, F_DUAL_LISTEN); ("force_tls"%string, F_FORCEDTLS)] (g_keys g) w0 = Some w1
               -> flag w1 F_OLDSTYLE = flag w0 F_OLDSTYLE).
  { intros w0 w1 H. cbn [read_flags] in H.
    destruct (lookup "allowlist" (g_keys g)) as [v1|]; [destruct (as_bool v1); [|discriminate]|];
    (destruct (lookup "duallisten" (g_keys g)) as [v2|]; [destruct (as_bool v2); [|discriminate]|]);
    (destruct (lookup "force_tls" (g_keys g)) as [v3|]; [destruct (as_bool v3); [|discriminate]|]);
    injection H as <-; rewrite ?B; try assumption; try reflexivity; vm_compute; congruence. }
  destruct (lookup "oldstyle" (g_keys g)) as [v|] eqn:El.
  - destruct (as_bool v) as [b|] eqn:Eb; [|discriminate]. exists v. split; [reflexivity|].
    rewrite (R _ _ Er) in Hf. destruct b; [exact Eb|exfalso].
    change F_OLDSTYLE with (2 ^ 0) in Hf. rewrite flag_bit in Hf by lia.
    change (2 ^ 0) with F_OLDSTYLE in Hf.
    rewrite put_flag_bit in Hf by (auto; lia). discriminate.
  - exfalso. rewrite (R _ _ Er) in Hf. congruence.
Qed.

Lemma parse_cfile_undefined dir file c :
  flag (gc_flags c) F_OLDSTYLE = false ->
  match parse_cfile dir file c with
  | PcfUb => False
  | PcfRet r => flag (gc_flags (cf_gen r)) F_OLDSTYLE = false
      /\ (cf_list r = None -> cf_err r = false -> wants_oldstyle (M_Root.EvHup dir file))
  end.
Proof.
  intros Hc. unfold parse_cfile. set (c0 := mkGen (gc_flags c) (gc_threads c) None).
  assert (Hc0 : flag (gc_flags c0) F_OLDSTYLE = false) by exact Hc.
  destruct file as [[|g gs]|]; [split; [exact Hc0|discriminate]| |split; [exact Hc0|discriminate]].
  destruct (negb (is_text (g_name g) "generic")); [split; [exact Hc0|discriminate]|].
  destruct (parse_generic g c0) as [c1|] eqn:Eg; [|split; [exact Hc0|discriminate]].
  destruct (flag (gc_flags c1) F_OLDSTYLE) eqn:Ef.
  - split; [exact Hc0|]. intros _ _. exact (oldstyle_yes g c0 c1 Hc0 Eg Ef).
  - destruct (parse_exports gs (gc_flags c1) []) as [b|l] eqn:Ep.
    + split; [exact Hc0|]. intros _ Hb. cbn [cf_err] in Hb. subst b. exfalso.
      assert (K : forall acc, parse_exports gs (gc_flags c1) acc <> inl false).
      { clear -Ef. induction gs as [|g0 t0 IHg]; intros acc; cbn [parse_exports]; [discriminate|].
        destruct (read_params lp (g_keys g0) draft0); [|discriminate].
        destruct (virt_of (d_virt d)); [|discriminate].
        rewrite Ef. destruct (parse_export g0); [apply IHg|discriminate]. }
      exact (K _ Ep).
    + destruct (gc_dir c1) as [d|]; [|split; [exact Ef|discriminate]].
      destruct (dir d) as [es|]; [|split; [exact Hc0|discriminate]].
      pose proof (do_dir_no_ub c1 es Ef None) as Hu.
      destruct (do_cfile_dir es c1 None) as [[x|] [|]|]; try (split; [assumption|discriminate]).
      destruct (Hu eq_refl).
Qed.
