(** Proofs about nbdtab and the command line of nbd-client. *)
From Coq Require Import String.
From Verif Require Import Base M_Acl M_Nego M_Conf M_Tab S_Tab.
Local Open Scope list_scope.

(** ** lexer *)
Lemma span_app p a r : Forall (fun c => p c = true) a -> match r with [] => True | c :: _ => p c = false end ->
  span p (a ++ r) = (a, r).
Proof.
  intros Ha Hr. induction Ha as [|c a Hc Ha IH]; cbn [app].
  - destruct r as [|c r]; [reflexivity|]. cbn [span]. now rewrite Hr.
  - cbn [span]. now rewrite Hc, IH.
Qed.

Lemma word_char_str c : word_char c -> stringy c = true /\ negb (c =? 0) = true /\ blank c = false /\ c <> 10 /\ c <> 44 /\ c <> 61.
Proof.
  unfold word_char, stringy, blank. cbn [In]. intros H.
  repeat split; try (intros ->; apply H; tauto).
  - apply negb_true_iff. repeat (apply orb_false_iff; split); apply Z.eqb_neq; intros ->; apply H; tauto.
  - apply negb_true_iff, Z.eqb_neq. intros ->; apply H; tauto.
  - repeat (apply orb_false_iff; split); apply Z.eqb_neq; intros ->; apply H; tauto.
Qed.

Definition ends_word (r : list Z) : Prop := match r with [] => True | c :: _ => stringy c = false end.

Lemma lex_word f w r : word w -> ends_word r -> (length (w ++ r) <= f)%nat ->
  exists f', (length r <= f')%nat /\ lex f (w ++ r) = TStr w :: lex f' r.
Proof.
  intros [Hw [c [t [-> Hc]]]] Hr Hf. destruct f as [|f]; [cbn in Hf; lia|].
  exists f. split. { cbn [app length] in Hf. rewrite app_length in Hf. lia. }
  cbn [app lex]. rewrite (proj2 (Z.eqb_neq c 35) Hc).
  pose proof (word_char_str _ (Forall_inv Hw)) as [Hs [H0 [Hb [H10 [H44 H61]]]]].
  rewrite Hb, (proj2 (Z.eqb_neq c 10) H10), (proj2 (Z.eqb_neq c 44) H44), (proj2 (Z.eqb_neq c 61) H61).
  change (c :: t ++ r) with ((c :: t) ++ r).
  rewrite span_app; [|eapply Forall_impl; [|exact Hw]; intros a Ha; now apply word_char_str|exact Hr].
  cbn [fst snd]. f_equal. f_equal. unfold cut0.
  rewrite <- (app_nil_r (c :: t)) at 1. rewrite span_app; [reflexivity| |exact I].
  eapply Forall_impl; [|exact Hw]; intros a Ha; now apply word_char_str.
Qed.

Lemma lex_blanks f w r : blanks w -> match r with [] => True | c :: _ => blank c = false end -> (length (w ++ r) <= f)%nat ->
  exists f', (length r <= f')%nat /\ lex f (w ++ r) = TSpace :: lex f' r.
Proof.
  intros [Hn Hw] Hr Hf. destruct w as [|c t]; [congruence|]. destruct f as [|f]; [cbn in Hf; lia|].
  exists f. split. { cbn [app length] in Hf. rewrite app_length in Hf. lia. }
  assert (Hb : forall a, a = 32 \/ a = 9 -> blank a = true) by (intros a [-> | ->]; reflexivity).
  cbn [app lex]. pose proof (Forall_inv Hw) as Hc.
  assert (c <> 35) by (destruct Hc; lia).
  rewrite (proj2 (Z.eqb_neq c 35)), (Hb c Hc); [|assumption].
  rewrite span_app; [reflexivity| |exact Hr].
  eapply Forall_impl; [|exact (Forall_inv_tail Hw)]. exact Hb.
Qed.

Lemma lex_nl f (r : list Z) : (length (10%Z :: r) <= f)%nat -> exists f', (length r <= f')%nat /\ lex f (10 :: r) = TNl :: lex f' r.
Proof. intros Hf. destruct f as [|f]; [cbn in Hf; lia|]. exists f. cbn [length] in Hf. split; [lia|reflexivity]. Qed.
Lemma lex_comma f (r : list Z) : (length (44%Z :: r) <= f)%nat -> exists f', (length r <= f')%nat /\ lex f (44 :: r) = TComma :: lex f' r.
Proof. intros Hf. destruct f as [|f]; [cbn in Hf; lia|]. exists f. cbn [length] in Hf. split; [lia|reflexivity]. Qed.
Lemma lex_eq f (r : list Z) : (length (61%Z :: r) <= f)%nat -> exists f', (length r <= f')%nat /\ lex f (61 :: r) = TEq :: lex f' r.
Proof. intros Hf. destruct f as [|f]; [cbn in Hf; lia|]. exists f. cbn [length] in Hf. split; [lia|reflexivity]. Qed.
Lemma lex_comment f c r : ~ In 10 c -> (length (35%Z :: c ++ 10%Z :: r) <= f)%nat ->
  exists f', (length r <= f')%nat /\ lex f (35 :: c ++ 10 :: r) = lex f' r.
Proof.
  intros Hc Hf. destruct f as [|f]; [cbn in Hf; lia|].
  cbn [length] in Hf. rewrite app_length in Hf. cbn [length] in Hf.
  exists f. split; [lia|]. cbn [lex]. change (35 =? 35) with true. cbn match.
  rewrite span_app; [reflexivity| |reflexivity].
  apply Forall_forall. intros x Hx. apply negb_true_iff, Z.eqb_neq. intros ->. contradiction.
Qed.

(** tokens of the parts *)
Definition opt_toks (o : list Z * option (list Z)) : list tok :=
  match snd o with Some v => [TStr (fst o); TEq; TStr v] | None => [TStr (fst o)] end.
Fixpoint opts_toks (l : list (list Z * option (list Z))) : list tok :=
  match l with [] => [] | [o] => opt_toks o | o :: l => opt_toks o ++ [TComma] ++ opts_toks l end.
Definition entry_toks (e : entry) : list tok :=
  [TStr (e_dev e); TSpace; TStr (e_hostn e); TSpace; TStr (e_export e)] ++
  match e_opts e with [] => [] | _ => [TSpace] ++ opts_toks (e_opts e) end.
Definition item_toks (i : item) : list tok :=
  match i with IEntry e => entry_toks e ++ [TNl] | IComment _ => [] | IBlank => [TNl] end.

Lemma word_hd w r : word w -> match w ++ r with [] => True | c :: _ => blank c = false end.
Proof. intros [Hw [c [t [-> _]]]]. cbn [app]. now apply word_char_str, (Forall_inv Hw). Qed.
Lemma blanks_ends w r : blanks w -> ends_word (w ++ r).
Proof. intros [Hn Hw]. destruct w as [|c t]; [congruence|]. pose proof (Forall_inv Hw) as [-> | ->]; reflexivity. Qed.

Lemma lex_opt f o r : good_opt o -> ends_word r -> (length (opt_text o ++ r) <= f)%nat ->
  exists f', (length r <= f')%nat /\ lex f (opt_text o ++ r) = opt_toks o ++ lex f' r.
Proof.
  intros [Hk Hv] Hr Hf. unfold opt_text, opt_toks in *. destruct (snd o) as [v|].
  - rewrite <- !app_assoc in *. destruct (lex_word f _ _ Hk (eq_refl : ends_word ([61] ++ v ++ r)) Hf) as [f1 [H1 ->]].
    cbn [app] in H1 |- *. destruct (lex_eq f1 _ H1) as [f2 [H2 ->]].
    destruct (lex_word f2 _ _ (Hv v eq_refl) Hr H2) as [f3 [H3 ->]]. exists f3. split; [exact H3|reflexivity].
  - destruct (lex_word f _ _ Hk Hr Hf) as [f1 [H1 ->]]. exists f1. split; [exact H1|reflexivity].
Qed.

Lemma lex_opts l : forall f r, l <> [] -> Forall good_opt l -> ends_word r -> (length (opts_text l ++ r) <= f)%nat ->
  exists f', (length r <= f')%nat /\ lex f (opts_text l ++ r) = opts_toks l ++ lex f' r.
Proof.
  induction l as [|o l IH]; intros f r Hn Hl Hr Hf; [congruence|].
  destruct l as [|o' l].
  - cbn [opts_text opts_toks] in *. apply lex_opt; auto. now inversion Hl.
  - change (opts_text (o :: o' :: l)) with (opt_text o ++ [44] ++ opts_text (o' :: l)) in *.
    change (opts_toks (o :: o' :: l)) with (opt_toks o ++ [TComma] ++ opts_toks (o' :: l)).
    rewrite <- !app_assoc in *.
    destruct (lex_opt f o ([44] ++ opts_text (o' :: l) ++ r)) as [f1 [H1 ->]]; auto; [now inversion Hl|reflexivity|].
    destruct (lex_comma f1 _ H1) as [f2 [H2 E2]]. change ([44] ++ opts_text (o' :: l) ++ r) with (44 :: opts_text (o' :: l) ++ r).
    rewrite E2. destruct (IH f2 r) as [f3 [H3 ->]]; auto; [discriminate|now inversion Hl|].
    exists f3. split; [exact H3|]. rewrite <- app_assoc; reflexivity.
Qed.

Lemma opts_hd l r : l <> [] -> Forall good_opt l -> match opts_text l ++ r with [] => True | c :: _ => blank c = false end.
Proof.
  intros Hn Hl. destruct l as [|o l]; [congruence|]. pose proof (Forall_inv Hl) as [Hk _].
  assert (E : exists r', opts_text (o :: l) ++ r = fst o ++ r').
  { destruct l as [|o' l]; cbn [opts_text]; unfold opt_text; destruct (snd o); rewrite <- ?app_assoc; eexists; reflexivity. }
  destruct E as [r' ->]. now apply word_hd.
Qed.

Lemma lex_entry f e r : good_item (IEntry e) -> (length (entry_text e ++ 10%Z :: r) <= f)%nat ->
  exists f', (length r <= f')%nat /\ lex f (entry_text e ++ 10 :: r) = entry_toks e ++ [TNl] ++ lex f' r.
Proof.
  intros [Hd [Hh [Hx [H1 [H2 [H3 Ho]]]]]] Hf. unfold entry_text, entry_toks in *. rewrite <- !app_assoc in *.
  destruct (lex_word f _ _ Hd (blanks_ends _ _ H1) Hf) as [f1 [L1 ->]].
  destruct (lex_blanks f1 _ _ H1 (word_hd _ _ Hh) L1) as [f2 [L2 ->]].
  destruct (lex_word f2 _ _ Hh (blanks_ends _ _ H2) L2) as [f3 [L3 ->]].
  destruct (lex_blanks f3 _ _ H2 (word_hd _ _ Hx) L3) as [f4 [L4 ->]].
  destruct (e_opts e) as [|o os] eqn:E.
  - cbn [app] in *. destruct (lex_word f4 _ (10 :: r) Hx eq_refl L4) as [f5 [L5 ->]].
    destruct (lex_nl f5 _ L5) as [f6 [L6 ->]]. exists f6. split; [exact L6|reflexivity].
  - destruct (lex_word f4 _ _ Hx (blanks_ends (e_sep3 e) ((opts_text (o :: os)) ++ 10 :: r) H3)) as [f5 [L5 E5]].
    { rewrite <- app_assoc in L4. exact L4. }
    rewrite <- app_assoc. rewrite E5.
    destruct (lex_blanks f5 _ _ H3 (opts_hd (o :: os) (10 :: r) ltac:(discriminate) Ho) L5) as [f6 [L6 ->]].
    destruct (lex_opts (o :: os) f6 (10 :: r) ltac:(discriminate) Ho eq_refl L6) as [f7 [L7 ->]].
    destruct (lex_nl f7 _ L7) as [f8 [L8 ->]]. exists f8. split; [exact L8|]. cbn [app]. rewrite <- ?app_assoc. reflexivity.
Qed.

Lemma lex_tab l : forall f, Forall good_item l -> (length (tab_text l) <= f)%nat -> lex f (tab_text l) = flat_map item_toks l.
Proof.
  induction l as [|i l IH]; intros f Hl Hf.
  - destruct f; reflexivity.
  - pose proof (Forall_inv Hl) as Hi. pose proof (Forall_inv_tail Hl) as Ht.
    change (tab_text (i :: l)) with ((item_text i ++ [10]) ++ tab_text l) in *. rewrite <- app_assoc in *.
    cbn [app flat_map] in *. destruct i as [e|c|]; cbn [item_text item_toks] in *.
    + destruct (lex_entry f e _ Hi Hf) as [f' [L ->]]. rewrite IH by auto. now rewrite <- app_assoc.
    + destruct (lex_comment f c _ Hi Hf) as [f' [L E]]. cbn [app]. rewrite E. now apply IH.
    + cbn [app] in *. destruct (lex_nl f _ Hf) as [f' [L ->]]. now rewrite IH.
Qed.

(** ** parser *)
Definition opt_of (o : list Z * option (list Z)) : opt :=
  match snd o with Some v => OProp (fst o) v | None => OFlag (fst o) end.
Definition line_of (e : entry) : line := mkLine (e_dev e) (e_hostn e) (e_export e) (map opt_of (e_opts e)).

Lemma p_option_ok o t : p_option (opt_toks o ++ TComma :: t) = Some (opt_of o, TComma :: t) /\
  p_option (opt_toks o ++ TNl :: t) = Some (opt_of o, TNl :: t).
Proof. unfold opt_toks, opt_of. destruct (snd o); split; reflexivity. Qed.

Lemma p_options_ok l : forall f t, l <> [] -> (length l <= f)%nat ->
  p_options f (opts_toks l ++ TNl :: t) = Some (map opt_of l, TNl :: t).
Proof.
  induction l as [|o l IH]; intros f t Hn Hf; [congruence|]. destruct f as [|f]; [cbn in Hf; lia|].
  destruct l as [|o' l].
  - cbn [opts_toks p_options map]. now rewrite (proj2 (p_option_ok o t)).
  - change (opts_toks (o :: o' :: l)) with (opt_toks o ++ [TComma] ++ opts_toks (o' :: l)).
    rewrite <- !app_assoc. cbn [p_options app]. rewrite (proj1 (p_option_ok o _)).
    cbn [length] in Hf. rewrite IH; [reflexivity|discriminate|cbn [length]; lia].
Qed.

Lemma opts_toks_len l : (length l <= length (opts_toks l))%nat.
Proof.
  induction l as [|o l IH]; [cbn; lia|]. destruct l as [|o' l].
  - cbn [opts_toks length]. unfold opt_toks. destruct (snd o); cbn; lia.
  - change (opts_toks (o :: o' :: l)) with (opt_toks o ++ [TComma] ++ opts_toks (o' :: l)).
    rewrite !app_length. change (length (o :: o' :: l)) with (S (length (o' :: l))). cbn [length] in *. lia.
Qed.

Lemma p_entry_ok f e t : p_nbdtab (S f) (entry_toks e ++ TNl :: t) =
  match p_nbdtab f (TNl :: t) with Some ls => Some (line_of e :: ls) | None => None end.
Proof.
  unfold entry_toks, line_of. destruct (e_opts e) as [|o os] eqn:E.
  - cbn [app p_nbdtab p_optlist map]. reflexivity.
  - rewrite <- app_assoc. cbn [app p_nbdtab p_optlist].
    rewrite p_options_ok; [reflexivity|discriminate|].
    rewrite app_length. pose proof (opts_toks_len (o :: os)). lia.
Qed.

Lemma p_tab_ok l : forall f, (length (flat_map item_toks l) < f)%nat ->
  p_nbdtab f (flat_map item_toks l) = Some (map line_of (entries l)).
Proof.
  induction l as [|i l IH]; intros f Hf.
  - destruct f; [lia|]. reflexivity.
  - cbn [flat_map] in *. destruct i as [e|c|]; cbn [item_toks entries flat_map app map] in *.
    + rewrite <- app_assoc in *. cbn [app] in *. rewrite app_length in Hf. cbn [length] in Hf.
      assert (1 <= length (entry_toks e))%nat by (unfold entry_toks; cbn; lia).
      destruct f as [|[|f]]; [lia|lia|]. rewrite p_entry_ok. cbn [p_nbdtab]. rewrite IH by lia. reflexivity.
    + apply IH. lia.
    + cbn [length] in Hf. destruct f as [|f]; [lia|]. cbn [p_nbdtab]. apply IH. lia.
Qed.

Lemma parse_tab l : Forall good_item l -> yyparse (tab_text l) = Some (map line_of (entries l)).
Proof. intros H. unfold yyparse. rewrite lex_tab by auto. apply p_tab_ok. lia. Qed.

(** ** actions *)
Ltac cmp :=
  repeat match goal with
  | |- context [list_eq_dec Z.eq_dec ?a ?b] =>
      let E := fresh "E" in
      destruct (list_eq_dec Z.eq_dec a b) as [E|E];
      [ first [ is_var a; subst a | exfalso; vm_compute in E; discriminate E | clear E ]
      | try (exfalso; apply E; reflexivity) ]
  end.

Lemma value_cons k o l : value k (o :: l) = or_else (value k l) (value k [o]).
Proof. destruct o as [k' v]. cbn [value or_else]. destruct (value k l); reflexivity. Qed.
Lemma has_cons k o l : has k (o :: l) <-> has k l \/ has k [o].
Proof. unfold has. cbn [In]. tauto. Qed.

Ltac prop_step := intros; match goal with o : (_ * option _)%type |- _ => destruct o as [k [v|]] end;
  unfold opt_of; cbn [fst snd set_opt value]; unfold set_property, set_flag, is; cmp; reflexivity.
Lemma step_port c o : t_port (set_opt c (opt_of o)) = or_else (value "port" [o]) (t_port c).
Proof. prop_step. Qed.
Lemma step_cert c o : t_cert (set_opt c (opt_of o)) = or_else (value "certfile" [o]) (t_cert c).
Proof. prop_step. Qed.
Lemma step_key c o : t_key (set_opt c (opt_of o)) = or_else (value "keyfile" [o]) (t_key c).
Proof. prop_step. Qed.
Lemma step_cacert c o : t_cacert (set_opt c (opt_of o)) = or_else (value "cacertfile" [o]) (t_cacert c).
Proof. prop_step. Qed.
Lemma step_tlshost c o : t_tlshost (set_opt c (opt_of o)) = or_else (value "tlshostname" [o]) (t_tlshost c).
Proof. prop_step. Qed.
Lemma step_prio c o : t_prio (set_opt c (opt_of o)) = or_else (value "priority" [o]) (t_prio c).
Proof. prop_step. Qed.
Lemma step_bs c o : t_bs (set_opt c (opt_of o)) = match value "bs" [o] with Some v => i32 (strtol v) | None => t_bs c end.
Proof. prop_step. Qed.
Lemma step_timeout c o : t_timeout (set_opt c (opt_of o)) = match value "timeout" [o] with Some v => i32 (strtol v) | None => t_timeout c end.
Proof. prop_step. Qed.
Lemma step_nconn c o : t_nconn (set_opt c (opt_of o)) = match value "conns" [o] with Some v => i32 (strtol v) | None => t_nconn c end.
Proof. prop_step. Qed.
Lemma step_force c o : t_force (set_opt c (opt_of o)) = t_force c. Proof. prop_step. Qed.
Lemma step_ro c o : t_ro (set_opt c (opt_of o)) = t_ro c. Proof. prop_step. Qed.
Lemma step_dev c o : t_dev (set_opt c (opt_of o)) = t_dev c. Proof. prop_step. Qed.

Ltac flag_step := intros c o; destruct o as [k [v|]];
  unfold opt_of, has; cbn [fst snd set_opt In]; unfold set_property, set_flag, is; cmp; cbn [t_no_optgo t_persist t_swap t_unix t_preinit t_tls set_no_optgo set_persist set_swap set_unix set_preinit set_tls set_port set_cert set_key set_cacert set_tlshost set_prio set_bs set_timeout set_nconn];
  (split; [first [now auto | intros H; right; exact H]
          | intros [[H|[]]|H]; first [exact H | reflexivity | injection H; intros; congruence | exfalso; vm_compute in H; discriminate H]]).
Lemma step_no_optgo : forall c o, t_no_optgo (set_opt c (opt_of o)) = true <-> has "no_optgo" [o] \/ t_no_optgo c = true.
Proof. flag_step. Qed.
Lemma step_persist : forall c o, t_persist (set_opt c (opt_of o)) = true <-> has "persist" [o] \/ t_persist c = true.
Proof. flag_step. Qed.
Lemma step_swap : forall c o, t_swap (set_opt c (opt_of o)) = true <-> has "swap" [o] \/ t_swap c = true.
Proof. flag_step. Qed.
Lemma step_unix : forall c o, t_unix (set_opt c (opt_of o)) = true <-> has "unix" [o] \/ t_unix c = true.
Proof. flag_step. Qed.
Lemma step_preinit : forall c o, t_preinit (set_opt c (opt_of o)) = true <-> has "preinit" [o] \/ t_preinit c = true.
Proof. flag_step. Qed.
Lemma step_tls : forall c o, t_tls (set_opt c (opt_of o)) = true <-> has "tls" [o] \/ t_tls c = true.
Proof. flag_step. Qed.

Lemma opts_configured l : forall c, configured strtol l c (fold_left set_opt (map opt_of l) c) /\
  t_dev (fold_left set_opt (map opt_of l) c) = t_dev c.
Proof.
  induction l as [|o l IH]; intros c.
  - split; [|reflexivity]. constructor; try reflexivity; unfold has; cbn [In map fold_left]; tauto.
  - cbn [map fold_left]. destruct (IH (set_opt c (opt_of o))) as [H Hd]. split; [|now rewrite Hd, step_dev].
    destruct H. constructor; try rewrite (value_cons _ o l); try rewrite (has_cons _ o l).
    + rewrite conf_port, step_port. now destruct (value "port" l).
    + rewrite conf_cert, step_cert. now destruct (value "certfile" l).
    + rewrite conf_key, step_key. now destruct (value "keyfile" l).
    + rewrite conf_cacert, step_cacert. now destruct (value "cacertfile" l).
    + rewrite conf_tlshost, step_tlshost. now destruct (value "tlshostname" l).
    + rewrite conf_prio, step_prio. now destruct (value "priority" l).
    + rewrite conf_bs, step_bs. now destruct (value "bs" l).
    + rewrite conf_timeout, step_timeout. now destruct (value "timeout" l).
    + rewrite conf_nconn, step_nconn. now destruct (value "conns" l).
    + rewrite conf_no_optgo, step_no_optgo. tauto.
    + rewrite conf_persist, step_persist. tauto.
    + rewrite conf_swap, step_swap. tauto.
    + rewrite conf_unix, step_unix. tauto.
    + rewrite conf_preinit, step_preinit. tauto.
    + rewrite conf_tls, step_tls. tauto.
    + now rewrite conf_force, step_force.
    + now rewrite conf_ro, step_ro.
Qed.

(** ** lookup *)
Lemma starts_iff p : forall s, starts p s = true <-> exists t, s = p ++ t.
Proof.
  induction p as [|x p IH]; intros s; cbn [starts app].
  - split; [eauto|reflexivity].
  - destruct s as [|y s].
    + split; [discriminate|intros [t H]; discriminate].
    + rewrite andb_true_iff, IH, Z.eqb_eq. split.
      * intros [-> [t ->]]. eauto.
      * intros [t H]. injection H as -> ->. eauto.
Qed.

Lemma short_strip d s : short d s <-> strip_dev d = s.
Proof.
  unfold short, strip_dev. destruct (starts (text "/dev/") d) eqn:E.
  - apply starts_iff in E as [t ->]. change (skipn 5 (text "/dev/" ++ t)) with t. split.
    + intros [H|[_ H]]; [now apply app_inv_head in H|]. exfalso. now apply (H t).
    + intros ->. now left.
  - split.
    + intros [->|[-> _]]; [|reflexivity].
      assert (starts (text "/dev/") (text "/dev/" ++ s) = true) by (apply starts_iff; eauto). congruence.
    + intros ->. right. split; [reflexivity|]. intros t H.
      assert (starts (text "/dev/") s = true) by (apply starts_iff; eauto). congruence.
Qed.

Definition base_of (pre : list entry) (s : list Z) (c : tcl) : tcl := match pre with [] => c | _ => wiped (Some s) end.

Lemma do_line_other s c e : t_dev c = Some s -> ~ about s e -> do_line (c, false) (line_of e) = (wiped (Some s), false).
Proof.
  intros Hd Ha. cbn [do_line line_of l_opts l_dev]. rewrite (proj2 (opts_configured _ _)), Hd.
  destruct (list_eq_dec _ _ _) as [->|]; [|reflexivity]. exfalso. apply Ha. now apply short_strip.
Qed.

Lemma do_lines_other s pre : forall c, t_dev c = Some s -> Forall (fun e => ~ about s e) pre ->
  fold_left do_line (map line_of pre) (c, false) = (base_of pre s c, false).
Proof.
  intros c Hd Hp. destruct pre as [|e pre]; [reflexivity|]. cbn [map fold_left base_of].
  rewrite (do_line_other s) by (auto; now inversion Hp). apply Forall_inv_tail in Hp.
  induction Hp as [|x l Hx Hp IH]; [reflexivity|]. cbn [map fold_left]. rewrite (do_line_other s); auto.
Qed.

Lemma do_line_match s c e : t_dev c = Some s -> about s e -> do_line (c, false) (line_of e) =
  (set_name (e_export e) (set_host (e_hostn e) (fold_left set_opt (map opt_of (e_opts e)) c)), true).
Proof.
  intros Hd Ha. cbn [do_line line_of l_opts l_dev]. rewrite (proj2 (opts_configured _ _)), Hd.
  apply short_strip in Ha. rewrite Ha. destruct (list_eq_dec _ _ _); [reflexivity|congruence].
Qed.

(** all but host and name *)
Definition same_rest (a b : tcl) : Prop := exists h n h' n', set_name n (set_host h a) = set_name n' (set_host h' b).
Lemma same_rest_configured k l b a c : same_rest a c -> configured k l b a -> configured k l b c.
Proof.
  intros [h [n [h' [n' E]]]] []. destruct a, c. cbn in *. unfold set_name, set_host in E. cbn in E. injection E; clear E; intros; subst.
  constructor; cbn in *; first [reflexivity | assumption].
Qed.

Ltac conj := repeat match goal with |- _ /\ _ => split end.
Lemma do_lines_found s post : forall e c, t_dev c = Some s -> about s e ->
  t_host c = Some (e_hostn e) -> t_name c = Some (e_export e) ->
  exists r el pre z, fold_left do_line (map line_of post) (c, true) = (r, true) /\ e :: post = pre ++ el :: z /\ about s el /\
    Forall (fun x => ~ about s x) z /\ t_host r = Some (e_hostn el) /\ t_name r = Some (e_export el) /\
    t_dev r = Some s /\ forall k l b, configured k l b c -> configured k l b r.
Proof.
  induction post as [|x post IH]; intros e c Hd Ha Hh Hn.
  - exists c, e, [], []. conj; auto.
  - cbn [map fold_left]. cbn [do_line line_of l_opts l_dev l_host l_name]. rewrite Hd.
    destruct (list_eq_dec Z.eq_dec s (strip_dev (e_dev x))) as [E|E].
    + destruct (IH x (set_name (e_export x) (set_host (e_hostn x) c))) as [r [el [pre [z [F [P [A [Z0 [Rh [Rn [Rd Rc]]]]]]]]]]];
        [exact Hd|apply short_strip; congruence|reflexivity|reflexivity|].
      exists r, el, (e :: pre), z. rewrite P. conj; auto. intros k l b K. apply Rc.
      eapply same_rest_configured; [|exact K]. exists [], [], [], []. reflexivity.
    + destruct (IH e c Hd Ha Hh Hn) as [r [el [pre [z [F [P [A [Z0 [Rh [Rn [Rd Rc]]]]]]]]]]].
      destruct pre as [|p pre].
      * exists r, el, [], (x :: z). injection P as -> ->. conj; auto. constructor; [|assumption].
        intros Hx. apply short_strip in Hx. congruence.
      * exists r, el, (e :: x :: pre), z. injection P as -> P. cbn [app]. conj; auto. now rewrite P.
Qed.

(** the whole lookup *)
Lemma config_found l c d s : Forall good_item l -> t_dev c = Some d -> short d s ->
  forall pre e post, entries l = pre ++ e :: post -> Forall (fun x => ~ about s x) pre -> about s e ->
  exists r pre' el z, get_from_config (Some (tab_text l)) c = Some r /\ t_dev r = Some s /\
    configured strtol (e_opts e) (base_of pre s c) r /\
    e :: post = pre' ++ el :: z /\ about s el /\ Forall (fun x => ~ about s x) z /\
    t_host r = Some (e_hostn el) /\ t_name r = Some (e_export el).
Proof.
  intros Hl Hd Hs pre e post He Hp Ha. unfold get_from_config. rewrite Hd.
  apply short_strip in Hs. rewrite Hs. rewrite parse_tab, He by assumption.
  rewrite map_app, fold_left_app. cbn [map]. rewrite (do_lines_other s) by (auto; reflexivity).
  set (b := base_of pre s (set_dev s c)). assert (Hb : t_dev b = Some s) by (subst b; destruct pre; reflexivity).
  cbn [fold_left]. rewrite (do_line_match s) by assumption.
  set (c1 := fold_left set_opt _ b).
  destruct (do_lines_found s post e (set_name (e_export e) (set_host (e_hostn e) c1))) as [r [el [pre' [z [F [P [A [Z0 [Rh [Rn [Rd Rc]]]]]]]]]]];
    [|assumption|reflexivity|reflexivity|].
  { cbn. subst c1. now rewrite (proj2 (opts_configured _ _)). }
  rewrite F. exists r, pre', el, z. repeat (split; [solve [auto]|]). split; [|tauto].
  assert (K : configured strtol (e_opts e) b r).
  { apply Rc. eapply same_rest_configured; [|exact (proj1 (opts_configured (e_opts e) b))]. exists [], [], [], []. reflexivity. }
  destruct pre; [|exact K]. subst b. cbn [base_of] in *. destruct K. constructor; cbn in *; assumption.
Qed.

Lemma config_missing l c d s : Forall good_item l -> t_dev c = Some d -> short d s ->
  Forall (fun x => ~ about s x) (entries l) -> get_from_config (Some (tab_text l)) c = None.
Proof.
  intros Hl Hd Hs Hp. unfold get_from_config. rewrite Hd.
  apply short_strip in Hs. rewrite Hs. rewrite parse_tab by assumption.
  rewrite (do_lines_other s) by (auto; reflexivity). reflexivity.
Qed.

Lemma first_about s l : Forall (fun x => ~ about s x) l \/
  exists pre e post, l = pre ++ e :: post /\ Forall (fun x => ~ about s x) pre /\ about s e.
Proof.
  induction l as [|x l IH]; [left; constructor|].
  destruct (list_eq_dec Z.eq_dec (strip_dev (e_dev x)) s) as [E|E].
  - right. exists [], x, l. repeat split; [constructor|now apply short_strip].
  - assert (~ about s x) by (intros H; apply short_strip in H; congruence).
    destruct IH as [IH|[pre [e [post [-> [A B]]]]]]; [left; now constructor|].
    right. exists (x :: pre), e, post. repeat split; auto.
Qed.

(** the device found is the short name, whatever the file *)
Lemma fold_opt_dev l : forall c, t_dev (fold_left set_opt l c) = t_dev c.
Proof.
  induction l as [|o l IH]; intros c; [reflexivity|]. cbn [fold_left]. rewrite IH.
  destruct o as [f|p v].
  - apply (step_dev c (f, None)).
  - apply (step_dev c (p, Some v)).
Qed.
Lemma do_line_dev c f l : t_dev (fst (do_line (c, f) l)) = t_dev c.
Proof.
  cbn [do_line]. destruct f.
  - destruct (t_dev c) eqn:E; [destruct (list_eq_dec _ _ _)|]; cbn; auto.
  - rewrite fold_opt_dev. destruct (t_dev c) eqn:E; [destruct (list_eq_dec _ _ _)|]; cbn; rewrite ?fold_opt_dev, ?E; auto.
Qed.
Lemma do_lines_dev ls : forall s, t_dev (fst (fold_left do_line ls s)) = t_dev (fst s).
Proof. induction ls as [|l ls IH]; intros [c f]; [reflexivity|]. cbn [fold_left]. now rewrite IH, do_line_dev. Qed.
Lemma config_dev f c d r : t_dev c = Some d -> get_from_config f c = Some r -> t_dev r = Some (strip_dev d).
Proof.
  intros Hd. unfold get_from_config. rewrite Hd. destruct f as [f|]; [|discriminate].
  destruct (yyparse f) as [ls|]; [|discriminate]. pose proof (do_lines_dev ls (set_dev (strip_dev d) c, false)) as E.
  destruct (fold_left _ _ _) as [c' [|]]; [|discriminate]. intros H. injection H as <-. exact E.
Qed.

(** ** deciding whether an item is well written (for examples) *)
Definition wordb (w : list Z) : bool :=
  forallb (fun c => negb (existsb (Z.eqb c) [0; 32; 9; 10; 44; 61])) w && match w with c :: _ => negb (c =? 35) | [] => false end.
Definition blanksb (s : list Z) : bool := negb (match s with [] => true | _ => false end) && forallb (fun c => (c =? 32) || (c =? 9)) s.
Definition good_itemb (i : item) : bool :=
  match i with
  | IEntry e => wordb (e_dev e) && wordb (e_hostn e) && wordb (e_export e) && blanksb (e_sep1 e) && blanksb (e_sep2 e) && blanksb (e_sep3 e) &&
                forallb (fun o => wordb (fst o) && match snd o with Some v => wordb v | None => true end) (e_opts e)
  | IComment c => negb (existsb (Z.eqb 10) c)
  | IBlank => true
  end.
Lemma wordb_ok w : wordb w = true -> word w.
Proof.
  unfold wordb, word. intros H. apply andb_true_iff in H as [H1 H2]. split.
  - rewrite forallb_forall in H1. apply Forall_forall. intros c Hc Hi. specialize (H1 c Hc).
    apply negb_true_iff in H1. rewrite <- not_true_iff_false in H1. apply H1. apply existsb_exists. exists c. split; [exact Hi|apply Z.eqb_refl].
  - destruct w as [|c t]; [discriminate|]. exists c, t. split; [reflexivity|]. apply negb_true_iff, Z.eqb_neq in H2. exact H2.
Qed.
Lemma blanksb_ok s : blanksb s = true -> blanks s.
Proof.
  unfold blanksb, blanks. intros H. apply andb_true_iff in H as [H1 H2]. split; [destruct s; discriminate|].
  rewrite forallb_forall in H2. apply Forall_forall. intros c Hc. specialize (H2 c Hc). apply orb_true_iff in H2. rewrite !Z.eqb_eq in H2. exact H2.
Qed.
Lemma good_items_ok l : forallb good_itemb l = true -> Forall good_item l.
Proof.
  intros H. rewrite forallb_forall in H. apply Forall_forall. intros i Hi. specialize (H i Hi). destruct i as [e|c|]; cbn [good_itemb good_item] in *; [| |exact I].
  - apply andb_true_iff in H as [H F]. do 5 (apply andb_true_iff in H as [H ?]). repeat (split; [auto using wordb_ok, blanksb_ok|]).
    rewrite forallb_forall in F. apply Forall_forall. intros o Ho. specialize (F o Ho). apply andb_true_iff in F as [A B].
    split; [now apply wordb_ok|]. intros v E. rewrite E in B. now apply wordb_ok.
  - intros Hc. apply negb_true_iff in H. rewrite <- not_true_iff_false in H. apply H. apply existsb_exists. exists 10. split; [exact Hc|reflexivity].
Qed.
