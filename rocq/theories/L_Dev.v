(** Proofs about the command line of nbd-client. *)
From Coq Require Import String.
From Verif Require Import Base M_Acl M_Nego M_Conf M_Tab S_Tab L_Tab L_TabP S_Dev.
Local Open Scope list_scope.

Lemma do_args_sel {T} (f : mvars -> T) (sel : arg -> option (list Z)) (g : list Z -> T) :
  (forall v a v', do_arg v a = Some v' -> f v' = match sel a with Some s => g s | None => f v end) ->
  forall l v v', do_args v l = Some v' -> f v' = match last_sel sel l with Some s => g s | None => f v end.
Proof.
  intros S l. induction l as [|a t IH]; intros v v'; cbn [do_args last_sel].
  - intros H. injection H as <-. reflexivity.
  - destruct (do_arg v a) as [v1|] eqn:E; [|discriminate]. intros H. rewrite (IH _ _ H).
    destruct (last_sel sel t); [reflexivity|]. exact (S _ _ _ E).
Qed.
Ltac opt_case :=
  match goal with
  | |- (if (?o =? ?k)%string then _ else _) = Some _ -> _ =>
      let E := fresh "E" in destruct (o =? k)%string eqn:E; [apply String.eqb_eq in E; subst o|]
  | |- (if (?a || ?b) then _ else _) = Some _ -> _ =>
      let E := fresh "E" in destruct a eqn:E; [apply String.eqb_eq in E; subst|]; cbn [orb]
  | |- (if ?b then _ else _) = Some _ -> _ => let E := fresh "E" in destruct b eqn:E
  end.
Ltac one_step :=
  let H := fresh "H" in
  first [intros H; discriminate H | intros H; injection H as <-; reflexivity].
Lemma do_bs_eq s v v' : do_bs s v = Some v' -> v' = with_cl v (set_bs (strtol0 s) (v_cl v)).
Proof. unfold do_bs. intros H. arg_cases H. reflexivity. Qed.
Lemma starts_firstn k s : starts k s = true <-> firstn (length k) s = k.
Proof.
  revert s. induction k as [|a k IH]; intros s; [cbn; tauto|]. destruct s as [|b s]; cbn [starts firstn length].
  - split; discriminate.
  - rewrite andb_true_iff, IH, Z.eqb_eq. split.
    + intros [-> E]. now rewrite E.
    + intros E. injection E as -> E. auto.
Qed.
Lemma opt_or_word_starts o (k : string) s : length (text k) = String.length k ->
  opt_or_word o k (AWord s) = if starts (text k) s then Some (skipn (String.length k) s) else None.
Proof.
  intros L. cbn [opt_or_word]. rewrite <- L. pose proof (starts_firstn (text k) s) as E.
  destruct (list_eq_dec Z.eq_dec (firstn (length (text k)) s) (text k)) as [e|n].
  - rewrite (proj2 E e). reflexivity.
  - destruct (starts (text k) s); [|reflexivity]. exfalso. apply n, E. reflexivity.
Qed.
Lemma starts_eq (k : list Z) s : existsb (fun x => x =? 61) k = true -> starts k s = true -> existsb (fun x => x =? 61) s = true.
Proof.
  revert s. induction k as [|a k IH]; intros s; [discriminate|]. destruct s as [|b s]; [discriminate|].
  cbn [existsb starts]. rewrite andb_true_iff, Z.eqb_eq. intros H [<- S]. destruct (a =? 61); [reflexivity|]. exact (IH _ H S).
Qed.
(** one option changes one thing *)
Ltac by_cases :=
  let v := fresh "v" in let a := fresh "a" in let v' := fresh "v'" in
  intros v a v'; destruct a as [s|o s];
  [ cbn [do_arg opt_arg]; repeat opt_case; try one_step; intros H; apply do_bs_eq in H; subst; reflexivity
  | cbn [do_arg opt_arg opt_or_word]; repeat opt_case; try one_step;
    try (intros H; apply do_bs_eq in H; subst; reflexivity);
    try (intros H; injection H as <-; repeat match goal with E : (_ =? _)%string = false |- _ => rewrite E; clear E end; reflexivity) ].
Section Fields.
  Variables (l : list arg) (v v' : mvars).
  Hypothesis H : do_args v l = Some v'.
  Ltac field F s g := revert l v v' H; apply (do_args_sel F s g); by_cases.
  Lemma f_name : t_name (v_cl v') = match last_opt "N" l with Some s => Some s | None => t_name (v_cl v) end.
  Proof using H. field (fun v => t_name (v_cl v)) (opt_arg "N") (fun s : list Z => Some s). Qed.
  Lemma f_cont : v_cont v' = match last_opt "p" l with Some s => true | None => v_cont v end.
  Proof using H. field (fun v => v_cont v) (opt_arg "p") (fun _ : list Z => true). Qed.
  Lemma f_list : v_list v' = match last_opt "l" l with Some s => true | None => v_list v end.
  Proof using H. field (fun v => v_list v) (opt_arg "l") (fun _ : list Z => true). Qed.
  Lemma f_disc : v_disc v' = match last_opt "d" l with Some s => true | None => v_disc v end.
  Proof using H. field (fun v => v_disc v) (opt_arg "d") (fun _ : list Z => true). Qed.
  Lemma f_force : t_force (v_cl v') = match last_opt "B" l with Some s => strtoull0 s | None => t_force (v_cl v) end.
  Proof using H. field (fun v => t_force (v_cl v)) (opt_arg "B") strtoull0. Qed.
  Lemma f_nconn : t_nconn (v_cl v') = match last_opt "C" l with Some s => i32 (strtol0 s) | None => t_nconn (v_cl v) end.
  Proof using H. field (fun v => t_nconn (v_cl v)) (opt_arg "C") (fun s => i32 (strtol0 s)). Qed.
  Lemma f_no_optgo : t_no_optgo (v_cl v') = match last_opt "g" l with Some s => true | None => t_no_optgo (v_cl v) end.
  Proof using H. field (fun v => t_no_optgo (v_cl v)) (opt_arg "g") (fun _ : list Z => true). Qed.
  Lemma f_preinit : t_preinit (v_cl v') = match last_opt "P" l with Some s => true | None => t_preinit (v_cl v) end.
  Proof using H. field (fun v => t_preinit (v_cl v)) (opt_arg "P") (fun _ : list Z => true). Qed.
  Lemma f_ro : t_ro (v_cl v') = match last_opt "R" l with Some s => true | None => t_ro (v_cl v) end.
  Proof using H. field (fun v => t_ro (v_cl v)) (opt_arg "R") (fun _ : list Z => true). Qed.
  Lemma f_swap : t_swap (v_cl v') = match last_opt "s" l with Some s => true | None => t_swap (v_cl v) end.
  Proof using H. field (fun v => t_swap (v_cl v)) (opt_arg "s") (fun _ : list Z => true). Qed.
  Lemma f_unix : t_unix (v_cl v') = match last_opt "u" l with Some s => true | None => t_unix (v_cl v) end.
  Proof using H. field (fun v => t_unix (v_cl v)) (opt_arg "u") (fun _ : list Z => true). Qed.
  Lemma f_tls : t_tls (v_cl v') = match last_opt "x" l with Some s => true | None => t_tls (v_cl v) end.
  Proof using H. field (fun v => t_tls (v_cl v)) (opt_arg "x") (fun _ : list Z => true). Qed.
  Lemma f_cert : t_cert (v_cl v') = match last_opt "F" l with Some s => Some s | None => t_cert (v_cl v) end.
  Proof using H. field (fun v => t_cert (v_cl v)) (opt_arg "F") (fun s : list Z => Some s). Qed.
  Lemma f_key : t_key (v_cl v') = match last_opt "K" l with Some s => Some s | None => t_key (v_cl v) end.
  Proof using H. field (fun v => t_key (v_cl v)) (opt_arg "K") (fun s : list Z => Some s). Qed.
  Lemma f_cacert : t_cacert (v_cl v') = match last_opt "A" l with Some s => Some s | None => t_cacert (v_cl v) end.
  Proof using H. field (fun v => t_cacert (v_cl v)) (opt_arg "A") (fun s : list Z => Some s). Qed.
  Lemma f_tlshost : t_tlshost (v_cl v') = match last_opt "H" l with Some s => Some s | None => t_tlshost (v_cl v) end.
  Proof using H. field (fun v => t_tlshost (v_cl v)) (opt_arg "H") (fun s : list Z => Some s). Qed.
  Lemma f_prio : t_prio (v_cl v') = match last_opt "y" l with Some s => Some s | None => t_prio (v_cl v) end.
  Proof using H. field (fun v => t_prio (v_cl v)) (opt_arg "y") (fun s : list Z => Some s). Qed.
  Lemma f_ident : v_ident v' = match last_opt "i" l with Some s => Some s | None => v_ident v end.
  Proof using H. field (fun v => v_ident v) (opt_arg "i") (fun s : list Z => Some s). Qed.
  Lemma f_netlink : v_netlink v' = match last_opt "L" l with Some _ => false | None => v_netlink v end.
  Proof using H. field (fun v => v_netlink v) (opt_arg "L") (fun _ : list Z => false). Qed.
  Lemma f_bs : t_bs (v_cl v') = match last_set "b" "bs=" l with Some s => i32 (strtol0 s) | None => t_bs (v_cl v) end.
  Proof using H.
    revert l v v' H. apply (do_args_sel (fun v => t_bs (v_cl v)) (opt_or_word "b" "bs=") (fun s => i32 (strtol0 s))).
    intros v a v'. destruct a as [s|o s].
    - rewrite opt_or_word_starts by reflexivity. cbn [do_arg].
      destruct (existsb (fun x => x =? 61) s) eqn:Ee.
      + destruct (starts (text "bs=") s) eqn:E1.
        * intros K. apply do_bs_eq in K. subst. reflexivity.
        * destruct (starts (text "timeout=") s) eqn:E2; [|discriminate]. intros K. injection K as <-. reflexivity.
      + destruct (starts (text "bs=") s) eqn:E1; [exfalso; pose proof (starts_eq _ _ (eq_refl : existsb (fun x => x =? 61) (text "bs=") = true) E1); congruence|].
        repeat opt_case; one_step.
    - cbn [do_arg opt_or_word]; repeat opt_case; try one_step;
      try (intros K; apply do_bs_eq in K; subst; reflexivity).
  Qed.
  Lemma f_timeout : t_timeout (v_cl v') = match last_set "t" "timeout=" l with Some s => i32 (strtol0 s) | None => t_timeout (v_cl v) end.
  Proof using H.
    revert l v v' H. apply (do_args_sel (fun v => t_timeout (v_cl v)) (opt_or_word "t" "timeout=") (fun s => i32 (strtol0 s))).
    intros v a v'. destruct a as [s|o s].
    - rewrite opt_or_word_starts by reflexivity. cbn [do_arg].
      destruct (existsb (fun x => x =? 61) s) eqn:Ee.
      + destruct (starts (text "bs=") s) eqn:E1.
        * intros K. apply do_bs_eq in K. subst. destruct (starts (text "timeout=") s) eqn:E2; [|reflexivity]. exfalso. apply starts_firstn in E1, E2. cbn in E1, E2. destruct s as [|x s]; [discriminate E1|]. cbn in E1, E2. congruence.
        * destruct (starts (text "timeout=") s) eqn:E2; [|discriminate]. intros K. injection K as <-. reflexivity.
      + destruct (starts (text "timeout=") s) eqn:E1; [exfalso; pose proof (starts_eq _ _ (eq_refl : existsb (fun x => x =? 61) (text "timeout=") = true) E1); congruence|].
        repeat opt_case; one_step.
    - cbn [do_arg opt_or_word]; repeat opt_case; try one_step;
      try (intros K; apply do_bs_eq in K; subst; reflexivity).
  Qed.
End Fields.

(** ** host and device *)
Fixpoint take (ns : Z) (h d : option (list Z)) (w : list (list Z)) : option (option (list Z) * option (list Z)) :=
  match w with
  | [] => Some (h, d)
  | x :: w =>
      if ns =? 0 then take 1 (Some x) d w
      else if ns =? 1 then if strtol0 x =? 0 then take 3 h (Some x) w else take 2 h d w
      else if ns =? 2 then take 3 h (Some x) w else None
  end.
Lemma words_take l : forall v v', Forall plain_arg l -> do_args v l = Some v' ->
  take (v_nonspecial v) (t_host (v_cl v)) (t_dev (v_cl v)) (words l) = Some (t_host (v_cl v'), t_dev (v_cl v')).
Proof.
  induction l as [|a t IH]; intros v v' Hp; cbn [do_args].
  - intros H. injection H as <-. reflexivity.
  - destruct (do_arg v a) as [v1|] eqn:E; [|discriminate]. intros H.
    pose proof (Forall_inv Hp) as Ha. apply Forall_inv_tail in Hp. specialize (IH _ _ Hp H). destruct a as [s|o s].
    + cbn [words flat_map]. destruct (existsb (fun x => x =? 61) s) eqn:Ee.
      * destruct (do_arg_eqword _ _ _ Ee E) as (A & B & C & _). rewrite A, B, C in IH. exact IH.
      * cbn [app take]. fold (words t). cbn [do_arg] in E. rewrite Ee in E. cbv zeta in E. cbn beta in E.
        destruct (v_nonspecial v =? 0); [injection E as <-; exact IH|].
        destruct (v_nonspecial v =? 1).
        -- destruct (strtol0 s =? 0); injection E as <-; exact IH.
        -- destruct (v_nonspecial v =? 2); [injection E as <-; exact IH|discriminate E].
    + destruct (do_arg_opt _ _ _ _ E Ha) as (A & B & C & _). cbn [words flat_map app]. rewrite A, B, C in IH. exact IH.
Qed.
Lemma host_dev l h d v v' : Forall plain_arg l -> do_args v l = Some v' -> v_nonspecial v = 0 -> host_and_device strtol0 (words l) h d ->
  t_host (v_cl v') = Some h /\ t_dev (v_cl v') = Some d.
Proof.
  intros Hp H N W. pose proof (words_take _ _ _ Hp H) as T. rewrite N in T. destruct W as [(W & Z0)|(p & W & Z1)]; rewrite W in T; cbn [take] in T.
  - change (0 =? 0) with true in T. change (1 =? 0) with false in T. change (1 =? 1) with true in T. cbn iota in T.
    rewrite Z0 in T. change (0 =? 0) with true in T. cbn iota in T. injection T as <- <-. auto.
  - change (0 =? 0) with true in T. change (1 =? 0) with false in T. change (1 =? 1) with true in T. cbn iota in T.
    rewrite (proj2 (Z.eqb_neq _ _) Z1) in T.
    change (2 =? 0) with false in T. change (2 =? 1) with false in T. change (2 =? 2) with true in T. cbn iota in T. injection T as <- <-. auto.
Qed.
Lemma last_given o l : last_opt o l <> None <-> given o l.
Proof.
  induction l as [|a t IH].
  - split; [intros H; exfalso; apply H; reflexivity|intros (s & [])].
  - unfold last_opt in *. cbn [last_sel]. destruct (last_sel (opt_arg o) t) as [x|] eqn:E.
    + split; [intros _|discriminate]. destruct (proj1 IH) as (s & Hs); [discriminate|]. exists s. now right.
    + destruct a as [s|o' s]; cbn [opt_arg].
      * split; [intros H; congruence|]. intros (s' & [X|X]); [discriminate X|]. exfalso. apply (proj2 IH); [now exists s'|reflexivity].
      * destruct (String.eqb_spec o' o) as [->|Nq].
        -- split; [intros _; exists s; now left|discriminate].
        -- split; [intros H; congruence|]. intros (s' & [X|X]); [congruence|]. exfalso. apply (proj2 IH); [now exists s'|reflexivity].
Qed.
Lemma plain_last l : Forall plain_arg l -> last_opt "l" l = None /\ last_opt "d" l = None.
Proof.
  intros H. split.
  - destruct (last_opt "l" l) eqn:E; [|reflexivity]. destruct (proj1 (last_given "l" l)) as (s & Hs); [congruence|].
    rewrite Forall_forall in H. exfalso. exact (proj1 (H _ Hs s) eq_refl).
  - destruct (last_opt "d" l) eqn:E; [|reflexivity]. destruct (proj1 (last_given "d" l)) as (s & Hs); [congruence|].
    rewrite Forall_forall in H. exfalso. exact (proj2 (H _ Hs s) eq_refl).
Qed.
Lemma flag_given o l b : b = match last_opt o l with Some _ => true | None => false end -> (b = true <-> given o l).
Proof.
  intros ->. rewrite <- last_given. destruct (last_opt o l); split; congruence.
Qed.

(** prepare, the rest *)
Lemma prepare_more v v' : prepare v = MGo v' -> t_prio (v_cl v') = t_prio (v_cl v)
  /\ (t_force (v_cl v) mod u64 (t_bs (v_cl v)) = 0)
  /\ (t_preinit (v_cl v) = true -> t_tls (v_cl v') = false /\ t_force (v_cl v) <> 0)
  /\ (v_netlink v = false -> v_ident v = None).
Proof.
  unfold prepare.
  set (c0 := match t_key (v_cl v), t_cert (v_cl v) with Some k, None => set_cert k (v_cl v) | _, _ => v_cl v end).
  assert (A0 : t_prio c0 = t_prio (v_cl v) /\ t_force c0 = t_force (v_cl v) /\ t_bs c0 = t_bs (v_cl v) /\ t_preinit c0 = t_preinit (v_cl v)).
  { unfold c0. destruct (t_key (v_cl v)), (t_cert (v_cl v)); repeat split. }
  clearbody c0. cbv zeta.
  set (c1 := if is_set (t_cert c0) || is_set (t_key c0) || is_set (t_cacert c0) || is_set (t_tlshost c0) then set_tls c0 else c0).
  assert (A1 : t_prio c1 = t_prio (v_cl v) /\ t_force c1 = t_force (v_cl v) /\ t_bs c1 = t_bs (v_cl v) /\ t_preinit c1 = t_preinit (v_cl v)).
  { unfold c1. destruct (is_set (t_cert c0) || _ || _ || _); exact A0. }
  clearbody c1. clear c0 A0.
  destruct (t_preinit c1 && (t_tls c1 || (t_force c1 =? 0))) eqn:Ep; [discriminate|].
  set (c2 := match t_tlshost c1, t_host c1 with None, Some h => if t_unix c1 then c1 else set_tlshost h c1 | _, _ => c1 end).
  assert (A2 : t_prio c2 = t_prio c1 /\ t_force c2 = t_force c1 /\ t_bs c2 = t_bs c1 /\ t_tls c2 = t_tls c1).
  { unfold c2. destruct (t_tlshost c1), (t_host c1); try (repeat split; reflexivity). destruct (t_unix c1); repeat split. }
  clearbody c2. destruct A1 as (B1 & B2 & B3 & B4). destruct A2 as (C1 & C2 & C3 & C4).
  destruct (negb (v_netlink v) && is_set (v_ident v)) eqn:Ei; [discriminate|].
  destruct (t_bs c2 =? 0); [discriminate|].
  destruct (negb (t_force c2 mod u64 (t_bs c2) =? 0)) eqn:Em; [discriminate|]. intros H. injection H as <-. cbn [v_cl with_cl].
  apply negb_false_iff, Z.eqb_eq in Em. rewrite C2, C3, B2, B3 in Em.
  split; [destruct (t_name c2); cbn; congruence|]. split; [exact Em|]. split.
  - intros P. rewrite B4, P in Ep. cbn [andb] in Ep. apply orb_false_iff in Ep as [E1 E2]. rewrite B2 in E2. apply Z.eqb_neq in E2.
    split; [destruct (t_name c2); cbn; congruence|exact E2].
  - intros N. rewrite N in Ei. cbn [negb andb] in Ei. destruct (v_ident v); [discriminate Ei|reflexivity].
Qed.
Lemma main_direct file nl l v h d n : Forall plain_arg l -> host_and_device strtol0 (words l) h d -> last_opt "N" l = Some n ->
  main file nl l = MGo v -> exists v0, do_args (start_vars nl) l = Some v0 /\ prepare v0 = MGo v.
Proof.
  intros Hp W N. unfold main. fold (start_vars nl). destruct (do_args (start_vars nl) l) as [v0|] eqn:E; [|discriminate].
  intros H. exists v0. split; [reflexivity|].
  destruct (plain_last _ Hp) as (PL & PD). pose proof (f_disc _ _ _ E) as D. rewrite PD in D. cbn in D. rewrite D in H.
  destruct (host_dev _ _ _ _ _ Hp E eq_refl W) as (Hh & Hd). rewrite Hh, Hd in H.
  pose proof (f_name _ _ _ E) as Hn. rewrite N in Hn. rewrite Hn in H. cbn [is_set andb negb] in H. exact H.
Qed.
Lemma do_args_bs l : forall v v', do_args v l = Some v' -> Z.rem (t_bs (v_cl v)) 512 = 0 -> Z.rem (t_bs (v_cl v')) 512 = 0.
Proof.
  induction l as [|a t IH]; intros v v'; cbn [do_args].
  - intros H. injection H as <-. auto.
  - destruct (do_arg v a) as [v1|] eqn:E; [|discriminate]. intros H R. apply (IH _ _ H). clear IH H.
    assert (B : forall s v1, do_bs s v = Some v1 -> Z.rem (t_bs (v_cl v1)) 512 = 0).
    { clear. intros s v1. unfold do_bs. intros H. arg_cases H. apply orb_false_iff in E as [_ E]. apply negb_false_iff, Z.eqb_eq in E. exact E. }
    revert E. destruct a as [s|o s]; cbn [do_arg]; repeat opt_case; intros X; try discriminate X; try (injection X as <-; exact R); exact (B _ _ X).
Qed.
