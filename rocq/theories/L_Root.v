(** Lemmas about the root process. *)
From Coq Require Import String Ascii.
From Verif Require Import Base M_Const M_Acl M_Io M_Nego M_Conf M_Root S_Root S_Conf L_Conf.
Open Scope list_scope.
Open Scope Z_scope.

(** ** Records *)
Lemma set_rec_len i r h : length (set_rec i r h) = length h.
Proof. revert i; induction h as [|x t IH]; intros [|i]; cbn [set_rec length]; auto. Qed.
Lemma set_rec_same i r h x : nth_error h i = Some x -> nth_error (set_rec i r h) i = Some r.
Proof. revert i; induction h as [|y t IH]; intros [|i]; cbn [set_rec nth_error]; try discriminate; auto. Qed.
Lemma set_rec_other i j r h : i <> j -> nth_error (set_rec i r h) j = nth_error h j.
Proof.
  revert i j; induction h as [|y t IH]; intros [|i] [|j] H; cbn [set_rec nth_error]; try reflexivity; try congruence.
  apply IH. congruence.
Qed.
Lemma set_rec_app a x t r : set_rec (length a) r (a ++ x :: t) = a ++ r :: t.
Proof. induction a as [|y a IH]; cbn [length app set_rec]; [reflexivity|]. rewrite IH. reflexivity. Qed.
Lemma nth_app_at (a : list srec) x t : nth_error (a ++ x :: t) (length a) = Some x.
Proof. induction a as [|y a IH]; cbn; auto. Qed.

Lemma deref_some h p r : deref h p = Some r <-> nth_error h p = Some r /\ r_freed r = false.
Proof.
  unfold deref. destruct (nth_error h p) as [x|]; [|split; [discriminate|intros [E _]; discriminate]].
  destruct (r_freed x) eqn:E; split; try discriminate.
  - intros [[= <-] K]. congruence.
  - intros [= <-]. auto.
  - intros [[= <-] _]. reflexivity.
Qed.

(** ** Names *)
Definition rec_at (h : list srec) (p : nat) (c : server) : Prop :=
  exists r, nth_error h p = Some r /\ r_freed r = false /\ r_conf r = c.
Definition know (h : list srec) := Forall2 (rec_at h).
Definition names (cs : list server) := map s_name cs.

Lemma rec_at_app h x p c : rec_at h p c -> rec_at (h ++ x) p c.
Proof.
  intros [r [H1 H2]]. exists r. split; [|exact H2]. rewrite nth_error_app1; [exact H1|].
  apply nth_error_Some. congruence.
Qed.
Lemma know_app h x l cs : know h l cs -> know (h ++ x) l cs.
Proof. induction 1; constructor; auto using rec_at_app. Qed.

Lemma find_name_know h l cs n : know h l cs ->
  match find (fun c => if list_eq_dec Z.eq_dec (s_name c) n then true else false) cs with
  | None => find_name h l n = Some None /\ ~ In n (names cs)
  | Some c => exists p, find_name h l n = Some (Some p) /\ rec_at h p c /\ In p l /\ s_name c = n /\ In n (names cs)
  end.
Proof.
  induction 1 as [|p c l cs Hp Hl IH]; cbn [find find_name names map].
  - split; [reflexivity|intros []].
  - destruct Hp as [r [H1 [H2 H3]]].
    assert (D : deref h p = Some r) by (apply deref_some; auto). rewrite D, H3.
    destruct (list_eq_dec Z.eq_dec (s_name c) n) as [E|E].
    + exists p. repeat split; [exists r; auto|left; reflexivity|exact E|left; exact E].
    + destruct (find _ cs) as [c'|] eqn:Ef.
      * destruct IH as [q [K1 [K2 [K3 [K4 K5]]]]]. exists q. repeat split; auto; right; assumption.
      * destruct IH as [K1 K2]. split; [exact K1|]. intros [K|K]; [congruence|exact (K2 K)].
Qed.

Lemma find_name_in h l cs n : know h l cs ->
  (In n (names cs) -> exists p, find_name h l n = Some (Some p))
  /\ (~ In n (names cs) -> find_name h l n = Some None).
Proof.
  intros H. pose proof (find_name_know h l cs n H) as K.
  destruct (find _ cs) as [c|].
  - destruct K as [p [K1 [_ [_ [_ K2]]]]]. split; [intros _; exists p; exact K1|intros N; destruct (N K2)].
  - destruct K as [K1 K2]. split; [intros N; destruct (K2 N)|intros _; exact K1].
Qed.

(** ** append_new_servers *)
(* which of the new records are taken *)
Fixpoint marks (known : list (list Z)) (l : list server) : list bool :=
  match l with
  | [] => []
  | c :: t => if in_dec (list_eq_dec Z.eq_dec) (s_name c) known then false :: marks known t
              else true :: marks (s_name c :: known) t
  end.
Lemma marks_equiv l : forall k k', (forall n, In n k <-> In n k') -> marks k l = marks k' l.
Proof.
  induction l as [|c t IH]; intros k k' H; cbn [marks]; [reflexivity|].
  destruct (in_dec _ (s_name c) k) as [i|i], (in_dec _ (s_name c) k') as [j|j].
  - rewrite (IH k k' H). reflexivity.
  - destruct j. apply H. exact i.
  - destruct i. apply H. exact j.
  - rewrite (IH (s_name c :: k) (s_name c :: k')); [reflexivity|].
    intros n. cbn [In]. rewrite H. reflexivity.
Qed.
Fixpoint taken (b : list bool) (l : list server) : list server :=
  match b, l with
  | true :: b, c :: l => c :: taken b l
  | false :: b, _ :: l => taken b l
  | _, _ => []
  end.
Lemma taken_new l : forall k, taken (marks k l) l = new_names k l.
Proof.
  induction l as [|c t IH]; intros k; cbn [marks new_names taken]; [reflexivity|].
  destruct (in_dec _ (s_name c) k); cbn [taken]; rewrite IH; reflexivity.
Qed.
Fixpoint tptrs (n : nat) (b : list bool) : list nat :=
  match b with
  | [] => []
  | true :: b => n :: tptrs (S n) b
  | false :: b => tptrs (S n) b
  end.
Fixpoint recs (f : bool -> Z * bool) (b : list bool) (l : list server) : list srec :=
  match b, l with
  | x :: b, c :: l => mkRec c 0 (fst (f x)) (snd (f x)) :: recs f b l
  | _, _ => []
  end.
Definition mid (b : bool) : Z * bool := (if b then 2 else 1, false).
Definition fin (b : bool) : Z * bool := (if b then 1 else 0, negb b).

Lemma append_loop_spec l : forall a sv cs,
  know a sv cs ->
  append_loop (a ++ new_recs l) sv (seq (length a) (length l))
  = Some (a ++ recs mid (marks (names cs) l) l, sv ++ tptrs (length a) (marks (names cs) l)).
Proof.
  induction l as [|c t IH]; intros a sv cs H; cbn [new_recs map length seq append_loop marks recs tptrs].
  - rewrite !app_nil_r. reflexivity.
  - assert (D : deref (a ++ mkRec c 0 1 false :: map (fun s => mkRec s 0 1 false) t) (length a) = Some (mkRec c 0 1 false))
      by (apply deref_some; split; [apply nth_app_at|reflexivity]).
    rewrite D. cbn [r_conf].
    pose proof (find_name_in (a ++ mkRec c 0 1 false :: map (fun s => mkRec s 0 1 false) t) sv cs (s_name c) (know_app _ _ _ _ H)) as [F1 F2].
    destruct (in_dec (list_eq_dec Z.eq_dec) (s_name c) (names cs)) as [i|i].
    + destruct (F1 i) as [p Ep]. rewrite Ep.
      specialize (IH (a ++ [mkRec c 0 1 false]) sv cs (know_app _ _ _ _ H)).
      rewrite <- app_assoc, app_length in IH. cbn [length app] in IH.
      rewrite Nat.add_1_r in IH. unfold new_recs in IH. rewrite IH.
      cbn [recs tptrs mid fst snd]. rewrite <- app_assoc. reflexivity.
    + rewrite (F2 i). unfold serve_inc_ref. rewrite D. cbn [r_ref r_conf r_num].
      change (1 =? INT_MAX) with false. cbn iota. rewrite set_rec_app.
      assert (K : know (a ++ [mkRec c 0 (1 + 1) false]) (sv ++ [length a]) (cs ++ [c])).
      { apply Forall2_app; [apply know_app; exact H|]. constructor; [|constructor].
        exists (mkRec c 0 2 false). split; [apply nth_app_at|split; reflexivity]. }
      specialize (IH _ _ _ K).
      rewrite <- app_assoc, app_length in IH. cbn [length app] in IH.
      rewrite Nat.add_1_r in IH. unfold new_recs in IH. rewrite IH.
      rewrite (marks_equiv t (names (cs ++ [c])) (s_name c :: names cs)).
      2: { intros n. unfold names. rewrite map_app, in_app_iff. cbn [map In]. tauto. }
      cbn [recs tptrs mid fst snd]. rewrite <- !app_assoc. reflexivity.
Qed.

Lemma clear_all_spec b : forall l a,
  length b = length l ->
  clear_all (a ++ recs mid b l) (seq (length a) (length l)) = Some (a ++ recs fin b l).
Proof.
  induction b as [|x b IH]; intros [|c l] a H; cbn [length] in H; try discriminate; [reflexivity|].
  cbn [recs length seq clear_all]. unfold serve_dec_ref.
  assert (D : deref (a ++ mkRec c 0 (fst (mid x)) (snd (mid x)) :: recs mid b l) (length a) = Some (mkRec c 0 (fst (mid x)) false))
    by (apply deref_some; split; [apply nth_app_at|reflexivity]).
  rewrite D. cbn [r_conf r_num r_ref]. rewrite set_rec_app.
  specialize (IH l (a ++ [mkRec c 0 (fst (fin x)) (snd (fin x))]) ltac:(congruence)).
  rewrite <- !app_assoc, app_length, Nat.add_1_r in IH. cbn [app] in IH.
  replace (mkRec c 0 (fst (mid x) - 1) (fst (mid x) - 1 =? 0)) with (mkRec c 0 (fst (fin x)) (snd (fin x)))
    by (destruct x; reflexivity).
  exact IH.
Qed.

Lemma marks_len l : forall k, length (marks k l) = length l.
Proof.
  induction l as [|c t IH]; intros k; cbn [marks length]; [reflexivity|].
  destruct (in_dec _ _ _); cbn [length]; rewrite IH; reflexivity.
Qed.

Lemma tptrs_know b : forall l a, length b = length l ->
  know (a ++ recs fin b l) (tptrs (length a) b) (taken b l).
Proof.
  induction b as [|x b IH]; intros [|c l] a H; cbn [length] in H; try discriminate; [constructor|].
  specialize (IH l (a ++ [mkRec c 0 (fst (fin x)) (snd (fin x))]) ltac:(congruence)).
  rewrite <- app_assoc, app_length, Nat.add_1_r in IH. cbn [app] in IH.
  destruct x; cbn [recs tptrs taken]; [constructor; [|exact IH]|exact IH].
  exists (mkRec c 0 1 false). split; [apply nth_app_at|split; reflexivity].
Qed.

Lemma tptrs_ge b : forall n p, In p (tptrs n b) -> (n <= p < n + length b)%nat.
Proof.
  induction b as [|x b IH]; intros n p H; cbn [tptrs] in H; [destruct H|].
  destruct x; cbn [length]; [destruct H as [->|H]; [lia|]|]; specialize (IH _ _ H); lia.
Qed.
Lemma tptrs_nodup b : forall n, NoDup (tptrs n b).
Proof.
  induction b as [|x b IH]; intros n; cbn [tptrs]; [constructor|].
  destruct x; [constructor; [|apply IH]|apply IH]. intros H. apply tptrs_ge in H. lia.
Qed.
Lemma recs_len f b : forall l, length b = length l -> length (recs f b l) = length l.
Proof.
  induction b as [|x b IH]; intros [|c l] H; cbn [length] in H; try discriminate; [reflexivity|].
  cbn [recs length]. rewrite IH; congruence.
Qed.
(* the record at a new index: kept with one reference, or freed *)
Lemma recs_fin b : forall l n p r, length b = length l ->
  nth_error (recs fin b l) p = Some r ->
  r_num r = 0 /\ ((In (n + p)%nat (tptrs n b) /\ r_ref r = 1 /\ r_freed r = false)
                  \/ (~ In (n + p)%nat (tptrs n b) /\ r_ref r = 0 /\ r_freed r = true)).
Proof.
  induction b as [|x b IH]; intros [|c l] n [|p] r H E; cbn [length] in H; try discriminate; cbn [recs nth_error tptrs] in *; try discriminate.
  - injection E as <-. cbn [r_num r_ref r_freed]. split; [reflexivity|]. rewrite Nat.add_0_r. destruct x; cbn [fin fst snd negb].
    + left. split; [left; reflexivity|split; reflexivity].
    + right. split; [|split; reflexivity]. intros K. apply tptrs_ge in K. lia.
  - specialize (IH l (S n) p r ltac:(congruence) E). replace (n + S p)%nat with (S n + p)%nat by lia.
    destruct IH as [K1 K2]. split; [exact K1|]. destruct x; [|exact K2].
    cbn [In]. destruct K2 as [[K2 K3]|[K2 K3]]; [left; split; [right; exact K2|exact K3]|].
    right. split; [intros [K|K]; [lia|exact (K2 K)]|exact K3].
Qed.

(** ** Served exports *)
Lemma know_serves s cs : know (pr_heap s) (pr_servers s) cs -> served s = map Some cs.
Proof.
  unfold served. induction 1 as [|p c l cs [r [H1 [H2 H3]]] Hl IH]; cbn [map]; [reflexivity|].
  rewrite IH, H1. cbn [option_map]. rewrite H3. reflexivity.
Qed.
Lemma map_some_inj {A} (l l' : list A) : map Some l = map Some l' -> l = l'.
Proof.
  revert l'; induction l as [|x t IH]; intros [|y t'] H; cbn [map] in H; try discriminate; [reflexivity|].
  injection H as <- H. rewrite (IH _ H). reflexivity.
Qed.
Lemma find_map_some n cs :
  find (is_named n) (map Some cs) =
  option_map Some (find (fun c => if list_eq_dec Z.eq_dec (s_name c) n then true else false) cs).
Proof.
  induction cs as [|c t IH]; cbn [map find is_named option_map]; [reflexivity|].
  destruct (list_eq_dec Z.eq_dec (s_name c) n); [reflexivity|exact IH].
Qed.
Lemma export_named_find s cs n : served s = map Some cs ->
  export_named n s = find (fun c => if list_eq_dec Z.eq_dec (s_name c) n then true else false) cs.
Proof.
  intros H. unfold export_named. rewrite H, find_map_some. destruct (find _ cs); reflexivity.
Qed.

(** ** The invariant *)
Definition count_is (h : list srec) (l : list nat) (log : list (list Z * Z)) : Prop :=
  forall n, match find_name h l n with
            | None => False
            | Some None => granted n log = 0
            | Some (Some p) => exists r, nth_error h p = Some r /\ r_num r = granted n log
                 /\ (s_max (r_conf r) <> 0 -> r_num r <= Z.max 0 (s_max (r_conf r)))
            end.
Record inv (k : Z) (s : proc) (log : list (list Z * Z)) : Prop := {
  i_know : exists cs, know (pr_heap s) (pr_servers s) cs;
  i_nodup : NoDup (pr_servers s);
  i_ref : forall p r, In p (pr_servers s) -> nth_error (pr_heap s) p = Some r ->
          1 <= r_ref r <= 1 + k /\ 0 <= r_num r <= k;
  i_client : forall p, pr_client s = Some p -> In p (pr_servers s)
          /\ exists r, nth_error (pr_heap s) p = Some r /\ 2 <= r_ref r;
  i_dead : forall p r, nth_error (pr_heap s) p = Some r -> ~ In p (pr_servers s) -> r_freed r = true;
  i_old : flag (gc_flags (pr_gen s)) F_OLDSTYLE = false;
  i_count : count_is (pr_heap s) (pr_servers s) log
}.

Lemma wanted_msg m :
  wanted m = if zlen m <? 4 then None
             else if 4294967294 <=? unle (firstn 4 m) then None
             else Some (cstr (firstn (Z.to_nat (unle (firstn 4 m))) (skipn 4 m))).
Proof.
  assert (C : forall l, upto0 l = cstr l).
  { induction l as [|b t IH]; cbn [upto0 cstr]; [reflexivity|]. destruct (b =? 0); [reflexivity|]. rewrite IH. reflexivity. }
  destruct m as [|b0 [|b1 [|b2 [|b3 t]]]]; try reflexivity.
  replace (zlen (b0 :: b1 :: b2 :: b3 :: t) <? 4) with false by (unfold zlen; cbn [length]; lia).
  cbn [wanted firstn skipn]. replace (unle [b0; b1; b2; b3]) with (b0 + 256 * (b1 + 256 * (b2 + 256 * b3))).
  2: { unfold unle. cbn [List.rev app]. unfold unbe. cbn. lia. }
  set (n := b0 + _). rewrite C. destruct (n <? 4294967294) eqn:E.
  - replace (4294967294 <=? n) with false by lia. reflexivity.
  - replace (4294967294 <=? n) with true by lia. reflexivity.
Qed.

Lemma granted_app n log m x :
  granted n (log ++ [(m, x)]) = granted n log
    + (if (x =? 89) && match wanted m with Some n' => if list_eq_dec Z.eq_dec n' n then true else false | None => false end then 1 else 0).
Proof.
  unfold granted. rewrite filter_app, app_length, Nat2Z.inj_add. f_equal.
  cbn [filter]. unfold is_grant at 1. cbn [fst snd].
  destruct (_ && _); reflexivity.
Qed.

(* a record changed in its counters only *)
Lemma know_set h p r r' sv cs :
  nth_error h p = Some r -> r_conf r' = r_conf r -> r_freed r' = false ->
  know h sv cs -> know (set_rec p r' h) sv cs.
Proof.
  intros Hp Hc Hf. induction 1 as [|q c sv cs [x [H1 [H2 H3]]] _ IH]; constructor; [|exact IH].
  destruct (Nat.eq_dec p q) as [<-|N].
  - exists r'. split; [eapply set_rec_same; exact Hp|]. split; [exact Hf|]. rewrite Hp in H1. injection H1 as <-. congruence.
  - exists x. split; [rewrite set_rec_other by exact N; exact H1|]. split; assumption.
Qed.
Lemma find_name_set h p r r' sv n :
  nth_error h p = Some r -> r_freed r = false -> r_conf r' = r_conf r -> r_freed r' = false ->
  find_name (set_rec p r' h) sv n = find_name h sv n.
Proof.
  intros Hp Hf Hc Hf'. induction sv as [|q t IH]; cbn [find_name]; [reflexivity|].
  destruct (Nat.eq_dec p q) as [<-|N].
  - assert (D : deref h p = Some r) by (apply deref_some; auto).
    assert (D' : deref (set_rec p r' h) p = Some r').
    { apply deref_some. split; [eapply set_rec_same; exact Hp|exact Hf']. }
    rewrite D, D', Hc, IH. reflexivity.
  - assert (D : deref (set_rec p r' h) q = deref h q) by (unfold deref; rewrite set_rec_other by exact N; reflexivity).
    rewrite D. destruct (deref h q); [|reflexivity]. rewrite IH. reflexivity.
Qed.

Lemma know_in h sv cs p : know h sv cs -> In p sv -> exists r, nth_error h p = Some r /\ r_freed r = false.
Proof.
  induction 1 as [|q c sv cs [x [H1 [H2 H3]]] _ IH]; intros Hin; [destruct Hin|].
  destruct Hin as [<-|Hin]; [exists x; auto|auto].
Qed.

Lemma find_name_extra h sv cs a b n : know h sv cs ->
  find_name (h ++ a) (sv ++ b) n =
  match find_name h sv n with Some None => find_name (h ++ a) b n | x => x end.
Proof.
  induction 1 as [|p c sv cs [x [H1 [H2 H3]]] _ IH]; cbn [app find_name]; [reflexivity|].
  assert (D : deref h p = Some x) by (apply deref_some; auto).
  assert (D' : deref (h ++ a) p = Some x).
  { apply deref_some. split; [|exact H2]. rewrite nth_error_app1; [exact H1|]. apply nth_error_Some. congruence. }
  rewrite D, D'. destruct (list_eq_dec Z.eq_dec (s_name (r_conf x)) n); [reflexivity|exact IH].
Qed.

(** what a step does, given the invariant *)
Lemma inv_ask k s log m : inv k s log -> k < INT_MAX ->
  match wanted m with
  | None => root_step (EvAsk m) s = RGo s None
  | Some n => exists s', root_step (EvAsk m) s = RGo s' (Some (due n s log))
        /\ inv (k + 1) s' (log ++ [(m, due n s log)]) /\ served s' = served s
        /\ pr_servers s' = pr_servers s
  end.
Proof.
  intros I Hk. rewrite wanted_msg. unfold root_step, handle_childname.
  destruct (zlen m <? 4) eqn:E1; [reflexivity|].
  destruct (4294967294 <=? unle (firstn 4 m)) eqn:E2; [reflexivity|].
  set (n := cstr _).
  assert (W : wanted m = Some n) by (rewrite wanted_msg, E1, E2; reflexivity).
  destruct (i_know _ _ _ I) as [cs Kn].
  pose proof (find_name_know _ _ _ n Kn) as F.
  pose proof (export_named_find s cs n (know_serves s cs Kn)) as X.
  pose proof (i_count _ _ _ I n) as C.
  assert (Same : forall a, a <> 89 -> inv (k + 1) s (log ++ [(m, a)])).
  { intros a Ha. destruct I as [J1 J2 J3 J4 J5 J6 J7]. constructor; auto.
    - intros p r H1 H2. specialize (J3 p r H1 H2). lia.
    - intros n'. specialize (J7 n'). rewrite granted_app. replace (a =? 89) with false by lia. cbn [andb].
      rewrite Z.add_0_r. exact J7. }
  destruct (find _ cs) as [c|] eqn:Ef.
  - destruct F as [p [F1 [[r [R1 [R2 R3]]] [F3 [F4 F5]]]]]. rewrite F1 in *.
    assert (D : deref (pr_heap s) p = Some r) by (apply deref_some; auto). rewrite D.
    destruct C as [r0 [C1 [C2 C3]]]. rewrite R1 in C1. injection C1 as <-.
    assert (Dn : due n s log = if (s_max (r_conf r) =? 0) || (r_num r <? s_max (r_conf r)) then 89 else 78).
    { unfold due. rewrite X, C2, R3. reflexivity. }
    rewrite Dn. destruct ((s_max (r_conf r) =? 0) || (r_num r <? s_max (r_conf r))) eqn:El.
    + pose proof (i_ref _ _ _ I p r F3 R1) as [_ B2].
      replace (r_num r =? INT_MAX) with false by lia.
      set (r' := mkRec _ _ _ _). set (s' := mkProc _ _ _ _).
      exists s'. split; [reflexivity|].
      assert (Kn' : know (pr_heap s') (pr_servers s') cs).
      { unfold s'. cbn [pr_heap pr_servers]. eapply know_set; [exact R1|reflexivity|reflexivity|exact Kn]. }
      split; [|split; [rewrite (know_serves s' cs Kn'), (know_serves s cs Kn); reflexivity|reflexivity]].
      destruct I as [J1 J2 J3 J4 J5 J6 J7]. constructor.
      * exists cs. exact Kn'.
      * exact J2.
      * intros q x H1 H2. unfold s' in H1, H2. cbn [pr_heap pr_servers] in H1, H2.
        destruct (Nat.eq_dec p q) as [<-|N].
        -- rewrite (set_rec_same _ _ _ _ R1) in H2. injection H2 as <-. specialize (J3 p r F3 R1).
           unfold r'. cbn [r_ref r_num]. lia.
        -- rewrite set_rec_other in H2 by exact N. specialize (J3 q x H1 H2). lia.
      * intros q Hq. destruct (J4 q Hq) as [H1 [x [H2 H3]]]. split; [exact H1|].
        unfold s'. cbn [pr_heap]. destruct (Nat.eq_dec p q) as [<-|N].
        -- exists r'. split; [eapply set_rec_same; exact R1|]. rewrite R1 in H2. injection H2 as <-. exact H3.
        -- exists x. split; [rewrite set_rec_other by exact N; exact H2|exact H3].
      * intros q x H1 H2. unfold s' in H1, H2. cbn [pr_heap pr_servers] in H1, H2.
        destruct (Nat.eq_dec p q) as [<-|N]; [destruct (H2 F3)|].
        rewrite set_rec_other in H1 by exact N. exact (J5 q x H1 H2).
      * exact J6.
      * intros n'. unfold s'. cbn [pr_heap pr_servers].
        rewrite (find_name_set _ _ r r' _ _ R1 R2 eq_refl eq_refl). specialize (J7 n').
        rewrite granted_app, W. change (89 =? 89) with true. cbn [andb].
        destruct (list_eq_dec Z.eq_dec n n') as [<-|Nn].
        -- rewrite F1 in J7 |- *. exists r'. split; [eapply set_rec_same; exact R1|].
           unfold r'. cbn [r_num r_conf]. split; [lia|]. intros Hm. lia.
        -- rewrite Z.add_0_r. destruct (find_name (pr_heap s) (pr_servers s) n') as [[q|]|] eqn:Fq; [|exact J7|exact J7].
           destruct J7 as [x [H1 H2]]. exists x. split; [|exact H2].
           rewrite set_rec_other; [exact H1|]. intros <-.
           pose proof (find_name_know _ _ _ n' Kn) as F'. destruct (find _ cs) as [c'|] in F'.
           ++ destruct F' as [q [G1 [[y [Y1 [Y2 Y3]]] [_ [G4 _]]]]]. rewrite Fq in G1. injection G1 as <-.
              rewrite R1 in Y1. injection Y1 as <-. apply Nn. congruence.
           ++ destruct F' as [G1 _]. congruence.
    + exists s. split; [reflexivity|]. split; [apply Same; lia|]. split; reflexivity.
  - destruct F as [F1 F2]. rewrite F1.
    assert (Dn : due n s log = 88) by (unfold due; rewrite X; reflexivity). rewrite Dn.
    exists s. split; [reflexivity|]. split; [apply Same; lia|]. split; reflexivity.
Qed.

Lemma inv_more k k' s log : k <= k' -> inv k s log -> inv k' s log.
Proof.
  intros H [J1 J2 J3 J4 J5 J6 J7]. constructor; auto.
  intros p r H1 H2. specialize (J3 p r H1 H2). lia.
Qed.

Lemma NoDup_app2 {A} (l l' : list A) : NoDup l -> NoDup l' -> (forall x, In x l -> ~ In x l') -> NoDup (l ++ l').
Proof.
  induction 1 as [|x l Hx Hl IH]; intros H' Hd; [exact H'|]. cbn [app]. constructor.
  - rewrite in_app_iff. intros [K|K]; [exact (Hx K)|exact (Hd x (or_introl eq_refl) K)].
  - apply IH; [exact H'|]. intros y Hy. apply Hd. right. exact Hy.
Qed.

(** what a reload does *)
Lemma inv_reload k s log dir file : inv k s log -> 0 <= k ->
  match root_step (EvHup dir file) s with
  | RGo s' a => a = None /\ inv k s' log /\
      match parse_cfile dir file (pr_gen s) with
      | PcfRet r => match cf_list r with
                    | None => s' = s
                    | Some l => exists cs, served s = map Some cs
                        /\ served s' = map Some (cs ++ new_names (map s_name cs) l)
                        /\ firstn (length (pr_heap s)) (pr_heap s') = pr_heap s
                        /\ firstn (length (pr_servers s)) (pr_servers s') = pr_servers s
                        /\ length (pr_heap s') = (length (pr_heap s) + length l)%nat
                    end
      | PcfUb => False
      end
  | RExit _ => False
  | RUb => wants_oldstyle (EvHup dir file)
  end.
Proof.
  intros I Hk. pose proof (parse_cfile_undefined dir file (pr_gen s) (i_old _ _ _ I)) as P.
  cbn [root_step]. unfold reload.
  destruct (parse_cfile dir file (pr_gen s)) as [r|]; [|destruct P].
  destruct P as [P1 P2]. destruct (cf_list r) as [l|].
  2: { destruct (cf_err r); [split; [reflexivity|split; [exact I|reflexivity]]|exact (P2 eq_refl eq_refl)]. }
  destruct (i_know _ _ _ I) as [cs Kn]. unfold new_ptrs.
  rewrite (append_loop_spec l _ _ _ Kn). set (b := marks (names cs) l).
  assert (Lb : length b = length l) by apply marks_len.
  rewrite (clear_all_spec b l (pr_heap s) Lb).
  set (s' := mkProc _ _ _ _). split; [reflexivity|].
  assert (Kn' : know (pr_heap s') (pr_servers s') (cs ++ taken b l)).
  { unfold s'. cbn [pr_heap pr_servers]. apply Forall2_app; [apply know_app; exact Kn|apply tptrs_know; exact Lb]. }
  split.
  - destruct I as [J1 J2 J3 J4 J5 J6 J7].
    assert (Old : forall p, In p (pr_servers s) -> (p < length (pr_heap s))%nat).
    { intros p Hp. destruct (know_in _ _ _ _ Kn Hp) as [x [Hx _]]. apply nth_error_Some. congruence. }
    constructor.
    + exists (cs ++ taken b l). exact Kn'.
    + unfold s'. cbn [pr_servers]. apply NoDup_app2; [exact J2|apply tptrs_nodup|].
      intros p Hp K. apply tptrs_ge in K. specialize (Old p Hp). lia.
    + intros p x H1 H2. unfold s' in H1, H2. cbn [pr_heap pr_servers] in H1, H2.
      apply in_app_or in H1. destruct H1 as [H1|H1].
      * rewrite nth_error_app1 in H2 by auto. exact (J3 p x H1 H2).
      * pose proof (tptrs_ge _ _ _ H1) as G. rewrite nth_error_app2 in H2 by lia.
        destruct (recs_fin b l (length (pr_heap s)) _ _ Lb H2) as [E1 [[E2 [E3 _]]|[E2 [E3 _]]]]; [lia|].
        destruct E2. replace (length (pr_heap s) + (p - length (pr_heap s)))%nat with p by lia. exact H1.
    + intros p Hp. destruct (J4 p Hp) as [H1 [x [H2 H3]]]. unfold s'. cbn [pr_heap pr_servers]. split; [apply in_or_app; left; exact H1|].
      exists x. split; [rewrite nth_error_app1 by auto; exact H2|exact H3].
    + intros p x H1 H2. unfold s' in H1, H2. cbn [pr_heap pr_servers] in H1, H2. rewrite in_app_iff in H2.
      destruct (Nat.lt_ge_cases p (length (pr_heap s))) as [G|G].
      * rewrite nth_error_app1 in H1 by exact G. apply (J5 p x H1). tauto.
      * rewrite nth_error_app2 in H1 by exact G.
        destruct (recs_fin b l (length (pr_heap s)) _ _ Lb H1) as [_ [[E2 _]|[_ [_ E3]]]]; [|exact E3].
        replace (length (pr_heap s) + (p - length (pr_heap s)))%nat with p in E2 by lia. tauto.
    + exact P1.
    + intros n. unfold s'. cbn [pr_heap pr_servers]. rewrite (find_name_extra _ _ _ _ _ n Kn).
      specialize (J7 n). destruct (find_name (pr_heap s) (pr_servers s) n) as [[p|]|]; [| |exact J7].
      * destruct J7 as [x [H1 H2]]. exists x. split; [|exact H2].
        rewrite nth_error_app1; [exact H1|]. apply nth_error_Some. congruence.
      * pose proof (find_name_know _ _ _ n (tptrs_know b l (pr_heap s) Lb)) as F.
        destruct (find _ (taken b l)) as [c|].
        -- destruct F as [p [F1 [[x [X1 [X2 X3]]] [F3 _]]]]. rewrite F1. exists x. split; [exact X1|].
           pose proof (tptrs_ge _ _ _ F3) as G. rewrite nth_error_app2 in X1 by lia.
           destruct (recs_fin b l (length (pr_heap s)) _ _ Lb X1) as [E1 _]. split; [congruence|lia].
        -- destruct F as [F1 _]. rewrite F1. exact J7.
  - exists cs. split; [apply know_serves; exact Kn|]. split.
    + rewrite (know_serves s' _ Kn'). unfold b. rewrite taken_new. reflexivity.
    + unfold s'. cbn [pr_heap pr_servers]. rewrite !firstn_app, !Nat.sub_diag. cbn [firstn].
      rewrite !app_nil_r, !firstn_all. repeat split. rewrite app_length, recs_len by exact Lb. reflexivity.
Qed.

Lemma inv_commit k s log i : inv k s log -> k < INT_MAX - 1 ->
  exists s', root_step (EvCommit i) s = RGo s' None /\ inv (k + 1) s' log /\ served s' = served s
    /\ pr_servers s' = pr_servers s.
Proof.
  intros I Hk. cbn [root_step].
  destruct (nth_error (pr_servers s) i) as [p|] eqn:Ei.
  2: { exists s. split; [reflexivity|]. split; [apply (inv_more k); [lia|exact I]|split; reflexivity]. }
  apply nth_error_In in Ei. destruct (i_know _ _ _ I) as [cs Kn].
  destruct (know_in _ _ _ _ Kn Ei) as [r [R1 R2]].
  unfold serve_inc_ref. assert (D : deref (pr_heap s) p = Some r) by (apply deref_some; auto). rewrite D.
  pose proof (i_ref _ _ _ I p r Ei R1) as B. replace (r_ref r =? INT_MAX) with false by lia.
  set (r' := mkRec _ _ _ _). set (s' := mkProc _ _ _ _). exists s'. split; [reflexivity|].
  assert (Kn' : know (pr_heap s') (pr_servers s') cs).
  { unfold s'. cbn [pr_heap pr_servers]. eapply know_set; [exact R1|reflexivity|reflexivity|exact Kn]. }
  split; [|split; [rewrite (know_serves s' cs Kn'), (know_serves s cs Kn); reflexivity|reflexivity]].
  destruct I as [J1 J2 J3 J4 J5 J6 J7]. constructor.
  - exists cs. exact Kn'.
  - exact J2.
  - intros q x H1 H2. unfold s' in H1, H2. cbn [pr_heap pr_servers] in H1, H2.
    destruct (Nat.eq_dec p q) as [<-|N].
    + rewrite (set_rec_same _ _ _ _ R1) in H2. injection H2 as <-. unfold r'. cbn [r_ref r_num]. lia.
    + rewrite set_rec_other in H2 by exact N. specialize (J3 q x H1 H2). lia.
  - intros q [= <-]. split; [exact Ei|]. exists r'. split; [unfold s'; cbn [pr_heap]; eapply set_rec_same; exact R1|].
    unfold r'. cbn [r_ref]. lia.
  - intros q x H1 H2. unfold s' in H1, H2. cbn [pr_heap pr_servers] in H1, H2.
    destruct (Nat.eq_dec p q) as [<-|N]; [destruct (H2 Ei)|].
    rewrite set_rec_other in H1 by exact N. exact (J5 q x H1 H2).
  - exact J6.
  - intros n. unfold s'. cbn [pr_heap pr_servers].
    rewrite (find_name_set _ _ r r' _ _ R1 R2 eq_refl eq_refl). specialize (J7 n).
    destruct (find_name (pr_heap s) (pr_servers s) n) as [[q|]|]; [|exact J7|exact J7].
    destruct J7 as [x [H1 H2]]. destruct (Nat.eq_dec p q) as [<-|N].
    + exists r'. split; [eapply set_rec_same; exact R1|]. rewrite R1 in H1. injection H1 as <-. exact H2.
    + exists x. split; [rewrite set_rec_other by exact N; exact H1|exact H2].
Qed.

Lemma inv_end k s log f : inv k s log ->
  match root_step (EvEnd f) s with
  | RGo s' a => s' = s /\ a = None
  | RExit s' => (forall p r, nth_error (pr_heap s') p = Some r -> In p (pr_servers s) -> r_freed r = false)
                /\ pr_client s' = None
                /\ pr_servers s' = (if f then [] else pr_servers s)
  | RUb => False
  end.
Proof.
  intros I. cbn [root_step]. destruct (pr_client s) as [p|] eqn:Ep; [|split; reflexivity].
  destruct (i_client _ _ _ I p Ep) as [Hin [r [R1 R2]]].
  destruct (i_know _ _ _ I) as [cs Kn]. destruct (know_in _ _ _ _ Kn Hin) as [r0 [R3 R4]].
  rewrite R1 in R3. injection R3 as <-.
  unfold serve_dec_ref. assert (D : deref (pr_heap s) p = Some r) by (apply deref_some; auto). rewrite D.
  cbn [pr_heap pr_client pr_servers]. split; [|split; reflexivity].
  intros q x Hq Hin'. destruct (Nat.eq_dec p q) as [<-|N].
  - rewrite (set_rec_same _ _ _ _ R1) in Hq. injection Hq as <-. cbn [r_freed]. lia.
  - rewrite set_rec_other in Hq by exact N. destruct (know_in _ _ _ _ Kn Hin') as [y [Y1 Y2]]. congruence.
Qed.

(** ** Runs *)
Lemma inv_init l c : flag (gc_flags c) F_OLDSTYLE = false -> inv 0 (root_init l c) [].
Proof.
  intros Hc.
  assert (N : forall p r, nth_error (new_recs l) p = Some r -> r_freed r = false /\ r_num r = 0 /\ r_ref r = 1).
  { intros p r H. apply nth_error_In in H. apply in_map_iff in H. destruct H as [c0 [<- _]]. auto. }
  assert (Kn : know (new_recs l) (seq 0 (length l)) l).
  { assert (G : forall a, know (a ++ new_recs l) (seq (length a) (length l)) l).
    { clear. induction l as [|c t IH]; intros a; cbn [new_recs map length seq]; [constructor|].
      constructor; [exists (mkRec c 0 1 false); split; [apply nth_app_at|split; reflexivity]|].
      specialize (IH (a ++ [mkRec c 0 1 false])). rewrite <- app_assoc, app_length, Nat.add_1_r in IH. exact IH. }
    exact (G []). }
  constructor; unfold root_init; cbn [pr_heap pr_servers pr_gen pr_client].
  - exists l. exact Kn.
  - apply seq_NoDup.
  - intros p r _ H. destruct (N _ _ H) as [_ [-> ->]]. lia.
  - discriminate.
  - intros p r H Hn. destruct Hn. apply in_seq. assert (nth_error (new_recs l) p <> None) by congruence.
    apply nth_error_Some in H0. unfold new_recs in H0. rewrite map_length in H0. lia.
  - exact Hc.
  - intros n. pose proof (find_name_know _ _ _ n Kn) as F. destruct (find _ l) as [c0|].
    + destruct F as [p [F1 [[r [R1 _]] _]]]. rewrite F1. exists r. split; [exact R1|].
      destruct (N _ _ R1) as [_ [-> _]]. split; [reflexivity|lia].
    + destruct F as [F1 _]. rewrite F1. reflexivity.
Qed.

Lemma root_run_inv es : forall k s log o log',
  inv k s log -> 0 <= k -> k + Z.of_nat (length es) < INT_MAX ->
  root_run es s log = (o, log') ->
  match o with
  | RGo s' a => inv (k + Z.of_nat (length es)) s' log' /\ a = None
  | RExit s' => exists pre f post s1, es = pre ++ EvEnd f :: post /\ root_run pre s log = (RGo s1 None, log')
                 /\ inv (k + Z.of_nat (length es)) s1 log' /\ root_step (EvEnd f) s1 = RExit s'
  | RUb => exists pre e post s1, es = pre ++ e :: post /\ root_run pre s log = (RGo s1 None, log') /\ wants_oldstyle e
  end.
Proof.
  induction es as [|e t IH]; intros k s log o log' I Hk Hn H; cbn [root_run length] in H.
  - injection H as <- <-. rewrite Z.add_0_r. split; [exact I|reflexivity].
  - cbn [length] in Hn |- *. rewrite Nat2Z.inj_succ in *.
    assert (Go : forall s1 a, root_step e s = RGo s1 a ->
              let log1 := match e, a with EvAsk m, Some x => log ++ [(m, x)] | _, _ => log end in
              inv (k + 1) s1 log1 -> 
              match o with
              | RGo s' a => inv (k + Z.succ (Z.of_nat (length t))) s' log' /\ a = None
              | RExit s' => exists pre f post s1, e :: t = pre ++ EvEnd f :: post /\ root_run pre s log = (RGo s1 None, log')
                             /\ inv (k + Z.succ (Z.of_nat (length t))) s1 log' /\ root_step (EvEnd f) s1 = RExit s'
              | RUb => exists pre e0 post s1, e :: t = pre ++ e0 :: post /\ root_run pre s log = (RGo s1 None, log') /\ wants_oldstyle e0
              end).
    { intros s1 a Es log1 I1. rewrite Es in H. fold log1 in H.
      specialize (IH (k + 1) s1 log1 o log' I1 ltac:(lia) ltac:(lia) H).
      replace (k + 1 + Z.of_nat (length t)) with (k + Z.succ (Z.of_nat (length t))) in IH by lia.
      destruct o as [s' a'|s'|].
      - exact IH.
      - destruct IH as [pre [f [post [s2 [E1 [E2 E3]]]]]]. exists (e :: pre), f, post, s2.
        split; [rewrite E1; reflexivity|]. split; [|exact E3]. cbn [root_run]. rewrite Es. exact E2.
      - destruct IH as [pre [e0 [post [s2 [E1 [E2 E3]]]]]]. exists (e :: pre), e0, post, s2.
        split; [rewrite E1; reflexivity|]. split; [|exact E3]. cbn [root_run]. rewrite Es. exact E2. }
    destruct e as [m| |dir file|i|f].
    + pose proof (inv_ask k s log m I ltac:(lia)) as A. destruct (wanted m) as [n|].
      * destruct A as [s1 [A1 [A2 _]]]. exact (Go _ _ A1 A2).
      * apply (Go _ _ A). apply (inv_more k); [lia|exact I].
    + apply (Go s None eq_refl). apply (inv_more k); [lia|exact I].
    + pose proof (inv_reload k s log dir file I Hk) as A.
      destruct (root_step (EvHup dir file) s) as [s1 a|s1|] eqn:Es; [|destruct A|].
      * destruct A as [-> [A _]]. apply (Go _ _ eq_refl). apply (inv_more k); [lia|exact A].
      * injection H as <- <-. exists [], (EvHup dir file), t, s. repeat split. exact A.
    + destruct (inv_commit k s log i I ltac:(lia)) as [s1 [A1 [A2 _]]]. exact (Go _ _ A1 A2).
    + pose proof (inv_end k s log f I) as A.
      destruct (root_step (EvEnd f) s) as [s1 a|s1|] eqn:Es; [|injection H as <- <-|destruct A].
      * destruct A as [-> ->]. apply (Go s None eq_refl). apply (inv_more k); [lia|exact I].
      * exists [], f, t, s. split; [reflexivity|]. split; [reflexivity|]. split; [|exact Es]. apply (inv_more k); [lia|exact I].
Qed.

(** over a whole run the log and the exports only grow *)
Lemma root_run_grows es : forall k s log s' a log',
  inv k s log -> 0 <= k -> k + Z.of_nat (length es) < INT_MAX ->
  root_run es s log = (RGo s' a, log') ->
  (exists x, log' = log ++ x) /\ (exists y, served s' = served s ++ y).
Proof.
  induction es as [|e t IH]; intros k s log s' a log' I Hk Hn H; cbn [root_run length] in H.
  - injection H as <- <- <-. split; exists []; rewrite app_nil_r; reflexivity.
  - cbn [length] in Hn. rewrite Nat2Z.inj_succ in Hn.
    assert (Go : forall s1 b, root_step e s = RGo s1 b ->
              let log1 := match e, b with EvAsk m, Some x => log ++ [(m, x)] | _, _ => log end in
              inv (k + 1) s1 log1 -> (exists y, served s1 = served s ++ y) ->
              (exists x, log' = log ++ x) /\ (exists y, served s' = served s ++ y)).
    { intros s1 b Es log1 I1 [y1 Y1]. rewrite Es in H. fold log1 in H.
      destruct (IH (k + 1) s1 log1 s' a log' I1 ltac:(lia) ltac:(lia) H) as [[x X] [y Y]].
      split; [|exists (y1 ++ y); rewrite Y, Y1, app_assoc; reflexivity].
      assert (L : exists z, log1 = log ++ z).
      { unfold log1. destruct e; try (exists []; rewrite app_nil_r; reflexivity).
        destruct b as [b|]; [exists [(m, b)]; reflexivity|exists []; rewrite app_nil_r; reflexivity]. }
      destruct L as [z Lz]. exists (z ++ x). rewrite X, Lz, app_assoc. reflexivity. }
    assert (Z0 : exists y, served s = served s ++ y) by (exists []; rewrite app_nil_r; reflexivity).
    destruct e as [m| |dir file|i|f].
    + pose proof (inv_ask k s log m I ltac:(lia)) as A. destruct (wanted m) as [n|].
      * destruct A as [s1 [A1 [A2 [A3 _]]]]. apply (Go _ _ A1 A2). exists []. rewrite A3, app_nil_r. reflexivity.
      * apply (Go _ _ A); [apply (inv_more k); [lia|exact I]|exact Z0].
    + apply (Go s None eq_refl); [apply (inv_more k); [lia|exact I]|exact Z0].
    + pose proof (inv_reload k s log dir file I Hk) as A.
      destruct (root_step (EvHup dir file) s) as [s1 b|s1|] eqn:Es; [|destruct A|discriminate].
      destruct A as [-> [A A']]. apply (Go _ _ eq_refl); [apply (inv_more k); [lia|exact A]|].
      destruct (parse_cfile dir file (pr_gen s)) as [r|]; [|destruct A'].
      destruct (cf_list r) as [l|]; [|subst s1; exact Z0].
      destruct A' as [cs [S1 [S2 _]]]. exists (map Some (new_names (map s_name cs) l)).
      rewrite S1, S2, map_app. reflexivity.
    + destruct (inv_commit k s log i I ltac:(lia)) as [s1 [A1 [A2 [A3 _]]]]. apply (Go _ _ A1 A2).
      exists []. rewrite A3, app_nil_r. reflexivity.
    + pose proof (inv_end k s log f I) as A.
      destruct (root_step (EvEnd f) s) as [s1 b|s1|] eqn:Es; [|discriminate|discriminate].
      destruct A as [-> ->]. apply (Go s None eq_refl); [apply (inv_more k); [lia|exact I]|exact Z0].
Qed.

Lemma export_named_more n s s' y c :
  served s' = served s ++ y -> export_named n s = Some c -> export_named n s' = Some c.
Proof.
  unfold export_named. intros ->. generalize (served s). intros l.
  induction l as [|x t IH]; cbn [find app]; [discriminate|]. destruct (is_named n x); auto.
Qed.
Lemma granted_more n log x : granted n log <= granted n (log ++ x).
Proof. unfold granted. rewrite filter_app, app_length. lia. Qed.

Lemma inv_limit k s log n :
  inv k s log ->
  match export_named n s with
  | None => granted n log = 0
  | Some c => s_max c <> 0 -> granted n log <= Z.max 0 (s_max c)
  end.
Proof.
  intros I. destruct (i_know _ _ _ I) as [cs Kn].
  rewrite (export_named_find s cs n (know_serves s cs Kn)).
  pose proof (find_name_know _ _ _ n Kn) as F. pose proof (i_count _ _ _ I n) as C.
  destruct (find _ cs) as [c|].
  - destruct F as [p [F1 [[r [R1 [_ R3]]] _]]]. rewrite F1 in C. destruct C as [x [C1 [C2 C3]]].
    rewrite R1 in C1. injection C1 as <-. rewrite R3, C2 in C3. exact C3.
  - destruct F as [F1 _]. rewrite F1 in C. exact C.
Qed.

Lemma inv_held k s log p : inv k s log -> held s p -> alive s p.
Proof.
  intros I [H|H].
  - destruct (i_know _ _ _ I) as [cs Kn]. exact (know_in _ _ _ _ Kn H).
  - destruct (i_client _ _ _ I p H) as [H' _]. destruct (i_know _ _ _ I) as [cs Kn]. exact (know_in _ _ _ _ Kn H').
Qed.

(** ** What a reload adds *)
Lemma new_names_in l : forall k c, In c (new_names k l) -> In c l /\ ~ In (s_name c) k.
Proof.
  induction l as [|x t IH]; intros k c H; cbn [new_names] in H; [destruct H|].
  destruct (in_dec _ (s_name x) k) as [i|i].
  - destruct (IH _ _ H) as [H1 H2]. split; [right; exact H1|exact H2].
  - destruct H as [<-|H]; [split; [left; reflexivity|exact i]|].
    destruct (IH _ _ H) as [H1 H2]. split; [right; exact H1|]. intros K. apply H2. right. exact K.
Qed.
Lemma new_names_nodup l : forall k, NoDup (map s_name (new_names k l)).
Proof.
  induction l as [|x t IH]; intros k; cbn [new_names]; [constructor|].
  destruct (in_dec _ (s_name x) k) as [i|i]; [apply IH|]. cbn [map]. constructor; [|apply IH].
  intros H. apply in_map_iff in H. destruct H as [c [E H]]. apply new_names_in in H. destruct H as [_ H].
  apply H. left. congruence.
Qed.
Lemma new_names_all l : forall k c, In c l -> In (s_name c) k \/ In (s_name c) (map s_name (new_names k l)).
Proof.
  induction l as [|x t IH]; intros k c H; [destruct H|]. cbn [new_names].
  destruct (in_dec _ (s_name x) k) as [i|i].
  - destruct H as [->|H]; [left; exact i|apply IH; exact H].
  - cbn [map In]. destruct H as [->|H]; [right; left; reflexivity|].
    destruct (IH (s_name x :: k) c H) as [[K|K]|K]; tauto.
Qed.
Lemma new_names_first l : forall k c, In c (new_names k l) ->
  exists a b, l = a ++ c :: b /\ forall c', In c' a -> s_name c' <> s_name c.
Proof.
  induction l as [|x t IH]; intros k c H; cbn [new_names] in H; [destruct H|].
  destruct (in_dec _ (s_name x) k) as [i|i].
  - destruct (IH _ _ H) as [a [b [-> Ha]]]. exists (x :: a), b. split; [reflexivity|].
    intros c' [<-|Hc]; [|auto]. intros E. apply new_names_in in H. destruct H as [_ H]. apply H. congruence.
  - destruct H as [<-|H]; [exists [], t; split; [reflexivity|intros c' []]|].
    destruct (IH _ _ H) as [a [b [-> Ha]]]. exists (x :: a), b. split; [reflexivity|].
    intros c' [<-|Hc]; [|auto]. intros E. apply new_names_in in H. destruct H as [_ H]. apply H. left. exact E.
Qed.
