(** Lemmas for C88. *)
From Verif Require Import Base M_Sig S_Sig.
Local Open Scope list_scope.

Definition keys (l : list (Z * life)) : list Z := map fst l.
Definition zombies (l : list (Z * life)) : nat := length (filter (fun x => match snd x with Zombie => true | Serving => false end) l).

Lemma keys_map pid l : keys (map (fun x : Z * life => if fst x =? pid then (pid, Zombie) else x) l) = keys l.
Proof. unfold keys. rewrite map_map. apply map_ext. intros [p x]. cbn. destruct (Z.eqb_spec p pid); cbn; congruence. Qed.
Lemma keys_send pid l : keys (send_term pid l) = keys l.
Proof. apply keys_map. Qed.
Lemma keys_sends t : forall l, keys (fold_left (fun l p => send_term p l) t l) = keys l.
Proof. induction t as [|p t IH]; intros l; [reflexivity|]. cbn [fold_left]. now rewrite IH, keys_send. Qed.
Lemma keys_drop pid l : keys (drop pid l) = filter (fun p => negb (p =? pid)) (keys l).
Proof.
  unfold keys, drop. induction l as [|[p x] l IH]; [reflexivity|]. cbn [filter map fst]. destruct (Z.eqb_spec p pid); cbn [negb]; [exact IH|cbn [map fst]; now rewrite IH].
Qed.
Lemma in_keys pid l : In pid (keys l) <-> exists x, In (pid, x) l.
Proof.
  unfold keys. rewrite in_map_iff. split; [intros [[p x] [<- H]]; eauto|intros [x H]; exists (pid, x); auto].
Qed.
Lemma sends_zombie t : forall l pid x, In (pid, x) (fold_left (fun l p => send_term p l) t l) -> In pid t -> x = Zombie.
Proof.
  assert (Hz : forall t l pid, (forall x, In (pid, x) l -> x = Zombie) -> forall x, In (pid, x) (fold_left (fun l p => send_term p l) t l) -> x = Zombie).
  { clear. intros t. induction t as [|p t IH]; intros l pid Hl x H; [exact (Hl x H)|]. cbn [fold_left] in H. apply (IH (send_term p l) pid); [|exact H].
    intros y Hy. unfold send_term in Hy. apply in_map_iff in Hy as [[q z] [E Hq]]. cbn [fst] in E. destruct (Z.eqb_spec q p); injection E as E1 E2; [congruence|]. subst. auto. }
  induction t as [|p t IH]; intros l pid x H Hin; [destruct Hin|]. cbn [fold_left] in H. destruct Hin as [->|Hin]; [|exact (IH _ _ _ H Hin)].
  apply (Hz t (send_term pid l) pid); [|exact H]. intros y Hy. unfold send_term in Hy. apply in_map_iff in Hy as [[q z] [E Hq]]. cbn [fst] in E. destruct (Z.eqb_spec q pid); congruence.
Qed.
Lemma NoDup_filter {A} (f : A -> bool) l : NoDup l -> NoDup (filter f l).
Proof. induction 1 as [|x l Hx Hl IH]; [constructor|]. cbn. destruct (f x); [constructor; [|exact IH]|exact IH]. intros H. apply filter_In in H. tauto. Qed.
Lemma zombies_drop pid l : In (pid, Zombie) l -> (S (zombies (drop pid l)) <= zombies l)%nat.
Proof.
  induction l as [|[p x] l IH]; [intros []|]. assert (Hle : (zombies (drop pid l) <= zombies l)%nat).
  { clear. unfold zombies, drop. induction l as [|[p x] l IH]; [reflexivity|]. cbn [filter fst snd]. destruct (p =? pid), x; cbn [negb filter fst snd length]; lia. }
  unfold zombies, drop in *. intros [H|H]; cbn [filter fst snd].
  - injection H as -> ->. rewrite Z.eqb_refl. cbn [negb length]. lia.
  - specialize (IH H). destruct (p =? pid), x; cbn [negb filter fst snd length]; lia.
Qed.
Lemma first_zombie_in l pid : first_zombie l = Some pid -> In (pid, Zombie) l.
Proof.
  unfold first_zombie. destruct (find _ l) as [[p x]|] eqn:E; [|discriminate]. intros [= <-]. apply find_some in E as [H1 H2]. cbn in *. destruct x; [discriminate|exact H1].
Qed.
Lemma first_zombie_none l : first_zombie l = None -> forall pid, ~ In (pid, Zombie) l.
Proof.
  unfold first_zombie. destruct (find _ l) as [[p x]|] eqn:E; [discriminate|]. intros _ pid H. pose proof (find_none _ _ E _ H) as X. discriminate X.
Qed.
Lemma zombies_none l : (forall pid, ~ In (pid, Zombie) l) -> zombies l = 0%nat.
Proof.
  unfold zombies. induction l as [|[p x] l IH]; intros H; [reflexivity|]. cbn [filter snd]. destruct x; [|exfalso; apply (H p); now left].
  apply IH. intros q Hq. apply (H q). now right.
Qed.

(** the invariant *)
Definition s_inv (s : sroot) : Prop :=
  s_table s = keys (s_procs s) /\ NoDup (s_table s) /\
  (s_at s = Wait -> s_term s = false /\ s_chld s = false /\ s_hup s = false) /\
  (s_at s = Reap -> s_term s = false /\ s_chld s = false) /\
  (s_at s <> Gone -> s_killed s = [] /\ s_pidfile s = true) /\
  (forall pid, ended s pid -> s_at s <> Gone -> s_pchld s = true \/ s_chld s = true \/ s_at s = Reap) /\
  (s_at s = Gone -> s_pidfile s = false /\ s_killed s = s_table s /\ forall pid, ~ serving s pid).
Lemma in_zombied pid l q x : In (q, x) (map (fun x : Z * life => if fst x =? pid then (pid, Zombie) else x) l) -> x = Zombie \/ In (q, x) l.
Proof.
  intros H. apply in_map_iff in H as [[p y] [E H]]. cbn [fst] in E. destruct (p =? pid); injection E as <- <-; auto.
Qed.
Lemma s_step_inv e s : s_inv s -> s_inv (s_step e s).
Proof.
  destruct s as [at_ procs table pt pc ph t c h pf k n]. unfold s_inv, ended, serving. cbn [s_at s_procs s_table s_pterm s_pchld s_phup s_term s_chld s_hup s_pidfile s_killed].
  intros (I1 & I2 & I3 & I4 & I5 & I6 & I7). destruct e as [pid| | |ready]; cbn [s_step].
  - destruct (existsb _ procs) eqn:Ex; cbn [s_at s_procs s_table s_pterm s_pchld s_phup s_term s_chld s_hup s_pidfile s_killed].
    2:{ repeat (split; [assumption|]). assumption. }
    rewrite keys_map. split; [exact I1|]. split; [exact I2|]. split; [exact I3|]. split; [exact I4|]. split; [exact I5|]. split; [auto|].
    intros Hg. destruct (I7 Hg) as (A & B & C). split; [exact A|]. split; [exact B|]. intros q Hq. apply in_zombied in Hq as [Hq|Hq]; [discriminate Hq|exact (C q Hq)].
  - cbn [s_at s_procs s_table s_pterm s_pchld s_phup s_term s_chld s_hup s_pidfile s_killed]. repeat (split; [assumption|]). assumption.
  - cbn [s_at s_procs s_table s_pterm s_pchld s_phup s_term s_chld s_hup s_pidfile s_killed]. repeat (split; [assumption|]). assumption.
  - destruct at_.
    + destruct t; [|destruct c; [|destruct h]]; cbn [s_at s_procs s_table s_pterm s_pchld s_phup s_term s_chld s_hup s_pidfile s_killed].
      * rewrite keys_sends. split; [exact I1|]. split; [exact I2|]. split; [discriminate|]. split; [discriminate|]. split; [intros X; now destruct X|]. split; [intros p _ X; now destruct X|].
        intros _. split; [reflexivity|]. destruct (I5 ltac:(discriminate)) as [-> _]. split; [reflexivity|]. intros pid H.
        assert (Hin : In pid table).
        { rewrite I1, <- (keys_sends table). apply in_keys. eauto. }
        pose proof (sends_zombie table procs pid _ H Hin) as X. discriminate X.
      * split; [exact I1|]. split; [exact I2|]. split; [discriminate|]. split; [auto|]. split; [intros _; apply I5; discriminate|]. split; [auto|discriminate].
      * split; [exact I1|]. split; [exact I2|]. split; [auto|]. split; [discriminate|]. split; [intros _; apply I5; discriminate|].
        split; [intros pid Hz _; destruct (I6 pid Hz ltac:(discriminate)) as [A|[A|A]]; [auto|discriminate A|discriminate A]|discriminate].
      * split; [exact I1|]. split; [exact I2|]. split; [auto|]. split; [discriminate|]. split; [intros _; apply I5; discriminate|].
        split; [intros pid Hz _; destruct (I6 pid Hz ltac:(discriminate)) as [A|[A|A]]; [auto|discriminate A|discriminate A]|discriminate].
    + destruct (I4 eq_refl) as [Ht Hc]. cbn in Ht, Hc. subst t c. destruct (first_zombie procs) as [pid|] eqn:Ez; [|destruct h]; cbn [s_at s_procs s_table s_pterm s_pchld s_phup s_term s_chld s_hup s_pidfile s_killed].
      * rewrite keys_drop, I1. split; [reflexivity|]. split; [apply NoDup_filter; now rewrite <- I1|]. split; [discriminate|]. split; [auto|]. split; [intros _; apply I5; discriminate|].
        split; [auto|discriminate].
      * pose proof (first_zombie_none _ Ez) as Hz. split; [exact I1|]. split; [exact I2|].
        split; [auto|]. split; [discriminate|]. split; [intros _; apply I5; discriminate|]. split; [intros pid H; destruct (Hz pid H)|discriminate].
      * pose proof (first_zombie_none _ Ez) as Hz. split; [exact I1|]. split; [exact I2|].
        split; [auto|]. split; [discriminate|]. split; [intros _; apply I5; discriminate|]. split; [intros pid H; destruct (Hz pid H)|discriminate].
    + destruct (I3 eq_refl) as (Ht & Hc & Hh). cbn in Ht, Hc, Hh. subst t c h. destruct ready as [[pid|]|].
      * destruct (existsb _ procs) eqn:Ex; cbn [s_at s_procs s_table s_pterm s_pchld s_phup s_term s_chld s_hup s_pidfile s_killed].
        -- split; [exact I1|]. split; [exact I2|]. split; [discriminate|]. split; [discriminate|]. split; [intros _; apply I5; discriminate|].
           split; [intros q Hz _; destruct (I6 q Hz ltac:(discriminate)) as [A|[A|A]]; [auto|auto|discriminate A]|discriminate].
        -- split; [cbn; now rewrite I1|]. split; [constructor; [|exact I2]|].
           { rewrite I1. intros Hin. apply in_keys in Hin as [x Hin]. assert (existsb (fun x => fst x =? pid) procs = true) as X; [|congruence].
             apply existsb_exists. exists (pid, x). split; [exact Hin|apply Z.eqb_refl]. }
           split; [discriminate|]. split; [discriminate|]. split; [intros _; apply I5; discriminate|].
           split; [|discriminate]. intros q [Hz|Hz] _; [discriminate Hz|]. destruct (I6 q Hz ltac:(discriminate)) as [A|[A|A]]; [auto|auto|discriminate A].
      * cbn [s_at s_procs s_table s_pterm s_pchld s_phup s_term s_chld s_hup s_pidfile s_killed].
        split; [exact I1|]. split; [exact I2|]. split; [discriminate|]. split; [discriminate|]. split; [intros _; apply I5; discriminate|].
        split; [intros q Hz _; destruct (I6 q Hz ltac:(discriminate)) as [A|[A|A]]; [auto|auto|discriminate A]|discriminate].
      * destruct (pt || pc || ph) eqn:Ep; cbn [s_at s_procs s_table s_pterm s_pchld s_phup s_term s_chld s_hup s_pidfile s_killed].
        -- split; [exact I1|]. split; [exact I2|]. split; [discriminate|]. split; [discriminate|]. split; [intros _; apply I5; discriminate|].
           split; [|discriminate]. intros q Hz _. destruct (I6 q Hz ltac:(discriminate)) as [A|[A|A]]; [right; left; now rewrite A|discriminate A|discriminate A].
        -- repeat (split; [assumption|]). assumption.
    + repeat (split; [assumption|]). assumption.
Qed.
Lemma s_run_inv l : forall s, s_inv s -> s_inv (s_run l s).
Proof. induction l as [|e l IH]; intros s H; [exact H|]. unfold s_run. cbn [fold_left]. apply IH. now apply s_step_inv. Qed.
Lemma s_init_inv : s_inv s_init.
Proof.
  unfold s_inv, s_init, ended, serving. cbn. split; [reflexivity|]. split; [constructor|]. split; [discriminate|]. split; [discriminate|]. split; [auto|]. split; [intros pid []|discriminate].
Qed.

(** rest comes *)
Definition waits (s : sroot) : bool := s_pterm s || s_pchld s || s_phup s.
Definition later (s : sroot) : nat := if waits s then (4 + zombies (s_procs s))%nat else 0%nat.
Definition todo (s : sroot) : nat :=
  match s_at s with
  | Gone => 0
  | Wait => later s
  | Top => if s_term s then 1 else if s_chld s then 3 + zombies (s_procs s) + later s else 1 + later s
  | Reap => zombies (s_procs s) + 1 + later s
  end%nat.
Lemma todo_step s : s_inv s -> (todo (s_step (Goes None) s) <= todo s - 1)%nat.
Proof.
  destruct s as [at_ procs table pt pc ph t c h pf k n]. intros (I1 & I2 & I3 & I4 & _). cbn [s_at s_term s_chld s_hup] in I3, I4. cbn [s_step].
  unfold todo, later, waits. cbn [s_at s_procs s_pterm s_pchld s_phup s_term s_chld]. destruct at_.
  - destruct t; [cbn; lia|]. destruct c; [cbn [s_at s_procs s_pterm s_pchld s_phup s_term s_chld]; lia|]. destruct h; cbn [s_at s_procs s_pterm s_pchld s_phup s_term s_chld]; lia.
  - destruct (first_zombie procs) as [pid|] eqn:Ez.
    + pose proof (zombies_drop pid procs (first_zombie_in _ _ Ez)). cbn [s_at s_procs s_pterm s_pchld s_phup s_term s_chld]. destruct (pt || pc || ph); lia.
    + destruct h; cbn [s_at s_procs s_pterm s_pchld s_phup s_term s_chld]; lia.
  - destruct (I3 eq_refl) as (-> & -> & ->). destruct (pt || pc || ph) eqn:Ep; cbn [s_at s_procs s_pterm s_pchld s_phup s_term s_chld]; [|rewrite Ep; lia].
    cbn [orb]. destruct pt; [lia|]. destruct pc; lia.
  - cbn. lia.
Qed.
Lemma todo_run n : forall s, s_inv s -> (todo (s_run (undisturbed n) s) <= todo s - n)%nat.
Proof.
  induction n as [|n IH]; intros s H; [cbn; lia|]. unfold s_run, undisturbed. cbn [repeat fold_left]. pose proof (todo_step s H).
  specialize (IH _ (s_step_inv (Goes None) s H)). unfold s_run, undisturbed in IH. lia.
Qed.
Lemma zombies_le l : (zombies l <= length l)%nat.
Proof. unfold zombies. induction l as [|[p x] l IH]; [reflexivity|]. cbn [filter snd length]. destruct x; cbn [length]; lia. Qed.
Lemma todo_le s : (todo s <= 7 + 2 * length (s_procs s))%nat.
Proof. pose proof (zombies_le (s_procs s)). unfold todo, later. destruct (s_at s), (waits s), (s_term s), (s_chld s); lia. Qed.
Lemma rest s n : s_inv s -> (7 + 2 * length (s_procs s) <= n)%nat ->
  let s' := s_run (undisturbed n) s in
  s_inv s' /\ (s_at s' = Gone \/ s_at s' = Wait /\ s_pterm s' = false /\ s_pchld s' = false /\ s_phup s' = false /\ s_term s' = false /\ s_chld s' = false /\ s_hup s' = false).
Proof.
  intros H Hn s'. pose proof (s_run_inv (undisturbed n) s H) as Hi. fold s' in Hi. split; [exact Hi|]. pose proof (todo_run n s H) as Ht. pose proof (todo_le s). fold s' in Ht.
  assert (Ht0 : todo s' = 0%nat) by lia. destruct Hi as (_ & _ & I3 & _). unfold todo, later, waits in Ht0. destruct (s_at s').
  - destruct (s_term s'), (s_chld s'); discriminate Ht0.
  - lia.
  - right. destruct (I3 eq_refl) as (A & B & C). destruct (s_pterm s'), (s_pchld s'), (s_phup s'); cbn in Ht0; try lia; auto 10.
  - now left.
Qed.
(** a request is not lost *)
Lemma term_kept s : (s_pterm s = true \/ s_term s = true \/ s_at s = Gone) -> (s_at s = Wait \/ s_at s = Reap -> s_term s = false) ->
  let s' := s_step (Goes None) s in s_pterm s' = true \/ s_term s' = true \/ s_at s' = Gone.
Proof.
  destruct s as [at_ procs table pt pc ph t c h pf k n]. cbn [s_pterm s_term s_at s_step]. intros H Hw. destruct at_.
  - destruct t; [cbn; auto|]. destruct c, h; cbn; destruct H as [H|[H|H]]; auto; discriminate H.
  - destruct (first_zombie procs); [exact H|]. destruct h; cbn; destruct H as [H|[H|H]]; auto; discriminate H.
  - pose proof (Hw (or_introl eq_refl)). subst t. destruct H as [H|[H|H]]; try discriminate H. subst pt. cbn. auto.
  - cbn. auto.
Qed.
Lemma term_run n : forall s, s_inv s -> (s_pterm s = true \/ s_term s = true \/ s_at s = Gone) ->
  let s' := s_run (undisturbed n) s in s_pterm s' = true \/ s_term s' = true \/ s_at s' = Gone.
Proof.
  induction n as [|n IH]; intros s Hi H; [exact H|]. unfold s_run, undisturbed. cbn [repeat fold_left]. apply IH; [now apply s_step_inv|]. apply term_kept; [exact H|].
  destruct Hi as (_ & _ & I3 & I4 & _). intros [E|E]; [apply (I3 E)|apply (I4 E)].
Qed.
Lemma hup_kept m s : (m <= s_loads s)%nat -> (s_phup s = true \/ s_hup s = true \/ (m < s_loads s)%nat \/ s_at s = Gone) ->
  let s' := s_step (Goes None) s in (m <= s_loads s')%nat /\ (s_phup s' = true \/ s_hup s' = true \/ (m < s_loads s')%nat \/ s_at s' = Gone).
Proof.
  destruct s as [at_ procs table pt pc ph t c h pf k n]. cbn [s_phup s_hup s_loads s_at s_step]. intros Hm H. destruct at_.
  - destruct t; [cbn; auto|]. destruct c; [cbn; split; [exact Hm|]; destruct H as [H|[H|[H|H]]]; auto; discriminate H|]. destruct h; cbn [s_phup s_hup s_loads s_at]; (split; [lia|]); [right; right; left; lia|]. destruct H as [H|[H|[H|H]]]; auto; discriminate H.
  - destruct (first_zombie procs); [cbn; split; [exact Hm|exact H]|]. destruct h; cbn [s_phup s_hup s_loads s_at]; (split; [lia|]); [right; right; left; lia|]. destruct H as [H|[H|[H|H]]]; auto; discriminate H.
  - destruct (pt || pc || ph); cbn [s_phup s_hup s_loads s_at]; (split; [exact Hm|]); [|exact H]. destruct H as [H|[H|[H|H]]]; [|..|auto|discriminate H]; rewrite H, ?orb_true_r; auto.
  - cbn. auto.
Qed.
Lemma hup_run m n : forall s, (m <= s_loads s)%nat -> (s_phup s = true \/ s_hup s = true \/ (m < s_loads s)%nat \/ s_at s = Gone) ->
  let s' := s_run (undisturbed n) s in s_phup s' = true \/ s_hup s' = true \/ (m < s_loads s')%nat \/ s_at s' = Gone.
Proof.
  induction n as [|n IH]; intros s Hm H; [exact H|]. unfold s_run, undisturbed. cbn [repeat fold_left]. destruct (hup_kept m s Hm H) as [A B]. now apply IH.
Qed.
(** nothing without a request *)
Lemma no_term l : forall s, ~ In SendTerm l -> s_pterm s = false -> s_term s = false -> s_at s <> Gone -> s_at (s_run l s) <> Gone.
Proof.
  induction l as [|e l IH]; intros s Hn H1 H2 H3; [exact H3|]. unfold s_run. cbn [fold_left].
  assert (X : s_pterm (s_step e s) = false /\ s_term (s_step e s) = false /\ s_at (s_step e s) <> Gone).
  { destruct s as [at_ procs table pt pc ph t c h pf k n]. cbn [s_pterm s_term s_at] in *. subst pt t. destruct e as [pid| | |ready]; cbn [s_step].
    - destruct (existsb _ procs); cbn; auto.
    - exfalso. apply Hn. now left.
    - cbn. auto.
    - destruct at_.
      + destruct c; [cbn; repeat split; discriminate|]. destruct h; cbn; repeat split; discriminate.
      + destruct (first_zombie procs); [cbn; repeat split; discriminate|]. destruct h; cbn; repeat split; discriminate.
      + destruct ready as [[pid|]|].
        * destruct (existsb _ procs); cbn; repeat split; discriminate.
        * cbn; repeat split; discriminate.
        * destruct (false || pc || ph); cbn; repeat split; try discriminate.
      + congruence. }
  destruct X as (X1 & X2 & X3). apply IH; auto. intros H. apply Hn. now right.
Qed.
Lemma nodup_keys l pid x y : NoDup (keys l) -> In (pid, x) l -> In (pid, y) l -> x = y.
Proof.
  unfold keys. induction l as [|[p z] l IH]; [intros _ []|]. cbn [map fst]. intros Hn. inversion_clear Hn as [|? ? Hp Hl]. intros [H|H] [H'|H'].
  - congruence.
  - injection H as -> ->. destruct Hp. apply in_keys. eauto.
  - injection H' as -> ->. destruct Hp. apply in_keys. eauto.
  - exact (IH Hl H H').
Qed.
Lemma serving_kept e s pid : s_inv s -> serving s pid -> e <> ChildEnds pid -> s_at (s_step e s) <> Gone -> serving (s_step e s) pid.
Proof.
  destruct s as [at_ procs table pt pc ph t c h pf k n]. intros (I1 & I2 & _) H He Hg. unfold serving in *. cbn [s_procs s_table] in *. destruct e as [q| | |ready]; cbn [s_step] in *.
  - destruct (existsb _ procs); [|exact H]. cbn [s_procs]. apply in_map_iff. exists (pid, Serving). split; [|exact H]. cbn [fst]. destruct (Z.eqb_spec pid q) as [->|]; [now destruct He|reflexivity].
  - exact H.
  - exact H.
  - destruct at_.
    + destruct t; [now destruct Hg|]. destruct c, h; exact H.
    + destruct (first_zombie procs) as [q|] eqn:Ez; [|destruct h; exact H]. cbn [s_procs]. unfold drop. apply filter_In. split; [exact H|]. cbn [fst].
      destruct (Z.eqb_spec pid q) as [->|]; [|reflexivity]. pose proof (first_zombie_in _ _ Ez) as Hz. rewrite I1 in I2. pose proof (nodup_keys _ _ _ _ I2 H Hz) as X. discriminate X.
    + destruct ready as [[q|]|]; [destruct (existsb _ procs)|..]; try exact H.
      * now right.
      * destruct (pt || pc || ph); exact H.
    + exact H.
Qed.
Lemma serving_run l : forall s pid, s_inv s -> serving s pid -> ~ In (ChildEnds pid) l -> s_at (s_run l s) <> Gone -> serving (s_run l s) pid.
Proof.
  induction l as [|e l IH]; intros s pid Hi H Hn Hg; [exact H|]. unfold s_run in *. cbn [fold_left] in *. apply IH; [now apply s_step_inv| |intros X; apply Hn; now right|exact Hg].
  apply serving_kept; [exact Hi|exact H|intros ->; apply Hn; now left|]. intros E. apply Hg. clear - E. revert E. generalize (s_step e s). clear. induction l as [|e l IH]; intros s E; [exact E|].
  cbn [fold_left]. apply IH. destruct s as [at_ procs table pt pc ph t c h pf k n]. cbn in E. subst at_. destruct e; cbn; [destruct (existsb _ procs)|..]; reflexivity.
Qed.
