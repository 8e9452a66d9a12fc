(** C88: the root process, its children and signals. *)
From Verif Require Import Base M_Sig S_Sig L_Sig.
Local Open Scope list_scope.

(** two connections, the first ends while another is being accepted *)
Definition two : list sev := [Goes None; Goes (Some (Some 100)); Goes None; Goes (Some (Some 101)); ChildEnds 100; Goes None]. (* nbd-server.c:3446-3536 *)

(** The hash table has exactly the children which have not been waited for. *)
Theorem C88_table l : let s := s_run l s_init in NoDup (s_table s) /\ forall pid, In pid (s_table s) <-> child_of s pid.
Proof.
  intros s. destruct (s_run_inv l _ s_init_inv) as (I1 & I2 & _). split; [exact I2|]. intros pid. unfold s, child_of. rewrite I1. apply in_keys.
Qed.
Print Assumptions C88_table.
Example C88_table_ex : s_table (s_run two s_init) = [101; 100] /\ s_procs (s_run two s_init) = [(101, Serving); (100, Zombie)].
Proof. split; vm_compute; reflexivity. Qed.
(** After the next wait the ended child is off the table, the other is not. *)
Example C88_table_ex2 : s_table (s_run (two ++ undisturbed 8) s_init) = [101] /\ s_at (s_run (two ++ undisturbed 8) s_init) = Wait.
Proof. split; vm_compute; reflexivity. Qed.

(** SIGTERM: once it has been sent, and nothing else happens, the root process ends;
    then no child serves any more, the pid file is gone, and SIGTERM was sent to its
    children and nobody else. *)
Theorem C88_stop l n : (7 + 2 * length (s_procs (s_run l s_init)) <= n)%nat ->
  let s := s_run (l ++ SendTerm :: undisturbed n) s_init in
  s_at s = Gone /\ s_pidfile s = false /\ (forall pid, ~ serving s pid) /\ forall pid, In pid (s_killed s) <-> child_of s pid.
Proof.
  intros Hn s. pose (s0 := s_step SendTerm (s_run l s_init)).
  assert (Es : s = s_run (undisturbed n) s0) by (unfold s, s_run; now rewrite fold_left_app).
  pose proof (s_run_inv l _ s_init_inv) as Hi0. assert (Hi : s_inv s0) by now apply s_step_inv.
  assert (Hp : s_procs s0 = s_procs (s_run l s_init)) by (unfold s0; now destruct (s_run l s_init)).
  assert (Ht : s_pterm s0 = true) by (unfold s0; now destruct (s_run l s_init)).
  assert (Hs : s_inv s) by (rewrite Es; now apply s_run_inv).
  assert (Hg : s_at s = Gone).
  { pose proof (term_run n s0 Hi (or_introl Ht)) as Hk. rewrite <- Hp in Hn. destruct (rest s0 n Hi Hn) as [_ [R|(_ & R1 & _ & _ & R2 & _)]]; [now rewrite Es|].
    cbn zeta in Hk. rewrite R1, R2 in Hk. destruct Hk as [K|[K|K]]; [discriminate K|discriminate K|now rewrite Es]. }
  split; [exact Hg|]. destruct Hs as (I1 & _ & _ & _ & _ & _ & I7). destruct (I7 Hg) as (A & B & C). split; [exact A|]. split; [exact C|]. intros pid. rewrite B, I1. apply in_keys.
Qed.
Print Assumptions C88_stop.
Example C88_stop_ex : let s := s_run (two ++ SendTerm :: undisturbed 11) s_init in s_at s = Gone /\ s_killed s = [101; 100] /\ length (s_procs (s_run two s_init)) = 2%nat.
Proof. split; [|split]; vm_compute; reflexivity. Qed.

(** Without SIGTERM it does not end, kills nobody, keeps its pid file, and a child
    which does not end by itself goes on serving. *)
Theorem C88_not_stopped l : ~ In SendTerm l -> let s := s_run l s_init in s_at s <> Gone /\ s_killed s = [] /\ s_pidfile s = true.
Proof.
  intros Hn s. assert (Hg : s_at s <> Gone) by (apply no_term; [exact Hn|reflexivity|reflexivity|discriminate]). split; [exact Hg|].
  destruct (s_run_inv l _ s_init_inv) as (_ & _ & _ & _ & I5 & _). exact (I5 Hg).
Qed.
Print Assumptions C88_not_stopped.
Example C88_not_stopped_ex : ~ In SendTerm (two ++ [SendHup]).
Proof. cbn. intuition discriminate. Qed.
Theorem C88_serves_on l1 l2 pid : ~ In SendTerm (l1 ++ l2) -> serving (s_run l1 s_init) pid -> ~ In (ChildEnds pid) l2 -> serving (s_run (l1 ++ l2) s_init) pid.
Proof.
  intros Hn H He. assert (Hg : s_at (s_run (l1 ++ l2) s_init) <> Gone) by (apply no_term; [exact Hn|reflexivity|reflexivity|discriminate]).
  unfold s_run in *. rewrite fold_left_app in *. apply serving_run; [exact (s_run_inv l1 _ s_init_inv)|exact H|exact He|exact Hg].
Qed.
Print Assumptions C88_serves_on.
Example C88_serves_on_ex : serving (s_run two s_init) 101 /\ ~ In (ChildEnds 101) (undisturbed 8 ++ [SendHup]).
Proof. split; [vm_compute; auto|]. cbn. intuition discriminate. Qed.

(** Ended children are waited for, however their signals came together. *)
Theorem C88_no_zombies l n : (7 + 2 * length (s_procs (s_run l s_init)) <= n)%nat ->
  let s := s_run (l ++ undisturbed n) s_init in s_at s = Gone \/ forall pid, ~ ended s pid.
Proof.
  intros Hn s. assert (Es : s = s_run (undisturbed n) (s_run l s_init)) by (unfold s, s_run; now rewrite fold_left_app).
  pose proof (s_run_inv l _ s_init_inv) as Hi. destruct (rest _ n Hi Hn) as [Hs R]. rewrite <- Es in Hs, R. destruct R as [R|(R0 & _ & R1 & _ & _ & R2 & _)]; [now left|right].
  destruct Hs as (_ & _ & _ & _ & _ & I6 & _). intros pid H. destruct (I6 pid H) as [A|[A|A]]; [rewrite R0; discriminate|congruence..].
Qed.
Print Assumptions C88_no_zombies.
Example C88_no_zombies_ex :
  let l := [Goes None; Goes (Some (Some 7)); Goes None; Goes (Some (Some 8)); ChildEnds 7; ChildEnds 8] in
  ended (s_run l s_init) 7 /\ ended (s_run l s_init) 8 /\ s_procs (s_run (l ++ undisturbed 11) s_init) = [].
Proof. vm_compute. auto 10. Qed.

(** SIGHUP: the configuration is read again. *)
Theorem C88_hup l n : ~ In SendTerm l -> (7 + 2 * length (s_procs (s_run l s_init)) <= n)%nat ->
  (s_loads (s_run l s_init) < s_loads (s_run (l ++ SendHup :: undisturbed n) s_init))%nat.
Proof.
  intros Ht Hn. pose (s0 := s_step SendHup (s_run l s_init)). set (s := s_run (l ++ SendHup :: undisturbed n) s_init).
  assert (Es : s = s_run (undisturbed n) s0) by (unfold s, s_run; now rewrite fold_left_app).
  pose proof (s_run_inv l _ s_init_inv) as Hi0. assert (Hi : s_inv s0) by now apply s_step_inv.
  assert (Hp : s_procs s0 = s_procs (s_run l s_init)) by (unfold s0; now destruct (s_run l s_init)).
  assert (Hh : s_phup s0 = true) by (unfold s0; now destruct (s_run l s_init)).
  assert (Hl : s_loads s0 = s_loads (s_run l s_init)) by (unfold s0; now destruct (s_run l s_init)).
  assert (Hg : s_at s <> Gone).
  { apply no_term; [|reflexivity|reflexivity|discriminate]. intros H. apply in_app_or in H as [H|[H|H]]; [exact (Ht H)|discriminate H|]. apply repeat_spec in H. discriminate H. }
  pose proof (hup_run (s_loads s0) n s0 (le_n _) (or_introl Hh)) as Hk. cbn zeta in Hk. rewrite <- Hp in Hn. destruct (rest s0 n Hi Hn) as [_ R]. rewrite <- Es in Hk, R.
  destruct R as [R|(_ & _ & _ & R1 & _ & _ & R2)]; [contradiction|]. rewrite R1, R2 in Hk. rewrite <- Hl. destruct Hk as [K|[K|[K|K]]]; [discriminate K|discriminate K|exact K|contradiction].
Qed.
Print Assumptions C88_hup.
Example C88_hup_ex : s_loads (s_run (two ++ SendHup :: undisturbed 11) s_init) = 1%nat /\ ~ In SendTerm two.
Proof. split; [vm_compute; reflexivity|]. cbn. intuition discriminate. Qed.

(** Not so when a descriptor is ready at every turn: pselect then returns without
    running the handlers, and the root process need not come to see SIGTERM. *)
Theorem C88_busy_waits : exists e, forall n, s_at (s_run (SendTerm :: repeat e n) s_init) <> Gone.
Proof.
  exists (Goes (Some None)). intros n. unfold s_run. cbn [fold_left].
  assert (X : forall n s, s_term s = false -> s_chld s = false -> s_hup s = false -> (s_at s = Top \/ s_at s = Wait) -> s_at (fold_left (fun s e => s_step e s) (repeat (Goes (Some None)) n) s) <> Gone).
  { clear. induction n as [|n IH]; intros s H1 H2 H3 H4; [cbn; destruct H4 as [->| ->]; discriminate|]. cbn [repeat fold_left]. destruct s as [at_ procs table pt pc ph t c h pf k m].
    cbn [s_term s_chld s_hup s_at] in *. subst t c h. destruct H4 as [->| ->]; cbn [s_step]; apply IH; cbn; auto. }
  apply X; cbn; auto.
Qed.
Print Assumptions C88_busy_waits.
Example C88_busy_waits_ex : s_pterm (s_run (SendTerm :: repeat (Goes (Some None)) 50) s_init) = true.
Proof. vm_compute. reflexivity. Qed.
