(** Lemmas for FLUSH on tree exports with several connections. *)
From Verif Require Import Base M_Const M_Disk M_TreeMulti S_TreeMulti L_TreeMulti M_TreeSync S_TreeSync.
Local Open Scope list_scope.

(** the block files show the requests finished so far, at every moment *)
Lemma view b cs s p i : inv b cs s -> 0 <= i < 4096 -> page_byte b p i = s p i.
Proof.
  intros (_ & I2 & I3) Hi. assert (H : holds_page b s p -> page_byte b p i = s p i).
  { unfold holds_page, page_byte. destruct (d_dir b p) as [n|]; [intros [_ H]; auto|intros H; rewrite H; auto]. }
  destruct (I2 p) as [(_ & _ & A)|(k & _ & [A|(c & Hc & o & rest & n & E1 & E2 & E3)])]; auto.
  destruct (I3 k c Hc) as (_ & _ & P). rewrite E1, E3, E2 in P. destruct P as (P1 & P2 & P3 & _).
  unfold page_byte. rewrite P1, P3 by exact Hi. unfold frd. rewrite P2. destruct (0 <=? i) eqn:A; destruct (i <? 0) eqn:B; try reflexivity. lia.
Qed.

(** log of [t1] extended to that of [t2] *)
Definition later (g1 g2 : list (nat * top * tres)) : Prop := exists r, g2 = g1 ++ r.
Lemma later_refl g : later g g.
Proof. exists []. symmetry. apply app_nil_r. Qed.
Lemma later_trans a b c : later a b -> later b c -> later a c.
Proof. intros [r ->] [r2 ->]. exists (r ++ r2). symmetry. apply app_assoc. Qed.
Lemma step_later k t : later (t_log t) (t_log (t_step k t)).
Proof.
  destruct (t_step_shape k t) as [->|(c & o & rest & Hk & Ho & [(b & pc & a & ->)|(b & r & ->)])]; cbn [t_log]; [apply later_refl|apply later_refl|].
  eexists; reflexivity.
Qed.

(** the moments a count reaches back to show a log between [g] and now *)
Definition reach (s0 : store) (g : list (nat * top * tres)) (n : nat) (v : vsys) : Prop :=
  forall b, In b (firstn n (v_hist v)) -> exists g', later g g' /\ later g' (t_log (v_sys v)) /\
    forall p i, 0 <= i < 4096 -> page_byte b p i = final s0 g' p i.

Lemma reach_mono s0 g n m v : (m <= n)%nat -> reach s0 g n v -> reach s0 g m v.
Proof.
  intros L H b I. apply H. rewrite <- (firstn_skipn m (firstn n (v_hist v))). rewrite firstn_firstn, Nat.min_l by exact L.
  apply in_or_app. now left.
Qed.
Lemma reach_step s0 g n k v : sim s0 (v_sys v) -> later g (t_log (v_sys v)) -> reach s0 g n v -> reach s0 g (S n) (v_step (VStep k) v).
Proof.
  intros HS HL H b. cbn [v_step v_hist v_sys firstn In]. intros [<-|I].
  - exists (t_log (t_step k (v_sys v))). split; [eapply later_trans; [exact HL|apply step_later]|]. split; [apply later_refl|].
    intros p i Hi. apply view with (t_conns (t_step k (v_sys v))); [apply (t_step_sim s0 k _ HS)|exact Hi].
  - destruct (H b I) as (g' & A & B & C). exists g'. split; [exact A|]. split; [eapply later_trans; [exact B|apply step_later]|exact C].
Qed.

Definition vgood (s0 : store) (v : vsys) : Prop :=
  sim s0 (v_sys v) /\ exists h, v_hist v = t_blk (v_sys v) :: h.
Lemma vgood_step s0 c v : vgood s0 v -> vgood s0 (v_step c v).
Proof.
  intros [A [h B]]. destruct c as [k|k|k]; cbn [v_step].
  - split; cbn [v_sys v_hist]; [apply t_step_sim; exact A|eexists; reflexivity].
  - split; cbn [v_sys v_hist]; [exact A|eauto].
  - destruct (v_sync v k); split; cbn [v_sys v_hist]; eauto.
Qed.
Lemma vgood_run s0 l : forall v, vgood s0 v -> vgood s0 (v_run l v).
Proof. induction l as [|c l IH]; intros v H; [exact H|]. unfold v_run. cbn [fold_left]. apply IH. now apply vgood_step. Qed.

(** from the start, with no FLUSH: everything since the beginning *)
Lemma reach_now s0 v : vgood s0 v -> reach s0 (t_log (v_sys v)) 1 v.
Proof.
  intros [A [h B]] b. rewrite B. cbn [firstn In]. intros [<-|[]]. exists (t_log (v_sys v)). split; [apply later_refl|]. split; [apply later_refl|].
  intros p i Hi. apply view with (t_conns (v_sys v)); [apply A|exact Hi].
Qed.

(** while connection [k] is in sync(), called when the log was [g] *)
Definition insync (s0 : store) (g : list (nat * top * tres)) (k : nat) (v : vsys) : Prop :=
  vgood s0 v /\ later g (t_log (v_sys v)) /\ exists n, v_sync v k = Some n /\ reach s0 g n v.
Definition synced (s0 : store) (g : list (nat * top * tres)) (v : vsys) : Prop :=
  vgood s0 v /\ later g (t_log (v_sys v)) /\ reach s0 g (v_n v) v.

Lemma later_step g c v : later g (t_log (v_sys v)) -> later g (t_log (v_sys (v_step c v))).
Proof.
  intros H. destruct c as [k|k|k]; cbn [v_step v_sys]; [eapply later_trans; [exact H|apply step_later]|exact H|]. destruct (v_sync v k); exact H.
Qed.
Lemma synced_step s0 g c v : synced s0 g v -> synced s0 g (v_step c v).
Proof.
  intros (A & B & C). split; [apply vgood_step; exact A|]. split; [apply later_step; exact B|]. destruct c as [k|k|k].
  - cbn [v_step v_n]. apply reach_step; [apply A|exact B|exact C].
  - exact C.
  - cbn [v_step]. destruct (v_sync v k) as [n|]; [|exact C]. cbn [v_n]. apply reach_mono with (v_n v); [lia|exact C].
Qed.
Lemma synced_run s0 g l : forall v, synced s0 g v -> synced s0 g (v_run l v).
Proof. induction l as [|c l IH]; intros v H; [exact H|]. unfold v_run. cbn [fold_left]. apply IH. now apply synced_step. Qed.
(** connection [k] waits for its sync() *)
Definition not_by (k : nat) (c : vchoice) : Prop := c <> VBegin k /\ c <> VEnd k.
Lemma insync_step s0 g k c v : not_by k c -> insync s0 g k v -> insync s0 g k (v_step c v).
Proof.
  intros [N1 N2] (A & B & n & C & D). split; [apply vgood_step; exact A|]. split; [apply later_step; exact B|]. destruct c as [j|j|j]; cbn [v_step].
  - exists (S n). cbn [v_sync]. rewrite C. split; [reflexivity|]. apply reach_step; [apply A|exact B|exact D].
  - exists n. cbn [v_sync]. destruct (Nat.eqb_spec k j); [congruence|]. split; [exact C|exact D].
  - exists n. destruct (v_sync v j) as [m|]; cbn [v_sync]; [|split; [exact C|exact D]]. destruct (Nat.eqb_spec k j); [congruence|]. split; [exact C|exact D].
Qed.
Lemma insync_run s0 g k l : Forall (not_by k) l -> forall v, insync s0 g k v -> insync s0 g k (v_run l v).
Proof. induction 1 as [|c l N F IH]; intros v H; [exact H|]. unfold v_run. cbn [fold_left]. apply IH. now apply insync_step. Qed.

Lemma v_run_app l1 l2 v : v_run (l1 ++ l2) v = v_run l2 (v_run l1 v).
Proof. unfold v_run. apply fold_left_app. Qed.

Lemma flush_covers b qs s0 l1 l2 l3 k :
  sane b -> holds b s0 -> Forall (Forall in_page) qs -> (forall p, (exists j, only_by p j qs) \/ settled b p qs) -> Forall (not_by k) l2 ->
  let g := t_log (v_sys (v_run l1 (v_init b qs))) in
  let v := v_run (l1 ++ VBegin k :: l2 ++ VEnd k :: l3) (v_init b qs) in
  forall p i x, 0 <= i < 4096 -> after_crash v p i x ->
  exists g', later g g' /\ later g' (t_log (v_sys v)) /\ x = final s0 g' p i.
Proof.
  intros H1 H2 H3 H4 N g v p i x Hi (bl & I & ->).
  assert (G0 : vgood s0 (v_init b qs)) by (split; [apply t_init_sim; assumption|exists []; reflexivity]).
  assert (S : synced s0 g v).
  { unfold v. rewrite v_run_app. set (v1 := v_run l1 (v_init b qs)) in *. assert (G1 : vgood s0 v1) by (apply vgood_run; exact G0).
    change (VBegin k :: l2 ++ VEnd k :: l3) with ([VBegin k] ++ l2 ++ [VEnd k] ++ l3). rewrite !v_run_app. apply synced_run.
    assert (B : insync s0 g k (v_run [VBegin k] v1)).
    { split; [apply vgood_run; exact G1|]. split; [apply later_refl|]. exists 1%nat. cbn. rewrite Nat.eqb_refl. split; [reflexivity|]. exact (reach_now s0 v1 G1). }
    pose proof (insync_run s0 g k l2 N _ B) as (E1 & E2 & n & E3 & E4). set (v2 := v_run l2 (v_run [VBegin k] v1)) in *.
    unfold v_run. cbn [fold_left v_step]. rewrite E3. split; [|split]; cbn [v_sys v_n].
    - split; cbn [v_sys v_hist]; apply E1.
    - exact E2.
    - apply reach_mono with n; [lia|exact E4]. }
  destruct S as (_ & _ & R). destruct (R bl I) as (g' & A & B & C). exists g'. split; [exact A|]. split; [exact B|]. apply C. exact Hi.
Qed.

(** a byte nobody changes any more *)
Lemma unchanged_effect o s p i : ~ changes o p i -> effect o s p i = s p i.
Proof.
  destruct o as [q off d|q off n|q]; cbn [changes effect]; intros N; [|reflexivity|].
  - destruct ((p =? q) && (off <=? i) && (i <? off + zlen d)) eqn:E; [|reflexivity]. destruct N. lia.
  - destruct (p =? q) eqn:E; [|reflexivity]. destruct N. lia.
Qed.
Lemma unchanged_final r : forall s p i, (forall k o a, In (k, o, a) r -> ~ changes o p i) -> final s r p i = s p i.
Proof.
  induction r as [|[[k o] a] r IH]; intros s p i H; [reflexivity|]. unfold final. cbn [fold_left fst snd].
  fold (final (effect o s) r). rewrite IH; [apply unchanged_effect; apply (H k o a); now left|]. intros k' o' a' I. apply (H k' o' a'). now right.
Qed.
Lemma final_app s a b : final s (a ++ b) = final (final s a) b.
Proof. unfold final. apply fold_left_app. Qed.

Lemma flush_keeps b qs s0 l1 l2 l3 k :
  sane b -> holds b s0 -> Forall (Forall in_page) qs -> (forall p, (exists j, only_by p j qs) \/ settled b p qs) -> Forall (not_by k) l2 ->
  let g := t_log (v_sys (v_run l1 (v_init b qs))) in
  let v := v_run (l1 ++ VBegin k :: l2 ++ VEnd k :: l3) (v_init b qs) in
  forall p i x r, 0 <= i < 4096 -> t_log (v_sys v) = g ++ r -> (forall j o a, In (j, o, a) r -> ~ changes o p i) ->
  after_crash v p i x -> x = final s0 g p i.
Proof.
  intros H1 H2 H3 H4 N g v p i x r Hi E Q C.
  destruct (flush_covers b qs s0 l1 l2 l3 k H1 H2 H3 H4 N p i x Hi C) as (g' & [r1 A] & [r2 B] & ->). fold g in A. fold v in B.
  assert (ER : r = r1 ++ r2). { rewrite A, E, <- app_assoc in B. apply app_inv_head in B. exact B. }
  rewrite A, final_app. apply unchanged_final. intros j o a I. apply (Q j o a). rewrite ER. apply in_or_app. now left.
Qed.

(** ** what a crash can bring back *)
Definition front (v : vsys) : Prop :=
  (exists h, v_hist v = t_blk (v_sys v) :: h) /\ (1 <= v_n v)%nat /\ forall j n, v_sync v j = Some n -> (1 <= n)%nat.
Lemma front_step c v : front v -> front (v_step c v).
Proof.
  intros ((h & H1) & H2 & H3). destruct c as [k|k|k]; cbn [v_step].
  - split; [eexists; reflexivity|]. split; [cbn [v_n]; lia|]. cbn [v_sync]. intros j n. destruct (v_sync v j) eqn:E; [|discriminate]. intros [= <-]. lia.
  - split; [exists h; exact H1|]. split; [exact H2|]. cbn [v_sync]. intros j n. destruct (Nat.eqb j k); [intros [= <-]; lia|apply H3].
  - destruct (v_sync v k) as [n|] eqn:E; [|split; [exists h; exact H1|split; [exact H2|exact H3]]].
    specialize (H3 k n E) as Hn. split; [exists h; exact H1|]. split; [cbn [v_n]; lia|]. cbn [v_sync]. intros j m. destruct (Nat.eqb j k); [discriminate|apply H3].
Qed.
Lemma front_run l : forall v, front v -> front (v_run l v).
Proof. induction l as [|c l IH]; intros v H; [exact H|]. exact (IH _ (front_step c v H)). Qed.
Lemma front_init b qs : front (v_init b qs).
Proof. split; [exists []; reflexivity|]. split; [cbn; lia|]. discriminate. Qed.
Lemma hist_step c v b : In b (v_hist v) -> In b (v_hist (v_step c v)).
Proof. intros H. destruct c as [k|k|k]; cbn [v_step]; [right; exact H|exact H|]. destruct (v_sync v k); exact H. Qed.
Lemma hist_run l : forall v b, In b (v_hist v) -> In b (v_hist (v_run l v)).
Proof. induction l as [|c l IH]; intros v b H; [exact H|]. apply IH, hist_step, H. Qed.
Lemma unsynced_run l : (forall k, ~ In (VEnd k) l) -> forall v, v_n v = length (v_hist v) -> v_n (v_run l v) = length (v_hist (v_run l v)).
Proof.
  induction l as [|c l IH]; intros N v H; [exact H|]. apply IH; [intros k I; exact (N k (or_intror I))|].
  destruct c as [k|k|k]; cbn [v_step v_n v_hist length]; [congruence|exact H|]. destruct (N k (or_introl eq_refl)).
Qed.
Lemma crash_outcomes b qs l :
  let v := v_run l (v_init b qs) in
  (forall p i, after_crash v p i (page_byte (t_blk (v_sys v)) p i)) /\
  ((forall k, ~ In (VEnd k) l) -> forall l1 l2, l = l1 ++ l2 -> forall p i, after_crash v p i (page_byte (t_blk (v_sys (v_run l1 (v_init b qs)))) p i)).
Proof.
  intros v. split.
  - intros p i. destruct (front_run l _ (front_init b qs)) as ((h & H1) & H2 & _). exists (t_blk (v_sys v)). split; [|reflexivity].
    fold v in H1, H2. rewrite H1. destruct (v_n v); [lia|]. left. reflexivity.
  - intros N l1 l2 E p i. exists (t_blk (v_sys (v_run l1 (v_init b qs)))). split; [|reflexivity].
    unfold v. rewrite (unsynced_run l N (v_init b qs) eq_refl), firstn_all, E, v_run_app. apply hist_run.
    destruct (front_run l1 _ (front_init b qs)) as ((h & ->) & _). left. reflexivity.
Qed.
