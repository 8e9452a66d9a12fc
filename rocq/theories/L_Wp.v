(** Reasoning rules for the effect monad of M_Disk.v. *)
From Verif Require Import Base M_Const M_Disk.

(** [wp m Q D w]: from [w], [m] neither runs into undefined behaviour nor
    exhausts a loop bound; a normal return satisfies [Q], an exit [D]. *)
Definition wp {A} (m : M A) (Q : A -> world -> Prop) (D : world -> Prop) (w : world) : Prop :=
  match m w with
  | Ret a w' => Q a w'
  | Die w' => D w'
  | Ub => False
  | Stuck => False
  end.

Lemma wp_mono {A} (m : M A) (Q Q' : A -> world -> Prop) (D D' : world -> Prop) w :
  wp m Q D w -> (forall a w', Q a w' -> Q' a w') -> (forall w', D w' -> D' w') -> wp m Q' D' w.
Proof. unfold wp. destruct (m w); auto. Qed.

Lemma wp_ret {A} (a : A) (Q : A -> world -> Prop) D w : Q a w -> wp (ret a) Q D w.
Proof. intros H; exact H. Qed.
Lemma wp_bind {A B} (m : M A) (k : A -> M B) (Q : B -> world -> Prop) D w :
  wp m (fun a w' => wp (k a) Q D w') D w -> wp (bind m k) Q D w.
Proof. unfold wp, bind. destruct (m w); auto. Qed.
Lemma wp_get {A} (f : world -> A) (Q : A -> world -> Prop) D w : Q (f w) w -> wp (get f) Q D w.
Proof. intros H; exact H. Qed.
Lemma wp_modify f (Q : unit -> world -> Prop) D w : Q tt (f w) -> wp (modify f) Q D w.
Proof. intros H; exact H. Qed.
Lemma wp_pull (Q : sysres -> world -> Prop) D w : Q (w_orc w (w_tick w)) (tick w) -> wp pull Q D w.
Proof. intros H; exact H. Qed.
Lemma wp_die {A} (Q : A -> world -> Prop) (D : world -> Prop) w : D w -> wp die Q D w.
Proof. intros H; exact H. Qed.
Lemma wp_assert b (Q : unit -> world -> Prop) (D : world -> Prop) w :
  (b = true -> Q tt w) -> (b = false -> D w) -> wp (assert_ b) Q D w.
Proof. destruct b; unfold wp, assert_, ret, die; auto. Qed.
Lemma wp_send m (Q : unit -> world -> Prop) D w : Q tt (emit (ESend m) w) -> wp (send m) Q D w.
Proof. intros H; exact H. Qed.

(** A loop: invariant, variant. *)
Lemma wp_mloop {S R} bound (body : S -> M (S + R)) (I : S -> world -> Prop) (m : S -> Z)
      (Q : R -> world -> Prop) (D : world -> Prop) s w :
  (forall s w, I s w -> 0 <= m s) ->
  (forall s w, I s w ->
     wp (body s) (fun r w' => match r with
                              | inl s' => I s' w' /\ m s' < m s
                              | inr x => Q x w'
                              end) D w) ->
  I s w -> m s <= bound ->
  wp (mloop bound body s) Q D w.
Proof.
  intros Hm Hb Hs Hlt. unfold wp, mloop.
  destruct (loopP_total (mstep body) (fun sw => I (fst sw) (snd sw))
             (fun o => match o with Ret a w' => Q a w' | Die w' => D w' | _ => False end)
             (fun sw => m (fst sw))) with (p := Z.to_pos (bound + 1)) (s := (s, w)) as (r & Hr & HQ).
  - intros [s0 w0]; cbn [fst snd]. apply Hm.
  - intros [s0 w0] H0; cbn [fst snd] in *. specialize (Hb s0 w0 H0).
    unfold wp in Hb. unfold mstep. cbn [fst snd].
    destruct (body s0 w0) as [[s'|x] w'| |w'|]; cbn [fst snd]; auto.
  - exact Hs.
  - cbn [fst]. specialize (Hm s w Hs). lia.
  - rewrite Hr. destruct r; auto.
Qed.

(** Weaker judgement: undefined behaviour allowed (for safety statements that
    hold up to the first undefined step). *)
Definition wlp {A} (m : M A) (Q : A -> world -> Prop) (D : world -> Prop) (w : world) : Prop :=
  match m w with
  | Ret a w' => Q a w'
  | Die w' => D w'
  | Ub => True
  | Stuck => True
  end.
Lemma wp_wlp {A} (m : M A) Q D w : wp m Q D w -> wlp m Q D w.
Proof. unfold wp, wlp. destruct (m w); tauto. Qed.
Lemma wlp_mono {A} (m : M A) (Q Q' : A -> world -> Prop) (D D' : world -> Prop) w :
  wlp m Q D w -> (forall a w', Q a w' -> Q' a w') -> (forall w', D w' -> D' w') -> wlp m Q' D' w.
Proof. unfold wlp. destruct (m w); auto. Qed.
Lemma wlp_ret {A} (a : A) (Q : A -> world -> Prop) D w : Q a w -> wlp (ret a) Q D w.
Proof. intros H; exact H. Qed.
Lemma wlp_bind {A B} (m : M A) (k : A -> M B) (Q : B -> world -> Prop) D w :
  wlp m (fun a w' => wlp (k a) Q D w') D w -> wlp (bind m k) Q D w.
Proof. unfold wlp, bind. destruct (m w); auto. Qed.
Lemma wlp_get {A} (f : world -> A) (Q : A -> world -> Prop) D w : Q (f w) w -> wlp (get f) Q D w.
Proof. intros H; exact H. Qed.
Lemma wlp_modify f (Q : unit -> world -> Prop) D w : Q tt (f w) -> wlp (modify f) Q D w.
Proof. intros H; exact H. Qed.
Lemma wlp_pull (Q : sysres -> world -> Prop) D w : Q (w_orc w (w_tick w)) (tick w) -> wlp pull Q D w.
Proof. intros H; exact H. Qed.
Lemma wlp_die {A} (Q : A -> world -> Prop) (D : world -> Prop) w : D w -> wlp die Q D w.
Proof. intros H; exact H. Qed.
Lemma wlp_ub {A} (Q : A -> world -> Prop) (D : world -> Prop) w : wlp ub Q D w.
Proof. exact I. Qed.
Lemma wlp_assert b (Q : unit -> world -> Prop) (D : world -> Prop) w :
  (b = true -> Q tt w) -> (b = false -> D w) -> wlp (assert_ b) Q D w.
Proof. destruct b; unfold wlp, assert_, ret, die; auto. Qed.
Lemma wlp_send m (Q : unit -> world -> Prop) D w : Q tt (emit (ESend m) w) -> wlp (send m) Q D w.
Proof. intros H; exact H. Qed.
Lemma wlp_mloop {S R} bound (body : S -> M (S + R)) (I : S -> world -> Prop)
      (Q : R -> world -> Prop) (D : world -> Prop) s w :
  (forall s w, I s w ->
     wlp (body s) (fun r w' => match r with
                              | inl s' => I s' w'
                              | inr x => Q x w'
                              end) D w) ->
  I s w ->
  wlp (mloop bound body s) Q D w.
Proof.
  intros Hb Hs. unfold wlp, mloop.
  pose proof (loopP_partial (mstep body) (fun sw => I (fst sw) (snd sw))
             (fun o => match o with Ret a w' => Q a w' | Die w' => D w' | _ => True end)) as HP.
  assert (Hst : forall s0 : S * world, I (fst s0) (snd s0) ->
     match mstep body s0 with
     | inl s' => I (fst s') (snd s')
     | inr r => match r with Ret a w' => Q a w' | Die w' => D w' | _ => True end
     end).
  { intros [s0 w0] H0; cbn [fst snd] in *. specialize (Hb s0 w0 H0).
    unfold wlp in Hb. unfold mstep. cbn [fst snd].
    destruct (body s0 w0) as [[s'|x] w'| |w'|]; cbn [fst snd]; auto. }
  specialize (HP Hst (Z.to_pos (bound + 1)) (s, w) Hs).
  destruct (loopP (mstep body) (Z.to_pos (bound + 1)) (s, w)) as [[s' w']|r]; auto.
Qed.

(** ** Messages sent so far, oldest first. *)
Fixpoint sends (tr : list event) : list (list Z) :=
  match tr with
  | [] => []
  | ESend m :: t => sends t ++ [m]
  | _ :: t => sends t
  end.
Definition sent (w : world) : list (list Z) := sends (w_tr w).

Lemma sent_emit_send m w : sent (emit (ESend m) w) = sent w ++ [m].
Proof. reflexivity. Qed.

Lemma moved_le r n : 0 <= n -> moved r n <= n.
Proof. intros H; destruct r; cbn [moved]; unfold MAX_RW; lia. Qed.
Lemma moved_ge r n : 0 <= n -> -1 <= moved r n.
Proof. intros H; destruct r; cbn [moved]; unfold MAX_RW; lia. Qed.
Lemma moved_cap r n : moved r n <= MAX_RW.
Proof. destruct r; cbn [moved]; unfold MAX_RW; lia. Qed.
