(** Proofs about connecting, checking and setting up the device. *)
From Coq Require Import String.
From Verif Require Import Base M_Acl M_Nego M_Conf M_Tab M_Dev S_Tab L_TabP S_Dev L_Dev.
Local Open Scope list_scope.

(** ** connecting *)
Lemma open_first_spec l : forall n r o, open_first l n = (r, o) ->
  match r with
  | None => o = [] /\ forall x, In x l -> snd x <> TConnected
  | Some (a, i) => o = [i] /\ exists pre post, l = pre ++ (a, TConnected) :: post /\ forall x, In x pre -> snd x <> TConnected
  end.
Proof.
  induction l as [|[a t] l IH]; intros n r o; cbn [open_first].
  - intros H. injection H as <- <-. split; [reflexivity|intros x []].
  - destruct t.
    + intros H. specialize (IH _ _ _ H). destruct r as [[b i]|].
      * destruct IH as (A & pre & post & -> & B). split; [exact A|]. exists ((a, TNoSocket) :: pre), post. split; [reflexivity|].
        intros x [<-|X]; [discriminate|auto].
      * destruct IH as (A & B). split; [exact A|]. intros x [<-|X]; [discriminate|auto].
    + intros H. specialize (IH _ _ _ H). destruct r as [[b i]|].
      * destruct IH as (A & pre & post & -> & B). split; [exact A|]. exists ((a, TRefused) :: pre), post. split; [reflexivity|].
        intros x [<-|X]; [discriminate|auto].
      * destruct IH as (A & B). split; [exact A|]. intros x [<-|X]; [discriminate|auto].
    + intros H. injection H as <- <-. split; [reflexivity|]. exists [], l. split; [reflexivity|intros x []].
Qed.
Lemma openunix_spec path ok r : openunix path ok = Some r -> r = path /\ zlen path < 108.
Proof.
  unfold openunix. destruct (108 <=? zlen path) eqn:E; [discriminate|]. apply Z.leb_gt in E.
  rewrite firstn_all2 by (unfold zlen in E; lia). destruct (ok path); [|discriminate]. intros H. injection H as <-. auto.
Qed.

(** ** checking *)
Lemma existsb_no c l : ~ In c l -> existsb (fun x => x =? c) l = false.
Proof.
  intros N. destruct (existsb (fun x => x =? c) l) eqn:E; [|reflexivity]. apply existsb_exists in E as (x & X & Q).
  apply Z.eqb_eq in Q. subst x. contradiction.
Qed.
Lemma base_plain d : ~ In 47 d -> base_name d = d.
Proof. intros N. destruct d as [|x t]; [reflexivity|]. cbn [base_name]. rewrite existsb_no by exact N. reflexivity. Qed.
Lemma base_slash p d : ~ In 47 d -> base_name (p ++ 47 :: d) = d.
Proof.
  intros N. induction p as [|x p IH]; cbn [app base_name].
  - cbn [existsb]. change (47 =? 47) with true. cbn [orb]. apply base_plain. exact N.
  - rewrite (proj2 (existsb_exists _ _)); [exact IH|]. exists 47. split; [right; apply in_elt|reflexivity].
Qed.
Lemma cut_at d t : ~ In 112 d -> cut_p (d ++ 112 :: t) = d.
Proof.
  intros N. unfold cut_p. induction d as [|x d IH]; cbn [app split_at].
  - reflexivity.
  - destruct (x =? 112) eqn:E; [apply Z.eqb_eq in E; subst; exfalso; apply N; now left|].
    destruct (split_at 112 (d ++ 112 :: t)) as [a r]. cbn [fst] in *. rewrite IH; [reflexivity|]. intros H. apply N. now right.
Qed.
Lemma cut_none d : ~ In 112 d -> cut_p d = d.
Proof.
  intros N. unfold cut_p. induction d as [|x d IH]; cbn [split_at]; [reflexivity|].
  destruct (x =? 112) eqn:E; [apply Z.eqb_eq in E; subst; exfalso; apply N; now left|].
  destruct (split_at 112 d) as [a r]. cbn [fst] in *. rewrite IH; [reflexivity|]. intros H. apply N. now right.
Qed.
Lemma sys_path_spec d n part : ~ In 47 n -> ~ In 112 n -> ~ In 47 part -> zlen n <= 240 ->
  (d = n \/ d = n ++ 112 :: part \/ exists dir, d = dir ++ 47 :: n \/ d = dir ++ 47 :: n ++ 112 :: part) ->
  sys_path d = text "/sys/block/" ++ n ++ text "/pid".
Proof.
  intros N1 N2 N3 L H.
  assert (N4 : ~ In 47 (n ++ 112 :: part)).
  { rewrite in_app_iff. intros [X|[X|X]]; [auto|discriminate|auto]. }
  assert (E : cut_p (base_name d) = n).
  { destruct H as [-> | [-> | (dir & [-> | ->])]].
    - rewrite base_plain by exact N1. apply cut_none. exact N2.
    - rewrite base_plain by exact N4. apply cut_at. exact N2.
    - rewrite base_slash by exact N1. apply cut_none. exact N2.
    - rewrite base_slash by exact N4. apply cut_at. exact N2. }
  unfold sys_path. rewrite E. apply firstn_all2. rewrite !app_length. unfold zlen in L.
  change (length (text "/sys/block/")) with 11%nat. change (length (text "/pid")) with 4%nat. lia.
Qed.

(** ** the device *)
Lemma kcalls_app k a b : kcalls k (a ++ b) = kcalls (kcalls k a) b.
Proof. apply fold_left_app. Qed.
Lemma conn_rest c negs : forall i st k, (0 < i)%nat ->
  let r := conn_calls c negs i st in
  let k' := kcalls k (fst r) in
  kd_bs k' = kd_bs k /\ kd_size k' = kd_size k /\ kd_fl k' = kd_fl k /\ kd_ro k' = kd_ro k /\ kd_timeout k' = kd_timeout k
  /\ kd_socks k' = kd_socks k ++ seq i (length negs).
Proof.
  induction negs as [|neg negs IH]; intros i st k Hi; cbv zeta; cbn [conn_calls length seq].
  - cbn. rewrite app_nil_r. repeat split.
  - specialize (IH (S i) (turn c neg st)). destruct (conn_calls c negs (S i) (turn c neg st)) as [r st'].
    destruct i as [|i]; [lia|]. cbn [app fst]. cbn [fst] in IH. unfold kcalls. cbn [fold_left]. fold (kcalls (kcall k (SetSock (S i))) r).
    destruct (IH (kcall k (SetSock (S i))) ltac:(lia)) as (A & B & C & D & E & F). rewrite A, B, C, D, E, F. cbn. rewrite <- app_assoc. repeat split.
Qed.
Lemma conn_end c negs : forall i st, snd (conn_calls c negs i st) = turns c negs st.
Proof.
  unfold turns. induction negs as [|neg negs IH]; intros i st; cbn [conn_calls fold_left]; [reflexivity|].
  specialize (IH (S i) (turn c neg st)). destruct (conn_calls c negs (S i) (turn c neg st)) as [r st']. exact IH.
Qed.
Lemma u64_pos x : 0 < x < 2 ^ 31 -> u64 x = x.
Proof. intros H. unfold u64. apply Z.mod_small. lia. Qed.
Lemma ioctl_device c neg k : 0 < t_nconn c -> 0 < t_bs c < 2 ^ 31 ->
  let st := turn c (neg O) (0, 0) in
  let k' := kcalls k (fst (ioctl_calls c neg)) in
  kd_bs k' = t_bs c /\ kd_size k' = t_bs c * (fst st / t_bs c) /\ kd_fl k' = snd st /\ kd_ro k' = flag (snd st) 2
  /\ (t_timeout c <> 0 -> kd_timeout k' = t_timeout c) /\ kd_socks k' = seq 0 (Z.to_nat (t_nconn c)).
Proof.
  intros N B. cbv zeta. unfold ioctl_calls, connections. destruct (Z.to_nat (t_nconn c)) as [|n] eqn:En; [lia|].
  cbn [seq map conn_calls]. pose proof (conn_rest c (map neg (seq 1 n)) 1 (turn c (neg 0%nat) (0, 0))) as R. cbv zeta in R.
  destruct (conn_calls c (map neg (seq 1 n)) 1 (turn c (neg 0%nat) (0, 0))) as [r st'] eqn:Er. cbn [fst] in *.
  rewrite kcalls_app.
  destruct (turn c (neg 0%nat) (0, 0)) as [sz fl]. cbn [fst snd].
  set (k1 := kcalls k (setsizes sz (t_bs c) fl ++ set_timeout_calls (t_timeout c))).
  change (kcalls k1 (SetSock 0 :: r)) with (kcalls (kcall k1 (SetSock 0)) r).
  destruct (R (kcall k1 (SetSock 0)) ltac:(lia)) as (R1 & R2 & R3 & R4 & R5 & R6).
  rewrite R1, R2, R3, R4, R5, R6. rewrite map_length, seq_length. clear R R1 R2 R3 R4 R5 R6.
  assert (K : kd_bs k1 = t_bs c /\ kd_size k1 = t_bs c * (sz / t_bs c) /\ kd_fl k1 = fl /\ kd_ro k1 = flag fl 2
              /\ (t_timeout c <> 0 -> kd_timeout k1 = t_timeout c) /\ kd_socks k1 = []).
  { unfold k1, setsizes, set_timeout_calls. rewrite (u64_pos _ B). destruct (t_timeout c =? 0) eqn:Et.
    - apply Z.eqb_eq in Et. cbn. repeat split; intros; congruence.
    - cbn. repeat split. }
  destruct K as (K1 & K2 & K3 & K4 & K5 & K6). cbn [kcall kd_bs kd_size kd_fl kd_ro kd_timeout kd_socks].
  rewrite K1, K2, K3, K4, K6. repeat split; auto.
Qed.
Lemma turn_value c sz fl st : t_preinit c = false ->
  turn c (sz, fl) st = (if t_force c =? 0 then sz else t_force c, if t_ro c then Z.lor fl 2 else fl).
Proof. intros P. unfold turn. rewrite P. reflexivity. Qed.
Lemma flag_lor2 fl : flag (Z.lor fl 2) 2 = true.
Proof.
  unfold flag. destruct (Z.land (Z.lor fl 2) 2 =? 0) eqn:E; [exfalso|reflexivity]. apply Z.eqb_eq in E.
  assert (X : Z.testbit (Z.land (Z.lor fl 2) 2) 1 = true).
  { rewrite Z.land_spec, Z.lor_spec. change (Z.testbit 2 1) with true. rewrite orb_true_r. reflexivity. }
  rewrite E in X. discriminate X.
Qed.
Lemma turns_same c sz fl n : t_preinit c = false -> forall st,
  turns c (map (fun _ : nat => (sz, fl)) (seq 0 (S n))) st = turn c (sz, fl) st.
Proof.
  intros P st. rewrite (turn_value _ _ _ _ P). unfold turns.
  cut (forall l st, l <> [] -> fold_left (fun st neg => turn c neg st) (map (fun _ : nat => (sz, fl)) l) st
       = (if t_force c =? 0 then sz else t_force c, if t_ro c then Z.lor fl 2 else fl)).
  { intros H. apply H. discriminate. }
  induction l as [|x l IH]; intros s Hl; [congruence|]. cbn [map fold_left]. rewrite (turn_value _ _ _ _ P).
  destruct l as [|y l]; [reflexivity|]. apply IH. discriminate.
Qed.
