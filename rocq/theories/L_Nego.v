(** Invariants of negotiation: messages in clear, and what survives STARTTLS. *)
From Coq Require Import String.
From Verif Require Import Base M_Const M_Setup M_Io M_Acl M_Nego S_Nego.
Open Scope list_scope.
Open Scope nego_scope.

(** * A small program logic: invariants relating the state proper to the trace *)
Record core := mkCore { k_tls : bool; k_struct : bool; k_size : Z; k_exports : list export; k_glob : Z; k_comm : bool }.
Definition core_of (s : nst) : core := mkCore (n_tls s) (n_struct s) (n_size s) (n_exports s) (n_glob s) (n_comm s).

Section Logic.
Variable E : nenv.
Variable J : core -> list nev -> Prop.
(** what is to hold of the trace if the process ends *)
Variable JD : list nev -> Prop.
Hypothesis J_JD : forall c tr, J c tr -> JD tr.

Definition okc {A} (c : core) (m : N A) (Q : A -> core -> Prop) : Prop :=
  forall s, J c (n_tr s) -> core_of s = c ->
    match m s with
    | NRet a s' => J (core_of s') (n_tr s') /\ Q a (core_of s')
    | NUb s' | NDie s' => JD (n_tr s')
    | NStuck => True
    end.

Lemma okc_ret {A} c (a : A) (Q : A -> core -> Prop) : Q a c -> okc c (nret a) Q.
Proof. intros H s Hj <-. cbn. auto. Qed.
Lemma okc_bind {A B} c (m : N A) (f : A -> N B) (R : A -> core -> Prop) Q :
  okc c m R -> (forall a c', R a c' -> okc c' (f a) Q) -> okc c (nbind m f) Q.
Proof.
  intros H1 H2 s Hj Hc. unfold nbind. specialize (H1 s Hj Hc).
  destruct (m s) as [a s'|s'|s'|]; try exact H1. destruct H1 as [H3 H4]. exact (H2 a _ H4 s' H3 eq_refl).
Qed.
Lemma okc_mono {A} c (m : N A) (Q Q' : A -> core -> Prop) : okc c m Q -> (forall a c', Q a c' -> Q' a c') -> okc c m Q'.
Proof. intros H K s Hj Hc. specialize (H s Hj Hc). destruct (m s); try exact H. destruct H; auto. Qed.
Lemma okc_die {A} c (Q : A -> core -> Prop) : okc c ndie Q.
Proof. intros s Hj <-. apply (J_JD _ _ Hj). Qed.
Lemma okc_ub {A} c (Q : A -> core -> Prop) : okc c nub Q.
Proof. intros s Hj <-. apply (J_JD _ _ Hj). Qed.
Lemma okc_get {A B} c (p : core -> A) (g : nst -> A) (f : A -> N B) Q :
  (forall s, g s = p (core_of s)) -> okc c (f (p c)) Q -> okc c (nbind (nget g) f) Q.
Proof. intros Hg H s Hj Hc. unfold nbind, nget. rewrite Hg, Hc. apply H; auto. Qed.
Lemma okc_read {A} c n (f : list Z -> N A) Q : (forall b, okc c (f b) Q) -> okc c (nbind (nread n) f) Q.
Proof.
  intros H s Hj Hc. unfold nbind, nread. destruct (zlen (n_in s) <? n); [exact (J_JD _ _ Hj)|].
  apply H; [exact Hj|exact Hc].
Qed.
Lemma okc_read_be {A} c n (f : Z -> N A) Q : (forall z, okc c (f z) Q) -> okc c (nbind (nread_be n) f) Q.
Proof.
  intros H s Hj Hc. unfold nbind, nread_be, nbind, nread. destruct (zlen (n_in s) <? n); [exact (J_JD _ _ Hj)|].
  apply H; [exact Hj|exact Hc].
Qed.
Lemma okc_consume {A} c n (f : unit -> N A) Q : okc c (f tt) Q -> okc c (nbind (nconsume n) f) Q.
Proof.
  intros H s Hj Hc. unfold nbind, nconsume, nbind, nread. destruct (zlen (n_in s) <? n); [exact (J_JD _ _ Hj)|].
  apply H; [exact Hj|exact Hc].
Qed.
Lemma okc_consume_len {A} c (f : unit -> N A) Q : okc c (f tt) Q -> okc c (nbind nconsume_len f) Q.
Proof.
  intros H s Hj Hc. unfold nbind, nconsume_len, nread_be, nconsume, nbind, nread.
  destruct (zlen (n_in s) <? 4); [exact (J_JD _ _ Hj)|]. cbn [nret n_in].
  match goal with |- context [if ?b then _ else _] => destruct b end; [exact (J_JD _ _ Hj)|].
  apply H; [exact Hj|exact Hc].
Qed.
Lemma okc_pull {A B} c (o : nat -> A) (f : A -> N B) Q : (forall a, okc c (f a) Q) -> okc c (nbind (npull o) f) Q.
Proof. intros H s Hj Hc. unfold nbind, npull. apply H; [exact Hj|exact Hc]. Qed.
Lemma okc_emit c v (Q : unit -> core -> Prop) : (forall tr, J c tr -> J c (tr ++ [v])) -> Q tt c -> okc c (emit v) Q.
Proof.
  intros H1 H2 s Hj Hc. cbn. change (core_of (mkN (n_in s) (n_next s) (n_tls s) (n_struct s) (n_size s) (n_exports s) (n_glob s) (n_comm s) (n_tick s) (n_tr s ++ [v]))) with (core_of s).
  rewrite Hc. auto.
Qed.
Lemma okc_send c b (Q : unit -> core -> Prop) :
  (forall tr, J c tr -> J c (tr ++ [NSend (k_tls c) b]) /\ JD (tr ++ [NCut (k_tls c) b])) -> Q tt c -> okc c (nsend E b) Q.
Proof.
  intros H1 H2. unfold nsend. apply okc_pull. intros ok. apply (okc_get c k_tls); [reflexivity|].
  destruct ok.
  - apply okc_emit; [|exact H2]. intros tr Hj. apply H1; auto.
  - intros s Hj Hc. cbn. apply H1. exact Hj.
Qed.
Lemma okc_struct c b (Q : unit -> core -> Prop) :
  let c' := mkCore (k_tls c) b (k_size c) (k_exports c) (k_glob c) (k_comm c) in
  (forall tr, J c tr -> J c' tr) -> Q tt c' -> okc c (put_struct b) Q.
Proof. intros c' H1 H2 s Hj <-. cbn. split; [apply H1; exact Hj|exact H2]. Qed.
Lemma okc_size c z (Q : unit -> core -> Prop) :
  let c' := mkCore (k_tls c) (k_struct c) z (k_exports c) (k_glob c) (k_comm c) in
  (forall tr, J c tr -> J c' tr) -> Q tt c' -> okc c (put_size z) Q.
Proof. intros c' H1 H2 s Hj <-. cbn. split; [apply H1; exact Hj|exact H2]. Qed.
Lemma okc_exports c l (Q : unit -> core -> Prop) :
  let c' := mkCore (k_tls c) (k_struct c) (k_size c) l (k_glob c) (k_comm c) in
  (forall tr, J c tr -> J c' tr) -> Q tt c' -> okc c (put_exports l) Q.
Proof. intros c' H1 H2 s Hj <-. cbn. split; [apply H1; exact Hj|exact H2]. Qed.
Lemma okc_glob c z (Q : unit -> core -> Prop) :
  let c' := mkCore (k_tls c) (k_struct c) (k_size c) (k_exports c) z (k_comm c) in
  (forall tr, J c tr -> J c' tr) -> Q tt c' -> okc c (put_glob z) Q.
Proof. intros c' H1 H2 s Hj <-. cbn. split; [apply H1; exact Hj|exact H2]. Qed.
Lemma okc_comm c (Q : unit -> core -> Prop) :
  let c' := mkCore (k_tls c) (k_struct c) (k_size c) (k_exports c) (k_glob c) false in
  (forall tr, J c tr -> J c' tr) -> Q tt c' -> okc c close_comm Q.
Proof. intros c' H1 H2 s Hj <-. cbn. split; [apply H1; exact Hj|exact H2]. Qed.
Lemma okc_tls c (Q : unit -> core -> Prop) :
  let c' := mkCore true (k_struct c) (k_size c) (k_exports c) (k_glob c) (k_comm c) in
  (forall tr, J c tr -> J c' (tr ++ [NTls])) -> Q tt c' -> okc c enter_tls Q.
Proof. intros c' H1 H2 s Hj <-. cbn. split; [apply H1; exact Hj|exact H2]. Qed.
Lemma okc_assoc {A B C} c (m : N A) (f : A -> N B) (g : B -> N C) Q :
  okc c (nbind m (fun x => nbind (f x) g)) Q -> okc c (nbind (nbind m f) g) Q.
Proof.
  intros H s Hj Hc. specialize (H s Hj Hc). unfold nbind in *. destruct (m s); exact H.
Qed.
Lemma okc_ret_bind {A B} c (a : A) (f : A -> N B) Q : okc c (f a) Q -> okc c (nbind (nret a) f) Q.
Proof. intros H s Hj Hc. exact (H s Hj Hc). Qed.
Lemma okc_die_bind {A B} c (f : A -> N B) Q : okc c (nbind ndie f) Q.
Proof. intros s Hj <-. apply (J_JD _ _ Hj). Qed.
Lemma okc_ub_bind {A B} c (f : A -> N B) Q : okc c (nbind nub f) Q.
Proof. intros s Hj <-. apply (J_JD _ _ Hj). Qed.
Lemma okc_if_bind {A B} c (b : bool) (m1 m2 : N A) (f : A -> N B) Q :
  okc c (nbind m1 f) Q -> okc c (nbind m2 f) Q -> okc c (nbind (if b then m1 else m2) f) Q.
Proof. destruct b; auto. Qed.
End Logic.

(** * The relation between configured exports and the current records *)
Definition xrel (e0 e : export) : Prop :=
  x_name e = x_name e0 /\ x_auth e = x_auth e0 /\ x_expected e = x_expected e0 /\ x_prerun e = x_prerun e0 /\
  x_files e = x_files e0 /\ demoted (x_flags e0) (x_flags e).

Lemma demoted_refl f : demoted f f.
Proof. left. reflexivity. Qed.
Lemma demote_flag f b : b <> F_READONLY -> b <> F_AUTOREADONLY -> (exists k, 0 <= k /\ b = 2 ^ k) ->
  flag (Z.lor (Z.lor f F_AUTOREADONLY) F_READONLY) b = flag f b.
Proof.
  intros N1 N2 (k & Hk & ->). unfold flag. do 2 f_equal.
  rewrite !Z.land_lor_distr_l.
  assert (forall j, 0 <= j -> j <> k -> Z.land (2 ^ j) (2 ^ k) = 0) as D.
  { intros j Hj N. apply Z.bits_inj'. intros i Hi. rewrite Z.land_spec, Z.bits_0, !Z.pow2_bits_eqb by lia.
    destruct (j =? i) eqn:E1, (k =? i) eqn:E2; try reflexivity. lia. }
  change F_AUTOREADONLY with (2 ^ 3) in *. change F_READONLY with (2 ^ 0) in *.
  rewrite (D 3), (D 0) by (try lia; congruence). rewrite !Z.lor_0_r. reflexivity.
Qed.
Lemma demoted_flag f0 f b : demoted f0 f -> b <> F_READONLY -> b <> F_AUTOREADONLY -> (exists k, 0 <= k /\ b = 2 ^ k) -> flag f b = flag f0 b.
Proof. intros [-> | ->] N1 N2 K; [reflexivity|]. apply demote_flag; auto. Qed.
Ltac pow k := exists k; split; [lia|reflexivity].
Lemma demoted_forced f0 f : demoted f0 f -> flag f F_FORCEDTLS = flag f0 F_FORCEDTLS.
Proof. intros D. apply (demoted_flag _ _ _ D); try discriminate. pow 14. Qed.
Lemma demoted_trans f0 f1 f2 : demoted f0 f1 -> demoted f1 f2 -> demoted f0 f2.
Proof.
  intros [-> | ->] [-> | ->]; [left; reflexivity|right; reflexivity|right; reflexivity|]. right.
  apply Z.bits_inj'. intros i Hi. rewrite !Z.lor_spec.
  destruct (Z.testbit f0 i), (Z.testbit F_AUTOREADONLY i), (Z.testbit F_READONLY i); reflexivity.
Qed.
Lemma xrel_refl e : xrel e e.
Proof. unfold xrel. repeat split. apply demoted_refl. Qed.
Lemma xrel_trans a b c : xrel a b -> xrel b c -> xrel a c.
Proof.
  unfold xrel. intros (A1 & A2 & A3 & A4 & A5 & A6) (B1 & B2 & B3 & B4 & B5 & B6).
  rewrite B1, B2, B3, B4, B5. repeat split; auto. eapply demoted_trans; eauto.
Qed.

(** setupexport only ever demotes *)
Lemma open_member_flags fl cc m f rw : open_member fl cc m = Some (f, rw) -> demoted fl f.
Proof.
  unfold open_member. intros H.
  repeat match goal with H : (if ?b then _ else _) = Some _ |- _ => destruct b eqn:?; try discriminate end;
    injection H as <- <-; try apply demoted_refl;
    try (match goal with |- demoted _ (if ?b then _ else _) => destruct b end; [left|right]; reflexivity).
Qed.
Lemma setup_multi_flags ms : forall fl i st f a b c, setup_multi fl ms i st = Some (f, a, b, c) -> demoted fl f.
Proof.
  induction ms as [|m ms IH]; intros fl i st f a b c H; cbn [setup_multi] in H; [injection H as <- <- <- <-; apply demoted_refl|].
  destruct (open_member fl false m) as [[f1 rw]|] eqn:O; [|injection H as <- <- <- <-; apply demoted_refl].
  destruct (off_add st (i64 (mb_size m))) as [nx|]; [|discriminate].
  destruct (setup_multi f1 ms (S i) nx) as [[[[f2 fis] rws] tot]|] eqn:S; [|discriminate].
  injection H as <- <- <- <-. eapply demoted_trans; [eapply open_member_flags; exact O|]. eapply IH. exact S.
Qed.
Lemma setup_flags_demoted fl ex ms : demoted fl (setup_flags fl ex ms).
Proof.
  unfold setup_flags. destruct (flag fl F_TREEFILES || flag fl F_WAIT); [apply demoted_refl|].
  destruct (flag fl F_MULTIFILE).
  - destruct (setup_multi fl ms 0 0) as [[[[f a] b] c]|] eqn:S; [|apply demoted_refl]. eapply setup_multi_flags. exact S.
  - unfold open_single. destruct (flag fl F_TEMPORARY); [apply demoted_refl|]. destruct ms as [|m ms]; [apply demoted_refl|].
    destruct (open_member fl (negb (ex =? 0)) m) as [[f rw]|] eqn:O; [|apply demoted_refl]. eapply open_member_flags. exact O.
Qed.
Lemma setup_flags_ok fl ex ms su : setupexport fl ex ms = SetupOk su -> su_flags su = setup_flags fl ex ms.
Proof.
  unfold setupexport, setup_flags. destruct (flag fl F_TREEFILES || flag fl F_WAIT); [intros H; injection H as <-; reflexivity|].
  destruct (flag fl F_MULTIFILE).
  - destruct (setup_multi fl ms 0 0) as [[[[f a] b] c]|]; [|discriminate]. destruct a; [discriminate|].
    destruct (setup_size ex c); [|discriminate]. intros H; injection H as <-. reflexivity.
  - destruct (open_single fl ex ms) as [[[f rw] sz]|]; [|discriminate].
    destruct ((sz =? 0) && negb (ex =? 0)).
    + destruct rw; [|discriminate]. intros H; injection H as <-; reflexivity.
    + destruct (setup_size ex (i64 sz)); [|discriminate]. intros H; injection H as <-; reflexivity.
Qed.

Lemma set_nth_rel i e' : forall l0 l, Forall2 xrel l0 l -> (forall e, nth_error l i = Some e -> xrel e e') -> Forall2 xrel l0 (set_nth i e' l).
Proof.
  induction i as [|i IH]; intros l0 l H K; destruct H as [|e0 e l0 l He H]; cbn [set_nth]; constructor; auto.
  eapply xrel_trans; [exact He|]. apply K. reflexivity.
Qed.
Lemma nth_default_error {A} (l : list A) i d e : nth_error l i = Some e -> nth i l d = e.
Proof. revert i; induction l as [|x l IH]; intros [|i] H; try discriminate; cbn in *; [congruence|auto]. Qed.
Lemma rel_nth l0 l : Forall2 xrel l0 l -> forall i e, nth_error l i = Some e -> exists e0, nth_error l0 i = Some e0 /\ In e0 l0 /\ xrel e0 e.
Proof.
  induction 1 as [|a b l0 l Hab _ IH]; intros i e Hi; [destruct i; discriminate|]. destruct i as [|i].
  - injection Hi as <-. exists a. split; [reflexivity|]. split; [left; reflexivity|exact Hab].
  - destruct (IH i e Hi) as (e0 & H1 & H2 & H3). exists e0. split; [exact H1|]. split; [right; exact H2|exact H3].
Qed.

(** * The searches *)
Lemma find_first_spec tls name l : forall i j, find_first tls name i l = Some j ->
  exists e, (i <= j)%nat /\ nth_error l (j - i) = Some e /\ hidden tls e = false /\ x_name e = cstr name.
Proof.
  induction l as [|e l IH]; intros i j H; cbn [find_first] in H; [discriminate|].
  destruct (negb (hidden tls e) && name_eqb (x_name e) name) eqn:B.
  - injection H as <-. apply andb_prop in B. destruct B as [B1 B2]. exists e. split; [lia|].
    rewrite Nat.sub_diag. split; [reflexivity|]. split; [destruct (hidden tls e); [discriminate|reflexivity]|].
    unfold name_eqb in B2. destruct (list_eq_dec Z.eq_dec (x_name e) (cstr name)); [assumption|discriminate].
  - destruct (IH _ _ H) as (e' & A1 & A2 & A3). exists e'. split; [lia|]. split; [|exact A3].
    replace (j - i)%nat with (S (j - S i)) by lia. exact A2.
Qed.
Lemma find_last_spec tls name l : forall i acc j, fst (find_last tls name i l acc) = Some j ->
  fst acc = Some j \/ exists e, (i <= j)%nat /\ nth_error l (j - i) = Some e /\ hidden tls e = false /\ x_name e = cstr name.
Proof.
  induction l as [|e l IH]; intros i acc j H; cbn [find_last] in H; [left; exact H|].
  apply IH in H. destruct H as [H|(e' & A1 & A2 & A3)].
  - destruct (name_eqb (x_name e) name) eqn:B; [|left; exact H].
    destruct (hidden tls e) eqn:Hd; [left; exact H|]. cbn in H. injection H as <-. right. exists e.
    split; [lia|]. rewrite Nat.sub_diag. split; [reflexivity|]. split; [exact Hd|].
    unfold name_eqb in B. destruct (list_eq_dec Z.eq_dec (x_name e) (cstr name)); [assumption|discriminate].
  - right. exists e'. split; [lia|]. split; [|exact A3]. replace (j - i)%nat with (S (j - S i)) by lia. exact A2.
Qed.

Ltac jd := eassumption.
Ltac ok1 :=
  lazymatch goal with
  | |- okc _ _ _ (nbind (nbind _ _) _) _ => apply okc_assoc
  | |- okc _ _ _ (nbind (nread _) _) _ => apply okc_read; [jd|intros ?b]
  | |- okc _ _ _ (nbind (nread_be _) _) _ => apply okc_read_be; [jd|intros ?z]
  | |- okc _ _ _ (nbind (nconsume _) _) _ => apply okc_consume; [jd|..]
  | |- okc _ _ _ (nbind nconsume_len _) _ => apply okc_consume_len; [jd|..]
  | |- okc _ _ _ (nbind (npull _) _) _ => apply okc_pull; intros ?o
  | |- okc _ _ _ (nbind (nret _) _) _ => apply okc_ret_bind
  | |- okc _ _ _ (nbind ndie _) _ => apply okc_die_bind; [jd|..]
  | |- okc _ _ _ (nbind nub _) _ => apply okc_ub_bind; [jd|..]
  | |- okc _ _ _ (nbind (nget n_tls) _) _ => apply (okc_get _ _ _ k_tls); [reflexivity|]
  | |- okc _ _ _ (nbind (nget n_struct) _) _ => apply (okc_get _ _ _ k_struct); [reflexivity|]
  | |- okc _ _ _ (nbind (nget n_size) _) _ => apply (okc_get _ _ _ k_size); [reflexivity|]
  | |- okc _ _ _ (nbind (nget n_exports) _) _ => apply (okc_get _ _ _ k_exports); [reflexivity|]
  | |- okc _ _ _ (nbind (nget n_glob) _) _ => apply (okc_get _ _ _ k_glob); [reflexivity|]
  | |- okc _ _ _ (nbind (nget n_comm) _) _ => apply (okc_get _ _ _ k_comm); [reflexivity|]
  | |- okc _ _ ?c (nbind (nget (nth_export ?i)) _) _ => apply (okc_get _ _ c (fun c => nth i (k_exports c) no_export)); [reflexivity|]
  | |- okc _ _ _ (nbind (if ?b then _ else _) _) _ => destruct b eqn:?
  | |- okc _ _ _ (if ?b then _ else _) _ => destruct b eqn:?
  | |- okc _ _ _ ndie _ => apply okc_die; [jd|..]
  | |- okc _ _ _ nub _ => apply okc_ub; [jd|..]
  | |- okc _ _ _ (nret _) _ => apply okc_ret
  end.
