(** How an export comes to be served; termination of negotiation. *)
From Coq Require Import String.
From Verif Require Import Base M_Const M_Setup M_Io M_Acl M_Nego S_Nego L_Nego.
Open Scope list_scope.
Open Scope nego_scope.

(** * How the state evolves *)
Definition stream_rel (s s' : nst) : Prop :=
  (n_tls s' = n_tls s /\ n_next s' = n_next s /\ exists u, n_in s = u ++ n_in s') \/
  (n_tls s = false /\ n_tls s' = true /\ n_next s' = [] /\ exists u, n_next s = u ++ n_in s').
Definition R (s s' : nst) : Prop :=
  (exists evs, n_tr s' = n_tr s ++ evs) /\
  (n_comm s' = false -> n_comm s = false \/ exists name v, In (NParent name v) (n_tr s')) /\
  stream_rel s s' /\ Forall2 xrel (n_exports s) (n_exports s') /\ n_glob s' = n_glob s.

Lemma stream_refl s : stream_rel s s.
Proof. left. split; [reflexivity|]. split; [reflexivity|]. exists []. reflexivity. Qed.
Lemma stream_trans a b c : stream_rel a b -> stream_rel b c -> stream_rel a c.
Proof.
  intros [(A1 & A2 & u & A3)|(A1 & A2 & A3 & u & A4)] [(B1 & B2 & v & B3)|(B1 & B2 & B3 & v & B4)].
  - left. split; [congruence|]. split; [congruence|]. exists (u ++ v). rewrite A3, B3, app_assoc. reflexivity.
  - right. split; [congruence|]. split; [exact B2|]. split; [exact B3|]. exists v. congruence.
  - right. split; [exact A1|]. split; [congruence|]. split; [congruence|]. exists (u ++ v). rewrite A4, B3, app_assoc. reflexivity.
  - congruence.
Qed.
Lemma xrels_refl l : Forall2 xrel l l.
Proof. induction l; constructor; auto. apply xrel_refl. Qed.
Lemma xrels_trans a b c : Forall2 xrel a b -> Forall2 xrel b c -> Forall2 xrel a c.
Proof.
  intros H. revert c. induction H as [|x y a b Hxy H IH]; intros c K; inversion K; subst; constructor; [eapply xrel_trans; eauto|auto].
Qed.
Lemma R_refl s : R s s.
Proof.
  split; [exists []; rewrite app_nil_r; reflexivity|]. split; [auto|]. split; [apply stream_refl|split; [apply xrels_refl|reflexivity]].
Qed.
Lemma R_trans a b c : R a b -> R b c -> R a c.
Proof.
  intros ((e1 & A1) & A2 & A3 & A4 & A5) ((e2 & B1) & B2 & B3 & B4 & B5). split; [|split; [|split; [|split; [eapply xrels_trans; eauto|congruence]]]].
  - exists (e1 ++ e2). rewrite B1, A1, app_assoc. reflexivity.
  - intros H. destruct (B2 H) as [H1|H1]; [|right; exact H1]. destruct (A2 H1) as [H2|(n & v & H2)]; [left; exact H2|].
    right. exists n, v. rewrite B1. apply in_app_iff. left. exact H2.
  - eapply stream_trans; eauto.
Qed.

(** bytes still to come *)
Definition left_over (s : nst) : nat := (length (n_in s) + length (n_next s))%nat.
Lemma R_left s s' : R s s' -> (left_over s' <= left_over s)%nat.
Proof.
  intros (_ & _ & [(_ & A2 & u & A3)|(_ & _ & A3 & u & A4)] & _); unfold left_over.
  - rewrite A2, A3, app_length. lia.
  - rewrite A3, A4, app_length. cbn. lia.
Qed.

Section Serve.
Variable E : nenv.

Definition pr {A} (m : N A) : Prop := forall s, match m s with NRet _ s' => R s s' | NStuck => False | _ => True end.

Lemma pr_ret {A} (a : A) : pr (nret a).
Proof. intros s. apply R_refl. Qed.
Lemma pr_bind {A B} (m : N A) (f : A -> N B) : pr m -> (forall a, pr (f a)) -> pr (nbind m f).
Proof.
  intros H1 H2 s. unfold nbind. specialize (H1 s). destruct (m s) as [a s'|s'|s'|]; auto.
  specialize (H2 a s'). destruct (f a s'); auto. eapply R_trans; eauto.
Qed.
Lemma pr_die {A} : pr (@ndie A).
Proof. intros s. exact I. Qed.
Lemma pr_ub {A} : pr (@nub A).
Proof. intros s. exact I. Qed.
Lemma pr_get {A} (f : nst -> A) : pr (nget f).
Proof. intros s. apply R_refl. Qed.
Ltac Rsame := split; [exists []; rewrite app_nil_r; reflexivity|split; [auto|split; [apply stream_refl || (left; split; [reflexivity|split; [reflexivity|exists []; reflexivity]])|split; [apply xrels_refl|reflexivity]]]].
Lemma pr_read n : pr (nread n).
Proof.
  intros s. unfold nread. destruct (zlen (n_in s) <? n); [exact I|].
  split; [exists []; rewrite app_nil_r; reflexivity|split; [auto|split; [|split; [apply xrels_refl|reflexivity]]]].
  left. split; [reflexivity|]. split; [reflexivity|]. exists (firstn (Z.to_nat n) (n_in s)). cbn. symmetry. apply firstn_skipn.
Qed.
Lemma pr_read_be n : pr (nread_be n).
Proof. apply pr_bind; [apply pr_read|]. intros. apply pr_ret. Qed.
Lemma pr_consume n : pr (nconsume n).
Proof. apply pr_bind; [apply pr_read|]. intros. apply pr_ret. Qed.
Lemma pr_consume_len : pr nconsume_len.
Proof. apply pr_bind; [apply pr_read_be|]. intros. apply pr_consume. Qed.
Lemma pr_pull {A} (f : nat -> A) : pr (npull f).
Proof. intros s. Rsame. Qed.
Lemma pr_emit v : pr (emit v).
Proof.
  intros s. split; [exists [v]; reflexivity|]. split; [auto|]. split; [left|split; [apply xrels_refl|reflexivity]].
  split; [reflexivity|]. split; [reflexivity|]. exists []. reflexivity.
Qed.
Lemma pr_send b : pr (nsend E b).
Proof.
  apply pr_bind; [apply pr_pull|]. intros ok. apply pr_bind; [apply pr_get|]. intros t. destruct ok; [apply pr_emit|].
  apply pr_bind; [apply pr_emit|]. intros. apply pr_die.
Qed.
Lemma pr_struct b : pr (put_struct b).
Proof. intros s. Rsame. Qed.
Lemma pr_size b : pr (put_size b).
Proof. intros s. Rsame. Qed.

Lemma pr_parent name : pr (ask_parent E name).
Proof.
  intros s. unfold ask_parent. destruct (e_dontfork E); [apply R_refl|]. unfold nbind, nget, npull, close_comm, emit, nret.
  destruct (n_comm s) eqn:C; cbn.
  - split; [exists [NParent name (e_parent E (n_tick s))]; reflexivity|]. split; [|split; [|split; [apply xrels_refl|reflexivity]]].
    + intros _. right. exists name, (e_parent E (n_tick s)). apply in_app_iff. right. left. reflexivity.
    + left. split; [reflexivity|]. split; [reflexivity|]. exists []. reflexivity.
  - split; [exists [NStale (e_parent E (n_tick s))]; reflexivity|]. split; [|split; [|split; [apply xrels_refl|reflexivity]]].
    + intros _. left. exact C.
    + left. split; [reflexivity|]. split; [reflexivity|]. exists []. reflexivity.
Qed.

Ltac pr1 := match goal with
  | |- pr (nret _) => apply pr_ret | |- pr ndie => apply pr_die | |- pr nub => apply pr_ub | |- pr (nget _) => apply pr_get
  | |- pr (nread _) => apply pr_read | |- pr (nread_be _) => apply pr_read_be | |- pr (nconsume _) => apply pr_consume
  | |- pr nconsume_len => apply pr_consume_len | |- pr (npull _) => apply pr_pull | |- pr (emit _) => apply pr_emit
  | |- pr (nsend _ _) => apply pr_send | |- pr (put_struct _) => apply pr_struct | |- pr (put_size _) => apply pr_size
  | |- pr (ask_parent _ _) => apply pr_parent
  | |- pr (send_data _ _ _ _) => unfold send_data | |- pr (send_head _ _ _ _) => unfold send_head
  | |- pr (send_export_info _ _ _) => unfold send_export_info | |- pr (send_info _ _ _) => unfold send_info
  | |- pr (nbind _ _) => apply pr_bind; [|intros ?]
  | |- pr (if ?b then _ else _) => destruct b
  | |- pr (match ?b with _ => _ end) => destruct b end.

Lemma pr_prepare i w : pr (nprepare E i w).
Proof. unfold nprepare. repeat pr1. Qed.

(** what happens to the exports *)
Definition fx {A} (L : list export) (m : N A) (Q : A -> list export -> Prop) : Prop :=
  forall s, n_exports s = L -> match m s with NRet a s' => Q a (n_exports s') | _ => True end.
Lemma fx_bind {A B} L (m : N A) (f : A -> N B) Q : fx L m (fun a L' => fx L' (f a) Q) -> fx L (nbind m f) Q.
Proof. intros H s Hs. unfold nbind. specialize (H s Hs). destruct (m s) as [a s'|s'|s'|]; auto. exact (H s' eq_refl). Qed.
Lemma fx_ret {A} L (a : A) (Q : A -> list export -> Prop) : Q a L -> fx L (nret a) Q.
Proof. intros H s Hs. cbn. rewrite Hs. exact H. Qed.
Lemma fx_pull {A} L (f : nat -> A) (Q : A -> list export -> Prop) : (forall a, Q a L) -> fx L (npull f) Q.
Proof. intros H s Hs. cbn. rewrite Hs. apply H. Qed.
Lemma fx_get {A} L (f : nst -> A) (Q : A -> list export -> Prop) : (forall a, Q a L) -> fx L (nget f) Q.
Proof. intros H s Hs. cbn. rewrite Hs. apply H. Qed.
Lemma fx_exports L (Q : list export -> list export -> Prop) : Q L L -> fx L (nget n_exports) Q.
Proof. intros H s Hs. cbn. rewrite Hs. apply H. Qed.
Lemma fx_nth L i (Q : export -> list export -> Prop) : Q (nth i L no_export) L -> fx L (nget (nth_export i)) Q.
Proof. intros H s Hs. cbn. unfold nth_export. rewrite Hs. apply H. Qed.
Lemma fx_put L l (Q : unit -> list export -> Prop) : Q tt l -> fx L (put_exports l) Q.
Proof. intros H s Hs. exact H. Qed.
Lemma fx_size L z (Q : unit -> list export -> Prop) : Q tt L -> fx L (put_size z) Q.
Proof. intros H s Hs. cbn. rewrite Hs. exact H. Qed.
Lemma fx_emit L z (Q : unit -> list export -> Prop) : Q tt L -> fx L (emit z) Q.
Proof. intros H s Hs. cbn. rewrite Hs. exact H. Qed.
Lemma fx_close L (Q : unit -> list export -> Prop) : Q tt L -> fx L close_comm Q.
Proof. intros H s Hs. cbn. rewrite Hs. exact H. Qed.
Lemma fx_die {A} L (Q : A -> list export -> Prop) : fx L ndie Q.
Proof. intros s Hs. exact I. Qed.
Lemma fx_ub {A} L (Q : A -> list export -> Prop) : fx L nub Q.
Proof. intros s Hs. exact I. Qed.
Ltac fx1 := match goal with
  | |- fx _ (nret _) _ => apply fx_ret | |- fx _ (npull _) _ => apply fx_pull; intros ? | |- fx _ (nget n_exports) _ => apply fx_exports
  | |- fx _ (nget (nth_export _)) _ => apply fx_nth | |- fx _ (nget _) _ => apply fx_get; intros ? | |- fx _ (put_exports _) _ => apply fx_put
  | |- fx _ (put_size _) _ => apply fx_size | |- fx _ (emit _) _ => apply fx_emit | |- fx _ close_comm _ => apply fx_close
  | |- fx _ ndie _ => apply fx_die | |- fx _ nub _ => apply fx_ub | |- fx _ (nbind _ _) _ => apply fx_bind
  | |- fx _ (ask_parent _ _) _ => unfold ask_parent | |- fx _ (nprepare _ _ _) _ => unfold nprepare
  | |- fx _ (if ?b then _ else _) _ => destruct b
  | |- fx _ (match ?b with _ => _ end) _ => destruct b end.
Lemma commit_exports i L : fx L (commit_client E i) (fun _ L' => L' = L \/
  L' = set_nth i (set_xflags (setup_flags (x_flags (nth i L no_export)) (x_expected (nth i L no_export)) (x_files (nth i L no_export))) (nth i L no_export)) L).
Proof. unfold commit_client. repeat (cbv beta; fx1); cbv beta; auto. Qed.
Lemma commit_xrel i s : match commit_client E i s with NRet _ s' => Forall2 xrel (n_exports s) (n_exports s') | _ => True end.
Proof.
  pose proof (commit_exports i (n_exports s) s eq_refl) as H. destruct (commit_client E i s) as [b s'|s'|s'|]; auto.
  destruct H as [-> | ->]; [apply xrels_refl|]. apply set_nth_rel; [apply xrels_refl|].
  intros e He. rewrite (nth_default_error _ _ no_export e He). repeat (split; [reflexivity|]). apply setup_flags_demoted.
Qed.

(** as [R], leaving out the exports *)
Definition R0 (s s' : nst) : Prop :=
  (exists evs, n_tr s' = n_tr s ++ evs) /\
  (n_comm s' = false -> n_comm s = false \/ exists name v, In (NParent name v) (n_tr s')) /\ stream_rel s s' /\ n_glob s' = n_glob s.
Lemma R0_trans a b c : R0 a b -> R0 b c -> R0 a c.
Proof.
  intros ((e1 & A1) & A2 & A3 & A4) ((e2 & B1) & B2 & B3 & B4). split; [|split; [|split; [eapply stream_trans; eauto|congruence]]].
  - exists (e1 ++ e2). rewrite B1, A1, app_assoc. reflexivity.
  - intros H. destruct (B2 H) as [H1|H1]; [|right; exact H1]. destruct (A2 H1) as [H2|(n & v & H2)]; [left; exact H2|].
    right. exists n, v. rewrite B1. apply in_app_iff. left. exact H2.
Qed.
Definition pr0 {A} (m : N A) : Prop := forall s, match m s with NRet _ s' => R0 s s' | NStuck => False | _ => True end.
Lemma pr_pr0 {A} (m : N A) : pr m -> pr0 m.
Proof. intros H s. specialize (H s). destruct (m s); auto. destruct H as (H1 & H2 & H3 & _ & H4). split; auto. Qed.
Lemma pr0_bind {A B} (m : N A) (f : A -> N B) : pr0 m -> (forall a, pr0 (f a)) -> pr0 (nbind m f).
Proof.
  intros H1 H2 s. unfold nbind. specialize (H1 s). destruct (m s) as [a s'|s'|s'|]; auto.
  specialize (H2 a s'). destruct (f a s'); auto. eapply R0_trans; eauto.
Qed.
Lemma pr0_put l : pr0 (put_exports l).
Proof.
  intros s. split; [exists []; rewrite app_nil_r; reflexivity|]. split; [auto|].
  split; [left; split; [reflexivity|]; split; [reflexivity|]; exists []; reflexivity|reflexivity].
Qed.
Lemma pr_commit i : pr (commit_client E i).
Proof.
  assert (P : pr0 (commit_client E i)).
  { unfold commit_client.
    repeat match goal with
    | |- pr0 (put_exports _) => apply pr0_put
    | |- pr0 (nbind _ _) => apply pr0_bind; [|intros ?]
    | |- pr0 (if ?b then _ else _) => destruct b
    | |- pr0 (match ?b with _ => _ end) => destruct b
    | |- pr0 (nprepare _ _ _) => apply pr_pr0, pr_prepare
    | _ => apply pr_pr0; solve [repeat pr1] end. }
  intros s. specialize (P s). pose proof (commit_xrel i s) as X. destruct (commit_client E i s) as [b s'|s'|s'|]; auto.
  destruct P as (P1 & P2 & P3 & P4). split; auto.
Qed.
Lemma pr_export_info i z : pr (send_export_info E i z).
Proof. unfold send_export_info. repeat pr1. Qed.
Lemma pr_export_name : pr (handle_export_name E).
Proof. unfold handle_export_name. repeat match goal with |- pr (commit_client _ _) => apply pr_commit | _ => pr1 end. Qed.
Lemma pr_list_loop t l : pr (list_loop E t l).
Proof. induction l as [|e l IH]; cbn [list_loop]; repeat first [exact IH | pr1]. Qed.
Lemma pr_list : pr (handle_list E).
Proof. unfold handle_list. repeat match goal with |- pr (list_loop _ _ _) => apply pr_list_loop | _ => pr1 end. Qed.
Lemma pr_structured : pr (handle_structured_reply E).
Proof. unfold handle_structured_reply. repeat pr1. Qed.
Lemma pr_info_loop opt i n : forall sent, pr (info_loop E opt i n sent).
Proof.
  induction n as [|n IH]; intros sent; cbn [info_loop]; repeat match goal with |- pr (info_loop _ _ _ _ _) => apply IH | _ => pr1 end.
Qed.
Lemma pr_info opt : pr (handle_info E opt).
Proof.
  unfold handle_info. repeat match goal with |- pr (commit_client _ _) => apply pr_commit | |- pr (info_loop _ _ _ _ _) => apply pr_info_loop | _ => pr1 end.
Qed.

(** STARTTLS happens only without TLS *)
Lemma starttls_R s : n_tls s = false -> match handle_starttls E s with NRet _ s' => R s s' | NStuck => False | _ => True end.
Proof.
  intros Ht. unfold handle_starttls.
  assert (K : forall (m : N bool), pr m -> match m s with NRet _ s' => R s s' | NStuck => False | _ => True end) by (intros m Hm; exact (Hm s)).
  unfold nbind at 1, nread. destruct (zlen (n_in s) <? 4) eqn:L; [exact I|].
  set (s1 := mkN _ _ _ _ _ _ _ _ _ _).
  assert (R1 : R s s1) by (pose proof (pr_read 4 s) as P; unfold nread in P; rewrite L in P; exact P).
  assert (T1 : n_tls s1 = false) by exact Ht.
  assert (Q : forall m : N bool, pr m -> match m s1 with NRet _ s' => R s s' | NStuck => False | _ => True end).
  { intros m Hm. specialize (Hm s1). destruct (m s1); auto. eapply R_trans; eauto. }
  destruct (negb _).
  - apply Q. repeat pr1.
  - unfold send_head, nsend, nbind, npull, nget, emit, ndie, nret, enter_tls. cbn [n_tick n_tls n_tr n_in n_next n_struct n_size n_exports n_glob n_comm].
    destruct (e_write E (n_tick s1)); [|exact I]. cbn [n_tick n_tls n_tr n_in n_next n_struct n_size n_exports n_glob n_comm].
    assert (R2 : forall s2, (exists evs, n_tr s2 = n_tr s1 ++ evs) -> n_comm s2 = n_comm s1 -> n_exports s2 = n_exports s1 -> n_glob s2 = n_glob s1 ->
               stream_rel s1 s2 -> R s s2).
    { intros s2 H1 H2 H3 H5 H4. eapply R_trans; [exact R1|]. split; [exact H1|]. rewrite H2, H3. split; [auto|]. split; [exact H4|]. split; [apply xrels_refl|exact H5]. }
    destruct (e_ok E _); apply R2; try reflexivity.
    + eexists. cbn [n_tr]. rewrite <- app_assoc. reflexivity.
    + right. split; [exact T1|]. split; [reflexivity|]. split; [reflexivity|]. exists []. reflexivity.
    + eexists. reflexivity.
    + left. split; [reflexivity|]. split; [reflexivity|]. exists []. reflexivity.
Qed.

Lemma option_R opt s : match do_option E opt s with NRet _ s' => R s s' | NStuck => False | _ => True end.
Proof.
  unfold do_option. unfold nbind at 1, nget at 1. unfold nbind at 1, nget at 1.
  assert (K : forall A (m : N A), pr m -> match m s with NRet _ s' => R s s' | NStuck => False | _ => True end) by (intros A m Hm; exact (Hm s)).
  destruct (negb (n_tls s) && flag (n_glob s) F_FORCEDTLS && negb (opt =? OPT_STARTTLS)).
  { apply K. repeat pr1. }
  destruct (opt =? OPT_EXPORT_NAME); [apply K; repeat match goal with |- pr (handle_export_name _) => apply pr_export_name | _ => pr1 end|].
  destruct (opt =? OPT_LIST); [apply K; repeat match goal with |- pr (handle_list _) => apply pr_list | _ => pr1 end|].
  destruct (opt =? OPT_ABORT); [apply K; repeat pr1|].
  destruct (opt =? OPT_STARTTLS).
  { destruct (n_tls s) eqn:T; [apply K; repeat pr1|].
    destruct (negb (e_key E)); [apply K; repeat pr1|].
    unfold nbind at 1. pose proof (starttls_R s T) as H. destruct (handle_starttls E s) as [r s'|s'|s'|]; auto.
    assert (Q : forall m : N turn, pr m -> match m s' with NRet _ s2 => R s s2 | NStuck => False | _ => True end).
    { intros m Hm. specialize (Hm s'). destruct (m s'); auto. eapply R_trans; eauto. }
    apply Q. repeat pr1. }
  apply K. repeat match goal with |- pr (handle_info _ _) => apply pr_info | |- pr (handle_structured_reply _) => apply pr_structured | _ => pr1 end.
Qed.

Lemma nread_inv n s b s' : 0 <= n -> nread n s = NRet b s' ->
  n_in s = b ++ n_in s' /\ zlen b = n /\
  s' = mkN (n_in s') (n_next s) (n_tls s) (n_struct s) (n_size s) (n_exports s) (n_glob s) (n_comm s) (n_tick s) (n_tr s).
Proof.
  unfold nread. intros Hn H. destruct (zlen (n_in s) <? n) eqn:L; [discriminate|]. injection H as <- <-. cbn.
  split; [symmetry; apply firstn_skipn|]. split; [unfold zlen in *; rewrite firstn_length; lia|reflexivity].
Qed.
Lemma nread_be_inv n s z s' : 0 <= n -> nread_be n s = NRet z s' ->
  exists b, n_in s = b ++ n_in s' /\ zlen b = n /\ z = unbe b /\
  s' = mkN (n_in s') (n_next s) (n_tls s) (n_struct s) (n_size s) (n_exports s) (n_glob s) (n_comm s) (n_tick s) (n_tr s).
Proof.
  unfold nread_be, nbind. intros Hn H. destruct (nread n s) as [b s1|s1|s1|] eqn:Er; try discriminate. injection H as <- <-.
  apply nread_inv in Er; [|exact Hn]. destruct Er as (A & B & C). exists b. auto.
Qed.
Lemma bind_inv {A B} (m : N A) (f : A -> N B) s b s' : nbind m f s = NRet b s' ->
  exists a s1, m s = NRet a s1 /\ f a s1 = NRet b s'.
Proof. unfold nbind. destruct (m s) as [a s1|s1|s1|] eqn:Em; intros H; try discriminate. eauto. Qed.

(** negotiation ends: the loop bound is never reached *)
Lemma loop_not_stuck fuel : forall s, (left_over s < fuel)%nat -> nego_loop E fuel s <> NStuck.
Proof.
  induction fuel as [|fuel IH]; intros s H; [lia|]. cbn [nego_loop]. unfold nbind at 1.
  pose proof (pr_read_be 8 s) as P0. destruct (nread_be 8 s) as [z s1|s1|s1|] eqn:E1; try discriminate; [|contradiction].
  apply nread_be_inv in E1; [|lia]. destruct E1 as (b & B1 & B2 & B3 & B4).
  assert (L1 : (left_over s1 < fuel)%nat).
  { unfold left_over in *. rewrite B1, app_length in H. rewrite B4. cbn [n_in n_next]. unfold zlen in B2. lia. }
  destruct (negb (z =? OPTS_MAGIC)); [discriminate|]. unfold nbind at 1.
  pose proof (pr_read_be 4 s1) as P1. destruct (nread_be 4 s1) as [opt s2|s2|s2|]; try discriminate; [|contradiction].
  apply R_left in P1. unfold nbind at 1. pose proof (option_R opt s2) as P2.
  destruct (do_option E opt s2) as [t s3|s3|s3|]; try discriminate; [|contradiction].
  apply R_left in P2. destruct t as [| |i]; try discriminate. apply IH. lia.
Qed.

(** * Messages only *)
Definition quiet (s s' : nst) : Prop :=
  core_of s' = core_of s /\ n_next s' = n_next s /\ (exists u, n_in s = u ++ n_in s') /\
  exists evs, n_tr s' = n_tr s ++ evs /\ Forall is_send evs.
Lemma quiet_refl s : quiet s s.
Proof.
  split; [reflexivity|]. split; [reflexivity|]. split; [exists []; reflexivity|]. exists []. rewrite app_nil_r. auto.
Qed.
Lemma quiet_trans a b c : quiet a b -> quiet b c -> quiet a c.
Proof.
  intros (A1 & A2 & (u & A3) & e1 & A4 & A5) (B1 & B2 & (v & B3) & e2 & B4 & B5).
  split; [congruence|]. split; [congruence|]. split; [exists (u ++ v); rewrite A3, B3, app_assoc; reflexivity|].
  exists (e1 ++ e2). split; [rewrite B4, A4, app_assoc; reflexivity|]. apply Forall_app; auto.
Qed.
Definition qu {A} (m : N A) : Prop := forall s, match m s with NRet _ s' => quiet s s' | _ => True end.
Lemma qu_ret {A} (a : A) : qu (nret a).
Proof. intros s. apply quiet_refl. Qed.
Lemma qu_get {A} (f : nst -> A) : qu (nget f).
Proof. intros s. apply quiet_refl. Qed.
Lemma qu_bind {A B} (m : N A) (f : A -> N B) : qu m -> (forall a, qu (f a)) -> qu (nbind m f).
Proof.
  intros H1 H2 s. unfold nbind. specialize (H1 s). destruct (m s) as [a s'|s'|s'|]; auto.
  specialize (H2 a s'). destruct (f a s'); auto. eapply quiet_trans; eauto.
Qed.
Lemma qu_read_be n : qu (nread_be n).
Proof.
  intros s. unfold nread_be, nbind, nread. destruct (zlen (n_in s) <? n); [exact I|]. cbn.
  split; [reflexivity|]. split; [reflexivity|]. split; [exists (firstn (Z.to_nat n) (n_in s)); symmetry; apply firstn_skipn|].
  exists []. rewrite app_nil_r. auto.
Qed.
Lemma nsend_inv b s s' : nsend E b s = NRet tt s' ->
  s' = mkN (n_in s) (n_next s) (n_tls s) (n_struct s) (n_size s) (n_exports s) (n_glob s) (n_comm s) (S (n_tick s)) (n_tr s ++ [NSend (n_tls s) b]).
Proof.
  unfold nsend, nbind, npull, nget, emit, ndie. destruct (e_write E (n_tick s)); [|discriminate].
  intros H. injection H as <-. reflexivity.
Qed.
Lemma qu_send b : qu (nsend E b).
Proof.
  intros s. destruct (nsend E b s) as [[] s'|s'|s'|] eqn:K; auto. apply nsend_inv in K. subst s'.
  split; [reflexivity|]. split; [reflexivity|]. split; [exists []; reflexivity|]. exists [NSend (n_tls s) b].
  split; [reflexivity|]. constructor; [|constructor]. exists (n_tls s), b. reflexivity.
Qed.
Ltac qu1 := match goal with
  | |- qu (nret _) => apply qu_ret | |- qu (nget _) => apply qu_get | |- qu (nsend _ _) => apply qu_send
  | |- qu (nread_be _) => apply qu_read_be | |- qu (nbind _ _) => apply qu_bind; [|intros ?]
  | |- qu (send_head _ _ _ _) => unfold send_head | |- qu (send_export_info _ _ _) => unfold send_export_info
  | |- qu (send_info _ _ _) => unfold send_info
  | |- qu (if ?b then _ else _) => destruct b end.
Lemma qu_export_info i z : qu (send_export_info E i z).
Proof. unfold send_export_info. repeat qu1. Qed.
Lemma qu_send_info opt i : qu (send_info E opt i).
Proof. repeat qu1. Qed.
Lemma qu_info_loop opt i n : forall sent, qu (info_loop E opt i n sent).
Proof. induction n as [|n IH]; intros sent; cbn [info_loop]; repeat match goal with |- qu (info_loop _ _ _ _ _) => apply IH | _ => qu1 end. Qed.

(** * A successful commitment *)
Definition parent_ok (s : nst) (e : export) (parent : list nev) : Prop :=
  (e_dontfork E = true \/ n_comm s = true -> asked E e parent) /\
  (e_dontfork E = false -> n_comm s = false -> exists v, parent = [NStale v] /\ v <> 78 /\ v <> 88).

Lemma commit_inv i s s' : commit_client E i s = NRet true s' ->
  let e := nth_export i s in
  exists parent seg su,
    n_tr s' = n_tr s ++ seg /\ granted i e parent seg /\ parent_ok s e parent /\
    authorized_client (e_gai E) (x_auth e) (e_peer E) = AYes /\
    setupexport (x_flags e) (x_expected e) (x_files e) = SetupOk su /\
    n_size s' = su_size su /\
    n_exports s' = set_nth i (set_xflags (su_flags su) e) (n_exports s) /\
    n_in s' = n_in s /\ n_next s' = n_next s /\ n_tls s' = n_tls s /\ n_struct s' = n_struct s /\ n_glob s' = n_glob s.
Proof.
  intros H e. unfold commit_client in H.
  unfold nbind at 1, put_size at 1 in H. unfold nbind at 1, nget at 1 in H. unfold nbind at 1, npull at 1 in H.
  cbn [n_in n_next n_tls n_struct n_size n_exports n_glob n_comm n_tick n_tr] in H.
  change (nth_export i (mkN (n_in s) (n_next s) (n_tls s) (n_struct s) OFFT_MAX (n_exports s) (n_glob s) (n_comm s) (n_tick s) (n_tr s))) with e in H.
  destruct (e_ok E (n_tick s)); [|discriminate]. cbn [negb] in H.
  apply bind_inv in H. destruct H as (acl & s1 & Hp & H).
  assert (Hs1 : exists parent, n_tr s1 = n_tr s ++ parent /\ ((acl =? 78) || (acl =? 88) = false -> parent_ok s e parent) /\
    n_in s1 = n_in s /\ n_next s1 = n_next s /\ n_tls s1 = n_tls s /\ n_struct s1 = n_struct s /\ n_glob s1 = n_glob s /\ n_exports s1 = n_exports s).
  { unfold ask_parent in Hp. destruct (e_dontfork E) eqn:Df.
    - injection Hp as <- <-. exists []. cbn. rewrite app_nil_r. repeat (split; [reflexivity|]). split; [|repeat split].
      intros _. unfold parent_ok, asked. rewrite Df. split; [reflexivity|discriminate].
    - unfold nbind, nget, npull, emit, close_comm, nret in Hp. cbn [n_comm n_tick] in Hp.
      destruct (n_comm s) eqn:C; injection Hp as <- <-; cbn.
      + exists [NParent (x_name e) (e_parent E (S (n_tick s)))]. split; [reflexivity|]. split; [|repeat split].
        intros Ha. unfold parent_ok, asked. rewrite Df. split; [|congruence]. intros _. eexists. split; [reflexivity|]. lia.
      + exists [NStale (e_parent E (S (n_tick s)))]. split; [reflexivity|]. split; [|repeat split].
        intros Ha. unfold parent_ok, asked. rewrite Df, C. split; [intros [K|K]; discriminate|]. intros _ _. eexists. split; [reflexivity|]. lia. }
  destruct Hs1 as (parent & T1 & P1 & I1 & N1 & L1 & S1 & G1 & X1).
  destruct ((acl =? 78) || (acl =? 88)) eqn:Ha; [discriminate|]. specialize (P1 eq_refl).
  unfold nbind at 1, npull at 1 in H. unfold nbind at 1, emit at 1 in H. cbn [n_in n_next n_tls n_struct n_size n_exports n_glob n_comm n_tick n_tr] in H.
  destruct (e_ok E (n_tick s1)) eqn:Op; [|discriminate]. cbn [negb] in H.
  destruct (authorized_client (e_gai E) (x_auth e) (e_peer E)) eqn:Au; try discriminate.
  apply bind_inv in H. destruct H as (pre & s2 & Hpre & H). destruct pre; [|discriminate]. cbn [negb] in H.
  assert (Hs2 : n_tr s2 = n_tr s1 ++ [NPeer true] ++ (if x_prerun e then [NPrerun i true] else []) /\
    n_in s2 = n_in s /\ n_next s2 = n_next s /\ n_tls s2 = n_tls s /\ n_struct s2 = n_struct s /\ n_glob s2 = n_glob s /\ n_exports s2 = n_exports s).
  { destruct (x_prerun e).
    - unfold nbind, npull, emit, nret in Hpre. cbn [n_tick n_tr] in Hpre. injection Hpre as Hok <-. rewrite Hok. cbn.
      rewrite <- app_assoc. repeat (split; [auto|]). auto.
    - injection Hpre as <-. cbn. repeat (split; [auto|]). auto. }
  destruct Hs2 as (T2 & I2 & N2 & L2 & S2 & G2 & X2).
  unfold nbind at 1, nget at 1 in H. unfold nbind at 1, put_exports at 1 in H.
  destruct (setupexport (x_flags e) (x_expected e) (x_files e)) as [| |su] eqn:SU; [discriminate|discriminate|].
  unfold nbind at 1, emit at 1 in H. unfold nbind at 1, put_size at 1 in H.
  apply bind_inv in H. destruct H as (c1 & s3 & Hc1 & H). destruct c1; [|discriminate]. cbn [negb] in H.
  assert (Prep : forall w sa sb, nprepare E i w sa = NRet true sb -> exists cow, n_tr sb = n_tr sa ++ cow /\ Forall (fun v => v = NCow i true) cow /\
      core_of sb = core_of sa /\ n_in sb = n_in sa /\ n_next sb = n_next sa).
  { intros w sa sb K. unfold nprepare in K. destruct w.
    - unfold nbind, npull, emit, nret in K. cbn in K. injection K as Hok <-. rewrite Hok. exists [NCow i true]. cbn. repeat (split; [auto|]). auto.
    - injection K as <-. exists []. rewrite app_nil_r. repeat (split; [auto|]). auto. }
  apply Prep in Hc1. destruct Hc1 as (cow1 & T3 & F3 & C3 & I3 & N3). cbn [n_in n_next n_tr] in T3, I3, N3.
  apply Prep in H. destruct H as (cow2 & T4 & F4 & C4 & I4 & N4).
  rewrite C3 in C4. unfold core_of in C4. cbn [n_in n_next n_tls n_struct n_size n_exports n_glob n_comm] in C4.
  injection C4 as Ct Cs Cz Cx Cg Cc.
  exists parent, (parent ++ [NPeer true] ++ (if x_prerun e then [NPrerun i true] else []) ++ [NOpen i true] ++ (cow1 ++ cow2)), su.
  split; [rewrite T4, T3, T2, T1; rewrite <- !app_assoc; reflexivity|].
  split.
  { exists (if x_prerun e then [NPrerun i true] else []), (cow1 ++ cow2). split; [reflexivity|]. split; [reflexivity|].
    apply Forall_app. auto. }
  split; [exact P1|]. split; [reflexivity|]. split; [reflexivity|]. split; [exact Cz|].
  split; [rewrite Cx, X2, (setup_flags_ok _ _ _ _ SU); reflexivity|].
  repeat (split; [congruence|]). congruence.
Qed.

Lemma be_unbe' b n : Forall is_byte b -> zlen b = Z.of_nat n -> be n (unbe b) = b.
Proof. intros H L. replace n with (length b) by (unfold zlen in L; lia). apply be_unbe. exact H. Qed.

Lemma Forall_suffix {A} (P : A -> Prop) u v : Forall P (u ++ v) -> Forall P u /\ Forall P v.
Proof. intros H. apply Forall_app in H. exact H. Qed.

Definition serving (i : nat) (s s' : nst) : Prop :=
  let e := nth_export i s in
  exists parent seg sends su e1,
    nth_error (n_exports s) i = Some e /\ hidden (n_tls s) e = false /\
    n_tr s' = n_tr s ++ seg ++ sends /\ granted i e parent seg /\ parent_ok s e parent /\ Forall is_send sends /\
    authorized_client (e_gai E) (x_auth e) (e_peer E) = AYes /\
    setupexport (x_flags e) (x_expected e) (x_files e) = SetupOk su /\ n_size s' = su_size su /\
    e1 = set_xflags (su_flags su) e /\ n_exports s' = set_nth i e1 (n_exports s) /\
    n_tls s' = n_tls s /\ n_struct s' = n_struct s /\ n_glob s' = n_glob s /\ n_next s' = n_next s.

Lemma set_nth_same {A} i (a d : A) l x : nth_error l i = Some x -> nth i (set_nth i a l) d = a.
Proof. revert i; induction l as [|y l IH]; intros [|i] H; try discriminate; cbn in *; auto. Qed.

(** what EXPORT_NAME sends *)
Definition name_messages (tls : bool) (size xflags : Z) (st : bool) (glob : Z) : list nev :=
  [NSend tls (be 8 size); NSend tls (be 2 (export_flags xflags st))] ++
  (if negb (flag glob F_NO_ZEROES) then [NSend tls (repeat 0 124)] else []).

Lemma export_info_inv i z s s' : send_export_info E i z s = NRet tt s' ->
  n_tr s' = n_tr s ++ [NSend (n_tls s) (be 8 (n_size s)); NSend (n_tls s) (be 2 (export_flags (x_flags (nth_export i s)) (n_struct s)))] ++
     (if negb (flag (n_glob s) F_NO_ZEROES) && z then [NSend (n_tls s) (repeat 0 124)] else []) /\ n_in s' = n_in s /\ quiet s s'.
Proof.
  intros H. pose proof (qu_export_info i z s) as Q. rewrite H in Q. unfold send_export_info in H.
  unfold nbind at 1, nget at 1 in H. apply bind_inv in H. destruct H as ([] & s1 & H1 & H). apply nsend_inv in H1.
  unfold nbind at 1, nget at 1 in H. unfold nbind at 1, nget at 1 in H.
  apply bind_inv in H. destruct H as ([] & s2 & H2 & H). apply nsend_inv in H2.
  unfold nbind, nget in H. subst s2 s1. cbn [n_in n_next n_tls n_struct n_size n_exports n_glob n_comm n_tick n_tr] in H.
  unfold nth_export in *. cbn [n_exports] in H. destruct (negb (flag (n_glob s) F_NO_ZEROES) && z).
  - apply nsend_inv in H. subst s'. split; [cbn [n_in n_tr n_tls]; rewrite <- !app_assoc; reflexivity|]. split; [reflexivity|exact Q].
  - injection H as <-. split; [cbn [n_in n_tr]; rewrite <- !app_assoc; reflexivity|]. split; [reflexivity|exact Q].
Qed.

Lemma export_name_inv i s s' : Forall is_byte (n_in s) -> handle_export_name E s = NRet (Some i) s' ->
  exists name, zlen name <= 4096 /\ n_in s = be 4 (zlen name) ++ name ++ n_in s' /\
    find_first (n_tls s) name 0 (n_exports s) = Some i /\ x_name (nth_export i s) = cstr name /\ serving i s s' /\
    exists tr, n_tr s' = tr ++ name_messages (n_tls s) (n_size s') (x_flags (nth_export i s')) (n_struct s) (n_glob s).
Proof.
  intros Hb H. unfold handle_export_name in H. apply bind_inv in H. destruct H as (nl & s1 & H1 & H).
  apply nread_be_inv in H1; [|lia]. destruct H1 as (b & A1 & A2 & A3 & A4).
  destruct (4096 <? nl) eqn:Ln; [discriminate|].
  rewrite A1 in Hb. apply Forall_suffix in Hb. destruct Hb as [Hb1 Hb2].
  assert (Rb : 0 <= nl) by (subst nl; pose proof (unbe_range b Hb1); lia).
  apply bind_inv in H. destruct H as (name & s2 & H2 & H). apply nread_inv in H2; [|exact Rb]. destruct H2 as (B1 & B2 & B3).
  unfold nbind at 1, nget at 1 in H. unfold nbind at 1, nget at 1 in H.
  rewrite A4 in B3. cbn [n_next n_tls n_struct n_size n_exports n_glob n_comm n_tick n_tr] in B3.
  destruct (find_first (n_tls s2) name 0 (n_exports s2)) as [j|] eqn:F; [|discriminate].
  apply bind_inv in H. destruct H as (ok & s3 & H3 & H). destruct ok; [|discriminate].
  apply bind_inv in H. destruct H as ([] & s4 & H4 & H). injection H as <- <-.
  pose proof (find_first_spec _ _ _ _ _ F) as (e & _ & F1 & F2 & F3). rewrite Nat.sub_0_r in F1.
  apply commit_inv in H3. cbv zeta in H3. destruct H3 as (parent & seg & su & C1 & C2 & C3 & C4 & C5 & C6 & C7 & C8 & C9 & C10 & C11 & C12).
  apply export_info_inv in H4. destruct H4 as (D1 & D2 & D3 & D4 & D5 & evs & D6 & D7).
  assert (Xs : n_exports s2 = n_exports s) by (rewrite B3; reflexivity).
  assert (Ts : n_tls s2 = n_tls s) by (rewrite B3; reflexivity).
  assert (Ne : nth_export j s2 = nth_export j s) by (unfold nth_export; rewrite Xs; reflexivity).
  assert (Nj : nth_export j s = e) by (unfold nth_export; rewrite <- Xs; apply nth_default_error; exact F1).
  rewrite Ne in *.
  unfold core_of in D3. injection D3 as K1 K2 K3 K4 K5 K6.
  exists name. split; [lia|]. split.
  { rewrite A1, B1, D2, C8. f_equal. subst nl. rewrite B2. symmetry. apply be_unbe'; [exact Hb1|exact A2]. }
  split; [rewrite <- Ts, <- Xs; exact F|]. split; [rewrite Nj; exact F3|]. split.
  - exists parent, seg, evs, su, (set_xflags (su_flags su) (nth_export j s)). cbv zeta.
    split; [rewrite Nj, <- Xs; exact F1|]. split; [rewrite Nj, <- Ts; exact F2|].
    split; [rewrite D6, C1, B3; cbn [n_tr]; rewrite <- app_assoc; reflexivity|].
    split; [exact C2|]. split; [unfold parent_ok in *; rewrite B3 in C3; cbn [n_comm] in C3; exact C3|]. split; [exact D7|].
    split; [exact C4|]. split; [exact C5|]. split; [congruence|]. split; [reflexivity|].
    split; [congruence|]. split; [congruence|]. split; [rewrite K2, C11, B3; reflexivity|]. split; [rewrite K5, C12, B3; reflexivity|].
    rewrite D4, C9, B3. reflexivity.
  - exists (n_tr s3). rewrite D1. unfold name_messages. rewrite andb_true_r.
    rewrite C10, Ts, C11, C12, <- K3. unfold nth_export. rewrite K4. rewrite B3. reflexivity.
Qed.

(** * GO *)
Lemma quiet_R s s' : quiet s s' -> R s s'.
Proof.
  intros (C & Nx & (u & U) & evs & T & _). unfold core_of in C. injection C as C1 C2 C3 C4 C5 C6.
  split; [exists evs; exact T|]. split; [rewrite C6; auto|]. split; [left; rewrite C1; eauto|]. rewrite C4. split; [apply xrels_refl|exact C5].
Qed.
Lemma nconsume_inv n s s' : nconsume n s = NRet tt s' -> quiet s s' /\ exists u, n_in s = u ++ n_in s'.
Proof.
  unfold nconsume, nbind, nread, nret. intros H. destruct (zlen (n_in s) <? n); [discriminate|]. injection H as <-.
  assert (K : exists u, n_in s = u ++ skipn (Z.to_nat n) (n_in s)) by (eexists; symmetry; apply firstn_skipn).
  split; [|exact K]. split; [reflexivity|]. split; [reflexivity|]. split; [exact K|]. exists []. rewrite app_nil_r. auto.
Qed.
Lemma quiet_read s s' b : n_in s = b ++ n_in s' ->
  s' = mkN (n_in s') (n_next s) (n_tls s) (n_struct s) (n_size s) (n_exports s) (n_glob s) (n_comm s) (n_tick s) (n_tr s) -> quiet s s'.
Proof.
  intros H1 H2. split; [rewrite H2; reflexivity|]. split; [rewrite H2; reflexivity|]. split; [eauto|].
  exists []. rewrite app_nil_r, H2. auto.
Qed.
Lemma send_data_inv opt t d s s' : send_data E opt t d s = NRet tt s' -> quiet s s' /\ n_in s' = n_in s.
Proof.
  unfold send_data. intros H. apply bind_inv in H. destruct H as ([] & s1 & H1 & H2).
  pose proof (qu_send (optreply opt t (zlen d)) s) as Q1. rewrite H1 in Q1.
  pose proof (qu_send d s1) as Q2. rewrite H2 in Q2. apply nsend_inv in H1. apply nsend_inv in H2.
  split; [eapply quiet_trans; eauto|]. rewrite H2, H1. reflexivity.
Qed.

(** the information replies *)
Definition info_messages (tls : bool) (opt size xflags : Z) (st : bool) : list nev :=
  [NSend tls (optreply opt REP_INFO 12); NSend tls (be 2 INFO_EXPORT); NSend tls (be 8 size); NSend tls (be 2 (export_flags xflags st))].
Definition info_of (opt : Z) (i : nat) (s : nst) : list nev :=
  info_messages (n_tls s) opt (n_size s) (x_flags (nth_export i s)) (n_struct s).

Lemma send_info_inv opt i s s' : send_info E opt i s = NRet tt s' ->
  n_tr s' = n_tr s ++ info_of opt i s /\ n_in s' = n_in s /\ quiet s s'.
Proof.
  intros H. pose proof (qu_send_info opt i s) as Q. rewrite H in Q. unfold send_info, send_head in H.
  apply bind_inv in H. destruct H as ([] & s1 & H1 & H). apply nsend_inv in H1.
  apply bind_inv in H. destruct H as ([] & s2 & H2 & H). apply nsend_inv in H2.
  apply export_info_inv in H. destruct H as (H3 & H4 & H5). rewrite andb_false_r in H3.
  split; [|split; [|exact Q]].
  - rewrite H3, H2, H1. unfold info_of, info_messages, nth_export. cbn [n_tr n_tls n_size n_exports n_struct]. rewrite <- !app_assoc. reflexivity.
  - rewrite H4, H2, H1. reflexivity.
Qed.
Lemma quiet_info opt i s s' : quiet s s' -> info_of opt i s' = info_of opt i s.
Proof.
  intros (C & _). unfold core_of in C. injection C as C1 C2 C3 C4 C5 C6. unfold info_of, nth_export. rewrite C1, C2, C3, C4. reflexivity.
Qed.
Lemma info_loop_inv opt i n : forall sent s b s', Forall is_byte (n_in s) -> info_loop E opt i n sent s = NRet b s' ->
  quiet s s' /\ (exists infos, n_in s = infos ++ n_in s' /\ zlen infos = 2 * Z.of_nat n) /\
  exists k, n_tr s' = n_tr s ++ concat (repeat (info_of opt i s) k) /\ (sent = true -> b = true) /\ (b = false -> k = O) /\ (b = true -> sent = true \/ k <> O).
Proof.
  induction n as [|n IH]; intros sent s b s' Hb H; cbn [info_loop] in H.
  - injection H as <- <-. split; [apply quiet_refl|]. split; [exists []; split; [reflexivity|rewrite zlen_nil; lia]|].
    exists O. cbn. rewrite app_nil_r. repeat split; auto.
  - apply bind_inv in H. destruct H as (r & s1 & H1 & H). apply nread_be_inv in H1; [|lia]. destruct H1 as (b2 & A1 & A2 & A3 & A4).
    pose proof (quiet_read s s1 b2 A1 A4) as Q1. pose proof Hb as Hb'. rewrite A1 in Hb'. apply Forall_suffix in Hb'. destruct Hb' as [_ Hb1].
    destruct (r =? INFO_EXPORT).
    + apply bind_inv in H. destruct H as ([] & s2 & H2 & H). apply send_info_inv in H2. destruct H2 as (B1 & B2 & B3).
      apply IH in H; [|rewrite B2; exact Hb1]. destruct H as (C1 & (infos & C2 & C2') & k & C3 & C4 & C5 & C6).
      pose proof (quiet_trans _ _ _ Q1 B3) as Q2. split; [eapply quiet_trans; eauto|]. split.
      * exists (b2 ++ infos). split; [rewrite A1, <- B2, C2, app_assoc; reflexivity|]. rewrite zlen_app, A2, C2'. lia.
      * exists (S k). split; [|split; [auto|]].
        -- rewrite C3, B1, (quiet_info opt i _ _ Q2), (quiet_info opt i _ _ Q1), A4. cbn [n_tr repeat concat]. rewrite <- !app_assoc. reflexivity.
        -- split; [intros K; rewrite (C4 eq_refl) in K; discriminate|]. intros _. right. discriminate.
    + apply IH in H; [|exact Hb1]. destruct H as (C1 & (infos & C2 & C2') & k & C3 & C4 & C5 & C6). split; [eapply quiet_trans; eauto|]. split.
      * exists (b2 ++ infos). split; [rewrite A1, C2, app_assoc; reflexivity|]. rewrite zlen_app, A2, C2'. lia.
      * exists k. rewrite C3, (quiet_info opt i _ _ Q1), A4. auto.
Qed.

Lemma serving_quiet i s a b : serving i s a -> quiet a b -> serving i s b.
Proof.
  intros (parent & seg & sends & su & e1 & S1 & S2 & S3 & S4 & S5 & S6 & S7 & S8 & S9 & S10 & S11 & S12 & S13 & S14 & S15)
    (C & Nx & _ & evs & T & F). unfold core_of in C. injection C as C1 C2 C3 C4 C5 C6.
  exists parent, seg, (sends ++ evs), su, e1. cbv zeta.
  split; [exact S1|]. split; [exact S2|]. split; [rewrite T, S3, <- !app_assoc; reflexivity|].
  split; [exact S4|]. split; [exact S5|]. split; [apply Forall_app; auto|]. split; [exact S7|]. split; [exact S8|].
  split; [congruence|]. split; [exact S10|]. split; [congruence|]. split; [congruence|]. split; [congruence|]. split; congruence.
Qed.

Lemma info_inv opt i s s' : Forall is_byte (n_in s) -> handle_info E opt s = NRet (Some i) s' ->
  exists len name junk n2 infos sm,
    zlen len = 4 /\ zlen n2 = 2 /\ zlen infos = 2 * unbe n2 /\
    n_in s = len ++ be 4 (zlen name) ++ junk ++ name ++ n2 ++ infos ++ n_in s' /\
    (zlen name <= u32 (unbe len - 6) -> zlen name <= 4096 -> junk = []) /\
    quiet s sm /\ fst (find_last (n_tls s) name 0 (n_exports s) (None, false)) = Some i /\
    x_name (nth_export i s) = cstr name /\
    (opt = OPT_GO -> serving i sm s') /\
    exists k tr, k <> O /\
      n_tr s' = tr ++ concat (repeat (info_of opt i s') k) ++ [NSend (n_tls s') (optreply opt REP_ACK 0)].
Proof.
  intros Hb H. unfold handle_info in H.
  apply bind_inv in H. destruct H as (len & s1 & H1 & H). apply nread_be_inv in H1; [|lia]. destruct H1 as (bl & A1 & A2 & A3 & A4).
  pose proof (quiet_read _ _ _ A1 A4) as QA. pose proof Hb as Hb1. rewrite A1 in Hb1. apply Forall_suffix in Hb1. destruct Hb1 as [Hbl Hb1].
  apply bind_inv in H. destruct H as (nl & s2 & H1 & H). apply nread_be_inv in H1; [|lia]. destruct H1 as (bn & B1 & B2 & B3 & B4).
  pose proof (quiet_trans _ _ _ QA (quiet_read _ _ _ B1 B4)) as QB. pose proof Hb1 as Hb2. rewrite B1 in Hb2. apply Forall_suffix in Hb2. destruct Hb2 as [Hbn Hb2].
  assert (Rn : 0 <= nl) by (subst nl; pose proof (unbe_range bn Hbn); lia).
  apply bind_inv in H. destruct H as ([] & s3 & H1 & H).
  assert (K3 : quiet s2 s3 /\ exists u, n_in s2 = u ++ n_in s3 /\ (nl <= u32 (len - 6) -> u = [])).
  { destruct (u32 (len - 6) <? nl) eqn:L.
    - apply bind_inv in H1. destruct H1 as ([] & sx & H1 & H1'). apply send_data_inv in H1. destruct H1 as (X1 & X2).
      apply nconsume_inv in H1'. destruct H1' as (X3 & u & X4). split; [eapply quiet_trans; eauto|]. exists u. split; [congruence|lia].
    - injection H1 as <-. split; [apply quiet_refl|]. exists []. auto. }
  clear H1. destruct K3 as (Q3 & u & U1 & U2).
  apply bind_inv in H. destruct H as ([] & s4 & H1 & H).
  assert (K4 : quiet s3 s4 /\ exists u, n_in s3 = u ++ n_in s4 /\ (nl <= 4096 -> u = [])).
  { destruct (4096 <? nl) eqn:L.
    - apply bind_inv in H1. destruct H1 as ([] & sx & H1 & H1'). apply send_data_inv in H1. destruct H1 as (X1 & X2).
      apply nconsume_inv in H1'. destruct H1' as (X3 & u' & X4). split; [eapply quiet_trans; eauto|]. exists u'. split; [congruence|lia].
    - injection H1 as <-. split; [apply quiet_refl|]. exists []. auto. }
  clear H1. destruct K4 as (Q4 & v & V1 & V2).
  apply bind_inv in H. destruct H as (mem & s5 & H1 & H).
  assert (K5 : quiet s4 s5 /\ n_in s5 = n_in s4).
  { destruct (0 <? nl).
    - injection H1 as _ <-. split; [|reflexivity]. split; [reflexivity|]. split; [reflexivity|]. split; [exists []; reflexivity|]. exists []. rewrite app_nil_r. auto.
    - injection H1 as _ <-. split; [apply quiet_refl|reflexivity]. }
  clear H1. destruct K5 as (Q5 & W). destruct mem; [|apply bind_inv in H; destruct H as ([] & sx & _ & H); discriminate]. cbn [negb] in H.
  apply bind_inv in H. destruct H as ([] & s6 & H1 & H). assert (s6 = s5) by (destruct (nl =? 4294967295); [discriminate|injection H1; auto]). subst s6. clear H1.
  apply bind_inv in H. destruct H as (name & s7 & H1 & H). apply nread_inv in H1; [|exact Rn]. destruct H1 as (C1 & C2 & C3).
  unfold nbind at 1, nget at 1 in H. unfold nbind at 1, nget at 1 in H.
  apply bind_inv in H. destruct H as (nreq & s8 & H1 & H). apply nread_be_inv in H1; [|lia]. destruct H1 as (b2 & D1 & D2 & D3 & D4).
  pose proof (quiet_read _ _ _ C1 C3) as QC. pose proof (quiet_read _ _ _ D1 D4) as QD.
  assert (Qs7 : quiet s s7) by exact (quiet_trans _ _ _ QB (quiet_trans _ _ _ Q3 (quiet_trans _ _ _ Q4 (quiet_trans _ _ _ Q5 QC)))).
  pose proof (quiet_trans _ _ _ Qs7 QD) as QM.
  assert (In8 : n_in s = bl ++ be 4 (zlen name) ++ (u ++ v) ++ name ++ b2 ++ n_in s8).
  { rewrite A1, B1, U1, V1, <- W, C1, D1, C2, B3. rewrite (be_unbe' bn 4 Hbn B2). rewrite <- !app_assoc. reflexivity. }
  assert (Hb8 : Forall is_byte (n_in s8)).
  { rewrite In8 in Hb. repeat (apply Forall_suffix in Hb; destruct Hb as [_ Hb]). exact Hb. }
  assert (Hb2' : Forall is_byte b2).
  { rewrite In8 in Hb. do 4 (apply Forall_suffix in Hb; destruct Hb as [_ Hb]). apply Forall_suffix in Hb. tauto. }
  destruct (fst (find_last (n_tls s7) name 0 (n_exports s7) (None, false))) as [j|] eqn:F.
  2:{ apply bind_inv in H. destruct H as ([] & sx & _ & H). apply bind_inv in H. destruct H as ([] & sy & _ & H). discriminate. }
  apply bind_inv in H. destruct H as (ok & s9 & H9 & H). destruct ok; cbn [negb] in H.
  2:{ apply bind_inv in H. destruct H as ([] & sx & _ & H). apply bind_inv in H. destruct H as ([] & sy & _ & H). discriminate. }
  apply bind_inv in H. destruct H as (sent & s10 & H10 & H).
  apply bind_inv in H. destruct H as ([] & s11 & H11 & H).
  apply bind_inv in H. destruct H as ([] & s12 & H12 & H). injection H as <- <-.
  assert (In9 : n_in s9 = n_in s8).
  { destruct (opt =? OPT_GO); [apply commit_inv in H9; cbv zeta in H9; destruct H9 as (? & ? & ? & _ & _ & _ & _ & _ & _ & _ & K & _); exact K|injection H9 as <-; reflexivity]. }
  apply info_loop_inv in H10; [|rewrite In9; exact Hb8]. destruct H10 as (I1 & (infos & I2 & I3) & k & I4 & I5 & I6 & I7).
  pose proof (qu_send (optreply opt REP_ACK 0) s11) as Q12. unfold send_head in H12. rewrite H12 in Q12. apply nsend_inv in H12.
  assert (K11 : quiet s10 s11 /\ n_in s11 = n_in s10 /\ exists k, k <> O /\ n_tr s11 = n_tr s9 ++ concat (repeat (info_of opt j s9) k)).
  { destruct sent.
    - injection H11 as <-. split; [apply quiet_refl|]. split; [reflexivity|]. exists k. split; [|exact I4]. destruct (I7 eq_refl); [discriminate|assumption].
    - apply send_info_inv in H11. destruct H11 as (L1 & L2 & L3). split; [exact L3|]. split; [exact L2|].
      exists 1%nat. split; [discriminate|]. rewrite L1, (quiet_info opt j _ _ I1), I4, (I6 eq_refl). cbn. rewrite !app_nil_r. reflexivity. }
  destruct K11 as (Q11 & In11 & k' & Hk' & T11).
  assert (Q9 : quiet s9 s12) by (eapply quiet_trans; [exact I1|]; eapply quiet_trans; [exact Q11|exact Q12]).
  pose proof Qs7 as (Cs7 & _ & _). unfold core_of in Cs7. injection Cs7 as Y1 Y2 Y3 Y4 Y5 Y6.
  pose proof QM as (Cs8 & _ & _). unfold core_of in Cs8. injection Cs8 as Z1 Z2 Z3 Z4 Z5 Z6.
  rewrite Y1, Y4 in F. pose proof (find_last_spec _ _ _ _ _ _ F) as FS.
  exists bl, name, (u ++ v), b2, infos, s8.
  split; [exact A2|]. split; [exact D2|].
  split; [rewrite I3, D3, Z2Nat.id; [reflexivity|]; pose proof (unbe_range b2 Hb2'); lia|].
  split.
  { rewrite In8. do 5 f_equal. rewrite <- In9, I2. f_equal. rewrite H12. cbn [n_in]. symmetry. exact In11. }
  split; [intros G1 G2; rewrite U2, V2; [reflexivity|lia|subst len; lia]|].
  split; [exact QM|]. split; [exact F|].
  assert (FN : exists e, nth_error (n_exports s) j = Some e /\ hidden (n_tls s) e = false /\ x_name e = cstr name)
    by (destruct FS as [FS|(e & _ & FS)]; [discriminate|]; rewrite Nat.sub_0_r in FS; eauto).
  destruct FN as (e & F1 & F2 & F3).
  assert (Nj : nth_export j s = e) by (apply nth_default_error; exact F1).
  assert (Nj8 : nth_export j s8 = e) by (unfold nth_export; rewrite Z4; apply nth_default_error; exact F1).
  split; [rewrite Nj; exact F3|]. split.
  - intros ->. cbn in H9. apply commit_inv in H9. cbv zeta in H9.
    destruct H9 as (parent & seg & su & G1 & G2 & G3 & G4 & G5 & G6 & G7 & G8 & G9 & G10 & G11 & G12).
    apply (serving_quiet j s8 s9 s12); [|exact Q9].
    exists parent, seg, [], su, (set_xflags (su_flags su) (nth_export j s8)). cbv zeta.
    split; [rewrite Nj8, Z4; exact F1|]. split; [rewrite Nj8, Z1; exact F2|]. split; [rewrite app_nil_r; exact G1|].
    repeat (split; [solve [assumption | constructor]|]). exact G9.
  - exists k', (n_tr s9). split; [exact Hk'|]. rewrite (quiet_info opt j _ _ Q9). rewrite H12. cbn [n_tr n_tls].
    rewrite T11, <- app_assoc. reflexivity.
Qed.
End Serve.
