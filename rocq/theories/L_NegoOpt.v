(** Framing of options, memory safety of INFO/GO, agreement of the searches. *)
From Coq Require Import String.
From Verif Require Import Base M_Const M_Disk M_Tree M_Raw M_Setup M_Io M_Acl M_Nego S_Nego L_Nego L_NegoTls L_NegoServe L_NegoLoop.
Open Scope list_scope.
Open Scope nego_scope.

(** * The two searches *)
Lemma name_eqb_true a b : name_eqb a b = true <-> a = cstr b.
Proof. unfold name_eqb. destruct (list_eq_dec Z.eq_dec a (cstr b)); split; congruence. Qed.
Lemma find_last_none tls name l : forall i acc, (forall e, In e l -> x_name e <> cstr name) -> find_last tls name i l acc = acc.
Proof.
  induction l as [|e l IH]; intros i acc H; cbn [find_last]; [reflexivity|].
  assert (B : name_eqb (x_name e) name = false).
  { destruct (name_eqb (x_name e) name) eqn:B; [|reflexivity]. apply name_eqb_true in B. exfalso. exact (H e (or_introl eq_refl) B). }
  rewrite B. apply IH. intros e' He'. apply H. right. exact He'.
Qed.
Lemma find_first_none tls name l : forall i, (forall e, In e l -> x_name e <> cstr name) -> find_first tls name i l = None.
Proof.
  induction l as [|e l IH]; intros i H; cbn [find_first]; [reflexivity|].
  assert (B : name_eqb (x_name e) name = false).
  { destruct (name_eqb (x_name e) name) eqn:B; [|reflexivity]. apply name_eqb_true in B. exfalso. exact (H e (or_introl eq_refl) B). }
  rewrite B, andb_false_r. apply IH. intros e' He'. apply H. right. exact He'.
Qed.
Lemma finds_agree tls name l : forall i h, NoDup (map x_name l) -> fst (find_last tls name i l (None, h)) = find_first tls name i l.
Proof.
  induction l as [|e l IH]; intros i h H; [reflexivity|]. cbn [map] in H. inversion H as [|x y Hn Hd]; subst.
  cbn [find_last find_first]. destruct (name_eqb (x_name e) name) eqn:B.
  - apply name_eqb_true in B. assert (K : forall e', In e' l -> x_name e' <> cstr name).
    { intros e' He' Hx. apply Hn. rewrite B, <- Hx. apply in_map. exact He'. }
    destruct (hidden tls e); cbn [fst snd negb andb].
    + rewrite find_last_none by exact K. rewrite find_first_none by exact K. reflexivity.
    + rewrite find_last_none by exact K. reflexivity.
  - rewrite andb_false_r. apply IH. exact Hd.
Qed.

Section Opt.
Variable E : nenv.

(** * INFO and GO stay inside their buffers *)
Definition noub {A} (P : Prop) (m : N A) : Prop := forall s s', m s = NUb s' -> P.
Lemma noub_ret {A} P (a : A) : noub P (nret a). Proof. intros s s' H. discriminate. Qed.
Lemma noub_die {A} P : noub P (@ndie A). Proof. intros s s' H. discriminate. Qed.
Lemma noub_get {A} P (f : nst -> A) : noub P (nget f). Proof. intros s s' H. discriminate. Qed.
Lemma noub_pull {A} P (f : nat -> A) : noub P (npull f). Proof. intros s s' H. discriminate. Qed.
Lemma noub_emit P v : noub P (emit v). Proof. intros s s' H. discriminate. Qed.
Lemma noub_size P v : noub P (put_size v). Proof. intros s s' H. discriminate. Qed.
Lemma noub_exports P v : noub P (put_exports v). Proof. intros s s' H. discriminate. Qed.
Lemma noub_close P : noub P close_comm. Proof. intros s s' H. discriminate. Qed.
Lemma noub_read P n : noub P (nread n).
Proof. intros s s' H. unfold nread in H. destruct (zlen (n_in s) <? n); discriminate. Qed.
Lemma noub_bind {A B} P (m : N A) (f : A -> N B) : noub P m -> (forall a, noub P (f a)) -> noub P (nbind m f).
Proof. intros H1 H2 s s' H. unfold nbind in H. destruct (m s) as [a s1|s1|s1|] eqn:Em; try discriminate; [exact (H2 _ _ _ H)|exact (H1 _ _ Em)]. Qed.
Lemma noub_ub {A} (P : Prop) : P -> noub P (@nub A). Proof. intros HP s s' H. exact HP. Qed.
Ltac nb1 := match goal with
  | |- noub _ (nret _) => apply noub_ret | |- noub _ ndie => apply noub_die | |- noub _ (nget _) => apply noub_get
  | |- noub _ (npull _) => apply noub_pull | |- noub _ (emit _) => apply noub_emit | |- noub _ (put_size _) => apply noub_size
  | |- noub _ (put_exports _) => apply noub_exports | |- noub _ close_comm => apply noub_close | |- noub _ (nread _) => apply noub_read
  | |- noub _ (nbind _ _) => apply noub_bind; [|intros ?]
  | |- noub _ (nread_be _) => unfold nread_be | |- noub _ (nconsume _) => unfold nconsume
  | |- noub _ (nsend _ _) => unfold nsend | |- noub _ (send_data _ _ _ _) => unfold send_data | |- noub _ (send_head _ _ _ _) => unfold send_head
  | |- noub _ (send_export_info _ _ _) => unfold send_export_info | |- noub _ (send_info _ _ _) => unfold send_info
  | |- noub _ (ask_parent _ _) => unfold ask_parent | |- noub _ (nprepare _ _ _) => unfold nprepare
  | |- noub _ (if ?b then _ else _) => destruct b eqn:?
  | |- noub _ (match ?b with _ => _ end) => destruct b eqn:? end.
Lemma noub_info_loop P opt i n : forall b, noub P (info_loop E opt i n b).
Proof. induction n as [|n IH]; intros b; cbn [info_loop]; repeat match goal with |- noub _ (info_loop _ _ _ _ _) => apply IH | _ => nb1 end. Qed.

(** undefined behaviour in commitment comes from the authorization file or the
    files of the export *)
Definition commit_ub (s : nst) (i : nat) : Prop :=
  authorized_client (e_gai E) (x_auth (nth_export i s)) (e_peer E) = AUb \/
  setupexport (x_flags (nth_export i s)) (x_expected (nth_export i s)) (x_files (nth_export i s)) = SetupUb.
Lemma commit_ub_spec i s s' : commit_client E i s = NUb s' -> commit_ub s i.
Proof.
  unfold commit_client. unfold nbind at 1, put_size at 1. unfold nbind at 1, nget at 1.
  match goal with |- ?m ?st = _ -> _ => assert (K : noub (commit_ub s i) m) end.
  { change (nth_export i (mkN (n_in s) (n_next s) (n_tls s) (n_struct s) OFFT_MAX (n_exports s) (n_glob s) (n_comm s) (n_tick s) (n_tr s))) with (nth_export i s).
    unfold commit_ub. repeat nb1.
    - apply noub_ub. right. reflexivity.
    - apply noub_ub. left. reflexivity. }
  intros H. exact (K _ _ H).
Qed.

Lemma info_ub opt s s' : Forall is_byte (n_in s) -> handle_info E opt s = NUb s' ->
  (exists b r, n_in s = b ++ be 4 4294967295 ++ r /\ zlen b = 4) \/
  (opt = OPT_GO /\ exists i, commit_ub s i).
Proof.
  intros Hb H. unfold handle_info in H.
  assert (Step : forall A B (m : N A) (f : A -> N B) st, nbind m f st = NUb s' -> noub False m -> exists a s1, m st = NRet a s1 /\ f a s1 = NUb s').
  { intros A B m f st Hk Hm. unfold nbind in Hk. specialize (Hm st). destruct (m st) as [a s1|s1|s1|]; try discriminate; [eauto|exfalso; eapply Hm; reflexivity]. }
  apply Step in H; [|repeat nb1]. destruct H as (len & s1 & H1 & H). apply nread_be_inv in H1; [|lia]. destruct H1 as (bl & A1 & A2 & A3 & A4).
  apply Step in H; [|repeat nb1]. destruct H as (nl & s2 & H1 & H). apply nread_be_inv in H1; [|lia]. destruct H1 as (bn & B1 & B2 & B3 & B4).
  assert (Hbn : Forall is_byte bn).
  { rewrite A1, B1 in Hb. apply Forall_suffix in Hb. destruct Hb as [_ Hb]. apply Forall_suffix in Hb. tauto. }
  apply Step in H; [|repeat nb1]. destruct H as ([] & s3 & H3 & H).
  apply Step in H; [|repeat nb1]. destruct H as ([] & s4 & H4 & H).
  apply Step in H; [|repeat nb1]. destruct H as (mem & s5 & H5 & H).
  destruct (negb mem).
  { exfalso. revert H. match goal with |- ?m ?st = _ -> _ => assert (K : noub False m) by (repeat nb1) end. intros H. exact (K _ _ H). }
  destruct (nl =? 4294967295) eqn:Nl.
  { left. exists bl, (n_in s2). split; [|exact A2]. rewrite A1, B1. f_equal. f_equal. rewrite <- (be_unbe' bn 4 Hbn B2). f_equal. lia. }
  right. unfold nbind at 1, nret at 1 in H.
  apply Step in H; [|repeat nb1]. destruct H as (name & s7 & H7 & H). unfold nbind at 1, nget at 1 in H. unfold nbind at 1, nget at 1 in H.
  apply Step in H; [|repeat nb1]. destruct H as (nreq & s8 & H8 & H).
  destruct (fst (find_last (n_tls s7) name 0 (n_exports s7) (None, false))) as [j|].
  2:{ exfalso. revert H. match goal with |- ?m ?st = _ -> _ => assert (K : noub False m) by (repeat nb1) end. intros H. exact (K _ _ H). }
  assert (Tail : forall ok : bool, noub False
     (if negb ok then nconsume (nreq * 2) ;;~ send_data E opt REP_ERR_POLICY (text "Access denied by server configuration") ;;~ nret None
      else sent <~ info_loop E opt j (Z.to_nat nreq) false ;; (if sent : bool then nret tt else send_info E opt j) ;;~ send_head E opt REP_ACK 0 ;;~ nret (Some j))).
  { intros ok. repeat match goal with |- noub _ (info_loop _ _ _ _ _) => apply noub_info_loop | _ => nb1 end. }
  unfold nbind at 1 in H.
  destruct ((if opt =? OPT_GO then commit_client E j else nret true) s8) as [ok s9|s9|s9|] eqn:C; try discriminate.
  { exfalso. exact (Tail ok _ _ H). }
  destruct (opt =? OPT_GO) eqn:O; [|discriminate]. split; [lia|]. exists j.
  assert (Ex : n_exports s8 = n_exports s).
  { assert (Q : forall A (m : N A) st a st', qu m -> m st = NRet a st' -> n_exports st' = n_exports st).
    { intros A m st a st' Hq Hm. specialize (Hq st). rewrite Hm in Hq. destruct Hq as (Hc & _). unfold core_of in Hc. injection Hc as ? ? ? Hx ? ?. exact Hx. }
    assert (QR : forall n, qu (nread n)).
    { intros n st. pose proof (qu_read_be n st) as K. unfold nread_be, nbind in K. destruct (nread n st); auto. }
    assert (Q8 : n_exports s8 = n_exports s7) by (eapply Q; [apply (qu_read_be 2)|exact H8]).
    assert (Q7 : n_exports s7 = n_exports s5) by (eapply Q; [apply (QR nl)|exact H7]).
    assert (Q5 : n_exports s5 = n_exports s4) by (destruct (0 <? nl); injection H5 as _ <-; reflexivity).
    assert (QC : forall n, qu (nconsume n)) by (intros n; apply qu_bind; [apply QR|intros; apply qu_ret]).
    assert (QS : forall o t d, qu (send_data E o t d)) by (intros; apply qu_bind; [apply qu_send|intros; apply qu_send]).
    assert (Q4 : n_exports s4 = n_exports s3).
    { eapply Q; [|exact H4]. destruct (4096 <? nl); [apply qu_bind; [apply QS|intros; apply QC]|apply qu_ret]. }
    assert (Q3 : n_exports s3 = n_exports s2).
    { eapply Q; [|exact H3]. destruct (u32 (len - 6) <? nl); [apply qu_bind; [apply QS|intros; apply QC]|apply qu_ret]. }
    rewrite Q8, Q7, Q5, Q4, Q3, B4, A4. reflexivity. }
  apply commit_ub_spec in C. unfold commit_ub, nth_export in *. rewrite Ex in C. exact C.
Qed.

Lemma list_loop_no_ub P tls l : Forall (fun e => zlen (x_name e) <= 1020) l -> noub P (list_loop E tls l).
Proof.
  induction l as [|e l IH]; intros H; cbn [list_loop]; [apply noub_ret|]. pose proof (Forall_inv H) as He. cbv beta in He. apply Forall_inv_tail in H.
  destruct (hidden tls e); [apply IH; exact H|]. replace (1020 <? zlen (x_name e)) with false by lia.
  apply noub_bind; [repeat nb1|]. intros. apply IH. exact H.
Qed.
Lemma list_no_ub s s' : Forall (fun e => zlen (x_name e) <= 1020) (n_exports s) -> handle_list E s <> NUb s'.
Proof.
  intros H K. unfold handle_list in K.
  assert (Step : forall A B (m : N A) (f : A -> N B) st, nbind m f st = NUb s' -> noub False m -> qu m ->
    exists a s1, f a s1 = NUb s' /\ n_exports s1 = n_exports st).
  { intros A B m f st Hk Hm Hq. unfold nbind in Hk. specialize (Hm st). specialize (Hq st). destruct (m st) as [a s1|s1|s1|]; try discriminate.
    - exists a, s1. split; [exact Hk|]. destruct Hq as (Hc & _). unfold core_of in Hc. injection Hc as ? ? ? Hx ? ?. exact Hx.
    - exfalso. eapply Hm. reflexivity. }
  assert (QS : forall o t d, qu (send_data E o t d)) by (intros; apply qu_bind; [apply qu_send|intros; apply qu_send]).
  apply Step in K; [|repeat nb1|apply qu_read_be]. destruct K as (len & s1 & K & X1).
  apply Step in K; [|repeat nb1|destruct (negb (len =? 0)); [apply QS|apply qu_ret]]. destruct K as ([] & s2 & K & X2).
  unfold nbind at 1, nget at 1 in K. destruct (negb (flag (n_glob s2) F_LIST)).
  { revert K. apply (fun m : noub False (send_data E OPT_LIST REP_ERR_POLICY (text "Listing of exports denied by server configuration")) => m s2 s'). repeat nb1. }
  unfold nbind at 1, nget at 1 in K. unfold nbind at 1, nget at 1 in K. revert K.
  match goal with |- ?m s2 = _ -> _ => assert (Q : noub False m) end.
  { apply noub_bind; [apply list_loop_no_ub; rewrite X2, X1; exact H|]. intros. repeat nb1. }
  apply Q.
Qed.

(** * The size in INFO *)
Lemma info_reports_size s i s' : Forall is_byte (n_in s) -> handle_info E OPT_INFO s = NRet (Some i) s' ->
  n_size s' = n_size s /\
  exists tr k w, k <> O /\ n_tr s' = tr ++
    concat (repeat [NSend (n_tls s') (optreply OPT_INFO REP_INFO 12); NSend (n_tls s') (be 2 INFO_EXPORT); NSend (n_tls s') (be 8 (n_size s)); NSend (n_tls s') (be 2 w)] k) ++
    [NSend (n_tls s') (optreply OPT_INFO REP_ACK 0)].
Proof.
  intros Hb H.
  assert (Sz : n_size s' = n_size s).
  { assert (QR : forall n, qu (nread n)).
    { intros n st. pose proof (qu_read_be n st) as K. unfold nread_be, nbind in K. destruct (nread n st); auto. }
    assert (QC : forall n, qu (nconsume n)) by (intros n; apply qu_bind; [apply QR|intros; apply qu_ret]).
    assert (QS : forall o t d, qu (send_data E o t d)) by (intros; apply qu_bind; [apply qu_send|intros; apply qu_send]).
    assert (QP : forall A (f : nat -> A), qu (npull f)).
    { intros A f st. split; [reflexivity|]. split; [reflexivity|]. split; [exists []; reflexivity|]. exists []. rewrite app_nil_r. auto. }
    assert (Q : qu (handle_info E OPT_INFO)).
    { unfold handle_info. replace (OPT_INFO =? OPT_GO) with false by reflexivity.
      repeat match goal with
      | |- qu (nbind _ _) => apply qu_bind; [|intros ?]
      | |- qu (send_data _ _ _ _) => apply QS | |- qu (nconsume _) => apply QC | |- qu (nread _) => apply QR | |- qu (npull _) => apply QP
      | |- qu (nread_be _) => apply qu_read_be | |- qu (nret _) => apply qu_ret | |- qu (nget _) => apply qu_get
      | |- qu (send_info _ _ _) => apply qu_send_info | |- qu (info_loop _ _ _ _ _) => apply qu_info_loop
      | |- qu (send_head _ _ _ _) => apply qu_send
      | |- qu nub => intros st; exact I
      | |- qu (if ?b then _ else _) => destruct b
      | |- qu (match ?b with _ => _ end) => destruct b end. }
    specialize (Q s). rewrite H in Q. destruct Q as (C & _). unfold core_of in C. injection C as ? ? C3 ? ? ?. exact C3. }
  split; [exact Sz|]. apply info_inv in H; [|exact Hb].
  destruct H as (len & name & junk & n2 & infos & sm & _ & _ & _ & _ & _ & _ & _ & _ & _ & k & tr & K1 & K2).
  exists tr, k. unfold info_of, info_messages in K2. rewrite Sz in K2. eexists. split; [exact K1|exact K2].
Qed.

(** * Framing *)
Definition set_in (b : list Z) (s : nst) : nst :=
  mkN b (n_next s) (n_tls s) (n_struct s) (n_size s) (n_exports s) (n_glob s) (n_comm s) (n_tick s) (n_tr s).
Definition push (b : list Z) (s : nst) : nst :=
  mkN (n_in s) (n_next s) (n_tls s) (n_struct s) (n_size s) (n_exports s) (n_glob s) (n_comm s) (S (n_tick s)) (n_tr s ++ [NSend (n_tls s) b]).
Lemma zlen_be k v : zlen (be k v) = Z.of_nat k.
Proof. unfold zlen. rewrite be_length. reflexivity. Qed.
Lemma nread_app n b r s : n_in s = b ++ r -> zlen b = n -> nread n s = NRet b (set_in r s).
Proof.
  intros H L. unfold nread. rewrite H, zlen_app. pose proof (zlen_nonneg r).
  replace (zlen b + zlen r <? n) with false by lia. subst n. replace (Z.to_nat (zlen b)) with (length b) by (unfold zlen; lia).
  rewrite firstn_app, firstn_all, skipn_app, skipn_all, Nat.sub_diag. cbn [firstn skipn app]. rewrite app_nil_r. reflexivity.
Qed.
Lemma nread_be_app k n v r s : n_in s = be k v ++ r -> n = Z.of_nat k -> 0 <= v < 2 ^ (8 * Z.of_nat k) -> nread_be n s = NRet v (set_in r s).
Proof.
  intros H L B. unfold nread_be, nbind. rewrite (nread_app n (be k v) r s H); [|rewrite zlen_be; lia]. unfold nret. rewrite unbe_be, Z.mod_small by exact B. reflexivity.
Qed.
Lemma bind_ret {A B} (m : N A) (f : A -> N B) s a s1 : m s = NRet a s1 -> nbind m f s = f a s1.
Proof. intros H. unfold nbind. rewrite H. reflexivity. Qed.

Variable L : list export.
Hypothesis Hl : healthy E L.
Lemma send_push b s : nsend E b s = NRet tt (push b s).
Proof. unfold nsend, nbind, npull, nget, emit. rewrite (proj1 Hl). reflexivity. Qed.
Lemma data_push opt t d s : send_data E opt t d s = NRet tt (push d (push (optreply opt t (zlen d)) s)).
Proof. unfold send_data. rewrite (bind_ret _ _ _ _ _ (send_push _ s)). apply send_push. Qed.

(** [s] leads to [s'] having taken [used] from the input and answered with [b] *)
Definition leads (s s' : nst) (b : list Z) : Prop :=
  exists evs, n_tr s' = n_tr s ++ evs /\ sent_bytes evs = b.
Lemma sent_app a b : sent_bytes (a ++ b) = sent_bytes a ++ sent_bytes b.
Proof. unfold sent_bytes. rewrite map_app, concat_app. reflexivity. Qed.
Lemma leads_refl s : leads s s [].
Proof. exists []. rewrite app_nil_r. auto. Qed.
Lemma leads_trans a b c x y : leads a b x -> leads b c y -> leads a c (x ++ y).
Proof.
  intros (e1 & A1 & A2) (e2 & B1 & B2). exists (e1 ++ e2). rewrite B1, A1, app_assoc, sent_app, A2, B2. auto.
Qed.
Lemma leads_push s b : leads s (push b s) b.
Proof. exists [NSend (n_tls s) b]. split; [reflexivity|]. cbn. apply app_nil_r. Qed.
Lemma leads_same s s' : n_tr s' = n_tr s -> leads s s' [].
Proof. intros H. exists []. rewrite app_nil_r. auto. Qed.

Lemma answered_one opt t d : t = REP_ACK \/ 2147483648 <= t < 4294967296 -> answered opt (optreply opt t (zlen d) ++ d).
Proof. intros H. exists [], t, d. split; [reflexivity|]. split; [constructor|exact H]. Qed.

Definition done (opt : Z) (s s' : nst) (rest : list Z) : Prop :=
  n_in s' = rest /\ exists b, leads s s' b /\ answered opt b.

Lemma done_data opt t d s rest : n_in s = rest -> 2147483648 <= t < 4294967296 ->
  done opt s (push d (push (optreply opt t (zlen d)) s)) rest.
Proof.
  intros H Ht. split; [exact H|]. exists (optreply opt t (zlen d) ++ d). split; [|apply answered_one; auto].
  eapply leads_trans; apply leads_push.
Qed.
Lemma done_head opt s rest : n_in s = rest -> done opt s (push (optreply opt REP_ACK 0) s) rest.
Proof.
  intros H. split; [exact H|]. exists (optreply opt REP_ACK 0). split; [apply leads_push|]. 
  pose proof (answered_one opt REP_ACK [] (or_introl eq_refl)) as K. rewrite app_nil_r in K. exact K.
Qed.
Lemma done_from opt s s1 s' rest : leads s s1 [] -> done opt s1 s' rest -> done opt s s' rest.
Proof. intros H (A & b & B & C). split; [exact A|]. exists b. split; [exact (leads_trans _ _ _ _ _ H B)|exact C]. Qed.
Lemma done_more opt t d s s' s1 rest : leads s s1 (reply_msg opt t d) -> t = REP_SERVER \/ t = REP_INFO -> done opt s1 s' rest -> done opt s s' rest.
Proof.
  intros H Ht (A & b & B & (l & ft & fd & C1 & C2 & C3)). split; [exact A|]. exists (reply_msg opt t d ++ b). split; [exact (leads_trans _ _ _ _ _ H B)|].
  exists ((t, d) :: l), ft, fd. split; [cbn [map concat fst snd]; rewrite C1, <- app_assoc; reflexivity|]. split; [constructor; auto|exact C3].
Qed.

(** consume_len *)
Lemma consume_len_app payload rest s : n_in s = be 4 (zlen payload) ++ payload ++ rest -> zlen payload < 2 ^ 32 ->
  nconsume_len s = NRet tt (set_in rest s).
Proof.
  intros H B. unfold nconsume_len. rewrite (bind_ret _ _ _ _ _ (nread_be_app 4 4 (zlen payload) _ s H eq_refl ltac:(pose proof (zlen_nonneg payload); lia))).
  unfold nconsume. erewrite bind_ret; [|apply (nread_app _ payload rest); reflexivity]. reflexivity.
Qed.
Lemma consume_app b rest s n : n_in s = b ++ rest -> zlen b = n -> nconsume n s = NRet tt (set_in rest s).
Proof. intros H Hn. unfold nconsume. rewrite (bind_ret _ _ _ _ _ (nread_app n b rest s H Hn)). reflexivity. Qed.

Lemma list_loop_done tls l : forall s, Forall (fun e => zlen (x_name e) <= 1020) l -> exists s',
  list_loop E tls l s = NRet tt s' /\ n_in s' = n_in s /\ forall s2, done OPT_LIST s' s2 (n_in s) -> done OPT_LIST s s2 (n_in s).
Proof.
  induction l as [|e l IH]; intros s H; cbn [list_loop].
  - exists s. split; [reflexivity|]. split; [reflexivity|auto].
  - pose proof (Forall_inv H) as He. cbv beta in He. apply Forall_inv_tail in H. destruct (hidden tls e); [apply IH; exact H|].
    replace (1020 <? zlen (x_name e)) with false by lia. rewrite (bind_ret _ _ _ _ _ (data_push _ _ _ s)).
    edestruct IH as (s' & A1 & A2 & A3); [exact H|]. exists s'. split; [exact A1|]. split; [exact A2|].
    intros s2 D. apply A3 in D. eapply done_more; [| |exact D].
    + unfold reply_msg. eapply leads_trans; apply leads_push.
    + left. reflexivity.
Qed.

Lemma info_done opt i s : exists s', send_info E opt i s = NRet tt s' /\ n_in s' = n_in s /\
  forall s2 rest, done opt s' s2 rest -> done opt s s2 rest.
Proof.
  unfold send_info, send_head. rewrite (bind_ret _ _ _ _ _ (send_push _ s)).
  set (s1 := push _ s). rewrite (bind_ret _ _ _ _ _ (send_push _ s1)). set (s2 := push _ s1).
  unfold send_export_info. unfold nbind at 1, nget at 1. rewrite (bind_ret _ _ _ _ _ (send_push _ s2)). set (s3 := push _ s2).
  unfold nbind at 1, nget at 1. unfold nbind at 1, nget at 1. set (w := export_flags _ _). rewrite (bind_ret _ _ _ _ _ (send_push _ s3)). set (s4 := push _ s3).
  unfold nbind at 1, nget at 1. rewrite andb_false_r. exists s4. split; [reflexivity|]. split; [reflexivity|].
  intros s5 rest D. eapply (done_more opt REP_INFO (be 2 INFO_EXPORT ++ be 8 (n_size s2) ++ be 2 w)); [|right; reflexivity|exact D].
  unfold reply_msg. rewrite !zlen_app, !zlen_be.
  eapply leads_trans; [apply leads_push|]. eapply leads_trans; [apply leads_push|]. eapply leads_trans; [apply leads_push|]. apply leads_push.
Qed.

Lemma info_loop_done opt i n : forall sent s infos rest, n_in s = infos ++ rest -> zlen infos = 2 * Z.of_nat n -> exists b s',
  info_loop E opt i n sent s = NRet b s' /\ n_in s' = rest /\ forall s2, done opt s' s2 rest -> done opt s s2 rest.
Proof.
  induction n as [|n IH]; intros sent s infos rest H Hi; cbn [info_loop].
  - exists sent, s. split; [reflexivity|]. split; [|auto]. destruct infos; [exact H|]. rewrite zlen_cons in Hi. pose proof (zlen_nonneg infos). lia.
  - assert (exists a b t, infos = [a; b] ++ t) as (a & b & t & ->).
    { destruct infos as [|a [|b t]]; [rewrite zlen_nil in Hi; lia|rewrite zlen_cons, zlen_nil in Hi; lia|exists a, b, t; reflexivity]. }
    unfold nread_be at 1. unfold nbind at 1 2. rewrite (nread_app 2 [a; b] (t ++ rest) s); [|rewrite H, <- app_assoc; reflexivity|reflexivity].
    unfold nret at 1. set (s1 := set_in (t ++ rest) s). rewrite zlen_app in Hi. change (zlen [a; b]) with 2 in Hi.
    destruct (unbe [a; b] =? INFO_EXPORT).
    + destruct (info_done opt i s1) as (s2 & A1 & A2 & A3). rewrite (bind_ret _ _ _ _ _ A1).
      destruct (IH true s2 t rest) as (r & s3 & B1 & B2 & B3); [rewrite A2; reflexivity|lia|].
      exists r, s3. split; [exact B1|]. split; [exact B2|]. intros s4 D. eapply done_from; [apply leads_same|apply A3, B3, D]. reflexivity.
    + destruct (IH sent s1 t rest) as (r & s3 & B1 & B2 & B3); [reflexivity|lia|].
      exists r, s3. split; [exact B1|]. split; [exact B2|]. intros s4 D. eapply done_from; [apply leads_same|apply B3, D]. reflexivity.
Qed.

(** commitment sends and reads nothing *)
Definition mute {A} (m : N A) : Prop := forall s, match m s with
  | NRet _ s' => n_in s' = n_in s /\ leads s s' [] | _ => True end.
Lemma mute_bind {A B} (m : N A) (f : A -> N B) : mute m -> (forall a, mute (f a)) -> mute (nbind m f).
Proof.
  intros H1 H2 s. unfold nbind. specialize (H1 s). destruct (m s) as [a s1|s1|s1|]; auto.
  specialize (H2 a s1). destruct (f a s1); auto. destruct H1 as [A1 A2], H2 as [B1 B2]. split; [congruence|]. exact (leads_trans _ _ _ _ _ A2 B2).
Qed.
Lemma mute_emit v : (forall t b, v <> NSend t b) -> mute (emit v).
Proof. intros H s. split; [reflexivity|]. exists [v]. split; [reflexivity|]. destruct v; try reflexivity. exfalso. eapply H. reflexivity. Qed.
Lemma commit_mute i : mute (commit_client E i).
Proof.
  assert (M0 : forall A (m : N A), (forall s, match m s with NRet _ s' => n_in s' = n_in s /\ n_tr s' = n_tr s | _ => True end) -> mute m).
  { intros A m H s. specialize (H s). destruct (m s); auto. destruct H as [H1 H2]. split; [exact H1|apply leads_same; exact H2]. }
  unfold commit_client, ask_parent, nprepare.
  repeat match goal with
  | |- mute (nbind _ _) => apply mute_bind; [|intros ?]
  | |- mute (if ?b then _ else _) => destruct b
  | |- mute (match ?b with _ => _ end) => destruct b
  | |- mute (emit _) => apply mute_emit; discriminate
  | _ => apply M0; intros st; cbn; auto end.
Qed.
(** neither dies nor runs into undefined behaviour *)
Lemma commit_returns i s : In (nth_export i s) L -> exists b s', commit_client E i s = NRet b s'.
Proof.
  intros Hin. destruct (commit_client E i s) as [b s'|s'|s'|] eqn:C; [eauto| | |].
  - apply commit_ub_spec in C. destruct Hl as [_ H]. rewrite Forall_forall in H. destruct (H _ Hin) as (A & B & D & _).
    destruct C; contradiction.
  - exfalso. revert C. unfold commit_client. unfold nbind at 1, put_size at 1. unfold nbind at 1, nget at 1.
    change (nth_export i (mkN (n_in s) (n_next s) (n_tls s) (n_struct s) OFFT_MAX (n_exports s) (n_glob s) (n_comm s) (n_tick s) (n_tr s))) with (nth_export i s).
    set (e := nth_export i s) in *. set (s1 := mkN _ _ _ _ _ _ _ _ _ _). clearbody s1.
    assert (D : forall A (m : N A), (forall st, match m st with NDie _ => False | _ => True end) -> forall s2, m s1 <> NDie s2).
    { intros A m H s2 K. specialize (H s1). rewrite K in H. exact H. }
    apply D. clear D s1.
    assert (Bd : forall A B (m : N A) (f : A -> N B), (forall st, match m st with NDie _ => False | _ => True end) ->
      (forall a st, match f a st with NDie _ => False | _ => True end) -> forall st, match nbind m f st with NDie _ => False | _ => True end).
    { intros A B m f H1 H2 st. unfold nbind. specialize (H1 st). destruct (m st) as [a s1|s1|s1|]; auto. apply H2. }
    destruct Hl as [_ H]. rewrite Forall_forall in H. destruct (H _ Hin) as (_ & B & _).
    unfold ask_parent, nprepare.
    destruct (authorized_client (e_gai E) (x_auth e) (e_peer E)); try contradiction;
    repeat match goal with
    | |- forall st, match nbind _ _ st with _ => _ end => apply Bd; [|intros ?]
    | |- forall st, match (if ?b then _ else _) st with _ => _ end => destruct b
    | |- forall st, match (match ?b with _ => _ end) st with _ => _ end => destruct b
    | _ => intros st; cbn; exact I end.
  - pose proof (pr_commit E i s) as P. rewrite C in P. contradiction.
Qed.

Lemma info_option opt s name infos n rest :
  n_in s = be 4 (zlen (info_payload name infos n)) ++ info_payload name infos n ++ rest ->
  zlen name <= 4096 -> 0 <= n < 65536 -> zlen infos = 2 * n -> e_ok E (n_tick s) = true -> n_exports s = L ->
  exists r s', handle_info E opt s = NRet r s' /\ done opt s s' rest.
Proof.
  intros H Hn Hr Hi Hm HL. pose proof (zlen_nonneg name) as Pn.
  assert (Lp : zlen (info_payload name infos n) = 6 + zlen name + 2 * n).
  { unfold info_payload. rewrite !zlen_app, !zlen_be, Hi. lia. }
  unfold handle_info. rewrite (bind_ret _ _ _ _ _ (nread_be_app 4 4 _ _ s H eq_refl ltac:(lia))). set (s1 := set_in _ s).
  assert (H1 : n_in s1 = be 4 (zlen name) ++ name ++ be 2 n ++ infos ++ rest) by (unfold s1, info_payload; cbn [n_in set_in]; rewrite <- !app_assoc; reflexivity).
  rewrite (bind_ret _ _ _ _ _ (nread_be_app 4 4 _ _ s1 H1 eq_refl ltac:(lia))). set (s2 := set_in _ s1).
  rewrite Lp. replace (u32 (6 + zlen name + 2 * n - 6)) with (zlen name + 2 * n) by (unfold u32; rewrite Z.mod_small; lia).
  replace (zlen name + 2 * n <? zlen name) with false by lia.
  unfold nbind at 1, nret at 1. replace (4096 <? zlen name) with false by lia. unfold nbind at 1, nret at 1.
  assert (Mem : exists s3, (if 0 <? zlen name then npull (e_ok E) else nret true) s2 = NRet true s3 /\ n_in s3 = n_in s2 /\ leads s s3 [] /\ n_exports s3 = L).
  { destruct (0 <? zlen name).
    - unfold npull. change (n_tick s2) with (n_tick s). rewrite Hm. eexists. split; [reflexivity|]. split; [reflexivity|]. split; [apply leads_same; reflexivity|exact HL].
    - eexists. split; [reflexivity|]. split; [reflexivity|]. split; [apply leads_same; reflexivity|exact HL]. }
  destruct Mem as (s3 & M1 & M2 & M3 & M4). rewrite (bind_ret _ _ _ _ _ M1). cbn [negb].
  replace (zlen name =? 4294967295) with false by lia. unfold nbind at 1, nret at 1.
  assert (H3 : n_in s3 = name ++ be 2 n ++ infos ++ rest) by (rewrite M2; reflexivity).
  rewrite (bind_ret _ _ _ _ _ (nread_app _ _ _ s3 H3 eq_refl)). set (s4 := set_in _ s3).
  unfold nbind at 1, nget at 1. unfold nbind at 1, nget at 1.
  rewrite (bind_ret _ _ _ _ _ (nread_be_app 2 2 n (infos ++ rest) s4 eq_refl eq_refl ltac:(lia))). set (s5 := set_in _ s4).
  assert (L5 : leads s s5 []) by (destruct M3 as (ev & E1 & E2); exists ev; split; [exact E1|exact E2]).
  assert (Errs : forall t d, 2147483648 <= t < 4294967296 -> forall s6, n_in s6 = infos ++ rest -> leads s s6 [] ->
    exists s', (nconsume (n * 2) ;;~ send_data E opt t d ;;~ nret None) s6 = NRet (@None nat) s' /\ done opt s s' rest).
  { intros t d Ht s6 I6 L6. rewrite (bind_ret _ _ _ _ _ (consume_app infos rest s6 (n * 2) I6 ltac:(lia))). rewrite (bind_ret _ _ _ _ _ (data_push _ _ _ _)).
    eexists. split; [reflexivity|]. eapply done_from; [|apply done_data; [reflexivity|exact Ht]].
    destruct L6 as (ev & E1 & E2). exists ev. split; [exact E1|exact E2]. }
  destruct (fst (find_last (n_tls s4) name 0 (n_exports s4) (None, false))) as [j|] eqn:F.
  2:{ destruct (snd (find_last (n_tls s4) name 0 (n_exports s4) (None, false))).
      - destruct (Errs REP_ERR_TLS_REQD (text "TLS is required for that export") ltac:(unfold REP_ERR_TLS_REQD; lia) s5 eq_refl L5) as (s' & A & B). exists None, s'. auto.
      - destruct (Errs REP_ERR_UNKNOWN (text "Export unknown") ltac:(unfold REP_ERR_UNKNOWN; lia) s5 eq_refl L5) as (s' & A & B). exists None, s'. auto. }
  assert (Cm : exists ok s6, (if opt =? OPT_GO then commit_client E j else nret true) s5 = NRet ok s6 /\ n_in s6 = n_in s5 /\ leads s5 s6 []).
  { destruct (opt =? OPT_GO); [|exists true, s5; split; [reflexivity|]; split; [reflexivity|apply leads_refl]].
    destruct (find_last_spec _ _ _ _ _ _ F) as [K|(e & _ & F1 & _)]; [discriminate|]. rewrite Nat.sub_0_r in F1.
    change (n_exports s4) with (n_exports s3) in F1.
    assert (Hin : In (nth_export j s5) L).
    { unfold nth_export. change (n_exports s5) with (n_exports s3). rewrite (nth_default_error _ _ no_export _ F1). rewrite <- M4. eapply nth_error_In. exact F1. }
    destruct (commit_returns j s5 Hin) as (ok & s6 & C). exists ok, s6. split; [exact C|]. pose proof (commit_mute j s5) as Mu. rewrite C in Mu. exact Mu. }
  destruct Cm as (ok & s6 & C1 & C2 & C3). rewrite (bind_ret _ _ _ _ _ C1). pose proof (leads_trans _ _ _ _ _ L5 C3) as L6. cbn [app] in L6.
  destruct ok; cbn [negb].
  2:{ destruct (Errs REP_ERR_POLICY (text "Access denied by server configuration") ltac:(unfold REP_ERR_POLICY; lia) s6 C2 L6) as (s' & A & B). exists None, s'. auto. }
  destruct (info_loop_done opt j (Z.to_nat n) false s6 infos rest) as (b & s7 & D1 & D2 & D3); [exact C2|lia|].
  rewrite (bind_ret _ _ _ _ _ D1).
  assert (Sn : exists s8, (if b then nret tt else send_info E opt j) s7 = NRet tt s8 /\ n_in s8 = rest /\ forall s9, done opt s8 s9 rest -> done opt s7 s9 rest).
  { destruct b; [exists s7; auto|]. destruct (info_done opt j s7) as (s8 & G1 & G2 & G3). exists s8. split; [exact G1|]. split; [congruence|]. intros s9. apply G3. }
  destruct Sn as (s8 & G1 & G2 & G3). rewrite (bind_ret _ _ _ _ _ G1). unfold send_head. rewrite (bind_ret _ _ _ _ _ (send_push _ s8)).
  eexists (Some j), _. split; [reflexivity|]. eapply done_from; [exact L6|]. apply D3, G3, done_head. exact G2.
Qed.

(** every properly formed option other than EXPORT_NAME and ABORT *)
Lemma option_done opt s payload rest :
  n_in s = be 4 (zlen payload) ++ payload ++ rest -> zlen payload < 2 ^ 32 -> proper opt payload ->
  opt <> OPT_EXPORT_NAME -> opt <> OPT_ABORT -> (opt = OPT_STARTTLS -> n_tls s = true \/ e_key E = false) ->
  e_ok E (n_tick s) = true -> n_exports s = L ->
  exists t s', do_option E opt s = NRet t s' /\ t <> Closed /\ done opt s s' rest.
Proof.
  intros H Hp (Pl & Pi) N1 N2 N5 Hm HL. pose proof (zlen_nonneg payload) as Pp.
  unfold do_option. unfold nbind at 1, nget at 1. unfold nbind at 1, nget at 1.
  replace (opt =? OPT_EXPORT_NAME) with false by lia. replace (opt =? OPT_ABORT) with false by lia.
  assert (Errs : forall t d, 2147483648 <= t < 4294967296 ->
    exists s', (nconsume_len ;;~ send_data E opt t d ;;~ nret Again) s = NRet Again s' /\ done opt s s' rest).
  { intros t d Ht. rewrite (bind_ret _ _ _ _ _ (consume_len_app payload rest s H Hp)). rewrite (bind_ret _ _ _ _ _ (data_push _ _ _ _)).
    eexists. split; [reflexivity|]. eapply done_from; [|apply done_data; [reflexivity|exact Ht]]. apply leads_same. reflexivity. }
  assert (Errs' : forall t d, 2147483648 <= t < 4294967296 ->
    exists u s', (nconsume_len ;;~ send_data E opt t d ;;~ nret Again) s = NRet u s' /\ u <> Closed /\ done opt s s' rest).
  { intros t d Ht. destruct (Errs t d Ht) as (s' & A & B). exists Again, s'. split; [exact A|]. split; [discriminate|exact B]. }
  destruct (negb (n_tls s) && flag (n_glob s) F_FORCEDTLS && negb (opt =? OPT_STARTTLS)); [apply Errs'; unfold REP_ERR_TLS_REQD; lia|].
  destruct (opt =? OPT_LIST) eqn:OL.
  { assert (opt = OPT_LIST) by lia. subst opt. rewrite (Pl eq_refl) in H. cbn [app] in H.
    assert (G : exists s', handle_list E s = NRet tt s' /\ done OPT_LIST s s' rest).
    { unfold handle_list. rewrite (bind_ret _ _ _ _ _ (nread_be_app 4 4 0 rest s H eq_refl ltac:(lia))). set (s1 := set_in rest s).
      change (0 =? 0) with true. cbn [negb]. unfold nbind at 1, nret at 1. unfold nbind at 1, nget at 1.
      assert (L1 : leads s s1 []) by (apply leads_same; reflexivity).
      destruct (negb (flag (n_glob s1) F_LIST)).
      - eexists. split; [apply data_push|]. eapply done_from; [exact L1|]. apply done_data; [reflexivity|unfold REP_ERR_POLICY; lia].
      - unfold nbind at 1, nget at 1. unfold nbind at 1, nget at 1. destruct (list_loop_done (n_tls s1) (n_exports s1) s1) as (s2 & A1 & A2 & A3).
        { change (n_exports s1) with (n_exports s). rewrite HL. destruct Hl as [_ Hf]. eapply Forall_impl; [|exact Hf]. cbn. tauto. }
        rewrite (bind_ret _ _ _ _ _ A1). unfold send_head. eexists. split; [apply send_push|]. eapply done_from; [exact L1|]. apply A3. apply done_head. exact A2. }
    destruct G as (s' & G1 & G2). exists Again, s'. split; [|split; [discriminate|exact G2]].
    rewrite (bind_ret _ _ _ _ _ G1). reflexivity. }
  destruct (opt =? OPT_STARTTLS) eqn:O5.
  { destruct (N5 ltac:(lia)) as [T|T]; rewrite T; [apply Errs'; unfold REP_ERR_INVALID; lia|].
    destruct (n_tls s); [apply Errs'; unfold REP_ERR_INVALID; lia|]. cbn [negb]. apply Errs'; unfold REP_ERR_POLICY; lia. }
  destruct ((opt =? OPT_GO) || (opt =? OPT_INFO)) eqn:OI.
  { destruct Pi as (name & infos & n & P1 & P2 & P3 & P4); [lia|]. rewrite P1 in H.
    destruct (info_option opt s name infos n rest H P2 P3 P4 Hm HL) as (r & s' & G1 & G2). rewrite (bind_ret _ _ _ _ _ G1).
    destruct r as [i|]; [destruct (opt =? OPT_GO)|]; eexists _, s'; (split; [reflexivity|]); (split; [discriminate|exact G2]). }
  destruct (opt =? OPT_STRUCTURED) eqn:OS.
  { assert (opt = OPT_STRUCTURED) by lia. subst opt.
    assert (G : exists s', handle_structured_reply E s = NRet tt s' /\ done OPT_STRUCTURED s s' rest).
    { unfold handle_structured_reply. rewrite (bind_ret _ _ _ _ _ (nread_be_app 4 4 (zlen payload) _ s H eq_refl ltac:(lia))). set (s1 := set_in _ s).
      assert (L1 : leads s s1 []) by (apply leads_same; reflexivity).
      destruct (zlen payload =? 0) eqn:Z0; cbn [negb].
      - assert (payload = []) as -> by (destruct payload; [reflexivity|rewrite zlen_cons in Z0; pose proof (zlen_nonneg payload); lia]).
        unfold nbind at 1, nget at 1. destruct (n_struct s1).
        + eexists. split; [apply data_push|]. eapply done_from; [exact L1|]. apply done_data; [reflexivity|unfold REP_ERR_INVALID; lia].
        + unfold nbind at 1, put_struct at 1, send_head. eexists. split; [apply send_push|]. eapply done_from; [|apply done_head; reflexivity]. apply leads_same; reflexivity.
      - rewrite (bind_ret _ _ _ _ _ (data_push _ _ _ _)).
        match goal with |- context [nconsume _ ?st] => rewrite (consume_app payload rest st (zlen payload) eq_refl eq_refl) end.
        eexists. split; [reflexivity|]. split; [reflexivity|].
        set (d := text "NBD_OPT_STRUCTURED_REPLY with nonzero data length is not a valid request").
        exists (optreply OPT_STRUCTURED REP_ERR_INVALID (zlen d) ++ d). split; [|apply answered_one; unfold REP_ERR_INVALID; lia].
        change (optreply OPT_STRUCTURED REP_ERR_INVALID (zlen d) ++ d) with ([] ++ optreply OPT_STRUCTURED REP_ERR_INVALID (zlen d) ++ d).
        eapply leads_trans; [exact L1|]. eapply leads_trans; [apply leads_push|].
        destruct (leads_push (push (optreply OPT_STRUCTURED REP_ERR_INVALID (zlen d)) s1) d) as (ev & E1 & E2). exists ev. split; [exact E1|exact E2]. }
    destruct G as (s' & G1 & G2). exists Again, s'. rewrite (bind_ret _ _ _ _ _ G1). split; [reflexivity|]. split; [discriminate|exact G2]. }
  apply Errs'; unfold REP_ERR_UNSUP; lia.
Qed.

(** name length 2^32-1 with declared length 5 *)
Lemma info_overflow n big s : n = 4294967295 -> zlen big = n -> n_in s = be 4 5 ++ be 4 n ++ big -> (forall k, e_ok E k = true) ->
  exists s', handle_info E OPT_INFO s = NUb s'.
Proof.
  intros Hn Lb H Ho. unfold handle_info.
  rewrite (bind_ret _ _ _ _ _ (nread_be_app 4 4 5 (be 4 n ++ big) s H eq_refl ltac:(lia))). set (s1 := set_in _ s).
  assert (H1 : n_in s1 = be 4 n ++ big) by reflexivity. clearbody s1.
  rewrite (bind_ret _ _ _ _ _ (nread_be_app 4 4 n big s1 H1 eq_refl ltac:(lia))). set (s2 := set_in _ s1).
  assert (H2 : n_in s2 = big ++ []) by (rewrite app_nil_r; reflexivity). clearbody s2.
  change (u32 (5 - 6)) with 4294967295. replace (4294967295 <? n) with false by lia.
  unfold nbind at 1, nret at 1. replace (4096 <? n) with true by lia.
  set (d := text "The name for this OPT_INFO request is too long"). clearbody d.
  set (s3 := push d (push (optreply OPT_INFO REP_ERR_INVALID (zlen d)) s2)).
  assert (H3 : n_in s3 = big ++ []) by exact H2.
  assert (D : send_data E OPT_INFO REP_ERR_INVALID d s2 = NRet tt s3) by apply data_push. clearbody s3.
  assert (K : nbind (send_data E OPT_INFO REP_ERR_INVALID d) (fun _ => nconsume n) s2 = NRet tt (set_in [] s3)).
  { rewrite (bind_ret _ _ _ _ _ D). apply (consume_app big []); [exact H3|exact Lb]. }
  rewrite (bind_ret _ _ _ _ _ K). set (s4 := set_in [] s3). clearbody s4.
  replace (0 <? n) with true by lia. unfold nbind at 1, npull at 1. rewrite Ho. cbn [negb].
  replace (n =? 4294967295) with true by lia. eexists. reflexivity.
Qed.
End Opt.
