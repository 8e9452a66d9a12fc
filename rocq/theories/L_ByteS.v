(** One byte of a plain export through a whole connection with many threads. *)
From Verif Require Import Base M_Const M_Disk M_Tree M_Raw M_Par L_Wp L_Raw S_Wire S_Disk L_Wire L_Req L_Plain L_Session L_PlainS S_Par S_Byte L_Msg L_LogMsg L_Sched L_SchedC L_SchedL S_Run L_Sent L_Byte L_Fin.

(** no request but number [i] asks to change byte [j] *)
Definition sole (qs : list wreq) (j : Z) (i : nat) : bool :=
  negb (existsb (fun k => negb (Nat.eqb k i) && match nth_error qs k with Some q => touches q j | None => false end)
                (seq 0 (length qs))).

Lemma sole_spec qs j i : sole qs j i = true <-> forall k q, nth_error qs k = Some q -> k <> i -> touches q j = false.
Proof.
  unfold sole. rewrite negb_true_iff. split.
  - intros H k q E Ne. destruct (touches q j) eqn:Et; [|reflexivity]. rewrite <- H. symmetry. apply existsb_exists.
    exists k. split; [apply in_seq; pose proof (nth_lt _ _ _ E); lia|].
    rewrite E, Et. replace (Nat.eqb k i) with false by (symmetry; apply Nat.eqb_neq, Ne). reflexivity.
  - intros H. destruct (existsb _ _) eqn:E; [|reflexivity]. apply existsb_exists in E. destruct E as (k & _ & E).
    apply andb_prop in E. destruct E as [E1 E2]. apply negb_true_iff, Nat.eqb_neq in E1.
    destruct (nth_error qs k) as [q|] eqn:Eq; [|discriminate]. rewrite (H k q Eq E1) in E2. discriminate.
Qed.

(** code that has sent its last message is at its end *)
Lemma fw_bs fis w0 j r g (p : P unit) v ms Q : fw true p any -> bs fis w0 j r g p v ms Q -> Q tt v ms.
Proof.
  induction p as [a|X m k IH|m k IH|m k IH]; cbn [fw bs]; intros F H; [destruct a; exact H|destruct F; discriminate|destruct F; discriminate|].
  apply IH; assumption.
Qed.

Section ByteS.
  Variables (st lg : bool) (c : client) (fis : list finfo) (w0 : world).
  Hypothesis Hplain : plain c fis.
  Hypothesis Hfits : L_Plain.fits c fis w0.
  Variables (qs : list wreq) (tail : list Z) (e : stream_end).
  Hypothesis Hqs : Forall wreq_ok qs.
  Variable j : Z.
  Notation at_ := (at_ fis j).
  (** the byte at the beginning of the time looked at *)
  Variable v0 : Z.
  (** requests that may still act in that time *)
  Variable live : nat -> bool.
  (** requests next to which nobody else changes byte [j] in that time *)
  Variable sole : nat -> bool.
  Hypothesis Hsole : forall i, sole i = true -> forall k q, live k = true -> nth_error qs k = Some q -> k <> i -> touches q j = false.
  Definition code_post (i : nat) (q : wreq) : unit -> Z -> list (list Z) -> Prop :=
    fun _ v ms => answered j (sole i) q v0 v ms.

  Record bytes_inv (s : sys) : Prop := mkB {
    b_kept : kept fis w0 (y_w s);
    b_new : forall i, (taken s <= i)%nat -> sole i = true -> at_ (y_w s) = v0;
    b_code : forall t x i p q, nth_error (y_th s) t = Some x -> wid x = Some i -> wcode x = Some p -> nth_error qs i = Some q ->
      bs fis w0 j (sole i) (negb (touches q j)) p (at_ (y_w s)) (of_id i (y_msgs s)) (code_post i q);
    b_done : forall i q, (i < taken s)%nat -> nth_error qs i = Some q ->
      (forall t x, nth_error (y_th s) t = Some x -> wid x <> Some i) -> code_post i q tt (at_ (y_w s)) (of_id i (y_msgs s));
    b_fin : forall t x i p, nth_error (y_th s) t = Some x -> wid x = Some i -> wcode x = Some p ->
      fw (existsb final (of_id i (y_msgs s))) p any;
    b_live : forall t x i, nth_error (y_th s) t = Some x -> wid x = Some i ->
      live i = true \/ existsb final (of_id i (y_msgs s)) = true;
    b_stuck : forall t x i q, nth_error (y_th s) t = Some x -> wid x = Some i -> wcode x = None -> nth_error qs i = Some q ->
      existsb final (of_id i (y_msgs s)) = true -> code_post i q tt (at_ (y_w s)) (of_id i (y_msgs s))
  }.

  Lemma answered_indep i q v v' ms : sole i = false -> answered j (sole i) q v0 v ms -> answered j (sole i) q v0 v' ms.
  Proof. intros E (vs & H1 & H2 & H3). exists vs. split; [exact H1|]. split; [exact H2|]. congruence. Qed.
  Lemma bs_indep {A} (p : P A) r g v v' ms (Q : A -> Z -> list (list Z) -> Prop) : r = false ->
    (forall a v v' ms, Q a v ms -> Q a v' ms) -> bs fis w0 j r g p v ms Q -> bs fis w0 j r g p v' ms Q.
  Proof.
    intros Hr HQ. subst r. revert v v' ms. induction p as [a|X m k IH|m k IH|m k IH]; cbn [bs]; intros v v' ms H; eauto.
    intros w Hk Ho. apply H; [exact Hk|discriminate].
  Qed.
  Lemma code_same i q p g v v' ms : (sole i = true -> v' = v) ->
    bs fis w0 j (sole i) g p v ms (code_post i q) -> bs fis w0 j (sole i) g p v' ms (code_post i q).
  Proof.
    intros Hv H. destruct (sole i) eqn:E; [rewrite (Hv eq_refl); exact H|].
    eapply bs_indep; [reflexivity| |exact H]. intros [] u u' ms'. unfold code_post. apply answered_indep, E.
  Qed.
  Lemma post_same i q v v' ms : (sole i = true -> v' = v) -> code_post i q tt v ms -> code_post i q tt v' ms.
  Proof.
    intros Hv H. unfold code_post in *. destruct (sole i) eqn:E; [rewrite (Hv eq_refl); exact H|].
    rewrite <- E in *. eapply answered_indep; eauto.
  Qed.

  Variable s : sys.
  Hypothesis G : good st lg c qs tail e s.
  Hypothesis B : bytes_inv s.

  (** nothing that matters has changed *)
  Lemma inv_same s' : w_file (y_w s') = w_file (y_w s) -> w_exists (y_w s') = w_exists (y_w s) ->
    y_th s' = y_th s -> taken s' = taken s -> y_msgs s' = y_msgs s -> bytes_inv s'.
  Proof.
    intros E1 E2 E3 E4 E5. destruct B as [B1 B2 B3 B4 B5 B6 B7]. destruct (plain_stable fis w0 _ _ E1 E2 B1) as [Hk Hf].
    assert (Ha : at_ (y_w s') = at_ (y_w s)) by apply Hf.
    constructor; rewrite ?Ha, ?E3, ?E4, ?E5; auto.
  Qed.

  (** the request a thread works on *)
  Lemma in_qs t x i : nth_error (y_th s) t = Some x -> wid x = Some i -> exists q, nth_error qs i = Some q.
  Proof.
    intros Hx Hi. pose proof (g_core _ _ _ _ _ _ _ G) as K. pose proof (k_th _ _ _ _ K _ _ _ Hx Hi) as Hlt.
    pose proof (k_len _ _ _ _ K) as KL. unfold taken in Hlt.
    destruct (nth_error (y_hist s) i) as [[rq p]|] eqn:E; [|apply nth_error_None in E; lia].
    destruct (k_hist _ _ _ _ K _ _ _ E) as (q & Eq & _). eauto.
  Qed.

  (** thread [t] goes on with request [i] *)
  Lemma inv_move s' t x x' i : nth_error (y_th s) t = Some x -> wid x = Some i -> y_th s' = set_th (y_th s) t x' ->
    taken s' = taken s -> (forall k, k <> i -> of_id k (y_msgs s') = of_id k (y_msgs s)) ->
    kept fis w0 (y_w s') ->
    (forall q, nth_error qs i = Some q -> touches q j = false \/ live i = false -> at_ (y_w s') = at_ (y_w s)) ->
    (exists more, of_id i (y_msgs s') = of_id i (y_msgs s) ++ more) ->
    (forall p, wcode x' = Some p -> fw (existsb final (of_id i (y_msgs s'))) p any) ->
    (forall q, wcode x' = None -> wid x' = Some i -> nth_error qs i = Some q -> existsb final (of_id i (y_msgs s')) = true ->
        code_post i q tt (at_ (y_w s')) (of_id i (y_msgs s'))) ->
    (wid x' = Some i /\ forall p q, wcode x' = Some p -> nth_error qs i = Some q ->
        bs fis w0 j (sole i) (negb (touches q j)) p (at_ (y_w s')) (of_id i (y_msgs s')) (code_post i q)) \/
    (wid x' = None /\ forall q, nth_error qs i = Some q -> code_post i q tt (at_ (y_w s')) (of_id i (y_msgs s'))) ->
    bytes_inv s'.
  Proof.
    intros Hx Hi Hth Htk Hms Hk Hsame [more Hmore] Hfw Hst Hc. destruct B as [B1 B2 B3 B4 B5 B6 B7]. pose proof (g_core _ _ _ _ _ _ _ G) as K.
    pose proof (nth_lt _ _ _ Hx) as Hl. pose proof (k_th _ _ _ _ K _ _ _ Hx Hi) as Hlt.
    destruct (in_qs _ _ _ Hx Hi) as [qi Hqi].
    assert (Hn : forall t', nth_error (y_th s') t' = if Nat.eqb t' t then Some x' else nth_error (y_th s) t').
    { intros t'. rewrite Hth. apply nth_set_th, Hl. }
    assert (Hoth : forall k, k <> i -> sole k = true -> at_ (y_w s') = at_ (y_w s)).
    { intros k Hne Hs. apply (Hsame qi Hqi). destruct (live i) eqn:El; [left|right; reflexivity].
      eapply (Hsole k Hs); [exact El|exact Hqi|]. auto. }
    constructor.
    - exact Hk.
    - intros k Hkk Hs. rewrite Htk in Hkk. assert (k <> i) by lia. rewrite (Hoth k) by assumption. eapply B2; eauto.
    - intros t' y k p q E Ey Ep Eq. rewrite Hn in E. destruct (Nat.eqb t' t) eqn:Et.
      + injection E as <-. destruct Hc as [[Hw Hc]|[Hw _]]; [|congruence]. assert (k = i) by congruence. subst k. auto.
      + apply Nat.eqb_neq in Et. assert (k <> i). { intros ->. apply Et. eapply (k_dis _ _ _ _ K); eauto. }
        rewrite Hms by assumption. eapply code_same; [|eapply B3; eauto]. apply Hoth. assumption.
    - intros k q Hkk Eq Hno. rewrite Htk in Hkk. destruct (Nat.eq_dec k i) as [->|Hne].
      + destruct Hc as [[Hw _]|[_ Hc]]; [|auto]. exfalso.
        apply (Hno t x'); [rewrite Hn, Nat.eqb_refl; reflexivity|exact Hw].
      + rewrite Hms by exact Hne. eapply post_same; [apply Hoth; exact Hne|]. apply B4; auto.
        intros t' y E Ey. destruct (Nat.eq_dec t' t) as [->|Ht']; [congruence|].
        apply (Hno t' y); [|exact Ey]. rewrite Hn. replace (Nat.eqb t' t) with false by (symmetry; apply Nat.eqb_neq, Ht'). exact E.
    - intros t' y k p E Ey Ep. rewrite Hn in E. destruct (Nat.eqb t' t) eqn:Et.
      + injection E as <-. destruct Hc as [[Hw _]|[Hw _]]; [|congruence]. assert (k = i) by congruence. subst k. auto.
      + apply Nat.eqb_neq in Et. assert (k <> i). { intros ->. apply Et. eapply (k_dis _ _ _ _ K); eauto. }
        rewrite Hms by assumption. eapply B5; eauto.
    - intros t' y k E Ey. rewrite Hn in E. destruct (Nat.eqb t' t) eqn:Et.
      + injection E as <-. destruct Hc as [[Hw _]|[Hw _]]; [|congruence]. assert (k = i) by congruence. subst k.
        destruct (B6 _ _ _ Hx Hi) as [H|H]; [left; exact H|right]. rewrite Hmore, existsb_app, H. reflexivity.
      + apply Nat.eqb_neq in Et. assert (k <> i). { intros ->. apply Et. eapply (k_dis _ _ _ _ K); eauto. }
        rewrite Hms by assumption. eapply B6; eauto.
    - intros t' y k q E Ey Ep Eq. rewrite Hn in E. destruct (Nat.eqb t' t) eqn:Et.
      + injection E as <-. destruct Hc as [[Hw _]|[Hw _]]; [|congruence]. assert (k = i) by congruence. subst k. auto.
      + apply Nat.eqb_neq in Et. assert (k <> i). { intros ->. apply Et. eapply (k_dis _ _ _ _ K); eauto. }
        rewrite Hms by assumption. intros Hf. eapply post_same; [|eapply B7; eauto]. apply Hoth. assumption.
  Qed.

  Lemma inv_take t i rq p q0 er : nth_error (y_th s) t = Some WIdle -> y_q s = (i, rq, p) :: q0 ->
    (forall k, (taken s <= k < taken (y_setth t (WRun i er (p_handle_request lg c rq p)) (y_setq q0 s)))%nat -> live k = true) ->
    bytes_inv (y_setth t (WRun i er (p_handle_request lg c rq p)) (y_setq q0 s)).
  Proof.
    intros Hx Eq Hnew. destruct B as [B1 B2 B3 B4 B5 B6 B7]. pose proof (g_core _ _ _ _ _ _ _ G) as K.
    pose proof (nth_lt _ _ _ Hx) as Hl.
    pose proof (k_q _ _ _ _ K) as Kq. rewrite Eq in Kq. cbn [map length fst seq] in Kq. injection Kq as Hi _.
    set (s' := y_setth t (WRun i er (p_handle_request lg c rq p)) (y_setq q0 s)).
    assert (Htk : taken s' = S (taken s)).
    { pose proof (k_qlen _ _ _ _ K) as Kl. unfold taken, s'. cbn [y_setth y_setq y_next y_q]. rewrite Eq in *. cbn [length] in *. lia. }
    assert (Hn : forall t', nth_error (y_th s') t' = if Nat.eqb t' t then Some (WRun i er (p_handle_request lg c rq p)) else nth_error (y_th s) t').
    { intros t'. unfold s'. cbn [y_setth y_setq y_th]. apply nth_set_th, Hl. }
    assert (Hh : nth_error (y_hist s) i = Some (rq, p)) by (apply (k_qh _ _ _ _ K); rewrite Eq; left; reflexivity).
    pose proof (k_new _ _ _ _ K i ltac:(lia)) as [M0 _].
    constructor.
    - exact B1.
    - intros k Hk Hs. eapply B2; [|exact Hs]. lia.
    - intros t' y k p' q E Ey Ep Eqq. rewrite Hn in E. destruct (Nat.eqb t' t) eqn:Et.
      + injection E as <-. cbn in Ey, Ep. injection Ey as <-. injection Ep as <-.
        destruct (k_hist _ _ _ _ K _ _ _ Hh) as (q' & Eq' & -> & Hp). assert (q' = q) by congruence. subst q'.
        assert (Hq : wreq_ok q) by (rewrite Forall_forall in Hqs; apply Hqs; eapply nth_error_In; eauto).
        change (y_msgs s') with (y_msgs s). rewrite M0. apply (bs_request c fis w0 Hplain Hfits j); auto.
        * intros Hg. destruct (touches q j); [discriminate|reflexivity].
        * intros Hs. eapply B2; [|exact Hs]. lia.
      + eapply B3; eauto.
    - intros k q Hk Eqq Hno. destruct (Nat.eq_dec k i) as [->|Hne].
      + exfalso. apply (Hno t (WRun i er (p_handle_request lg c rq p))); [rewrite Hn, Nat.eqb_refl|]; reflexivity.
      + apply B4; [lia|exact Eqq|]. intros t' y E Ey. apply (Hno t' y); [|exact Ey].
        rewrite Hn. destruct (Nat.eqb t' t) eqn:Et; [|exact E]. apply Nat.eqb_eq in Et. subst t'.
        assert (y = WIdle) by congruence. subst y. discriminate.
    - intros t' y k p' E Ey Ep. rewrite Hn in E. destruct (Nat.eqb t' t) eqn:Et; [|eapply B5; eauto].
      injection E as <-. cbn in Ey, Ep. injection Ey as <-. injection Ep as <-.
      change (y_msgs s') with (y_msgs s). rewrite M0. apply fw_request.
    - intros t' y k E Ey. rewrite Hn in E. destruct (Nat.eqb t' t) eqn:Et; [|eapply B6; eauto].
      injection E as <-. cbn in Ey. injection Ey as <-. left. apply Hnew. fold s'. lia.
    - intros t' y k q E Ey Ep. rewrite Hn in E. destruct (Nat.eqb t' t) eqn:Et; [|eapply B7; eauto].
      injection E as <-. discriminate.
  Qed.

  Ltac moved Hx :=
    match goal with |- bytes_inv ?s' => eapply (inv_move s' _ _ _ _ Hx eq_refl); [reflexivity|reflexivity| | | | | |try (intros; discriminate)|] end.

  Lemma worker_inv t n : match worker_step lg c t n s with
    | SGo s' => (forall k, (taken s <= k < taken s')%nat -> live k = true) -> bytes_inv s' | _ => True end.
  Proof.
    unfold worker_step. destruct (nth_error (y_th s) t) as [x|] eqn:Hx; [|exact I].
    pose proof B as [B1 B2 B3 B4 B5 B6 B7].
    assert (Hnil : forall i, exists more, of_id i (y_msgs s) = of_id i (y_msgs s) ++ more) by (intros i; exists []; rewrite app_nil_r; reflexivity).
    destruct x as [|i er p|i er rest p|i er rest p|i].
    - destruct (y_q s) as [|[[i rq] p] q] eqn:Eq; [exact I|]. apply inv_take; assumption.
    - pose proof (B5 _ _ _ _ Hx eq_refl eq_refl) as F. destruct p as [a|X m k|m k|m k]; cbn [fw] in F.
      + intros _. moved Hx; [reflexivity|exact B1|reflexivity|apply Hnil|discriminate|]. right. split; [reflexivity|]. intros q Eq.
        specialize (B3 _ _ _ _ _ Hx eq_refl eq_refl Eq). destruct a. exact B3.
      + pose proof (plain_stable fis w0 (y_w s) (set_errno er (y_w s)) eq_refl eq_refl B1) as [Hk1 Hf1].
        destruct (m (set_errno er (y_w s))) as [a w'| | |] eqn:Em; try exact I. intros _.
        assert (Hst : forall q, nth_error qs i = Some q -> kept fis w0 w' /\
            (negb (touches q j) = true -> at_ w' = at_ (y_w s)) /\
            bs fis w0 j (sole i) (negb (touches q j)) (k a) (at_ w') (of_id i (y_msgs s)) (code_post i q)).
        { intros q Eq. specialize (B3 _ _ _ _ _ Hx eq_refl eq_refl Eq). cbn [bs] in B3.
          specialize (B3 (set_errno er (y_w s)) Hk1 ltac:(intros _; apply Hf1)). rewrite Em in B3.
          destruct B3 as (C1 & C2 & C3). split; [exact C1|]. split; [|exact C3]. intros Hg. rewrite (C2 Hg). apply Hf1. }
        pose proof (g_core _ _ _ _ _ _ _ G) as K. pose proof (k_th _ _ _ _ K _ _ _ Hx eq_refl) as Hlt.
        destruct (in_qs _ _ _ Hx eq_refl) as [qi Hqi]. destruct (Hst qi Hqi) as (Hk' & _ & _).
        pose proof (plain_stable fis w0 w' (set_errno (w_errno (y_w s)) w') eq_refl eq_refl Hk') as [Hk2 Hf2].
        moved Hx; [reflexivity|exact Hk2| |apply Hnil| |].
        * intros q Eq Hnt. destruct (Hst q Eq) as (_ & C2 & _). cbn [y_setth y_setw y_w]. unfold L_Byte.at_ in *. rewrite Hf2.
          apply C2. destruct Hnt as [->|Hnl]; [reflexivity|]. destruct (B6 _ _ _ Hx eq_refl) as [H|H]; [congruence|]. destruct F as [F _]. congruence.
        * intros p Ep. injection Ep as <-. apply F.
        * left. split; [reflexivity|]. intros p q Ep Eq. injection Ep as <-. destruct (Hst q Eq) as (_ & _ & C3).
          cbn [y_setth y_setw y_w y_msgs]. eapply code_same; [|exact C3]. intros _. apply Hf2.
      + destruct (lock_free s); [|exact I]. intros _. moved Hx; [|exact B1|reflexivity| | |].
        * intros k' Hne. cbn [y_addmsg y_setth y_msgs]. rewrite of_id_app, of_id_other by exact Hne. apply app_nil_r.
        * exists [m]. cbn [y_addmsg y_setth y_msgs]. rewrite of_id_app, of_id_same. reflexivity.
        * intros p Ep. injection Ep as <-. cbn [y_addmsg y_setth y_msgs]. rewrite of_id_app, of_id_same, existsb_app.
          destruct F as [F1 F2]. rewrite F1. cbn [existsb orb]. rewrite orb_false_r. exact F2.
        * left. split; [reflexivity|]. intros p q Ep Eq. injection Ep as <-.
          specialize (B3 _ _ _ _ _ Hx eq_refl eq_refl Eq). cbn [bs] in B3.
          cbn [y_addmsg y_setth y_msgs y_w]. rewrite of_id_app, of_id_same. exact B3.
      + destruct (sem_free s); [|exact I]. intros _. moved Hx; [reflexivity|exact B1|reflexivity|apply Hnil| |].
        * intros p Ep. injection Ep as <-. exact F.
        * left. split; [reflexivity|]. intros p q Ep Eq. injection Ep as <-. exact (B3 _ _ _ _ _ Hx eq_refl eq_refl Eq).
    - destruct rest; intros _; (moved Hx; [reflexivity|exact B1|reflexivity|apply Hnil| |]);
        first [intros p' Ep; injection Ep as <-; exact (B5 _ _ _ _ Hx eq_refl eq_refl)
              |left; split; [reflexivity|]; intros p' q Ep Eq; injection Ep as <-; exact (B3 _ _ _ _ _ Hx eq_refl eq_refl Eq)].
    - destruct rest; intros _; (moved Hx; [reflexivity|exact B1|reflexivity|apply Hnil| |]);
        first [intros p' Ep; injection Ep as <-; exact (B5 _ _ _ _ Hx eq_refl eq_refl)
              |left; split; [reflexivity|]; intros p' q Ep Eq; injection Ep as <-; exact (B3 _ _ _ _ _ Hx eq_refl eq_refl Eq)].
    - exact I.
  Qed.

  Lemma qt_receive rq d : qt (receive_payload c rq d).
  Proof.
    unfold receive_payload. destruct (cflag c F_SPLICE); [|apply qt_ret].
    apply qt_bind; [apply qt_mkpipe|]. intros [|]; [|apply qt_ret].
    destruct (c_tls c); [|apply qt_ret]. destruct (0 <? rq_len rq); [apply qt_ub|apply qt_ret].
  Qed.

  Lemma reader_inv : match reader_step lg c s with SGo s' => bytes_inv s' | _ => True end.
  Proof.
    unfold reader_step.
    destruct (y_rd s) as [|hdr|hdr held|rq held|rq p data held|rq p|d h|d] eqn:Er.
    - destruct (length (y_in s) <? 28)%nat; apply inv_same; reflexivity.
    - destruct lg; [destruct (sem_free s); [|exact I]|]; apply inv_same; reflexivity.
    - destruct (decode_request hdr) as [mg rq]. destruct (negb (mg =? NBD_REQUEST_MAGIC)); [exact I|].
      destruct (cmd_of rq =? NBD_CMD_WRITE); [|destruct (rq_type rq =? NBD_CMD_DISC)]; apply inv_same; reflexivity.
    - destruct (zlen (y_in s) <? rq_len rq); [apply inv_same; reflexivity|].
      pose proof (qt_receive rq (firstn (Z.to_nat (rq_len rq)) (y_in s)) (y_w s)) as H. unfold wlp in H. cbn zeta.
      destruct (receive_payload c rq (firstn (Z.to_nat (rq_len rq)) (y_in s)) (y_w s)) as [p w'| | |]; try exact I.
      destruct H as [H1 H2]. apply inv_same; try reflexivity; assumption.
    - cbn zeta. destruct held; apply inv_same; reflexivity.
    - apply inv_same; try reflexivity. unfold taken. cbn [y_setrd y_push y_next y_q]. rewrite app_length. cbn [length]. lia.
    - destruct (_ && _); [|exact I]. apply inv_same; reflexivity.
    - exact I.
  Qed.

  (** the files changed under this process *)
  Lemma inv_env w' : kept fis w0 w' -> (forall i, sole i = true -> at_ w' = at_ (y_w s)) -> bytes_inv (y_setw w' s).
  Proof.
    intros Hk Ha. destruct B as [B1 B2 B3 B4 B5 B6 B7]. constructor; cbn [y_setw y_w y_th y_msgs].
    - exact Hk.
    - intros i Hi Hs. rewrite (Ha i Hs). exact (B2 i Hi Hs).
    - intros t x i p q E1 E2 E3 E4. eapply code_same; [apply Ha|]. exact (B3 t x i p q E1 E2 E3 E4).
    - intros i q Hi Eq Hno. eapply post_same; [apply Ha|]. exact (B4 i q Hi Eq Hno).
    - exact B5.
    - exact B6.
    - intros t x i q E1 E2 E3 E4 Hf. eapply post_same; [apply Ha|]. exact (B7 t x i q E1 E2 E3 E4 Hf).
  Qed.

  Lemma step_inv x : match sys_step lg c x s with
    | SGo s' => (forall k, (taken s <= k < taken s')%nat -> live k = true) -> bytes_inv s' | _ => True end.
  Proof.
    destruct x as [|t n|t|t]; cbn [sys_step].
    - pose proof reader_inv as H. destruct (reader_step lg c s); try exact I. intros _. exact H.
    - apply worker_inv.
    - destruct (nth_error (y_th s) t) as [x|] eqn:Hx; [|exact I].
      destruct x as [| |i er [|b rest] p| |]; try exact I. pose proof B as [B1 B2 B3 B4 B5 B6 B7]. intros _.
      moved Hx; [reflexivity|exact B1|reflexivity|exists []; rewrite app_nil_r; reflexivity|discriminate| |].
      + intros q _ _ Eq Hf. specialize (B3 _ _ _ _ _ Hx eq_refl eq_refl Eq). specialize (B5 _ _ _ _ Hx eq_refl eq_refl).
        cbn [y_setth y_msgs y_w] in *. rewrite Hf in B5. eapply fw_bs; eauto.
      + left. split; [reflexivity|]. intros p' q Ep. discriminate.
    - destruct (nth_error (y_th s) t) as [[| |? ? [|]| |]|]; exact I.
  Qed.

  (** a process none of whose active requests asks to change the byte leaves it alone *)
  Lemma step_quiet x : (forall i q, live i = true -> nth_error qs i = Some q -> touches q j = false) ->
    match sys_step lg c x s with SGo s' => at_ (y_w s') = at_ (y_w s) | _ => True end.
  Proof.
    intros Hno. destruct x as [|t n|t|t]; cbn [sys_step].
    - unfold reader_step. destruct (y_rd s) as [|hdr|hdr held|rq held|rq p data held|rq p|d h|d].
      + destruct (length (y_in s) <? 28)%nat; reflexivity.
      + destruct lg; [destruct (sem_free s); [|exact I]|]; reflexivity.
      + destruct (decode_request hdr) as [mg rq]. destruct (negb (mg =? NBD_REQUEST_MAGIC)); [exact I|].
        destruct (cmd_of rq =? NBD_CMD_WRITE); [|destruct (rq_type rq =? NBD_CMD_DISC)]; reflexivity.
      + destruct (zlen (y_in s) <? rq_len rq); [reflexivity|].
        pose proof (qt_receive rq (firstn (Z.to_nat (rq_len rq)) (y_in s)) (y_w s)) as H. unfold wlp in H. cbn zeta.
        destruct (receive_payload c rq (firstn (Z.to_nat (rq_len rq)) (y_in s)) (y_w s)) as [p w'| | |]; try exact I.
        destruct H as [H1 H2]. apply (plain_stable fis w0 (y_w s) w' H1 H2). apply B.
      + cbn zeta. destruct held; reflexivity.
      + reflexivity.
      + destruct (_ && _); [|exact I]. reflexivity.
      + exact I.
    - unfold worker_step. destruct (nth_error (y_th s) t) as [x|] eqn:Hx; [|exact I].
      pose proof B as [B1 B2 B3 B4 B5 B6 B7].
      destruct x as [|i er p|i er rest p|i er rest p|i].
      + destruct (y_q s) as [|[[i rq] p] q] eqn:Eq; [exact I|]. reflexivity.
      + destruct p as [a|X m k|m k|m k]; [reflexivity| | |].
        * pose proof (plain_stable fis w0 (y_w s) (set_errno er (y_w s)) eq_refl eq_refl B1) as [Hk1 Hf1].
          destruct (m (set_errno er (y_w s))) as [a w'| | |] eqn:Em; try exact I.
          destruct (in_qs _ _ _ Hx eq_refl) as [q Eq].
          assert (Hl : live i = true).
          { destruct (B6 _ _ _ Hx eq_refl) as [H|H]; [exact H|]. destruct (B5 _ _ _ _ Hx eq_refl eq_refl) as [F _]. congruence. }
          specialize (B3 _ _ _ _ _ Hx eq_refl eq_refl Eq). cbn [bs] in B3.
          specialize (B3 (set_errno er (y_w s)) Hk1 ltac:(intros _; apply Hf1)). rewrite Em in B3.
          destruct B3 as (C1 & C2 & _). rewrite (Hno i q Hl Eq) in C2. cbn [y_setth y_setw y_w].
          pose proof (plain_stable fis w0 w' (set_errno (w_errno (y_w s)) w') eq_refl eq_refl C1) as [_ Hf2].
          unfold L_Byte.at_ in *. rewrite Hf2, (C2 eq_refl). apply Hf1.
        * destruct (lock_free s); [|exact I]. reflexivity.
        * destruct (sem_free s); [|exact I]. reflexivity.
      + destruct rest; reflexivity.
      + destruct rest; reflexivity.
      + exact I.
    - destruct (nth_error (y_th s) t) as [[| |? ? [|]| |]|]; try exact I. reflexivity.
    - destruct (nth_error (y_th s) t) as [[| |? ? [|]| |]|]; exact I.
  Qed.
End ByteS.

Section Run.
  Variables (lg : bool) (c : client) (fis : list finfo) (w0 : world).
  Hypothesis Hplain : plain c fis.
  Hypothesis Hfits : L_Plain.fits c fis w0.
  Variables (qs : list wreq) (tail : list Z) (e : stream_end).
  Hypothesis Hqs : Forall wreq_ok qs.
  Hypothesis Hnd : Forall (fun q => q_type q <> 2) qs.
  Hypothesis Hn : NoDup (map q_cookie qs).
  Hypothesis Hstop : stops tail e.
  Variable j : Z.

  Lemma run_inv l : forall s, good false lg c qs tail e s -> bytes_inv fis w0 qs j (flat fis w0 j) (fun _ => true) (sole qs j) s ->
    match sys_run lg c l s with SGo s' => good false lg c qs tail e s' /\ bytes_inv fis w0 qs j (flat fis w0 j) (fun _ => true) (sole qs j) s' | _ => True end.
  Proof.
    assert (Hf : false = true -> False) by discriminate.
    pose proof Hplain as (_ & _ & _ & _ & _ & Hsz & _).
    induction l as [|x l IH]; intros s G B; cbn [sys_run]; [auto|].
    pose proof (step_good false lg c (fun x => False_ind _ (Hf x)) (fun x => False_ind _ (Hf x)) (fun x => False_ind _ (Hf x))
             (fun x => False_ind _ (Hf x)) Hsz qs tail e Hqs Hnd Hstop x s G) as Hg.
    pose proof (step_inv false lg c fis w0 Hplain Hfits qs tail e Hqs j (flat fis w0 j) (fun _ => true) (sole qs j) (fun i H k q _ => proj1 (sole_spec qs j i) H k q) s G B x) as Hb.
    destruct (sys_step lg c x s); cbn [after] in Hg; try exact I; apply IH; auto.
  Qed.

  Theorem run_bytes n l s d : sys_run lg c l (sys_init n (concat (map encode qs) ++ tail) w0) = SGo s -> y_rd s = RDone d ->
    kept fis w0 (y_w s) /\
    exists ls, split_replies (length (y_out s)) (data_len qs) (y_out s) = Some ls /\
      ((forall q, In q qs -> touches q j = false) -> flat fis (y_w s) j = flat fis w0 j) /\
      forall i q, nth_error qs i = Some q -> (forall k q', nth_error qs k = Some q' -> k <> i -> touches q' j = false) ->
        byte_outcome q j (flat fis w0 j) (with_cookie (q_cookie q) ls) (flat fis (y_w s) j).
  Proof.
    intros E Hd.
    assert (B0 : bytes_inv fis w0 qs j (flat fis w0 j) (fun _ => true) (sole qs j) (sys_init n (concat (map encode qs) ++ tail) w0)).
    { constructor; cbn [sys_init y_w y_th y_msgs].
      - repeat split; auto.
      - reflexivity.
      - intros t x i p q Ex Hi. apply nth_error_In, repeat_spec in Ex. subst x. discriminate.
      - intros i q Hi. unfold taken in Hi. cbn in Hi. lia.
      - intros t x i p Ex Hi. apply nth_error_In, repeat_spec in Ex. subst x. discriminate.
      - intros t x i Ex Hi. apply nth_error_In, repeat_spec in Ex. subst x. discriminate.
      - intros t x i q Ex Hi. apply nth_error_In, repeat_spec in Ex. subst x. discriminate. }
    pose proof (run_inv l _ (init_good false lg c qs tail e n w0) B0) as H. rewrite E in H. destruct H as [G B].
    destruct (done_answers false lg c qs tail e Hqs Hn s G d Hd) as (H1 & _ & _).
    destruct (done_next false lg c qs tail e s G d Hd) as (N1 & N2 & N3).
    destruct B as [B1 B2 B3 B4 B5 B6 B7].
    assert (Htk : taken s = length qs) by (unfold taken; rewrite N2; cbn [length]; lia).
    assert (Hpost : forall i q, nth_error qs i = Some q -> exists vs, of_id i (y_msgs s) = map (enc_view (q_cookie q)) vs /\
       Forall (wf_view (dlen_of q)) vs /\ (sole qs j i = true -> byte_outcome q j (flat fis w0 j) vs (flat fis (y_w s) j))).
    { intros i q Hi. apply B4; [pose proof (nth_lt _ _ _ Hi); lia|exact Hi|].
      intros t x Hx. specialize (N3 _ _ Hx). destruct x; try discriminate. }
    split; [exact B1|]. exists (replies qs s). split; [exact H1|]. split.
    - intros Hno. apply (B2 (length qs)); [lia|]. apply sole_spec. intros k q Hk _. apply Hno. eapply nth_error_In; eauto.
    - intros i q Hi Ho.
      destruct (decoded_with qs Hqs Hn (y_msgs s) (fun q i vs => sole qs j i = true -> byte_outcome q j (flat fis w0 j) vs (flat fis (y_w s) j))
         (msgs_owner _ _ _ _ _ _ _ G) Hpost i q Hi) as (_ & _ & D). apply D. apply sole_spec. exact Ho.
  Qed.
End Run.

(** For exports as opened *)
From Verif Require Import M_Setup L_Setup L_Gen L_Props.
Lemma opened_bytes flags expected ms su w namelen structured tls lg qs tail e n l s d j :
  let c := client_of su namelen structured tls in
  opened flags expected ms su w ->
  Forall wreq_ok qs -> Forall (fun q => q_type q <> 2) qs -> NoDup (map q_cookie qs) -> stops tail e ->
  sys_run lg c l (sys_init n (concat (map encode qs) ++ tail) w) = SGo s -> y_rd s = RDone d ->
  exists ls, split_replies (length (y_out s)) (data_len qs) (y_out s) = Some ls /\
    ((forall q, In q qs -> touches q j = false) -> disk_of su (y_w s) j = disk_of su w j) /\
    forall i q, nth_error qs i = Some q -> (forall k q', nth_error qs k = Some q' -> k <> i -> touches q' j = false) ->
      byte_outcome q j (disk_of su w j) (with_cookie (q_cookie q) ls) (disk_of su (y_w s) j).
Proof.
  intros c O Hqs Hnd Hn Hstop E Hd.
  destruct (opened_plain _ _ _ _ _ namelen structured tls O) as (fis & He & Hp & Hft & _ & _ & _ & _ & Hdk).
  destruct (run_bytes lg c fis w Hp Hft qs tail e Hqs Hnd Hn Hstop j n l s d E Hd) as ((Hk & _) & ls & H1 & H2 & H3).
  assert (E1 : flat fis (y_w s) j = disk_of su (y_w s) j) by (apply Hdk; intros m; apply Hk).
  assert (E2 : flat fis w j = disk_of su w j) by (apply Hdk; reflexivity).
  exists ls. rewrite E1, E2 in *. auto.
Qed.

(** ** Disjoint writes *)
Lemma stored_all_app a b d : stored_all (a ++ b) d = stored_all b (stored_all a d).
Proof. apply fold_left_app. Qed.
Lemma stored_other q d j : touches q j = false -> stored q d j = d j.
Proof.
  unfold touches, stored. destruct (q_cmd q =? 1); cbn [orb andb]; [|reflexivity].
  destruct ((q_from q <=? j) && (j <? q_from q + q_len q)) eqn:E; [congruence|reflexivity].
Qed.
Lemma stored_all_other l d j : (forall q, In q l -> touches q j = false) -> stored_all l d j = d j.
Proof.
  revert d. induction l as [|q l IH]; intros d H; [reflexivity|]. change (stored_all (q :: l) d) with (stored_all l (stored q d)).
  rewrite IH; [apply stored_other, H; left; reflexivity|]. intros q' Hq. apply H. right. exact Hq.
Qed.
Lemma wreq_dec (a b : wreq) : {a = b} + {a <> b}.
Proof. repeat decide equality. Qed.
Lemma stored_all_one l d j q : In q l -> touches q j = true -> q_cmd q = 1 ->
  (forall q', In q' l -> q' <> q -> touches q' j = false) -> stored_all l d j = bytefn (q_data q) (j - q_from q).
Proof.
  revert d. induction l as [|x l IH]; intros d Hin Ht Hc Ho; [contradiction|]. change (stored_all (x :: l) d) with (stored_all l (stored x d)).
  assert (Hx : stored q d j = bytefn (q_data q) (j - q_from q)).
  { unfold touches, stored in *. replace ((q_cmd q =? 1) && ((q_from q <=? j) && (j <? q_from q + q_len q))) with true by lia. reflexivity. }
  destruct (List.in_dec wreq_dec q l) as [Hl|Hl].
  - apply IH; auto. intros q' Hq. apply Ho. right. exact Hq.
  - destruct Hin as [->|Hin]; [|contradiction]. rewrite stored_all_other; [exact Hx|].
    intros q' Hq. apply Ho; [right; exact Hq|]. intros ->. contradiction.
Qed.

Lemma opened_disjoint flags expected ms su w namelen structured tls lg qs tail e n l s d ls :
  let c := client_of su namelen structured tls in
  opened flags expected ms su w ->
  Forall wreq_ok qs -> Forall (fun q => q_type q <> 2) qs -> NoDup (map q_cookie qs) -> stops tail e ->
  sys_run lg c l (sys_init n (concat (map encode qs) ++ tail) w) = SGo s -> y_rd s = RDone d ->
  disjoint qs -> Forall (fun q => q_cmd q <> 4 /\ q_cmd q <> 6) qs ->
  split_replies (length (y_out s)) (data_len qs) (y_out s) = Some ls ->
  (forall q, In q qs -> q_cmd q = 1 -> with_cookie (q_cookie q) ls = [VSimple 0 []]) ->
  forall qs', (forall q, In q qs' <-> In q qs) -> forall j, disk_of su (y_w s) j = stored_all qs' (disk_of su w) j.
Proof.
  intros c O Hqs Hnd Hn Hstop E Hd Hdis Hcmd Hls Hok qs' Hperm j.
  destruct (opened_bytes _ _ _ _ _ namelen structured tls lg qs tail e n l s d j O Hqs Hnd Hn Hstop E Hd) as (ls' & H1 & H2 & H3).
  assert (ls' = ls) by congruence. subst ls'.
  destruct (existsb (fun q => touches q j) qs) eqn:Ex.
  - apply existsb_exists in Ex. destruct Ex as (q & Hin & Ht). pose proof Hin as Hin2. apply In_nth_error in Hin2. destruct Hin2 as [i Hi].
    assert (Hq1 : q_cmd q = 1).
    { rewrite Forall_forall in Hcmd. specialize (Hcmd q Hin). unfold touches in Ht. lia. }
    destruct (H3 i q Hi) as (Ha & _ & _). { intros k q' Hk Hne. exact (Hdis i k q q' j Hi Hk Hne Ht). }
    destruct (Ha Ht) as (er & Ev & Hef). rewrite (Hok q Hin Hq1) in Ev. injection Ev as <-.
    destruct Hef as (Hw & _). destruct (Hw Hq1) as [Hw1 _]. rewrite (Hw1 eq_refl). symmetry.
    apply stored_all_one; auto; [apply Hperm, Hin|]. intros q' Hq' Hne. apply Hperm in Hq'.
    apply In_nth_error in Hq'. destruct Hq' as [k Hk]. eapply (Hdis i k); eauto. congruence.
  - assert (Hno : forall q, In q qs -> touches q j = false).
    { intros q Hin. destruct (touches q j) eqn:Et; [|reflexivity]. rewrite <- Ex. symmetry. apply existsb_exists. eauto. }
    rewrite (H2 Hno). symmetry. apply stored_all_other. intros q Hq. apply Hno, Hperm, Hq.
Qed.
