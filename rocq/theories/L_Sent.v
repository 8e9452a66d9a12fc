(** What has been sent at any moment of a connection. *)
From Verif Require Import Base M_Const M_Disk M_Tree M_Raw M_Par L_Wp L_Raw S_Wire S_Disk L_Wire L_Req L_Plain L_Session L_PlainS S_Par S_Run L_Msg L_LogMsg L_Sched L_SchedC L_SchedL.

Definition said_all (qs : list wreq) (s : sys) : Prop :=
  forall i q, nth_error qs i = Some q -> said q (of_id i (y_msgs s)).

Lemma said_same qs s s' : y_msgs s' = y_msgs s -> said_all qs s -> said_all qs s'.
Proof. intros E H i q. unfold said_all in H. rewrite E. apply H. Qed.

Lemma reader_msgs lg c s : match reader_step lg c s with SGo s' | SExit s' => y_msgs s' = y_msgs s | _ => True end.
Proof.
  unfold reader_step.
  repeat match goal with
  | |- match (match ?x with _ => _ end) with _ => _ end => destruct x
  | |- match (let '_ := ?x in _) with _ => _ end => destruct x
  | |- match (if ?x then _ else _) with _ => _ end => destruct x
  end; try exact I; try reflexivity.
  cbn zeta. destruct held; reflexivity.
Qed.

Section Sent.
  Variables (st lg : bool) (c : client) (qs : list wreq) (tail : list Z) (e : stream_end).
  Variable s : sys.
  Hypothesis G : good st lg c qs tail e s.
  Hypothesis S : said_all qs s.

  Lemma worker_said t n : match worker_step lg c t n s with SGo s' | SExit s' => said_all qs s' | _ => True end.
  Proof.
    pose proof (g_core _ _ _ _ _ _ _ G) as K. unfold worker_step. destruct (nth_error (y_th s) t) as [x|] eqn:Hx; [|exact I].
    destruct x as [|i er p|i er rest p|i er rest p|i].
    - destruct (y_q s) as [|[[i rq] p] q]; [exact I|]. apply (said_same qs s); [reflexivity|exact S].
    - destruct p as [a|X m k|m k|m k].
      + apply (said_same qs s); [reflexivity|exact S].
      + destruct (m _); try exact I; (apply (said_same qs s); [reflexivity|exact S]).
      + destruct (lock_free s); [|exact I]. intros j q Hj. cbn [y_addmsg y_setth y_msgs]. rewrite of_id_app.
        destruct (Nat.eq_dec j i) as [->|Ne].
        * rewrite of_id_same. destruct (k_code _ _ _ _ K _ _ _ _ _ Hx eq_refl eq_refl Hj) as [[U _] _]. exact U.
        * rewrite of_id_other by exact Ne. rewrite app_nil_r. apply S, Hj.
      + destruct (sem_free s); [|exact I]. apply (said_same qs s); [reflexivity|exact S].
    - destruct rest; (apply (said_same qs s); [reflexivity|exact S]).
    - destruct rest; (apply (said_same qs s); [reflexivity|exact S]).
    - exact I.
  Qed.
  Lemma step_said x : match sys_step lg c x s with SGo s' | SExit s' => said_all qs s' | _ => True end.
  Proof.
    destruct x as [|t n|t|t]; cbn [sys_step].
    - pose proof (reader_msgs lg c s) as H. destruct (reader_step lg c s); try exact I; (apply (said_same qs s); [exact H|exact S]).
    - apply worker_said.
    - destruct (nth_error (y_th s) t) as [[| |? ? [|]| |]|]; try exact I. apply (said_same qs s); [reflexivity|exact S].
    - destruct (nth_error (y_th s) t) as [[| |? ? [|]| |]|]; try exact I. exact S.
  Qed.

  (** ** Any state *)
  Hypothesis Hqs : Forall wreq_ok qs.
  Hypothesis Hn : NoDup (map q_cookie qs).

  Lemma said_full : forall i q, nth_error qs i = Some q ->
    exists vs, of_id i (y_msgs s) = map (enc_view (q_cookie q)) vs /\ Forall (wf_view (dlen_of q)) vs /\ answer_so_far vs.
  Proof.
    intros i q Hi. destruct (S i q Hi) as [(vs & H1 & H2 & H3)|(vs & H1 & H2 & H3)]; exists vs; unfold answer_so_far; auto.
  Qed.

  Lemma so_far_app vs ws : answer_so_far (vs ++ ws) -> answer_so_far vs.
  Proof.
    destruct ws as [|w0 ws0] using rev_ind; [rewrite app_nil_r; auto|]. clear IHws0. rewrite app_assoc.
    intros [H|[(er & data & E)|(init & last & E & H1 & H2 & H3)]].
    - left. rewrite !Forall_app in H. tauto.
    - left. apply (app_inj_tail _ []) in E. destruct E as [E _]. destruct vs; [constructor|discriminate].
    - left. apply app_inj_tail in E. destruct E as [<- _]. rewrite Forall_app in H3. tauto.
  Qed.

  Lemma with_cookie_app ck l1 l2 : with_cookie ck (l1 ++ l2) = with_cookie ck l1 ++ with_cookie ck l2.
  Proof. unfold with_cookie. rewrite filter_app, map_app. reflexivity. Qed.

  Theorem sent_bytes : exists whole part, y_out s = concat (map enc_pair whole) ++ part /\
    (forall x, In x whole -> exists q, In q qs /\ fst x = q_cookie q) /\
    (forall q, In q qs -> answer_so_far (with_cookie (q_cookie q) whole)) /\
    Forall (fun x => length (fst x) = 8%nat /\ wf_view (data_len qs (fst x)) (snd x)) whole /\
    (part = [] \/ unfinished qs part).
  Proof.
    pose proof (msgs_owner _ _ _ _ _ _ _ G) as Ho.
    set (D := decoded qs (y_msgs s)).
    assert (Hd1 : concat (map snd (y_msgs s)) = concat (map enc_pair D))
      by (eapply (decoded_bytes qs Hqs Hn (y_msgs s) (fun _ _ vs => answer_so_far vs)); [exact Ho|exact said_full]).
    assert (Hd2 : Forall (fun x => length (fst x) = 8%nat /\ wf_view (data_len qs (fst x)) (snd x)) D)
      by (eapply (decoded_wf qs Hqs Hn (y_msgs s) (fun _ _ vs => answer_so_far vs)); [exact Ho|exact said_full]).
    assert (Hd3 : forall x, In x D -> exists q, In q qs /\ fst x = q_cookie q)
      by (intros x; eapply (decoded_owner qs Hqs Hn (y_msgs s) (fun _ _ vs => answer_so_far vs)); [exact Ho|exact said_full]).
    assert (Hd4 : forall q, In q qs -> answer_so_far (with_cookie (q_cookie q) D)).
    { intros q Hq. apply In_nth_error in Hq. destruct Hq as [i Hi].
      eapply (decoded_with qs Hqs Hn (y_msgs s) (fun _ _ vs => answer_so_far vs)); [exact Ho|exact said_full|exact Hi]. }
    destruct (g_out _ _ _ _ _ _ _ G) as [[_ Hout]|(t & x & rest & init & m & pre & _ & _ & _ & Hms & Hm & Hout & _)].
    { exists D, []. rewrite app_nil_r, Hout. auto 10. }
    (* the last message is incomplete, unless nothing is left of it *)
    assert (Hl : exists ms' i, y_msgs s = ms' ++ [(i, m)] /\ init = map snd ms').
    { destruct (y_msgs s) as [|y l _] using rev_ind; [destruct init; discriminate|].
      rewrite map_app in Hms. apply app_inj_tail in Hms. destruct Hms as [<- <-]. exists l, (fst y). destruct y. auto. }
    destruct Hl as (ms' & i & Ems & ->).
    assert (Hin : In (i, m) (y_msgs s)) by (rewrite Ems; apply in_or_app; right; left; reflexivity).
    destruct (Ho _ _ Hin) as [q Hq].
    destruct (dec_of qs Hqs Hn (y_msgs s) (fun _ _ vs => answer_so_far vs) said_full i m q Hin Hq) as (v & Ev & Hw & Edec).
    assert (ED : D = decoded qs ms' ++ [(q_cookie q, v)]).
    { unfold D, decoded. rewrite Ems, map_app. cbn [map snd]. rewrite Edec. reflexivity. }
    destruct rest as [|r0 rest].
    - exists D, []. rewrite app_nil_r. split; [|auto 10]. rewrite Hout, <- Hd1, Ems, map_app, concat_app. cbn [map concat snd].
      rewrite !app_nil_r in *. congruence.
    - exists (decoded qs ms'), pre. split.
      + rewrite Hout. f_equal. rewrite Ems, ED, !map_app, !concat_app in Hd1. cbn [map concat snd] in Hd1. rewrite !app_nil_r in Hd1.
        unfold enc_pair at 2 in Hd1. cbn [fst snd] in Hd1. rewrite <- Ev in Hd1. apply app_inv_tail in Hd1. exact Hd1.
      + split; [intros y Hy; apply Hd3; rewrite ED; apply in_or_app; auto|].
        split; [intros q' Hq'; specialize (Hd4 q' Hq'); rewrite ED, with_cookie_app in Hd4; eapply so_far_app; eauto|].
        split; [rewrite ED, Forall_app in Hd2; tauto|].
        right. exists q, v, (r0 :: rest). split; [eapply nth_error_In; eauto|]. split; [discriminate|]. congruence.
  Qed.
End Sent.

(** ** Runs *)
Section Runs.
  Variables (st lg : bool) (c : client).
  Hypothesis Hpos : st = true -> forall a, 0 <= a < c_size c -> forall w,
    exists h o mb, get_filepos c a w = Ret (Some (h, o, mb)) w /\ 0 <= mb.
  Hypothesis Hplain : st = true ->
    cflag c F_TREEFILES = false /\ cflag c F_WAIT = false /\ cflag c F_COPYONWRITE = false.
  Hypothesis Hexp : st = true -> exists fi fis, c_export c = Some (fi :: fis).
  Hypothesis Hrx : st = true -> no_splice_tls c.
  Hypothesis Hsz : 0 <= c_size c <= 9223372036854775807.
  Variables (qs : list wreq) (tail : list Z) (e : stream_end).
  Hypothesis Hqs : Forall wreq_ok qs.
  Hypothesis Hnd : Forall (fun q => q_type q <> 2) qs.
  Hypothesis Hstop : stops tail e.

  Lemma run_said l : forall s, good st lg c qs tail e s -> said_all qs s ->
    match sys_run lg c l s with SGo s' | SExit s' => good st lg c qs tail e s' /\ said_all qs s' | _ => True end.
  Proof.
    induction l as [|x l IH]; intros s G Hs; cbn [sys_run]; [auto|].
    pose proof (step_good st lg c Hpos Hplain Hexp Hrx Hsz qs tail e Hqs Hnd Hstop x s G) as Hg.
    pose proof (step_said st lg c qs tail e s G Hs x) as Hs'.
    destruct (sys_step lg c x s); cbn [after] in Hg; try exact I; [apply IH; assumption|apply IH; assumption|split; assumption].
  Qed.
  Lemma reach_said n w s : reaches lg c (sys_init n (concat (map encode qs) ++ tail) w) s ->
    good st lg c qs tail e s /\ said_all qs s.
  Proof.
    intros [l H].
    pose proof (run_said l _ (init_good st lg c qs tail e n w)) as R.
    assert (S0 : said_all qs (sys_init n (concat (map encode qs) ++ tail) w)).
    { intros i q _. left. apply begun_nil. }
    specialize (R S0). destruct H as [E|E]; rewrite E in R; exact R.
  Qed.
End Runs.
