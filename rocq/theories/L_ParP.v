(** The theorems about concurrent connections, for exports as opened. *)
From Verif Require Import Base M_Const M_Disk M_Tree M_Raw M_Setup M_Par L_Wp L_Raw S_Wire S_Disk L_Wire L_Req L_Plain L_Session L_Setup L_PlainS L_Gen L_Props S_Par S_Run L_Msg L_LogMsg L_Sched L_SchedC L_SchedL L_SchedF L_Sent.

Definition ready (c : client) : Prop :=
  (forall a, 0 <= a < c_size c -> forall w, exists h o mb, get_filepos c a w = Ret (Some (h, o, mb)) w /\ 0 <= mb) /\
  (cflag c F_TREEFILES = false /\ cflag c F_WAIT = false /\ cflag c F_COPYONWRITE = false) /\
  (exists fi fis, c_export c = Some (fi :: fis)) /\
  0 <= c_size c <= 9223372036854775807.

Lemma opened_ready flags expected ms s w namelen structured tls :
  opened flags expected ms s w -> ready (client_of s namelen structured tls).
Proof.
  intros O. destruct (opened_plain _ _ _ _ _ namelen structured tls O) as (fis & He & Hp & _ & _ & _ & Hne & Hsz & _).
  set (c := client_of s namelen structured tls) in *. destruct Hp as (Ht & Hw & Hc & Hx & Hwf & Hs & Hst).
  split; [|split; [|split]].
  - intros a Ha w1.
    pose proof (wp_get_filepos_plain c fis a w1 Ht Hx Hwf ltac:(change (c_size c) with (su_size s) in *; lia) Hst) as H.
    unfold wp in H. destruct (get_filepos c a w1) as [r w2| | |]; try contradiction.
    destruct H as (-> & n & fi & (En & Hle & Hn) & ->). do 3 eexists. split; [reflexivity|].
    destruct (nth_error fis (S n)) as [fj|] eqn:Ej; [specialize (Hn fj eq_refl)|]; lia.
  - auto.
  - destruct fis as [|fi fis]; [congruence|]. eauto.
  - exact Hsz.
Qed.

Lemma done_all st lg c qs tail e s d : Forall wreq_ok qs -> NoDup (map q_cookie qs) ->
  good st lg c qs tail e s -> y_rd s = RDone d -> all_answered qs e s.
Proof.
  intros Hqs Hn G Hd. destruct (done_answers st lg c qs tail e Hqs Hn s G d Hd) as (H1 & H2 & H3).
  destruct (done_hist st lg c qs tail e s G d Hd) as (H4 & _).
  exists d, (replies qs s). split; [exact Hd|].
  destruct (g_rd _ _ _ _ _ _ _ G) as [_ R]. rewrite Hd in R. destruct R as (_ & R1 & R2).
  split; [exact R1|]. split; [exact R2|]. auto.
Qed.

Section Any.
  Variables (lg : bool) (c : client).
  Hypothesis Hsz : 0 <= c_size c <= 9223372036854775807.
  Variables (qs : list wreq) (tail : list Z) (e : stream_end).
  Hypothesis Hqs : Forall wreq_ok qs.
  Hypothesis Hnd : Forall (fun q => q_type q <> 2) qs.
  Hypothesis Hn : NoDup (map q_cookie qs).
  Hypothesis Hstop : stops tail e.
  Variables (n : nat) (w : world) (s : sys).
  Hypothesis Hr : reaches lg c (sys_init n (concat (map encode qs) ++ tail) w) s.

  Lemma any_good : good false lg c qs tail e s /\ said_all qs s.
  Proof.
    assert (H : false = true -> False) by discriminate.
    exact (reach_said false lg c (fun x => False_ind _ (H x)) (fun x => False_ind _ (H x)) (fun x => False_ind _ (H x))
             (fun x => False_ind _ (H x)) Hsz qs tail e Hqs Hnd Hstop n w s Hr).
  Qed.
  Lemma any_done d : y_rd s = RDone d -> all_answered qs e s.
  Proof. intros Hd. destruct any_good as [G _]. eapply done_all; eauto. Qed.

  Lemma any_sent : exists whole part, y_out s = concat (map (fun x => enc_view (fst x) (snd x)) whole) ++ part /\
    (forall x, In x whole -> exists q, In q qs /\ fst x = q_cookie q) /\
    (forall q, In q qs -> answer_so_far (with_cookie (q_cookie q) whole)) /\
    Forall (fun x => length (fst x) = 8%nat /\ wf_view (data_len qs (fst x)) (snd x)) whole /\
    (part = [] \/ unfinished qs part).
  Proof. destruct any_good as [G S]. exact (sent_bytes false lg c qs tail e s G S Hqs Hn). Qed.

  Lemma any_log last d : lg = true -> ends_clean tail last -> y_rd s = RDone d ->
    let dl := cflag c F_DATALOG && negb (cflag c F_SPLICE) in
    exists ls ents, split_replies (length (y_out s)) (data_len qs) (y_out s) = Some ls /\
      parse_log (length (y_log s)) dl (y_log s) = Some ents /\
      log_requests ents = map (logged dl) (qs ++ last) /\
      (forall q, In q qs -> log_replies (q_cookie q) ents = map head_view (with_cookie (q_cookie q) ls)) /\
      (forall ck h, In (GRep ck h) ents -> exists q, In q qs /\ ck = q_cookie q).
  Proof.
    intros Hlg Hl Hd. destruct any_good as [G _].
    destruct (done_answers false lg c qs tail e Hqs Hn s G d Hd) as (H1 & _ & _).
    destruct (done_records false lg c qs tail e Hqs Hn s G d Hd Hlg last Hl) as (ents & E1 & E2 & E3 & E4).
    exists (replies qs s), ents. auto.
  Qed.
End Any.

Lemma inevitable_mono lg c (F F' : sys -> Prop) s : (forall s, F s -> F' s) -> inevitable lg c F s -> inevitable lg c F' s.
Proof.
  intros HF H. induction H as [s H|s H1 H2 H3 H4 IH]; [apply Now; auto|]. apply Later; eauto.
Qed.

Lemma plain_finishes lg c qs tail e n w : ready c -> no_splice_tls c ->
  Forall wreq_ok qs -> Forall (fun q => q_type q <> 2) qs -> NoDup (map q_cookie qs) ->
  stops tail e -> e <> StopMagic -> drop_ok lg c tail e -> (0 < n)%nat ->
  inevitable lg c (all_answered qs e) (sys_init n (concat (map encode qs) ++ tail) w).
Proof.
  intros (R1 & R2 & R3 & R4) Hst Hqs Hnd Hn Hstop Hm Hdr H0.
  eapply inevitable_mono; [|exact (connection_finishes lg c R1 R2 R3 Hst R4 qs tail e Hqs Hnd Hstop Hm Hdr n w H0)].
  cbn beta. intros s [G [d Hd]]. eapply done_all; eauto.
Qed.

(** no run on a plain export is undefined *)
Lemma plain_no_ub lg c qs tail e n w l : ready c -> no_splice_tls c ->
  Forall wreq_ok qs -> Forall (fun q => q_type q <> 2) qs -> stops tail e ->
  sys_run lg c l (sys_init n (concat (map encode qs) ++ tail) w) <> SUb.
Proof.
  intros (R1 & R2 & R3 & R4) Hst Hqs Hnd Hstop E.
  pose proof (run_good true lg c (fun _ => R1) (fun _ => R2) (fun _ => R3) (fun _ => Hst) R4 qs tail e Hqs Hnd Hstop l _ (init_good true lg c qs tail e n w)) as H.
  rewrite E in H. discriminate.
Qed.

(** ** Deadlock *)
Lemma log_deadlock lg c s d h i er m k : y_rd s = RJoin d h -> h = true -> y_th s = [WRun i er (PLog m k)] -> deadlock lg c s.
Proof.
  intros E1 -> E2. split; [intros d0; rewrite E1; discriminate|].
  intros [|t n|t|t]; cbn [sys_step].
  - unfold reader_step. rewrite E1, E2. cbn [forallb is_idle andb]. rewrite Bool.andb_false_r. reflexivity.
  - unfold worker_step. rewrite E2. destruct t as [|t]; [|destruct t; reflexivity]. cbn [nth_error].
    unfold sem_free. rewrite E1. cbn [rd_sem negb]. rewrite Bool.andb_false_r. reflexivity.
  - rewrite E2. destruct t as [|[|t]]; reflexivity.
  - rewrite E2. destruct t as [|[|t]]; reflexivity.
Qed.
Lemma hung_deadlock lg c s d h i : y_rd s = RJoin d h -> y_q s = [] -> y_th s = [WHung i] -> deadlock lg c s.
Proof.
  intros E1 E3 E2. split; [intros d0; rewrite E1; discriminate|].
  intros [|t n|t|t]; cbn [sys_step].
  - unfold reader_step. rewrite E1, E2, E3. reflexivity.
  - unfold worker_step. rewrite E2. destruct t as [|[|t]]; reflexivity.
  - rewrite E2. destruct t as [|[|t]]; reflexivity.
  - rewrite E2. destruct t as [|[|t]]; reflexivity.
Qed.
