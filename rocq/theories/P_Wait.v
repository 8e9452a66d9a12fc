(** C55: waitfile exports commit all earlier writes when the file appears.
    C56: writes racing with the switch.
    C69: flush on a waitfile export reaches the file. *)
From Verif Require Import Base M_Const M_Wait S_Wait L_Wait L_WaitS L_WaitR L_WaitP.

(** ** demo: an export of three pages, a file of 9s and two pages *)
Definition we3 : wenv := mkWe 12288 false (fun _ => 9) 8192 (fun _ => 77).
Definition fill (x : Z) : Z -> Z := fun _ => x.
Definition reqs3 : list wreq :=
  [WWrite 4096 8192 (fill 1) false; WRead 4100 4; WWrite 4096 4096 (fill 2) true; WRead 4100 4; WRead 0 3; WRead 8190 4; WFlush].
(** two pages, the read, the file appears, one page of commit, the second write, the end *)
Definition sched3 : list wchoice :=
  repeat WReq 5 ++ [WCom 0; WCom 4096; WCom 4096] ++ repeat WReq 2 ++ repeat (WCom 4096) 14 ++ repeat WReq 7.
Lemma modest3 : modest we3 reqs3.
Proof. split; [reflexivity|]. split; [vm_compute; discriminate|]. split; [vm_compute; discriminate|]. repeat constructor; cbn; lia. Qed.
Definition cleanb (e : wenv) := fix go (l : list wchoice) (s : wst) : bool :=
  match l with
  | [] => true
  | c :: l => match wstep e c s with
              | WGo s' => (w_export s || negb (w_export s') || match w_rpc s with RMapW _ _ _ _ _ => false | _ => true end) && go l s'
              | _ => true end
  end.
Lemma cleanb_ok e l : forall s, cleanb e l s = true -> clean e l s.
Proof.
  induction l as [|c l IH]; intros s; cbn [cleanb clean]; [auto|]. destruct (wstep e c s) as [s'| |]; auto.
  rewrite andb_true_iff. intros [A B]. split; [|auto]. intros E1 E2. rewrite E1, E2 in A. cbn [negb orb] in A.
  unfold in_write. destruct (w_rpc s); auto. discriminate.
Qed.
Definition outcomes (r : wout) : list wres := match r with WGo s => map snd (w_log s) | _ => [] end.
Definition switched (r : wout) : bool := match r with WGo s => w_export s | _ => false end.
Definition is_go (r : wout) : bool := match r with WGo _ => true | _ => false end.
Definition state (r : wout) : wst := match r with WGo s => s | _ => wstart [] end.
Lemma go_state r : is_go r = true -> r = WGo (state r).
Proof. destruct r; [reflexivity|discriminate|discriminate]. Qed.
Ltac runs := match goal with |- exists s, wrun ?e ?l ?q = WGo s /\ _ => exists (state (wrun e l q)) end; split; [apply go_state; vm_compute; reflexivity|].
Definition ran (e : wenv) (l : list wchoice) (q : list wreq) : wout := wrun e l (wstart q).
Lemma clean3 : clean we3 sched3 (wstart reqs3).
Proof. apply cleanb_ok. vm_compute. reflexivity. Qed.
Example sched3_runs : outcomes (ran we3 sched3 reqs3) =
  [WOk []; WOk [1;1;1;1]; WOk []; WOk [2;2;2;2]; WOk [9;9;9]; WOk [2;2;1;1]; WOk []] /\ switched (ran we3 sched3 reqs3) = true.
Proof. vm_compute. auto. Qed.

(** ** C55 *)
(** after the switch the file holds what was written last, and what was found elsewhere *)
Theorem C55_file_holds_all_writes_partial : forall e reqs l s, modest e reqs -> clean e l (wstart reqs) ->
  wrun e l (wstart reqs) = WGo s -> w_export s = true -> forall b, w_file s b = latest e (w_log s) b.
Proof.
  intros e reqs l s M C E X. pose proof (run_inv e l (modest_limits _ _ M) _ (start_inv _ _ M) C) as I. rewrite E in I.
  apply file_latest; assumption.
Qed.
Print Assumptions C55_file_holds_all_writes_partial.
Example C55_file_holds_all_writes_ex : modest we3 reqs3 /\ clean we3 sched3 (wstart reqs3) /\
  exists s, wrun we3 sched3 (wstart reqs3) = WGo s /\ w_export s = true /\ slice (w_file s) 8190 4 = [2;2;1;1] /\ w_file s 5 = 9.
Proof. split; [exact modest3|]. split; [exact clean3|]. runs. vm_compute. auto. Qed.

(** before, during and after the switch, reads that return data return the data
    written last, and every write is acknowledged *)
Theorem C55_reads_latest_partial : forall e reqs l s, modest e reqs -> clean e l (wstart reqs) ->
  wrun e l (wstart reqs) = WGo s -> reads_right e (w_log s) /\ writes_ok (w_log s).
Proof.
  intros e reqs l s M C E. pose proof (run_inv e l (modest_limits _ _ M) _ (start_inv _ _ M) C) as I. rewrite E in I.
  split; [apply (i_reads _ _ I)|apply (i_writes _ _ I)].
Qed.
Print Assumptions C55_reads_latest_partial.
Example C55_reads_latest_ex : modest we3 reqs3 /\ clean we3 sched3 (wstart reqs3) /\
  exists s l1 data l2, wrun we3 sched3 (wstart reqs3) = WGo s /\ w_log s = l1 ++ (WRead 8190 4, WOk data) :: l2 /\
    data = [2;2;1;1] /\ expected we3 l1 8190 4 = data.
Proof.
  split; [exact modest3|]. split; [exact clean3|]. exists (state (wrun we3 sched3 (wstart reqs3))), [(WWrite 4096 8192 (fill 1) false, WOk []); (WRead 4100 4, WOk [1;1;1;1]); (WWrite 4096 4096 (fill 2) true, WOk []);
    (WRead 4100 4, WOk [2;2;2;2]); (WRead 0 3, WOk [9;9;9])], [2;2;1;1], [(WFlush, WOk [])].
  split; [apply go_state; vm_compute; reflexivity|]. split; [vm_compute; reflexivity|]. vm_compute. auto.
Qed.

(** the code stays within its tables *)
Theorem C55_no_ub_partial : forall e reqs l, modest e reqs -> clean e l (wstart reqs) -> wrun e l (wstart reqs) <> WUb.
Proof.
  intros e reqs l M C E. pose proof (run_inv e l (modest_limits _ _ M) _ (start_inv _ _ M) C) as I. rewrite E in I. exact I.
Qed.
Print Assumptions C55_no_ub_partial.
Example C55_no_ub_ex : modest we3 reqs3 /\ clean we3 sched3 (wstart reqs3) /\ length sched3 = 31%nat.
Proof. split; [exact modest3|]. split; [exact clean3|reflexivity]. Qed.

(** once the file is there and can be written, the switch completes, whatever the
    waiting thread had done or failed to do before, and the file is then complete *)
Theorem C55_switch_completes_partial : forall e reqs l s, modest e reqs -> clean e l (wstart reqs) ->
  wrun e l (wstart reqs) = WGo s -> w_cpc s <> CWait -> ~ in_write s ->
  exists n s', wrun e (repeat (WCom 4096) n) s = WGo s' /\ w_export s' = true /\ w_log s' = w_log s /\
    forall b, w_file s' b = latest e (w_log s) b.
Proof.
  intros e reqs l s M C E N W. pose proof (modest_limits _ _ M) as L. pose proof (run_inv e l L _ (start_inv _ _ M) C) as I. rewrite E in I.
  assert (EN : ends e s).
  { destruct (w_cpc s) as [|lk i d|] eqn:Q; [contradiction| |]; [eapply ends_all; eauto|].
    apply ends_now. apply (i_exp _ _ I). exact Q. }
  destruct EN as [n [s' [E' X]]]. exists n, s'. split; [exact E'|]. split; [exact X|].
  destruct (only_commit e n s s' E') as [G1 [_ [_ G4]]]. split; [exact G1|].
  pose proof (run_inv e (repeat ok n) L s I (G4 W)) as I'. change (repeat ok n) with (repeat (WCom 4096) n) in *. rewrite E' in I'.
  rewrite <- G1. apply file_latest; assumption.
Qed.
Print Assumptions C55_switch_completes_partial.
Example C55_switch_completes_ex : modest we3 reqs3 /\
  exists s, wrun we3 (repeat WReq 3 ++ [WCom 0; WCom 4096; WCom 17]) (wstart reqs3) = WGo s /\
    clean we3 (repeat WReq 3 ++ [WCom 0; WCom 4096; WCom 17]) (wstart reqs3) /\ w_cpc s <> CWait /\ ~ in_write s /\ w_export s = false.
Proof.
  split; [exact modest3|]. runs. split; [apply cleanb_ok; vm_compute; reflexivity|].
  split; [|split; [|vm_compute; reflexivity]].
  - replace (w_cpc _) with (CPass false 0 0) by (vm_compute; reflexivity). discriminate.
  - unfold in_write. replace (w_rpc _) with RIdle by (vm_compute; reflexivity). auto.
Qed.

(** a read started after the switch, of bytes in the file as found or written since, returns the data *)
Theorem C55_read_after_switch_partial : forall e reqs l s a len rest, modest e reqs -> clean e l (wstart reqs) ->
  wrun e l (wstart reqs) = WGo s -> w_export s = true -> w_rpc s = RIdle -> w_in s = WRead a len :: rest ->
  (a + len <= we_f0size e \/ exists a' len' d f r, In (WWrite a' len' d f, WOk r) (w_log s) /\ 0 < len' /\ a + len <= a' + len') ->
  exists s', wrun e [WReq; WReq] s = WGo s' /\ w_log s' = w_log s ++ [(WRead a len, WOk (expected e (w_log s) a len))].
Proof.
  intros e reqs l s a len rest M C E X R Q H. pose proof (run_inv e l (modest_limits _ _ M) _ (start_inv _ _ M) C) as I. rewrite E in I.
  eapply read_after; eauto.
Qed.
Print Assumptions C55_read_after_switch_partial.
Definition sched3b : list wchoice := repeat WReq 7 ++ repeat (WCom 4096) 13.
Example C55_read_after_switch_ex : exists s, wrun we3 (sched3b ++ repeat WReq 4) (wstart reqs3) = WGo s /\
  clean we3 (sched3b ++ repeat WReq 4) (wstart reqs3) /\ w_export s = true /\ w_rpc s = RIdle /\
  w_in s = [WRead 8190 4; WFlush] /\ 8190 + 4 > we_f0size we3 /\ In (WWrite 4096 8192 (fill 1) false, WOk []) (w_log s).
Proof.
  runs. split; [apply cleanb_ok; vm_compute; reflexivity|].
  split; [vm_compute; reflexivity|]. split; [vm_compute; reflexivity|]. split; [vm_compute; reflexivity|]. split; [vm_compute; reflexivity|].
  replace (w_log _) with [(WWrite 4096 8192 (fill 1) false, WOk []); (WRead 4100 4, WOk [1;1;1;1]); (WWrite 4096 4096 (fill 2) true, WOk []);
    (WRead 4100 4, WOk [2;2;2;2]); (WRead 0 3, WOk [9;9;9])] by (vm_compute; reflexivity). now left.
Qed.

(** *** limits of C55 *)
(** a write of part of a page, refused while waiting, takes a place in the diff
    file all the same: afterwards a page reads as another one, and the file gets
    the wrong data *)
Definition reqs_part : list wreq :=
  [WWrite 0 512 (fill 5) false; WWrite 4096 4096 (fill 1) false; WWrite 8192 4096 (fill 2) false; WRead 4096 4; WRead 4096 4].
Theorem C55_refused_write_refuted : exists l s, wrun we3 l (wstart reqs_part) = WGo s /\ clean we3 l (wstart reqs_part) /\
  map snd (w_log s) = [WErr; WOk []; WOk []; WOk [2;2;2;2]] /\ exists l1 a len data l2,
  w_log s = l1 ++ (WRead a len, WOk data) :: l2 /\ data <> expected we3 l1 a len.
Proof.
  exists (repeat WReq 8). runs. split; [apply cleanb_ok; vm_compute; reflexivity|].
  split; [vm_compute; reflexivity|]. exists [(WWrite 0 512 (fill 5) false, WErr); (WWrite 4096 4096 (fill 1) false, WOk []); (WWrite 8192 4096 (fill 2) false, WOk [])].
  exists 4096, 4, [2;2;2;2], []. split; [vm_compute; reflexivity|]. vm_compute. discriminate.
Qed.
Print Assumptions C55_refused_write_refuted.

(** with "sparse_cow" pages are written one after the other but looked for by number *)
Definition we3s : wenv := mkWe 12288 true (fun _ => 9) 8192 (fun _ => 77).
Theorem C55_sparse_refuted : exists l s, wrun we3s l (wstart [WWrite 4096 4096 (fill 1) false; WWrite 0 4096 (fill 2) false; WRead 4096 4]) = WGo s /\
  map snd (w_log s) = [WOk []; WOk []; WOk [2;2;2;2]].
Proof. exists (repeat WReq 6). runs. vm_compute. reflexivity. Qed.
Print Assumptions C55_sparse_refuted.

(** an export of more than 2 GiB: when the file appears, a signed product overflows
    before the switch, for every such export *)
Theorem C55_over_2gib_refuted : forall e, 524288 < we_size e / 4096 -> exists l, wrun e l (wstart []) = WUb.
Proof.
  intros e H. destruct (Z_of_nat_complete 524288 ltac:(lia)) as [n Hn]. exists (WCom 0 :: repeat (WCom 4096) (n + 1)).
  cbn [wrun]. cbn [wstep]. unfold com_step at 1. cbn [wstart w_cpc].
  apply (count_up e) with (i := 0); [exact H|intros p; reflexivity|reflexivity|reflexivity|lia].
Qed.
Print Assumptions C55_over_2gib_refuted.
Example C55_over_2gib_ex : 524288 < we_size (mkWe 2147487744 false (fun _ => 0) 0 (fun _ => 0)) / 4096.
Proof. vm_compute. reflexivity. Qed.

(** ** C56 *)
(** the writer sees no file, the switch completes, the writer puts the page into the
    diff file and is acknowledged: the file does not get the data *)
Definition reqs_race : list wreq := [WWrite 4096 4096 (fill 1) true; WRead 4096 4].
Definition sched_race : list wchoice := [WReq] ++ repeat (WCom 4096) 9 ++ repeat WReq 3.
Theorem C56_lost_write_refuted : exists l s, modest we3 reqs_race /\ wrun we3 l (wstart reqs_race) = WGo s /\
  w_log s = [(WWrite 4096 4096 (fill 1) true, WOk []); (WRead 4096 4, WOk [9;9;9;9])] /\ ~ reads_right we3 (w_log s).
Proof.
  exists sched_race, (state (wrun we3 sched_race (wstart reqs_race))). split; [split; [reflexivity|]; split; [vm_compute; discriminate|]; split; [vm_compute; discriminate|repeat constructor; cbn; lia]|].
  split; [apply go_state; vm_compute; reflexivity|].
  replace (w_log _) with [(WWrite 4096 4096 (fill 1) true, WOk []); (WRead 4096 4, WOk [9;9;9;9])] by (vm_compute; reflexivity).
  split; [reflexivity|]. intros R. specialize (R [(WWrite 4096 4096 (fill 1) true, WOk [])] 4096 4 [9;9;9;9] [] eq_refl). vm_compute in R. discriminate.
Qed.
Print Assumptions C56_lost_write_refuted.

(** a page already moved to the file cannot be read until the switch *)
Theorem C56_gap_refuted : exists l s, wrun we3 l (wstart reqs_race) = WGo s /\ clean we3 l (wstart reqs_race) /\
  w_log s = [(WWrite 4096 4096 (fill 1) true, WOk []); (WRead 4096 4, WErr)].
Proof.
  exists (repeat WReq 2 ++ [WCom 0; WCom 4096; WCom 4096] ++ repeat WReq 2). runs.
  split; [apply cleanb_ok; vm_compute; reflexivity|vm_compute; reflexivity].
Qed.
Print Assumptions C56_gap_refuted.

(** every other interleaving of the two threads is fine: commits of single pages may
    fall anywhere, within a write and a read too, and the switch within a read *)
Theorem C56_no_race_no_loss_partial : forall e reqs l s, modest e reqs -> clean e l (wstart reqs) ->
  wrun e l (wstart reqs) = WGo s -> reads_right e (w_log s).
Proof. intros e reqs l s M C E. apply (C55_reads_latest_partial e reqs l s M C E). Qed.
Print Assumptions C56_no_race_no_loss_partial.
(** here a commit falls between the two pages of a write, and the switch within a read *)
Definition reqs_mid : list wreq := [WWrite 4096 8192 (fill 1) false; WWrite 4096 4096 (fill 2) false; WRead 8190 4].
Definition sched_mid : list wchoice :=
  repeat WReq 2 ++ [WCom 0; WCom 4096; WCom 4096] ++ repeat WReq 5 ++ repeat (WCom 4096) 14 ++ [WReq].
Example C56_no_race_no_loss_ex : modest we3 reqs_mid /\ clean we3 sched_mid (wstart reqs_mid) /\
  outcomes (ran we3 sched_mid reqs_mid) = [WOk []; WOk []; WOk [2;2;1;1]] /\
  (exists s, wrun we3 (firstn 23 sched_mid) (wstart reqs_mid) = WGo s /\ w_export s = false /\ exists rq a len acc, w_rpc s = RMapR rq a len acc).
Proof.
  split; [split; [reflexivity|]; split; [vm_compute; discriminate|]; split; [vm_compute; discriminate|repeat constructor; cbn; lia]|].
  split; [apply cleanb_ok; vm_compute; reflexivity|]. split; [vm_compute; reflexivity|].
  runs. split; [vm_compute; reflexivity|]. exists (WRead 8190 4), 8192, 2, [2;2]. vm_compute. reflexivity.
Qed.

(** ** C69 *)
(** after the switch FLUSH syncs the diff file, not the file written to *)
Theorem C69_flush_after_switch_refuted : exists l s, modest we3 [WWrite 4096 4096 (fill 1) false; WFlush] /\
  clean we3 l (wstart [WWrite 4096 4096 (fill 1) false; WFlush]) /\
  wrun we3 l (wstart [WWrite 4096 4096 (fill 1) false; WFlush]) = WGo s /\
  map snd (w_log s) = [WOk []; WOk []] /\ w_file s 4096 = 1 /\ w_disk s 4096 = 9.
Proof.
  exists (repeat (WCom 4096) 9 ++ repeat WReq 3), (state (wrun we3 (repeat (WCom 4096) 9 ++ repeat WReq 3) (wstart [WWrite 4096 4096 (fill 1) false; WFlush]))).
  split; [split; [reflexivity|]; split; [vm_compute; discriminate|]; split; [vm_compute; discriminate|repeat constructor; cbn; lia]|].
  split; [apply cleanb_ok; vm_compute; reflexivity|]. split; [apply go_state; vm_compute; reflexivity|]. vm_compute. auto.
Qed.
Print Assumptions C69_flush_after_switch_refuted.

(** nor does the switch: a write with FUA before it is in the file afterwards but not on its disk *)
Theorem C69_fua_before_switch_refuted : exists l s, modest we3 [WWrite 4096 4096 (fill 1) true; WFlush] /\
  clean we3 l (wstart [WWrite 4096 4096 (fill 1) true; WFlush]) /\
  wrun we3 l (wstart [WWrite 4096 4096 (fill 1) true; WFlush]) = WGo s /\
  map snd (w_log s) = [WOk []; WOk []] /\ w_export s = true /\ w_file s 4096 = 1 /\ w_disk s 4096 = 9.
Proof.
  exists (repeat WReq 2 ++ repeat (WCom 4096) 13 ++ repeat WReq 1), (state (wrun we3 (repeat WReq 2 ++ repeat (WCom 4096) 13 ++ repeat WReq 1) (wstart [WWrite 4096 4096 (fill 1) true; WFlush]))).
  split; [split; [reflexivity|]; split; [vm_compute; discriminate|]; split; [vm_compute; discriminate|repeat constructor; cbn; lia]|].
  split; [apply cleanb_ok; vm_compute; reflexivity|]. split; [apply go_state; vm_compute; reflexivity|]. vm_compute. auto.
Qed.
Print Assumptions C69_fua_before_switch_refuted.

(** after the switch a write with FUA is durable when acknowledged *)
Theorem C69_fua_after_switch_partial : forall e s a len d l, w_export s = true -> w_rpc s = RIdle -> w_in s = WWrite a len d true :: l ->
  exists s', wrun e [WReq; WReq] s = WGo s' /\ w_log s' = w_log s ++ [(WWrite a len d true, WOk [])] /\ w_disk s' = w_file s' /\
    forall b, a <= b < a + len -> w_disk s' b = d (b - a).
Proof.
  intros e s a len d l X R N. cbn [wrun]. cbn [wstep]. unfold req_step at 1. rewrite R, N. wc. rewrite X. unfold req_step. wc. cbn [raw]. wc.
  eexists. split; [reflexivity|]. wc. split; [reflexivity|]. split; [reflexivity|]. intros b Hb. apply put_in. exact Hb.
Qed.
Print Assumptions C69_fua_after_switch_partial.
Example C69_fua_after_switch_ex : exists s, wrun we3 (repeat (WCom 4096) 9) (wstart [WWrite 4096 4096 (fill 1) true]) = WGo s /\
  w_export s = true /\ w_rpc s = RIdle /\ w_in s = [WWrite 4096 4096 (fill 1) true].
Proof. runs. vm_compute. auto. Qed.
