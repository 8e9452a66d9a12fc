(** Concurrent processing: C20, C21, C23, C51, C52, C57. *)
From Verif Require Import Base M_Const M_Disk M_Tree M_Raw M_Setup M_Par L_Wp S_Wire S_Disk L_Setup L_PlainS L_Props S_Par S_Run L_ParP X_Demo.

(** ** Demonstration: two threads, three requests, replies out of order *)
Definition cookie3 : list Z := [7;7;7;7;7;7;7;7].
Definition par_qs : list wreq :=
  [mkWreq 0 cookie1 8 4 []; mkWreq 1 cookie2 2 3 [91;92;93]; mkWreq 3 cookie3 0 0 []].
Definition par_disc : wreq := mkWreq 2 [0;0;0;0;0;0;0;0] 0 0 [].
Definition par_tail : list Z := encode par_disc ++ [1;2;3].
Definition par_client : client := client_of two_setup 4 false false.
Definition par_start (n : nat) : sys := sys_init n (concat (map encode par_qs) ++ par_tail) (two_world some_short).
(** the reading thread reads everything; thread 1 takes the second request
    after thread 0 took the first and is done before it *)
Definition par_sched : list choice :=
  repeat CReader 30 ++ repeat (CWork 0 5) 3 ++ repeat (CWork 1 7) 60 ++ repeat (CWork 0 5) 60 ++ repeat CReader 2.

Definition sys_obs (o : sout) : option (list Z * list Z * list Z) :=
  match o with SGo s => match y_rd s with RDone true => Some (y_in s, y_out s, y_log s) | _ => None end | _ => None end.

Lemma obs_reach lg c l s0 r : sys_obs (sys_run lg c l s0) = Some r ->
  exists s, sys_run lg c l s0 = SGo s /\ y_rd s = RDone true /\ y_in s = fst (fst r) /\ y_out s = snd (fst r) /\ y_log s = snd r.
Proof.
  destruct (sys_run lg c l s0) as [s| | |]; try discriminate. cbn [sys_obs]. destruct (y_rd s) as [| | | | | | |[|]] eqn:E; try discriminate.
  intros H. injection H as <-. exists s. auto.
Qed.

Lemma par_hyps : Forall wreq_ok par_qs /\ Forall (fun q => q_type q <> 2) par_qs /\
  NoDup (map q_cookie par_qs) /\ stops par_tail (StopDisc [1;2;3]).
Proof.
  split; [|split; [|split]].
  - repeat (apply Forall_cons; [ok_req|]). constructor.
  - repeat (apply Forall_cons; [discriminate|]). constructor.
  - repeat (apply NoDup_cons; [cbn; intros H; repeat (destruct H as [H|H]; [discriminate H|]); exact H|]). constructor.
  - apply (stop_disc par_disc [1;2;3]); [ok_req|reflexivity].
Qed.

(** ** C20: every request is answered exactly once with its own cookie *)
(** Any kind of export, any number of threads, any schedule, any failures of
    storage, write() calls accepting any number of bytes: when the server is
    done with a connection, the bytes it has sent split into messages such that
    each request has one whole answer and no other message exists. *)
Theorem C20_each_request_answered_once :
  forall lg c qs tail e n w s d, 0 <= c_size c <= 9223372036854775807 ->
    Forall wreq_ok qs -> Forall (fun q => q_type q <> 2) qs -> NoDup (map q_cookie qs) -> stops tail e ->
    reaches lg c (sys_init n (concat (map encode qs) ++ tail) w) s -> y_rd s = RDone d ->
    exists ls, split_replies (length (y_out s)) (data_len qs) (y_out s) = Some ls /\
      (forall q, In q qs -> whole_answer (with_cookie (q_cookie q) ls)) /\
      (forall x, In x ls -> exists q, In q qs /\ fst x = q_cookie q).
Proof.
  intros lg c qs tail e n w s d Hsz Hqs Hnd Hn Hst Hr Hd.
  destruct (any_done lg c Hsz qs tail e Hqs Hnd Hn Hst n w s Hr d Hd) as (d' & ls & _ & _ & _ & _ & H). eauto.
Qed.
Print Assumptions C20_each_request_answered_once.

Example C20_example :
  exists s, reaches false par_client (par_start 2) s /\ y_rd s = RDone true /\
    split_replies (length (y_out s)) (data_len par_qs) (y_out s) =
      Some [(cookie2, VSimple 0 []); (cookie3, VSimple 0 []); (cookie1, VSimple 0 [108;109;200;201])].
Proof.
  destruct (obs_reach false par_client par_sched (par_start 2) _ ltac:(vm_compute; reflexivity)) as (s & E1 & E2 & E3 & E4 & E5).
  exists s. split; [exists par_sched; left; exact E1|]. split; [exact E2|]. rewrite E4. vm_compute. reflexivity.
Qed.

(** ** C21: reply messages are never torn *)
(** At every moment of every connection the bytes sent so far are whole
    messages, each belonging to one request, followed at most by the beginning
    of one more; and the messages of each request are the beginning of one
    answer.  Failed and killed connections included. *)
Theorem C21_messages_are_never_torn :
  forall lg c qs tail e n w s, 0 <= c_size c <= 9223372036854775807 ->
    Forall wreq_ok qs -> Forall (fun q => q_type q <> 2) qs -> NoDup (map q_cookie qs) -> stops tail e ->
    reaches lg c (sys_init n (concat (map encode qs) ++ tail) w) s ->
    exists whole part, y_out s = concat (map (fun x => enc_view (fst x) (snd x)) whole) ++ part /\
      (forall x, In x whole -> exists q, In q qs /\ fst x = q_cookie q) /\
      (forall q, In q qs -> answer_so_far (with_cookie (q_cookie q) whole)) /\
      Forall (fun x => length (fst x) = 8%nat /\ wf_view (data_len qs (fst x)) (snd x)) whole /\
      (part = [] \/ unfinished qs part).
Proof. intros lg c qs tail e n w s Hsz Hqs Hnd Hn Hst Hr. exact (any_sent lg c Hsz qs tail e Hqs Hnd Hn Hst n w s Hr). Qed.
Print Assumptions C21_messages_are_never_torn.

(** thread 1 has sent the first 7 of 16 bytes; thread 0, wanting to send, waits *)
Definition torn_start : sys := sys_init 2 (concat (map encode par_qs) ++ par_tail) (two_world all_full).
Definition torn_sched : list choice :=
  repeat CReader 30 ++ [CWork 0 5] ++ repeat (CWork 1 7) 6 ++ repeat (CWork 0 5) 40.
Example C21_example :
  match sys_run false par_client torn_sched torn_start with
  | SGo s => y_out s = be 4 0x67446698 ++ [0;0;0] /\
             match y_th s with [WRun 0 _ (PSend _ _); WSend 1 _ rest _] => rest = [0] ++ cookie2 | _ => False end
  | _ => False
  end.
Proof. vm_compute. split; reflexivity. Qed.

(** ** C23: requests sent before a disconnect are all completed *)
(** Any kind of export: when the server is done, everything sent before DISC
    (or before the end of the stream) was handed to a thread and answered, and
    what followed the DISC was not even read. *)
Theorem C23_all_requests_before_disconnect_are_answered :
  forall lg c qs tail e n w s d, 0 <= c_size c <= 9223372036854775807 ->
    Forall wreq_ok qs -> Forall (fun q => q_type q <> 2) qs -> NoDup (map q_cookie qs) -> stops tail e ->
    reaches lg c (sys_init n (concat (map encode qs) ++ tail) w) s -> y_rd s = RDone d ->
    all_answered qs e s.
Proof. intros lg c qs tail e n w s d Hsz Hqs Hnd Hn Hst Hr Hd. exact (any_done lg c Hsz qs tail e Hqs Hnd Hn Hst n w s Hr d Hd). Qed.
Print Assumptions C23_all_requests_before_disconnect_are_answered.

(** Plain exports, storage failing in any way: the server does get there,
    whatever the scheduler does, as long as the connection itself works. *)
Theorem C23_plain_connections_finish :
  forall flags expected ms su w namelen structured tls lg qs tail e n,
    let c := client_of su namelen structured tls in
    opened flags expected ms su w -> no_splice_tls c ->
    Forall wreq_ok qs -> Forall (fun q => q_type q <> 2) qs -> NoDup (map q_cookie qs) ->
    stops tail e -> e <> StopMagic -> drop_ok lg c tail e -> (0 < n)%nat ->
    inevitable lg c (all_answered qs e) (sys_init n (concat (map encode qs) ++ tail) w).
Proof. intros. apply plain_finishes; auto. eapply opened_ready; eauto. Qed.
Print Assumptions C23_plain_connections_finish.

(** and no schedule makes it do anything undefined *)
Theorem C23_plain_connections_are_defined :
  forall flags expected ms su w namelen structured tls lg qs tail e n l,
    let c := client_of su namelen structured tls in
    opened flags expected ms su w -> no_splice_tls c ->
    Forall wreq_ok qs -> Forall (fun q => q_type q <> 2) qs -> stops tail e ->
    sys_run lg c l (sys_init n (concat (map encode qs) ++ tail) w) <> SUb.
Proof. intros. eapply plain_no_ub; eauto. eapply opened_ready; eauto. Qed.
Print Assumptions C23_plain_connections_are_defined.

Example C23_example :
  opened 2 0 two two_setup (two_world some_short) /\ no_splice_tls par_client /\
  drop_ok false par_client par_tail (StopDisc [1;2;3]) /\
  inevitable false par_client (all_answered par_qs (StopDisc [1;2;3])) (par_start 2) /\
  sys_obs (sys_run false par_client par_sched (par_start 2)) =
    Some ([1;2;3], enc_view cookie2 (VSimple 0 []) ++ enc_view cookie3 (VSimple 0 []) ++ enc_view cookie1 (VSimple 0 [108;109;200;201]), []).
Proof.
  destruct par_hyps as (H1 & H2 & H3 & H4).
  assert (O : opened 2 0 two two_setup (two_world some_short)) by apply two_opened.
  assert (N : no_splice_tls par_client) by (right; reflexivity).
  assert (D : drop_ok false par_client par_tail (StopDisc [1;2;3])) by (left; reflexivity).
  split; [exact O|]. split; [exact N|]. split; [exact D|]. split.
  - apply (C23_plain_connections_finish 2 0 two two_setup (two_world some_short) 4 false false false par_qs par_tail (StopDisc [1;2;3]) 2);
      auto; discriminate.
  - vm_compute. reflexivity.
Qed.

(** ** C51: the transaction log records the request history in order *)
(** Any kind of export, any schedule: the log of a finished connection parses
    completely; its requests are those received, in order, up to and including
    DISC, each with its whole payload if data is logged; and for each request
    its reply records are exactly the headers of the messages sent for it. *)
Theorem C51_log_records_the_history :
  forall lg c qs tail e n w s last d, 0 <= c_size c <= 9223372036854775807 ->
    Forall wreq_ok qs -> Forall (fun q => q_type q <> 2) qs -> NoDup (map q_cookie qs) -> stops tail e ->
    reaches lg c (sys_init n (concat (map encode qs) ++ tail) w) s ->
    lg = true -> ends_clean tail last -> y_rd s = RDone d ->
    let dl := cflag c F_DATALOG && negb (cflag c F_SPLICE) in
    exists ls ents, split_replies (length (y_out s)) (data_len qs) (y_out s) = Some ls /\
      parse_log (length (y_log s)) dl (y_log s) = Some ents /\
      log_requests ents = map (logged dl) (qs ++ last) /\
      (forall q, In q qs -> log_replies (q_cookie q) ents = map head_view (with_cookie (q_cookie q) ls)) /\
      (forall ck h, In (GRep ck h) ents -> exists q, In q qs /\ ck = q_cookie q).
Proof. intros lg c qs tail e n w s last d. intros. eapply any_log; eauto. Qed.
Print Assumptions C51_log_records_the_history.

(** with the payload logged, two threads *)
Definition datalog_setup : setup := mkSetup (2 + 131072) (Some [mkFI (FExp 0) 0; mkFI (FExp 1) 10]) [true; true] 16 None.
Definition datalog_client : client := client_of datalog_setup 4 false false.
Example C51_example :
  ends_clean par_tail [par_disc] /\
  match sys_run true datalog_client (concat (repeat ([CReader] ++ repeat (CWork 0 5) 1 ++ repeat (CWork 1 7) 2) 60)) (par_start 2) with
  | SGo s => y_rd s = RDone true /\
      parse_log (length (y_log s)) true (y_log s) =
        Some [GReq (mkWreq 0 cookie1 8 4 []); GReq (mkWreq 1 cookie2 2 3 [91;92;93]); GReq (mkWreq 3 cookie3 0 0 []);
              GRep cookie2 (HSimple 0); GRep cookie1 (HSimple 0); GRep cookie3 (HSimple 0); GReq par_disc]
  | _ => False
  end.
Proof.
  split.
  - right. exists par_disc, [1;2;3]. split; [ok_req|]. repeat split.
  - vm_compute. split; reflexivity.
Qed.

(** ** C52: logging never blocks a disconnecting client's shutdown *)
(** True unless the stream ends inside the payload of a WRITE whose data is
    being logged.  Missing: exactly that case, refuted below; tree,
    copy-on-write and waitfile exports; connections on which a write() fails. *)
Theorem C52_shutdown_with_log_partial :
  forall flags expected ms su w namelen structured tls qs tail e n,
    let c := client_of su namelen structured tls in
    opened flags expected ms su w -> no_splice_tls c ->
    Forall wreq_ok qs -> Forall (fun q => q_type q <> 2) qs -> NoDup (map q_cookie qs) ->
    stops tail e -> e <> StopMagic ->
    cflag c F_DATALOG = false \/ zlen tail < 28 \/ (exists r, e = StopDisc r) -> (0 < n)%nat ->
    inevitable true c (all_answered qs e) (sys_init n (concat (map encode qs) ++ tail) w).
Proof. intros. apply plain_finishes; auto; [eapply opened_ready; eauto|right; assumption]. Qed.
Print Assumptions C52_shutdown_with_log_partial.

Example C52_example :
  let c := datalog_client in
  opened (2 + 131072) 0 two datalog_setup (two_world some_short) /\ no_splice_tls c /\
  cflag c F_DATALOG = true /\ zlen [1;2;3] < 28 /\ stops [1;2;3] StopCut /\
  match sys_run true c (par_sched ++ par_sched) (sys_init 2 (concat (map encode par_qs) ++ [1;2;3]) (two_world some_short)) with
  | SGo s => y_rd s = RDone false
  | _ => False
  end.
Proof.
  cbn zeta. split.
  { destruct (two_opened some_short) as (_ & H2 & _ & H4 & H5 & H6).
    split; [vm_compute; reflexivity|]. split; [lia|]. split; [repeat split|]. split; [|split; [exact H5|exact H6]].
    intros E. apply H4. reflexivity. }
  split; [right; reflexivity|]. split; [reflexivity|]. split; [reflexivity|]. split; [apply stop_short; reflexivity|].
  vm_compute. reflexivity.
Qed.

(** The connection drops inside a payload whose data is being logged: the
    reading thread waits for the pool while holding the log semaphore, the pool
    thread needs the semaphore to log its reply. *)
Theorem C52_drop_in_logged_payload_refuted :
  exists c n inp w l s, sys_run true c l (sys_init n inp w) = SGo s /\ deadlock true c s.
Proof.
  exists datalog_client, 1%nat, (encode (mkWreq 0 cookie1 8 4 []) ++ header (mkWreq 1 cookie2 2 3 []) ++ [91;92]),
    (two_world all_full), (repeat CReader 20 ++ repeat (CWork 0 9) 20).
  match goal with |- exists s, ?r = SGo s /\ _ =>
    assert (K : match r with
                | SGo s => match y_rd s, y_th s with RJoin _ true, [WRun _ _ (PLog _ _)] => True | _, _ => False end
                | _ => False end) by (vm_compute; exact I);
    destruct r as [s| | |]; try contradiction
  end.
  exists s. split; [reflexivity|].
  destruct (y_rd s) as [| | | | | |d [|]|] eqn:E1; try contradiction.
  destruct (y_th s) as [|[|i er [| | |m k]| | |] [|]] eqn:E2; try contradiction.
  eapply log_deadlock; eauto.
Qed.
Print Assumptions C52_drop_in_logged_payload_refuted.

(** With or without a log: a write() to the socket that fails (the client is
    gone) makes a pool thread wait for itself. *)
Theorem C52_failed_send_refuted :
  forall lg, exists c n inp w l s, sys_run lg c l (sys_init n inp w) = SGo s /\ deadlock lg c s.
Proof.
  intros lg.
  exists par_client, 1%nat, (encode (mkWreq 0 cookie1 8 4 [])),
    (two_world all_full), (repeat CReader 6 ++ repeat (CWork 0 1) (if lg then 38 else 20) ++ [CFail 0]).
  match goal with |- exists s, ?r = SGo s /\ _ =>
    assert (K : match r with
                | SGo s => match y_rd s, y_q s, y_th s with RJoin _ _, [], [WHung _] => True | _, _, _ => False end
                | _ => False end) by (destruct lg; vm_compute; exact I);
    destruct r as [s| | |]; try contradiction
  end.
  exists s. split; [reflexivity|].
  destruct (y_rd s) as [| | | | | |d h|] eqn:E1; try contradiction.
  destruct (y_q s) eqn:E3; try contradiction.
  destruct (y_th s) as [|[| | | |i] [|]] eqn:E2; try contradiction.
  eapply hung_deadlock; eauto.
Qed.
Print Assumptions C52_failed_send_refuted.

(** ** C57: concurrent copy-on-write writes do not mix up pages *)
(** False.  Two threads write four bytes each to pages 0 and 1 of a
    copy-on-write export; storage never fails.  Each is assigned its page of
    the diff file in one order and appends to the diff file in the other.  Both
    are answered with success; a READ sent after both answers gets the bytes
    written to the other page. *)
Definition race_client : client := client_of (mkSetup 4 (Some [mkFI (FExp 0) 0]) [true] 8192 None) 4 false false.
Definition race_world : world := demo_cow [demo_file 8192 100] all_full 2.
Definition race_qs : list wreq :=
  [mkWreq 1 cookie1 0 4 [1;2;3;4]; mkWreq 1 cookie2 4096 4 [5;6;7;8]; mkWreq 0 cookie3 0 4 []].
Definition race_sched1 : list choice :=
  repeat CReader 12 ++ repeat (CWork 0 99) 6 ++ repeat (CWork 1 99) 40 ++ repeat (CWork 0 99) 40.
Definition race_sched2 : list choice := repeat CReader 20 ++ repeat (CWork 0 99) 40 ++ repeat CReader 2.

Theorem C57_concurrent_cow_writes_refuted :
  exists c w n l1 l2 qs1 q3, forall s0, s0 = sys_init n (concat (map encode (qs1 ++ [q3])) ++ encode par_disc) w ->
    match sys_run false c l1 s0 with
    | SGo s1 => (* both writes answered, the READ not yet received *)
        y_out s1 = enc_view cookie2 (VSimple 0 []) ++ enc_view cookie1 (VSimple 0 []) /\
        y_in s1 = encode q3 ++ encode par_disc /\
        match sys_run false c l2 s1 with
        | SGo s2 => y_rd s2 = RDone true /\ y_out s2 = y_out s1 ++ enc_view cookie3 (VSimple 0 [5;6;7;8])
        | _ => False
        end
    | _ => False
    end /\
    qs1 = [mkWreq 1 cookie1 0 4 [1;2;3;4]; mkWreq 1 cookie2 4096 4 [5;6;7;8]] /\ q3 = mkWreq 0 cookie3 0 4 [].
Proof.
  exists race_client, race_world, 2%nat, race_sched1, race_sched2, (firstn 2 race_qs), (mkWreq 0 cookie3 0 4 []).
  intros s0 ->. split; [|split; reflexivity]. vm_compute. split; [reflexivity|]. split; [reflexivity|]. split; reflexivity.
Qed.
Print Assumptions C57_concurrent_cow_writes_refuted.
