(** Transaction logs and the tools reading them: C53, C54. *)
From Verif Require Import Base M_Const M_Disk M_Tree M_Raw M_Setup M_Par M_Log L_Wp S_Wire S_Disk L_Session L_Setup L_PlainS L_Props
  S_Par S_Run S_Byte S_Log L_Log L_LogP X_Demo P_Plain P_Par P_Byte.

(** ** C53: replaying a data log reproduces the image *)

(** Replaying applies the requests of the log, in its order. *)
Theorem C53_replay_applies_the_log :
  forall bs max pw log ents img lf,
    0 < bs -> (forall k, 0 < pw k) -> parse_log lf true log = Some ents ->
    Forall (replayable bs) (log_requests ents) -> simple_only ents ->
    blocks_in bs (log_requests ents) < max -> max <= 18446744073709551615 ->
    exists s', trplay bs max pw (datalog_mark ++ log) img = TExit 0 s'
      /\ t_blocks s' = blocks_in bs (log_requests ents)
      /\ forall i, t_img s' i = effects (log_requests ents) img i.
Proof. exact trplay_ok. Qed.
Print Assumptions C53_replay_applies_the_log.

(** One request at a time: the log of the requests of a session, replayed on the
    disk as it was, gives the disk as the session left it. *)
Theorem C53_sequential_session_partial :
  forall flags expected ms s w namelen structured tls qs tail e r w1 msgs h lf log ents last bs max pw,
    opened flags expected ms s w ->
    let c := client_of s namelen structured tls in
    no_splice_tls c ->
    Forall wreq_ok qs -> Forall (fun q => q_type q <> 2) qs -> stops tail e ->
    run c (concat (map encode qs) ++ tail) w = Ret r w1 -> sent w1 = sent w ++ msgs ->
    answers qs (concat msgs) = Some (h, []) -> all_done h ->
    parse_log lf true log = Some ents -> log_requests ents = map (logged true) (qs ++ last) ->
    Forall (fun q => q_cmd q = 2) last -> simple_only ents ->
    0 < bs -> (forall k, 0 < pw k) -> Forall (replayable bs) (qs ++ last) ->
    blocks_in bs (qs ++ last) < max -> max <= 18446744073709551615 ->
    exists s', trplay bs max pw (datalog_mark ++ log) (disk_of s w) = TExit 0 s' /\
      forall i, t_img s' i = disk_of s w1 i.
Proof.
  intros flags expected ms s w namelen structured tls qs tail e r w1 msgs h lf log ents last bs max pw
    Ho c Hns Hqs Hnd Hst Hrun Hsent Hans Hdone Hlog Hreq Hlast Hso Hb Hp Hrep Hbl Hmx.
  destruct (C01_plain_export_is_a_flat_disk flags expected ms s w namelen structured tls qs tail e Ho Hns Hqs Hnd Hst)
    as (w1' & msgs' & h' & _ & _ & _ & _ & E1 & E2 & E3 & E4 & _).
  fold c in E1, E4. rewrite Hrun in E1. injection E1 as _ <-.
  assert (msgs' = msgs) by (rewrite Hsent in E2; apply app_inv_head in E2; congruence). subst msgs'.
  specialize (E3 []). rewrite app_nil_r, Hans in E3. injection E3 as <-.
  pose proof (answers_reqs _ _ _ _ Hans) as Hm.
  eapply (replay_sequential _ _ _ _ h lf log ents last bs max pw E4 Hdone Hlog); rewrite ?Hm; assumption.
Qed.
Print Assumptions C53_sequential_session_partial.

(** Any number of threads and any schedule: the log the server itself wrote,
    replayed on the disk as it was, gives the disk as the session left it, when
    no two requests touch the same byte. *)
Theorem C53_concurrent_session_partial :
  forall flags expected ms su w namelen structured tls qs tail e n l s d last ls bs max pw,
    let c := client_of su namelen structured tls in
    opened flags expected ms su w ->
    Forall wreq_ok qs -> Forall (fun q => q_type q <> 2) qs -> NoDup (map q_cookie qs) -> stops tail e ->
    ends_clean tail last ->
    sys_run true c l (sys_init n (concat (map encode qs) ++ tail) w) = SGo s -> y_rd s = RDone d ->
    cflag c F_DATALOG = true -> cflag c F_SPLICE = false ->
    disjoint qs -> Forall (fun q => q_cmd q <> 4 /\ (q_cmd q = 6 -> q_len q <= 67108864)) qs ->
    split_replies (length (y_out s)) (data_len qs) (y_out s) = Some ls ->
    (forall q, In q qs -> q_cmd q = 1 \/ q_cmd q = 6 -> with_cookie (q_cookie q) ls = [VSimple 0 []]) ->
    (forall ck v, In (ck, v) ls -> is_chunk v = false) ->
    0 < bs -> (forall k, 0 < pw k) -> Forall (replayable bs) (qs ++ last) ->
    blocks_in bs (qs ++ last) < max -> max <= 18446744073709551615 ->
    exists s', trplay bs max pw (datalog_mark ++ y_log s) (disk_of su w) = TExit 0 s' /\
      forall i, t_img s' i = disk_of su (y_w s) i.
Proof. exact replay_concurrent. Qed.
Print Assumptions C53_concurrent_session_partial.

(** *** Demonstration: blocks of two bytes, every third pwrite() is short *)
Definition log_qs : list wreq :=
  [mkWreq 0 cookie1 8 4 []; mkWreq 1 cookie2 2 4 [91;92;93;94]; mkWreq 6 cookie3 12 2 []].
Definition log_sched : list choice :=
  concat (repeat ([CReader] ++ repeat (CWork 0 5) 1 ++ repeat (CWork 1 7) 2) 80).
Definition log_start : sys := sys_init 2 (concat (map encode log_qs) ++ par_tail) (two_world some_short).
Definition short_pw : nat -> Z := fun n => if (n mod 3 =? 0)%nat then 1 else 1000.
Definition img_of (o : tout) : option (Z * list Z) :=
  match o with TExit code s => Some (code, slice (t_img s) 0 16) | _ => None end.

Lemma datalog_opened orc : opened (2 + 131072) 0 two datalog_setup (two_world orc).
Proof.
  split; [vm_compute; reflexivity|]. split; [lia|].
  split; [repeat split|]. split.
  { intros _ n z. unfold detected. cbn.
    destruct n as [|[|n]]; cbn; [| |destruct n; cbn; discriminate]; intros E; injection E as <-; lia. }
  split.
  { unfold backed. cbn. intros n z. unfold detected. cbn.
    destruct n as [|[|n]]; cbn; [| |destruct n; cbn; discriminate]; intros E; injection E as <-; reflexivity. }
  apply demo_sizes. intros f [<-|[<-|[]]]; cbn; lia.
Qed.
Lemma log_replayable : Forall (replayable 2) (log_qs ++ [par_disc]).
Proof.
  repeat (apply Forall_cons; [split; [vm_compute; tauto|vm_compute; repeat split; discriminate]|]). constructor.
Qed.

Example C53_concurrent_example :
  Forall wreq_ok log_qs /\ Forall (fun q => q_type q <> 2) log_qs /\ NoDup (map q_cookie log_qs) /\
  stops par_tail (StopDisc [1;2;3]) /\ ends_clean par_tail [par_disc] /\ disjoint log_qs /\
  Forall (replayable 2) (log_qs ++ [par_disc]) /\ blocks_in 2 (log_qs ++ [par_disc]) = 3 /\
  exists s, sys_run true datalog_client log_sched log_start = SGo s /\ y_rd s = RDone true /\
    split_replies (length (y_out s)) (data_len log_qs) (y_out s) =
      Some [(cookie2, VSimple 0 []); (cookie1, VSimple 0 [108;109;200;201]); (cookie3, VSimple 0 [])] /\
    slice (disk_of datalog_setup (y_w s)) 0 16 = [100;101;91;92;93;94;106;107;108;109;200;201;0;0;204;205] /\
    img_of (trplay 2 4 short_pw (datalog_mark ++ y_log s) (disk_of datalog_setup (two_world some_short))) =
      Some (0, [100;101;91;92;93;94;106;107;108;109;200;201;0;0;204;205]).
Proof.
  split. { repeat (apply Forall_cons; [ok_req|]). constructor. }
  split. { repeat (apply Forall_cons; [discriminate|]). constructor. }
  split. { repeat (apply NoDup_cons; [cbn; intros H; repeat (destruct H as [H|H]; [discriminate H|]); exact H|]). constructor. }
  split; [apply par_hyps|].
  split; [right; exists par_disc, [1;2;3]; split; [ok_req|repeat split]|].
  split.
  { intros i k q q' j Hi Hk Hne Ht. destruct i as [|[|[|i]]]; [| | |destruct i; discriminate];
      (destruct k as [|[|[|k]]]; [| | |destruct k; discriminate]); cbn in Hi, Hk; injection Hi as <-; injection Hk as <-;
      unfold touches in *; cbn in *; try congruence; try reflexivity; lia. }
  split; [exact log_replayable|]. split; [reflexivity|].
  assert (K : match sys_run true datalog_client log_sched log_start with
    | SGo s => y_rd s = RDone true /\
       split_replies (length (y_out s)) (data_len log_qs) (y_out s) =
        Some [(cookie2, VSimple 0 []); (cookie1, VSimple 0 [108;109;200;201]); (cookie3, VSimple 0 [])] /\
      slice (disk_of datalog_setup (y_w s)) 0 16 = [100;101;91;92;93;94;106;107;108;109;200;201;0;0;204;205] /\
      img_of (trplay 2 4 short_pw (datalog_mark ++ y_log s) (disk_of datalog_setup (two_world some_short))) =
        Some (0, [100;101;91;92;93;94;106;107;108;109;200;201;0;0;204;205])
    | _ => False end) by (vm_compute; repeat split; reflexivity).
  destruct (sys_run true datalog_client log_sched log_start) as [s| | |]; try contradiction. exists s. split; [reflexivity|exact K].
Qed.

(** overlapping writes, one after the other, each answered before the next *)
Definition seq_qs : list wreq :=
  [mkWreq 1 cookie1 2 4 [91;92;93;94]; mkWreq 1 cookie2 4 4 [81;82;83;84]; mkWreq 6 cookie3 4 2 []].
Definition seq_log : list Z :=
  concat (map (fun q => encode q ++ enc_head (q_cookie q) (VSimple 0 [])) seq_qs) ++ encode par_disc.
Example C53_sequential_example :
  Forall wreq_ok seq_qs /\ no_splice_tls datalog_client /\
  match run datalog_client (concat (map encode seq_qs) ++ par_tail) (two_world some_short) with
  | Ret _ w1 => answers seq_qs (concat (sent w1)) = Some (map (fun q => (q, Ok [])) seq_qs, []) /\
      slice (disk_of datalog_setup w1) 0 10 = [100;101;91;92;0;0;83;84;108;109]
  | _ => False
  end /\
  all_done (map (fun q => (q, Ok [])) seq_qs) /\
  (exists ents, parse_log 20 true seq_log = Some ents /\ log_requests ents = map (logged true) (seq_qs ++ [par_disc]) /\
     simple_only ents) /\
  Forall (replayable 2) (seq_qs ++ [par_disc]) /\
  img_of (trplay 2 100 short_pw (datalog_mark ++ seq_log) (disk_of datalog_setup (two_world some_short))) =
    Some (0, [100;101;91;92;0;0;83;84;108;109;200;201;202;203;204;205]).
Proof.
  split. { repeat (apply Forall_cons; [ok_req|]). constructor. }
  split; [left; reflexivity|].
  split; [vm_compute; split; reflexivity|].
  split. { intros q a Hin. apply in_map_iff in Hin. destruct Hin as [q0 [E Hq]]. injection E as -> <-. split; [eexists; reflexivity|].
    unfold seq_qs in Hq. repeat (destruct Hq as [<-|Hq]; [vm_compute; split; discriminate|]). destruct Hq. }
  split.
  { eexists. split; [vm_compute; reflexivity|]. split; [reflexivity|].
    intros ck h Hin. cbn in Hin. repeat (destruct Hin as [Hin|Hin]; [try discriminate Hin; injection Hin as <- <-; eexists; reflexivity|]).
    destruct Hin. }
  split. { repeat (apply Forall_cons; [split; [vm_compute; tauto|vm_compute; repeat split; discriminate]|]). constructor. }
  vm_compute. reflexivity.
Qed.

(** *** Where it fails *)
(** A WRITE that was refused (the export is read-only) is replayed all the
    same: the server's disk did not change, the image does. *)
Definition ro_client : client := mkC (F_READONLY + F_DATALOG) 16 (Some [mkFI (FExp 0) 0]) 4 false false.
Theorem C53_refused_writes_are_replayed_refuted :
  exists c w qs n l, forall s0, s0 = sys_init n (concat (map encode qs) ++ encode par_disc) w ->
    match sys_run true c l s0 with
    | SGo s => y_rd s = RDone true /\ y_out s = enc_view cookie2 (VSimple 1 []) /\
        slice (fdata (w_file (y_w s) (FExp 0))) 0 4 = [100;101;102;103] /\
        slice (fdata (w_file w (FExp 0))) 0 4 = [100;101;102;103] /\
        match trplay 2 100 short_pw (datalog_mark ++ y_log s) (fdata (w_file w (FExp 0))) with
        | TExit 0 t => slice (t_img t) 0 4 = [100;101;91;92]
        | _ => False
        end
    | _ => False
    end /\ qs = [mkWreq 1 cookie2 2 2 [91;92]].
Proof.
  exists ro_client, (one_world all_full), [mkWreq 1 cookie2 2 2 [91;92]], 2%nat, log_sched.
  intros s0 ->. split; [|reflexivity]. vm_compute. repeat split; reflexivity.
Qed.
Print Assumptions C53_refused_writes_are_replayed_refuted.

(** A TRIM the server answered with success but did not carry out (C15) zeroes
    the image. *)
Definition trim_client : client := mkC (F_TRIM + F_DATALOG) 16 (Some [mkFI (FExp 0) 0]) 4 false false.
Theorem C53_trims_are_replayed_refuted :
  exists c w qs n l, forall s0, s0 = sys_init n (concat (map encode qs) ++ encode par_disc) w ->
    match sys_run true c l s0 with
    | SGo s => y_rd s = RDone true /\ y_out s = enc_view cookie2 (VSimple 0 []) /\
        slice (fdata (w_file (y_w s) (FExp 0))) 8 8 = [108;109;110;111;112;113;114;115] /\
        slice (fdata (w_file w (FExp 0))) 8 8 = [108;109;110;111;112;113;114;115] /\
        match trplay 2 100 short_pw (datalog_mark ++ y_log s) (fdata (w_file w (FExp 0))) with
        | TExit 0 t => slice (t_img t) 8 8 = [0;0;0;0;0;0;0;0]
        | _ => False
        end
    | _ => False
    end /\ qs = [mkWreq 4 cookie2 8 8 []].
Proof.
  exists trim_client, (one_world all_full), [mkWreq 4 cookie2 8 8 []], 2%nat, log_sched.
  intros s0 ->. split; [|reflexivity]. vm_compute. repeat split; reflexivity.
Qed.
Print Assumptions C53_trims_are_replayed_refuted.

(** The log of an earlier, longer session shows through behind a shorter one
    (the file is opened without O_TRUNC): writes of the old session are replayed
    after those of the new one. *)
Definition old_log : list Z := datalog_mark ++ encode (mkWreq 1 cookie1 0 2 [11;12]) ++ encode (mkWreq 1 cookie2 4 2 [13;14]).
Definition new_log : list Z := datalog_mark ++ encode (mkWreq 1 cookie1 0 2 [21;22]).
Theorem C53_stale_log_refuted :
  exists old new img,
    img_of (trplay 2 100 short_pw new img) = Some (0, [21;22;102;103;104;105;106;107;108;109;110;111;112;113;114;115]) /\
    img_of (trplay 2 100 short_pw (log_file old new) img) = Some (0, [21;22;102;103;13;14;106;107;108;109;110;111;112;113;114;115]).
Proof.
  exists old_log, new_log, (fdata (demo_file 16 100)). vm_compute. split; reflexivity.
Qed.
Print Assumptions C53_stale_log_refuted.

(** A request that is not a whole number of blocks ends the replay, even a READ *)
Theorem C53_unaligned_read_ends_replay_refuted :
  exists log ents img, parse_log 20 true log = Some ents /\
    log_requests ents = [mkWreq 0 cookie1 3 2 []; mkWreq 1 cookie2 0 2 [11;12]] /\
    img_of (trplay 2 100 short_pw (datalog_mark ++ log) img) = Some (1, slice img 0 16) /\
    effects (log_requests ents) img 0 <> img 0.
Proof.
  exists (encode (mkWreq 0 cookie1 3 2 []) ++ encode (mkWreq 1 cookie2 0 2 [11;12])).
  eexists. exists (fdata (demo_file 16 100)).
  split; [vm_compute; reflexivity|]. split; [reflexivity|]. split; [vm_compute; reflexivity|]. vm_compute. discriminate.
Qed.
Print Assumptions C53_unaligned_read_ends_replay_refuted.

(** ** C54: the log tools handle structured replies *)

(** the true line for an entry of the log *)
Definition true_line (e : lview) : line :=
  match e with
  | GReq q => LReq (unbe (q_cookie q)) (q_type q) (q_from q) (q_len q)
  | GRep ck (HSimple e) => LRep (unbe ck) e
  | GRep ck (HChunk fl ty n) => LChunk (unbe ck) ty fl n
  end.
(** true but for the length of a chunk's payload, which is shown without its
    low 16 bits *)
Definition nearly (shown truth : line) : Prop :=
  match truth with
  | LChunk ck ty fl n => shown = LChunk ck ty fl (n / 65536)
  | l => shown = l
  end.

Lemma nearly_shown ents : Forall2 nearly (map shown ents) (map true_line ents).
Proof. induction ents as [|e t IH]; cbn [map]; constructor; [|exact IH]. destruct e as [q|ck [x|fl ty n]]; reflexivity. Qed.

(** Every entry of every log is shown, in order and in step, with its true
    values but for payload lengths of chunks; without data ... *)
Theorem C54_dump_shows_the_log_partial :
  forall log ents lf, Forall is_byte log -> parse_log lf false log = Some ents ->
    exists lines, trdump log = (lines, true) /\ Forall2 nearly lines (map true_line ents).
Proof.
  intros log ents lf Hb H. exists (map shown ents). split; [exact (trdump_ok log ents lf Hb H)|apply nearly_shown].
Qed.
Print Assumptions C54_dump_shows_the_log_partial.

(** ... and with *)
Theorem C54_dump_shows_the_data_log_partial :
  forall log ents lf, Forall is_byte log -> parse_log lf true log = Some ents ->
    exists lines, trdump (datalog_mark ++ log) = ([LOpt 1 NBD_TRACELOG_FROM_MAGIC 1; LData true] ++ lines, true) /\
      Forall2 nearly lines (map true_line ents).
Proof.
  intros log ents lf Hb H. exists (map shown ents). split; [exact (trdump_data_ok log ents lf Hb H)|apply nearly_shown].
Qed.
Print Assumptions C54_dump_shows_the_data_log_partial.

(** a session with structured replies *)
Definition sr_client : client := client_of datalog_setup 4 true false.
Definition sr_qs : list wreq := [mkWreq 0 cookie1 8 2 []; mkWreq 1 cookie2 2 2 [91;92]].
Definition sr_start : sys := sys_init 1 (concat (map encode sr_qs) ++ par_tail) (two_world all_full).
(** the WRITE arrives when the READ has been answered *)
Definition sr_sched : list choice :=
  repeat CReader 5 ++ repeat (CWork 0 100) 40 ++ concat (repeat [CReader; CWork 0 100] 60).

Example C54_dump_example :
  match sys_run true sr_client sr_sched sr_start with
  | SGo s => y_rd s = RDone true /\
      parse_log 20 true (y_log s) = Some [GReq (mkWreq 0 cookie1 8 2 []); GRep cookie1 (HChunk 0 1 10); GRep cookie1 (HChunk 1 0 0);
         GReq (mkWreq 1 cookie2 2 2 [91;92]); GReq par_disc; GRep cookie2 (HSimple 0)] /\
      Forall is_byte (y_log s) /\
      trdump (datalog_mark ++ y_log s) =
        ([LOpt 1 NBD_TRACELOG_FROM_MAGIC 1; LData true;
          LReq 0x0102030405060708 0 8 2; LChunk 0x0102030405060708 1 0 0; LChunk 0x0102030405060708 0 1 0;
          LReq 0x0909090900000001 1 2 2; LReq 0 2 0 0; LRep 0x0909090900000001 0], true)
  | _ => False
  end.
Proof.
  vm_compute. split; [reflexivity|]. split; [reflexivity|]. split; [|reflexivity].
  repeat (apply Forall_cons; [split; [discriminate|reflexivity]|]). apply Forall_nil.
Qed.

(** the READ's data chunk has 10 bytes of payload; the dump says 0 *)
Theorem C54_payload_length_refuted :
  exists log ck fl ty n, parse_log 20 false log = Some [GRep ck (HChunk fl ty n)] /\
    trdump log = ([LChunk (unbe ck) ty fl 0], true) /\ n = 10.
Proof.
  exists (enc_head cookie1 (VChunk 0 1 [0;0;0;0;0;0;0;8;1;2])), cookie1, 0, 1, 10.
  vm_compute. repeat split; reflexivity.
Qed.
Print Assumptions C54_payload_length_refuted.

(** nbd-trplay stops with status 1 at the first structured reply; of the
    requests, it has applied those before it. *)
Theorem C54_replay_stops_at_structured_reply :
  forall bs max pw lf s pre ck fl ty n post fuel,
    0 < bs -> (forall k, 0 < pw k) -> t_dl s = true ->
    parse_log lf true (t_log s) = Some (pre ++ GRep ck (HChunk fl ty n) :: post) ->
    Forall (replayable bs) (log_requests pre) -> simple_only pre ->
    0 <= t_blocks s -> t_blocks s + blocks_in bs (log_requests pre) < max -> max <= 18446744073709551615 ->
    (length (t_log s) < fuel)%nat ->
    exists s', play_loop fuel bs max pw s = TExit 1 s' /\
      forall i, t_img s' i = effects (log_requests pre) (t_img s) i.
Proof. intros bs max pw lf s pre ck fl ty n post fuel. exact (trplay_chunk bs max pw fuel lf s pre ck fl ty n post). Qed.
Print Assumptions C54_replay_stops_at_structured_reply.

(** the session above: the WRITE was answered with success and is in the log,
    but is not replayed *)
Theorem C54_replay_structured_session_refuted :
  exists c w qs n l, forall s0, s0 = sys_init n (concat (map encode qs) ++ par_tail) w ->
    match sys_run true c l s0 with
    | SGo s => y_rd s = RDone true /\
        slice (disk_of datalog_setup (y_w s)) 0 4 = [100;101;91;92] /\
        match trplay 2 100 short_pw (datalog_mark ++ y_log s) (disk_of datalog_setup w) with
        | TExit 1 t => slice (t_img t) 0 4 = [100;101;102;103]
        | _ => False
        end
    | _ => False
    end /\ qs = sr_qs.
Proof.
  exists sr_client, (two_world all_full), sr_qs, 1%nat, sr_sched. intros s0 ->. split; [|reflexivity].
  vm_compute. repeat split; reflexivity.
Qed.
Print Assumptions C54_replay_structured_session_refuted.
