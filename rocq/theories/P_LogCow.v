(** Replaying the data log of a copy-on-write export, and of overlapping requests: C53. *)
From Verif Require Import Base M_Const M_Disk M_Tree M_Raw M_Setup M_Par M_Log L_Wp L_Raw S_Wire S_Disk L_Session L_Setup L_PlainS L_Props
  S_Par S_Run S_Byte S_Log L_Log L_LogP S_Cow L_Cow L_CowP L_LogCow X_Demo P_Plain P_Par P_Cow P_Log.

(** One request at a time on a copy-on-write export, for requests C08 allows: the
    log replayed on a copy of the base gives the disk the answers were about, so
    that what a READ at the end of the session returned is what the image has. *)
Theorem C53_cow_session_partial :
  forall flags expected ms s w namelen structured tls qs tail e w1 r w2 msgs h lf log ents last bs max pw,
    setupexport flags expected ms = SetupOk s -> 0 <= expected -> cow_flags flags ->
    no_empty_member flags ms -> backed flags ms s w -> sizes_ok w -> no_eof (w_orc w) -> su_size s <= 4294967296 ->
    let c := client_of s namelen structured tls in
    copyonwrite_prepare c w = Ret true w1 ->
    Forall wreq_ok qs -> Forall (fun q => q_type q <> 2) qs -> stops tail e ->
    cow_fine_all (su_size s) (bad_write c) structured qs ->
    run c (concat (map encode qs) ++ tail) w1 = Ret r w2 -> sent w2 = sent w ++ msgs ->
    answers qs (concat msgs) = Some (h, []) -> all_done h ->
    parse_log lf true log = Some ents -> log_requests ents = map (logged true) (qs ++ last) ->
    Forall (fun q => q_cmd q = 2) last -> simple_only ents ->
    0 < bs -> (forall k, 0 < pw k) -> Forall (replayable bs) (qs ++ last) ->
    blocks_in bs (qs ++ last) < max -> max <= 18446744073709551615 ->
    exists s', trplay bs max pw (datalog_mark ++ log) (disk_of s w) = TExit 0 s' /\
      history (su_size s) (bad_write c) (disk_of s w) h (t_img s') /\
      forall h1 q data, h = h1 ++ [(q, Ok data)] -> q_cmd q = 0 -> data = bytes_at (t_img s') (q_from q) (q_len q).
Proof.
  intros flags expected ms s w namelen structured tls qs tail e w1 r w2 msgs h lf log ents last bs max pw
    H1 H2 H3 H4 H5 H6 H7 H8 c H9 H10 H11 H12 H13 H14 H15 H16 H17 H18 H19 H20 H21 H22 H23 H24 H25 H26.
  destruct (cow_replay flags expected ms s w namelen structured tls qs tail e w1 r w2 msgs h lf log ents last bs max pw
    H1 H2 H3 H4 H5 H6 H7 H8 H9 H10 H11 H12 H13 H14 H15 H16 H17 H18 H19 H20 H21 H22 H23 H24 H25 H26) as (s' & T & D).
  exists s'. split; [exact T|]. split; [exact D|]. intros h1 q data -> Hq. eapply history_last_read; eauto.
Qed.
Print Assumptions C53_cow_session_partial.

(** a write across a page boundary, one over part of it, and a read of both,
    replayed in blocks of two bytes *)
Definition pcow_qs : list wreq :=
  [mkWreq 1 cookie1 4094 4 [91;92;93;94]; mkWreq 1 cookie2 4096 2 [81;82]; mkWreq 0 cookie3 4094 2 []].
Definition pcow_log : list Z :=
  concat (map (fun q => encode q ++ enc_head (q_cookie q) (VSimple 0 [])) pcow_qs) ++ encode par_disc.
Definition pcow_h : list (wreq * answer) :=
  [(mkWreq 1 cookie1 4094 4 [91;92;93;94], Ok []); (mkWreq 1 cookie2 4096 2 [81;82], Ok []); (mkWreq 0 cookie3 4094 2 [], Ok [91;92])].
Example C53_cow_example :
  setupexport 4 0 [mkMem true true 16384] = SetupOk (cow_setup 4 16384) /\ cow_flags 4 /\
  no_empty_member 4 [mkMem true true 16384] /\
  backed 4 [mkMem true true 16384] (cow_setup 4 16384) (cow_world 16384 all_full) /\
  sizes_ok (cow_world 16384 all_full) /\ no_eof (w_orc (cow_world 16384 all_full)) /\
  (exists w1, copyonwrite_prepare (cow_client 4 16384 false) (cow_world 16384 all_full) = Ret true w1) /\ Forall wreq_ok pcow_qs /\
  (match cow_run (cow_client 4 16384 false) (stream pcow_qs ++ par_tail) (cow_world 16384 all_full) with
  | Ret _ w2 => option_map (fun r => (map snd (fst r), snd r)) (answers pcow_qs (concat (sent w2))) = Some (map snd pcow_h, [])
  | _ => False
  end) /\
  all_done pcow_h /\ cow_fine_all 16384 (bad_write (cow_client 4 16384 false)) false pcow_qs /\
  (exists ents, parse_log 20 true pcow_log = Some ents /\ log_requests ents = map (logged true) (pcow_qs ++ [par_disc]) /\
     simple_only ents) /\
  Forall (replayable 2) (pcow_qs ++ [par_disc]) /\
  match trplay 2 100 short_pw (datalog_mark ++ pcow_log) (disk_of (cow_setup 4 16384) (cow_world 16384 all_full)) with
  | TExit 0 s => bytes_at (t_img s) 4092 8 = [96; 97; 91; 92; 81; 82; 102; 103]
  | _ => False
  end.
Proof.
  split; [vm_compute; reflexivity|]. split; [repeat split|]. split.
  { intros _ n z. unfold detected. cbn. destruct n as [|n]; cbn; [|destruct n; discriminate].
    intros E; injection E as <-; lia. }
  split.
  { unfold backed. cbn. intros n z. unfold detected. cbn. destruct n as [|n]; cbn; [|destruct n; discriminate].
    intros E; injection E as <-; reflexivity. }
  split; [apply demo_sizes; intros f [<-|[]]; cbn; lia|].
  split. { intros n k. cbn. unfold all_full. discriminate. }
  split; [eexists; reflexivity|].
  split. { repeat (apply Forall_cons; [ok_req|]). constructor. }
  split; [vm_compute; reflexivity|].
  split. { intros q a Hin. unfold pcow_h in Hin. repeat (destruct Hin as [E|Hin]; [injection E as <- <-; split; [eexists; reflexivity|split; discriminate]|]). destruct Hin. }
  split. { intros b q a E. unfold pcow_qs in E.
    destruct b as [|b1 [|b2 [|b3 b]]]; cbn [app] in E.
    - injection E as <- _. intros _. split; [discriminate|]. split; [reflexivity|]. intros _. vm_compute. discriminate.
    - injection E as _ <- _. intros _. split; [discriminate|]. split; [reflexivity|]. intros _. vm_compute. discriminate.
    - injection E as <- <- <- _. intros _. split; [|split; [discriminate|intros _; vm_compute; discriminate]].
      intros _. split; [reflexivity|]. split; [|discriminate]. cbn [q_from q_len].
      change (4094 / 4096) with 0. change ((4094 + 2 - 1) / 4096) with 0. lia.
    - exfalso. apply (f_equal (@length wreq)) in E. cbn in E. rewrite app_length in E. cbn in E. lia. }
  split.
  { eexists. split; [vm_compute; reflexivity|]. split; [reflexivity|].
    intros ck h Hin. cbn in Hin. repeat (destruct Hin as [Hin|Hin]; [try discriminate Hin; injection Hin as <- <-; eexists; reflexivity|]).
    destruct Hin. }
  split. { repeat (apply Forall_cons; [split; [vm_compute; tauto|vm_compute; repeat split; discriminate]|]). constructor. }
  vm_compute. reflexivity.
Qed.

(** ** Overlapping requests in flight together (plain exports) *)
(** The log has the requests in the order they were received, the threads carry
    them out in any order: two acknowledged WRITEs to the same bytes, the disk has
    the first, the image the second. *)
Definition over_qs : list wreq := [mkWreq 1 cookie1 2 2 [91;92]; mkWreq 1 cookie2 2 2 [81;82]].
Definition over_sched : list choice := repeat CReader 20 ++ [CWork 0 5] ++ repeat (CWork 1 5) 60 ++ repeat (CWork 0 5) 60 ++ repeat CReader 40.
Theorem C53_overlap_refuted :
  exists l, forall s0, s0 = sys_init 2 (concat (map encode over_qs) ++ par_tail) (two_world all_full) ->
    Forall wreq_ok over_qs /\ Forall (replayable 2) (over_qs ++ [par_disc]) /\
    match sys_run true datalog_client l s0 with
    | SGo s => y_rd s = RDone true /\
        split_replies (length (y_out s)) (data_len over_qs) (y_out s) = Some [(cookie2, VSimple 0 []); (cookie1, VSimple 0 [])] /\
        slice (disk_of datalog_setup (y_w s)) 0 6 = [100;101;91;92;104;105] /\
        option_map (fun r => (fst r, firstn 6 (snd r)))
          (img_of (trplay 2 100 short_pw (datalog_mark ++ y_log s) (disk_of datalog_setup (two_world all_full)))) =
          Some (0, [100;101;81;82;104;105])
    | _ => False
    end.
Proof.
  exists over_sched. intros s0 ->. split. { repeat (apply Forall_cons; [ok_req|]). constructor. }
  split. { repeat (apply Forall_cons; [split; [vm_compute; tauto|vm_compute; repeat split; discriminate]|]). constructor. }
  vm_compute. repeat split; reflexivity.
Qed.
Print Assumptions C53_overlap_refuted.
