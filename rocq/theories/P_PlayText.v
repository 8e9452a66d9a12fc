(** C100: what nbd-trplay prints is what it does. *)
From Coq Require Import String.
From Verif Require Import Base M_Nego M_Const M_Log M_Play M_DumpText M_PlayText S_Wire S_Par S_Log S_DumpText S_PlayText L_Log L_Play L_DumpText L_PlayText.
Local Open Scope list_scope.
Open Scope Z_scope.

(** The verbosity changes nothing but the text: the same blocks are written, and the
    lines are those of a higher verbosity without the ones only printed there. *)
Theorem C100_verbosity : forall v bs max pw log img, 0 <= v ->
  snd (play_text v bs max pw log img) = trplay bs max pw log img /\
  fst (play_text v bs max pw log img) = filter (fun l => level l <=? v) (fst (play_text 2 bs max pw log img)).
Proof. intros v bs max pw log img H. split; [apply loop_text_snd|apply loop_text_fst; exact H]. Qed.
Print Assumptions C100_verbosity.

(** For every command line the status and the image are those of C90; with up to
    three options without an argument the text is defined. *)
Theorem C100_command_line : forall a0 version eno fs pw os,
  match trplay_main_text a0 version eno fs pw os with
  | PText _ r => r = trplay_main fs pw os
  | PtUb => 3 < zlen (filter no_argument os)
  end.
Proof. exact main_text_ok. Qed.
Print Assumptions C100_command_line.

(** Any file as a log, at verbosity 2: the blocks shown are numbered from 0 on; a
    byte of the image that changes lies in one of them; the last line either says
    how the run ended, with as many blocks shown as were written, or is the block
    whose write failed. *)
Theorem C100_report : forall bs max pw log img,
  0 < bs -> 1 <= max <= 18446744073709551615 -> Forall is_byte log ->
  exists ls c s', play_text 2 bs max pw log img = (ls, TExit c s') /\
    numbered_from 0 (blocks_shown ls) /\ covered img (t_img s') (blocks_shown ls) /\
    ((exists i l, ls = i ++ [l] /\ closing max c (t_blocks s') l /\ zlen (blocks_shown ls) = t_blocks s') \/
     (exists i off, ls = i ++ [QBlock (t_blocks s') off bs] /\ zlen (blocks_shown ls) = t_blocks s' + 1 /\
        (off < 0 /\ c = 1 \/ exists k, pw k <= 0 /\ c = (if pw k =? 0 then 0 else 1)))).
Proof. exact play_report. Qed.
Print Assumptions C100_report.

(** At any verbosity the last line tells the status and the number of blocks, unless
    a write failed. *)
Theorem C100_last_line_partial : forall v bs max pw log img,
  0 <= v -> 0 < bs -> 1 <= max <= 18446744073709551615 -> Forall is_byte log ->
  exists ls c s', play_text v bs max pw log img = (ls, TExit c s') /\
    ((exists i l, ls = i ++ [l] /\ closing max c (t_blocks s') l) \/
     (exists off i, off < 0 /\ c = 1 /\ fst (play_text 2 bs max pw log img) = i ++ [QBlock (t_blocks s') off bs]) \/
     (exists k, pw k <= 0 /\ c = (if pw k =? 0 then 0 else 1))).
Proof. exact last_line. Qed.
Print Assumptions C100_last_line_partial.

(** The log of a session: every request and reply is shown with its values, each
    request followed by its blocks, then the total. *)
Theorem C100_session : forall v bs max pw log ents img lf,
  0 <= v -> 0 < bs -> (forall k, 0 < pw k) -> parse_log lf true log = Some ents ->
  Forall (replayable bs) (log_requests ents) -> simple_only ents ->
  blocks_in bs (log_requests ents) < max -> max <= 18446744073709551615 ->
  fst (play_text v bs max pw (datalog_mark ++ log) img) =
  filter (fun l => level l <=? v) (QLine (LOpt 1 0x4A93BA39A54F31B6 1) :: QLine (LData true) :: told bs 0 ents).
Proof.
  intros v bs max pw log ents img lf Hv Hb Hp Hl Hq Hs Hbm Hm. destruct (C100_verbosity v bs max pw (datalog_mark ++ log) img Hv) as [_ ->].
  f_equal. exact (play_good bs max pw log ents img lf Hb Hp Hl Hq Hs Hbm Hm).
Qed.
Print Assumptions C100_session.

(** The text can be read: no two lists of lines look the same, whatever the logs,
    options and images are. *)
Theorem C100_text_tells : forall v bs max pw log img v' bs' max' pw' log' img',
  0 < bs < 18446744073709551616 -> 1 <= max <= 18446744073709551615 -> Forall is_byte log ->
  0 < bs' < 18446744073709551616 -> 1 <= max' <= 18446744073709551615 -> Forall is_byte log' ->
  concat (map pline_text (fst (play_text v bs max pw log img))) = concat (map pline_text (fst (play_text v' bs' max' pw' log' img'))) ->
  fst (play_text v bs max pw log img) = fst (play_text v' bs' max' pw' log' img').
Proof. intros. apply plines_inj; [now apply play_text_range..|assumption]. Qed.
Print Assumptions C100_text_tells.

(** Numbers and names are where they are said to be, for all values. *)
Theorem C100_lines_read :
  (forall cur off len, p_range (QBlock cur off len) ->
     let t := pline_text (QBlock cur off len) in
     number_after "block " t = cur /\ number_after "offset " t = off /\ number_after "len " t = len) /\
  (forall n, 0 <= n < 18446744073709551616 -> number_after "total " (pline_text (QEnd n)) = n) /\
  (forall n, 0 <= n < 18446744073709551616 -> number_after "g_max_blocks (" (pline_text (QMax n)) = n) /\
  (forall ck cmd off len, p_range (QReq ck cmd off len) ->
     let t := pline_text (QReq ck cmd off len) in
     hex_value (cols 4 16 t) = ck /\ hex_value (cols 25 8 t) = cmd /\ hex_value (cols_end 28 16 t) = off /\ hex_value (cols_end 9 8 t) = len /\
     unpad (between 35 37 t) = name_of (cmd mod 65536) command_names /\ (unpad (cols_end 36 4 t) = text "FUA" <-> Z.testbit cmd 16 = true)).
Proof. split; [exact block_numbers|]. split; [exact end_number|]. split; [exact max_number|exact prequest_columns]. Qed.
Print Assumptions C100_lines_read.

(** *** Demonstration *)
Definition pt_write : list Z := be 4 0x25609513 ++ be 4 65537 ++ be 8 7 ++ be 8 4 ++ be 4 4 ++ [91; 92; 93; 94].
Definition pt_log : list Z := pt_write ++ be 4 0x67446698 ++ be 4 0 ++ be 8 7.
(** every third pwrite() is short *)
Definition pt_pw : nat -> Z := fun n => if (n mod 3 =? 0)%nat then 1 else 1000.
Definition pt_img : Z -> Z := fun i => 100 + i.
Definition pt_files (log : list Z) : pfiles := mkPF (fun f => if list_eq_dec Z.eq_dec f (text "img") then Some pt_img else None) (fun _ => Some log).
Definition pt_end (o : pend) : option (Z * option (list Z * list Z)) :=
  match o with PEnd c r => Some (c, match r with Some (f, img) => Some (f, slice img 0 12) | None => None end) | PStuck => None end.
Definition pt_image (o : tout) : option (Z * list Z) := match o with TExit code s => Some (code, slice (t_img s) 0 16) | _ => None end.
Definition pt_shown (t : ptext) : option (list Z * option (Z * option (list Z * list Z))) :=
  match t with PText out r => Some (out, pt_end r) | PtUb => None end.
Definition pt_first : list Z := text "t -i <image> -l <log> [-m <max blocks>] [-b <block size]" ++ [10].
(** -v -v *)
Example C100_example :
  pt_shown (trplay_main_text (text "t") (text "3") (fun _ => 2) (pt_files (datalog_mark ++ pt_log)) pt_pw
    [PV; PV; PB (text "2"); PI (text "img"); PL (text "log")]) =
  Some (pt_first ++ text " block size: 2 bytes (0x2 bytes)." ++ [10] ++ text " max blocks to apply: 18446744073709551615 (0xffffffffffffffff)." ++ [10] ++
    text "TRACE_OPTION C=0x00000001 (NBD_TRACELOG_SET_DATALOG) O=4a93ba39a54f31b6 L=00000001" ++ [10] ++ text "TRACE_OPTION DATALOG set to 1." ++ [10] ++
    text "> H=0000000000000007 C=0x00010001 (NBD_CMD_WRITE+ FUA) O=0000000000000004 L=00000004" ++ [10] ++
    text "block 0 (0x0): writing to offset 4 (0x4), len 2 (0x2)." ++ [10] ++ text "block 1 (0x1): writing to offset 6 (0x6), len 2 (0x2)." ++ [10] ++
    text "< H=0000000000000007 E=0x00000000" ++ [10] ++ text "End of transaction log, total 2 blocks written." ++ [10],
    Some (0, Some (text "img", [100;101;102;103;91;92;93;94;108;109;110;111]))).
Proof. vm_compute. reflexivity. Qed.
(** -m 1 without -v; and -v -v -v shows the options *)
Example C100_limit_example :
  pt_shown (trplay_main_text (text "t") (text "3") (fun _ => 2) (pt_files (datalog_mark ++ pt_log)) pt_pw
    [PM (text "1"); PB (text "2"); PI (text "img"); PL (text "log")]) =
  Some (pt_first ++ text "g_max_blocks (1, 0x1) reached!." ++ [10], Some (0, Some (text "img", [100;101;102;103;91;92;106;107;108;109;110;111]))) /\
  pt_shown (trplay_main_text (text "t") (text "3") (fun _ => 2) (pt_files (datalog_mark ++ pt_log)) pt_pw
    [PV; PV; PV; PB (text "3x"); PI (text "none")]) =
  Some (pt_first ++ text "getopt: opt b, optarg 3x." ++ [10] ++ text "getopt: opt i, optarg none." ++ [10] ++ text "  Opening disk image failed, errno 2.", Some (1, None)).
Proof. vm_compute. split; reflexivity. Qed.
(** the premises of C100_session and the others are met *)
Example C100_session_example :
  exists ents, parse_log 9 true pt_log = Some ents /\ Forall (replayable 2) (log_requests ents) /\ simple_only ents /\ blocks_in 2 (log_requests ents) = 2 /\
    (forall k, 0 < pt_pw k) /\ Forall is_byte (datalog_mark ++ pt_log) /\
    told 2 0 ents = [QReq 7 65537 4 4; QBlock 0 4 2; QBlock 1 6 2; QLine (LRep 7 0); QEnd 2] /\
    p_range (QReq 7 65537 4 4) /\ p_range (QBlock 1 (-6) 2).
Proof.
  eexists. split; [vm_compute; reflexivity|].
  split. { repeat (apply Forall_cons; [split; [vm_compute; tauto|vm_compute; repeat split; discriminate]|]). constructor. }
  split.
  { intros ck h Hin. cbn in Hin. repeat (destruct Hin as [Hin|Hin]; [try discriminate Hin; injection Hin as <- <-; eexists; reflexivity|]). destruct Hin. }
  split; [vm_compute; reflexivity|]. split; [intros k; unfold pt_pw; destruct (_ =? _)%nat; lia|].
  split; [unfold pt_log, pt_write, datalog_mark; rewrite !Forall_app; repeat split; try apply be_bytes; repeat constructor; lia|].
  split; [vm_compute; reflexivity|]. cbn. lia.
Qed.
(** a request that cannot be replayed: command 9 with the top bit set is shown as a
    negative number *)
Example C100_error_example :
  map pline_text (fst (play_text 0 2 5 pt_pw (be 4 0x25609513 ++ be 4 0x80000009 ++ be 8 7 ++ be 8 4 ++ be 4 4) pt_img)) =
    [text "  Unexpected command -2147483639 (0x80000009), replay impossible." ++ [10]] /\
  map pline_text (fst (play_text 0 2 5 pt_pw (be 4 0x25609513 ++ be 4 1 ++ be 8 7 ++ be 8 5 ++ be 4 4) pt_img)) =
    [text "  Got offset 5 (0x5), not a multiple of the block size 2 (0x2)." ++ [10]] /\
  number_after "offset " (pline_text (QBlock 3 (-12) 2)) = -12.
Proof. vm_compute. repeat split; reflexivity. Qed.

(** *** Where it fails *)
(** A write that stores nothing ends the program with status 0 and no word. *)
Theorem C100_silent_end_refuted :
  exists pw log ents img, parse_log 9 true log = Some ents /\ Forall (replayable 2) (log_requests ents) /\ blocks_in 2 (log_requests ents) = 2 /\
    fst (play_text 0 2 100 pw (datalog_mark ++ log) img) = [] /\ pt_image (trplay 2 100 pw (datalog_mark ++ log) img) = Some (0, slice img 0 16).
Proof.
  exists (fun _ => 0), pt_log. eexists. exists pt_img. split; [vm_compute; reflexivity|].
  split. { repeat (apply Forall_cons; [split; [vm_compute; tauto|vm_compute; repeat split; discriminate]|]). constructor. }
  vm_compute. repeat split; reflexivity.
Qed.
Print Assumptions C100_silent_end_refuted.
(** -v four times: the missing argument of the fourth is printed with %s. *)
Theorem C100_four_v_refuted :
  exists fs pw os, (forall l, pf_log fs l = Some (datalog_mark ++ pt_log)) /\ Forall (fun o => o = PV \/ exists f, o = PI f \/ o = PL f) os /\
    trplay_main_text (text "t") (text "3") (fun _ => 2) fs pw os = PtUb.
Proof.
  exists (pt_files (datalog_mark ++ pt_log)), pt_pw, [PV; PV; PV; PV; PI (text "img"); PL (text "log")].
  split; [reflexivity|]. split; [|vm_compute; reflexivity]. repeat (apply Forall_cons; [eauto|]). apply Forall_nil.
Qed.
Print Assumptions C100_four_v_refuted.
(** A log cut inside a WRITE prints the same as the log of a shorter WRITE that is
    complete: "End of transaction log" and a total, with status 0. *)
Theorem C100_cut_log_refuted :
  exists log log' img, log = firstn 30 pt_write /\ log <> log' /\ parse_log 9 true log = None /\ parse_log 9 true log' <> None /\
    fst (play_text 0 2 100 pt_pw (datalog_mark ++ log) img) = [QEnd 1] /\ fst (play_text 0 2 100 pt_pw (datalog_mark ++ log') img) = [QEnd 1] /\
    pt_image (trplay 2 100 pt_pw (datalog_mark ++ log) img) = pt_image (trplay 2 100 pt_pw (datalog_mark ++ log') img).
Proof.
  exists (firstn 30 pt_write), (be 4 0x25609513 ++ be 4 65537 ++ be 8 7 ++ be 8 4 ++ be 4 2 ++ [91; 92]), pt_img.
  split; [reflexivity|]. split; [vm_compute; discriminate|]. split; [vm_compute; reflexivity|]. split; [vm_compute; discriminate|].
  vm_compute. repeat split; reflexivity.
Qed.
Print Assumptions C100_cut_log_refuted.
