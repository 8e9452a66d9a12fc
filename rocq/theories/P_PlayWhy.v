(** C100: the lines nbd-trplay prints have their reasons. *)
From Coq Require Import String.
From Verif Require Import Base M_Nego M_Const M_Log M_Play M_DumpText M_PlayText S_Wire S_Log S_Play S_DumpText S_PlayText S_PlayWhy L_Play L_PlayText L_PlayWhy.
Local Open Scope list_scope.
Open Scope Z_scope.

(** Any file as a log, at any verbosity: the values of each request, reply and
    option shown are those of an entry in the log; a type called unknown is there
    and is none of the three known. *)
Theorem C100_shown_is_in_log : forall v bs max pw log img,
  0 < bs < 18446744073709551616 -> 1 <= max <= 18446744073709551615 -> Forall is_byte log ->
  Forall (shown_in log) (fst (play_text v bs max pw log img)).
Proof. exact play_in. Qed.
Print Assumptions C100_shown_is_in_log.

(** At verbosity 2: each error stands after the request it is about, and that
    request has the fault; the limit is said to be reached after the block that
    reaches it; options are called unknown when they are. *)
Theorem C100_reasons : forall bs max pw log img,
  0 < bs < 18446744073709551616 -> 1 <= max <= 18446744073709551615 -> Forall is_byte log ->
  explained bs max None (fst (play_text 2 bs max pw log img)).
Proof. exact play_explained. Qed.
Print Assumptions C100_reasons.

(** The options: the verbosity is the number of -v, the other settings are the last
    ones given; from -v on the settings are shown. *)
Theorem C100_options : forall a0 version eno fs pw l i g img log,
  Forall (fun a => can fs a = true) l -> verbosity l <= 2 ->
  latest image_of l None = Some i -> latest log_of l None = Some g -> pf_img fs i = Some img -> pf_log fs g = Some log ->
  let bs := latest block_of l 512 in let max := latest max_of l 18446744073709551615 in
  exists set r, trplay_main_text a0 version eno fs pw (map spell l) =
      PText (a0 ++ text " -i <image> -l <log> [-m <max blocks>] [-b <block size]" ++ [10] ++ set ++
             concat (map pline_text (fst (play_text (verbosity l) bs max pw log img)))) r /\
    (verbosity l = 0 -> set = []) /\
    (1 <= verbosity l -> number_after "block size: " set = bs /\ number_after "to apply: " set = max).
Proof. exact options_text. Qed.
Print Assumptions C100_options.

(** Without a log or an image, and for a setting that cannot be had, the text says
    which. *)
Theorem C100_complaints : forall a0 version eno fs pw l,
  Forall (fun a => can fs a = true) l -> verbosity l <= 2 ->
  let first := a0 ++ text " -i <image> -l <log> [-m <max blocks>] [-b <block size]" ++ [10] in
  (latest log_of l None = None ->
     trplay_main_text a0 version eno fs pw (map spell l) = PText (first ++ text "  Log file not specified, this is mandatory." ++ [10]) (PEnd 1 None)) /\
  (latest log_of l None <> None -> latest image_of l None = None ->
     trplay_main_text a0 version eno fs pw (map spell l) = PText (first ++ text "  Disk image not specified, this is mandatory." ++ [10]) (PEnd 1 None)) /\
  (forall a rest, ask_num a -> can fs a = false ->
     trplay_main_text a0 version eno fs pw (map spell l ++ spell a :: rest) =
     PText (first ++ match a with
                     | ABlock 0 => text "  Invalid block size." ++ [10]
                     | ABlock _ => text " block size is larger than 131072, not supported." ++ [10]
                     | AMax _ => text "  Invalid block count." ++ [10]
                     | AImage f | ALog f => text "  Opening disk image failed, errno " ++ pr_d (eno f) ++ text "."
                     | AVerbose => []
                     end) (PEnd 1 None)).
Proof. exact complaints_text. Qed.
Print Assumptions C100_complaints.

(** *** Demonstration *)
(** the option of a data log, a FUA WRITE of one block at 4, then at 5 *)
Definition pn_log : list Z :=
  datalog_mark ++ be 4 0x25609513 ++ be 4 65537 ++ be 8 7 ++ be 8 4 ++ be 4 2 ++ [91; 92] ++
  be 4 0x67446698 ++ be 4 0 ++ be 8 7 ++ be 4 0x25609513 ++ be 4 1 ++ be 8 8 ++ be 8 5 ++ be 4 2 ++ [93; 94].
Example C100_shown_example :
  Forall is_byte pn_log /\
  fst (play_text 2 2 9 (fun _ => 1) pn_log (fun i => i)) =
  [QLine (LOpt 1 0x4A93BA39A54F31B6 1); QLine (LData true); QReq 7 65537 4 2; QBlock 0 4 2; QLine (LRep 7 0); QReq 8 1 5 2; QBadOffset 5 2].
Proof. split; [unfold pn_log, datalog_mark; rewrite !Forall_app; repeat split; try apply be_bytes; repeat constructor; lia|vm_compute; reflexivity]. Qed.
Example C100_reasons_example :
  fst (play_text 2 2 1 (fun _ => 1) pn_log (fun i => i)) = [QLine (LOpt 1 0x4A93BA39A54F31B6 1); QLine (LData true); QReq 7 65537 4 2; QBlock 0 4 2; QMax 1] /\
  fst (play_text 2 2 1 (fun _ => 1) (skipn 28 pn_log) (fun i => i)) = [QReq 7 65537 4 2; QNoData] /\
  fst (play_text 2 2 1 (fun _ => 1) (skipn 29 pn_log) (fun i => i)) = [QUnknown 0x60951300] /\
  explained 2 1 None [QReq 7 65537 4 2; QBlock 0 4 2; QMax 1] /\ ~ explained 2 1 None [QReq 7 65537 4 2; QBadOffset 4 2].
Proof.
  split; [vm_compute; reflexivity|]. split; [vm_compute; reflexivity|]. split; [vm_compute; reflexivity|]. cbn. split; [repeat split; eauto|].
  intros (_ & (_ & H & _) & _). vm_compute in H. apply H. reflexivity.
Qed.
Definition pn_files : pfiles := mkPF (fun f => if list_eq_dec Z.eq_dec f (text "img") then Some (fun i => i) else None) (fun _ => Some pn_log).
Definition pn_asked : list ask := [ABlock 4; AVerbose; AImage (text "img"); ALog (text "log"); AMax 1; ABlock 2].
Definition pn_out (t : ptext) : option (list Z * option Z) := match t with PText out (PEnd c _) => Some (out, Some c) | PText out PStuck => Some (out, None) | PtUb => None end.
Example C100_options_example :
  Forall (fun a => can pn_files a = true) pn_asked /\ verbosity pn_asked = 1 /\
  pn_out (trplay_main_text (text "t") (text "3") (fun _ => 2) pn_files (fun _ => 1) (map spell pn_asked)) =
  Some (text "t -i <image> -l <log> [-m <max blocks>] [-b <block size]" ++ [10] ++ text " block size: 2 bytes (0x2 bytes)." ++ [10] ++
    text " max blocks to apply: 1 (0x1)." ++ [10] ++
    text "TRACE_OPTION C=0x00000001 (NBD_TRACELOG_SET_DATALOG) O=4a93ba39a54f31b6 L=00000001" ++ [10] ++ text "TRACE_OPTION DATALOG set to 1." ++ [10] ++
    text "> H=0000000000000007 C=0x00010001 (NBD_CMD_WRITE+ FUA) O=0000000000000004 L=00000002" ++ [10] ++ text "g_max_blocks (1, 0x1) reached!." ++ [10], Some 0).
Proof. split; [repeat constructor|]. vm_compute. split; reflexivity. Qed.
Example C100_complaints_example :
  can pn_files (AImage (text "no")) = false /\ can pn_files (ABlock 131073) = false /\ ask_num (ABlock 131073) /\
  pn_out (trplay_main_text (text "t") (text "3") (fun _ => 13) pn_files (fun _ => 1) (map spell (pn_asked ++ [AImage (text "no")]))) =
  Some (text "t -i <image> -l <log> [-m <max blocks>] [-b <block size]" ++ [10] ++ text "  Opening disk image failed, errno 13.", Some 1).
Proof. split; [reflexivity|]. split; [reflexivity|]. split; [cbn; lia|]. vm_compute. reflexivity. Qed.

(** A log that cannot be opened is called a disk image. *)
Theorem C100_wrong_file_named_refuted :
  exists a0 version eno fs pw, pf_img fs (text "img") <> None /\
    pn_out (trplay_main_text a0 version eno fs pw (map spell [AImage (text "img"); ALog (text "log")])) =
    Some (a0 ++ text " -i <image> -l <log> [-m <max blocks>] [-b <block size]" ++ [10] ++ text "  Opening disk image failed, errno 2.", Some 1).
Proof.
  exists (text "t"), (text "3"), (fun _ => 2), (mkPF (fun _ => Some (fun i => i)) (fun _ => None)), (fun _ => 1).
  split; [discriminate|]. vm_compute. reflexivity.
Qed.
Print Assumptions C100_wrong_file_named_refuted.
