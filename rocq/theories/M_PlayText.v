(** The text nbd-trplay prints (nbd-trplay.c:44-328).  Definitions only; what it
    does to the image is in M_Log, its command line in M_Play. *)
From Coq Require Import String.
From Verif Require Import Base M_Nego M_Virt M_Const M_Log M_Play M_DumpText.
Local Open Scope list_scope.

(** One line of output: the values shown.  [QLine] is a line nbd-trdump prints
    too, [QReq] a request (nbd-trplay.c:174-180), [QBlock] a block about to be
    written (67-70), [QEnd] and [QMax] the ends with status 0 (51, 120, 136), the
    others the ends with status 1 (90, 95, 108, 142, 232). *)
Inductive pline :=
| QLine (l : line)
| QReq (cookie command offset len : Z)
| QBlock (cur offset len : Z)
| QEnd (n : Z)
| QMax (n : Z)
| QBadOffset (offset bs : Z)
| QBadLen (len bs : Z)
| QNoData
| QBadCommand (command : Z)
| QUnknown (magic : Z).

(** a line printed from verbosity [n] on (g_verbose, nbd-trplay.c:38, 66, 173) *)
Definition say (v n : Z) (l : pline) : list pline := if n <=? v then [l] else [].

(** block_loop with its output (nbd-trplay.c:111-123, 127-139; 48-53, 66-71) *)
Fixpoint block_text (fuel : nat) (v bs max : Z) (pw : nat -> Z) (data : bool) (offset len : Z) (s : tstate) : list pline * tout :=
  if len <=? 0 then ([], TGo s)
  else match fuel with
  | O => ([], TStuck)
  | S fuel =>
      match (if data : bool then doread bs (t_log s) else Some (repeat 0 (Z.to_nat bs), t_log s)) with
      | None => ([QEnd (t_blocks s)], TExit 0 s)
      | Some (b, rest) =>
          let l := say v 2 (QBlock (t_blocks s) (i64 offset) bs) in
          match dowriteimage (length b) pw b (i64 offset) (mkT rest (t_img s) (t_dl s) (t_blocks s) (t_calls s)) with
          | TGo s1 =>
              let s2 := mkT (t_log s1) (t_img s1) (t_dl s1) (u64 (t_blocks s1 + 1)) (t_calls s1) in
              if t_blocks s2 =? max then (l ++ [QMax max], TExit 0 s2)
              else let '(ls, o) := block_text fuel v bs max pw data (u64 (offset + bs)) (u32 (len - bs)) s2 in (l ++ ls, o)
          | o => (l, o)
          end
      end
  end.

(** process_command (nbd-trplay.c:87-146) *)
Definition process_text (v bs max : Z) (pw : nat -> Z) (command offset len : Z) (s : tstate) : list pline * tout :=
  if negb (offset mod bs =? 0) then ([QBadOffset offset bs], TExit 1 s)
  else if negb (len mod bs =? 0) then ([QBadLen len bs], TExit 1 s)
  else
    let cmd := Z.land command NBD_CMD_MASK_COMMAND in
    if (cmd =? NBD_CMD_READ) || (cmd =? NBD_CMD_DISC) || (cmd =? NBD_CMD_FLUSH) then ([], TGo s)
    else if cmd =? NBD_CMD_WRITE then
      if negb (t_dl s) then ([QNoData], TExit 1 s)
      else block_text (Z.to_nat (len / bs)) v bs max pw true offset len s
    else if (cmd =? NBD_CMD_TRIM) || (cmd =? NBD_CMD_WRITE_ZEROES) then
      block_text (Z.to_nat (len / bs)) v bs max pw false offset len s
    else ([QBadCommand command], TExit 1 s).

(** one round of main_loop (nbd-trplay.c:159-235) *)
Definition round_text (v bs max : Z) (pw : nat -> Z) (s : tstate) : list pline * tout :=
  match doread 4 (t_log s) with
  | None => ([QEnd (t_blocks s)], TExit 0 s)
  | Some (m, r) =>
      let magic := unbe m in
      if magic =? NBD_REQUEST_MAGIC then                                            (* 164-184 *)
        match doread 24 r with
        | None => ([QEnd (t_blocks s)], TExit 0 s)
        | Some (h, r) =>
            let command := unbe (firstn 4 h) in
            let offset := unbe (firstn 8 (skipn 12 h)) in
            let len := unbe (skipn 20 h) in
            let '(ls, o) := process_text v bs max pw command offset len (t_rest r s) in
            (say v 1 (QReq (unbe (firstn 8 (skipn 4 h))) command offset len) ++ ls, o)
        end
      else if magic =? NBD_REPLY_MAGIC then                                         (* 186-196 *)
        match doread 12 r with
        | None => ([QEnd (t_blocks s)], TExit 0 s)
        | Some (h, r) => (say v 1 (QLine (LRep (unbe (skipn 4 h)) (unbe (firstn 4 h)))), TGo (t_rest r s))
        end
      else if magic =? NBD_TRACELOG_MAGIC then                                      (* 198-228 *)
        match doread 24 r with
        | None => ([QEnd (t_blocks s)], TExit 0 s)
        | Some (h, r) =>
            let command := unbe (firstn 4 h) in
            let offset := unbe (firstn 8 (skipn 12 h)) in
            let len := unbe (skipn 20 h) in
            let l := say v 1 (QLine (LOpt command offset len)) in
            if offset =? NBD_TRACELOG_FROM_MAGIC then
              if command =? 1 then
                (l ++ say v 1 (QLine (LData (negb (len =? 0)))), TGo (mkT r (t_img s) (negb (len =? 0)) (t_blocks s) (t_calls s)))
              else (l ++ [QLine LUnknownOpt], TGo (t_rest r s))
            else (l ++ [QLine LUnknownFrom], TGo (t_rest r s))
        end
      else ([QUnknown magic], TExit 1 s)                                            (* 231-233 *)
  end.

(** main_loop (nbd-trplay.c:148-239) *)
Fixpoint loop_text (fuel : nat) (v bs max : Z) (pw : nat -> Z) (s : tstate) : list pline * tout :=
  match fuel with
  | O => ([], TStuck)
  | S fuel =>
      let '(ls, o) := round_text v bs max pw s in
      match o with
      | TGo s' => let '(ls', o') := loop_text fuel v bs max pw s' in (ls ++ ls', o')
      | _ => (ls, o)
      end
  end.
(** the lines printed on a log and an image, and how it ends (nbd-trplay.c:324) *)
Definition play_text (v bs max : Z) (pw : nat -> Z) (log : list Z) (img : Z -> Z) : list pline * tout :=
  loop_text (S (length log)) v bs max pw (mkT log img false 0 0%nat).

(** the decimal digits of a number below 2^64 (%llu, nbd-trplay.c:51) *)
Fixpoint ddigits (fuel : nat) (x : Z) (acc : list Z) : list Z :=
  match fuel with
  | O => acc
  | S fuel => let acc := (48 + x mod 10) :: acc in if x / 10 =? 0 then acc else ddigits fuel (x / 10) acc
  end.
Definition pr_u (x : Z) : list Z := ddigits 20 x []. (* %llu, %lu, nbd-trplay.c:51, 95 *)
Definition pr_d (x : Z) : list Z := if x <? 0 then 45 :: pr_u (- x) else pr_u x. (* %lld, %ld, %d, nbd-trplay.c:67, 90, 142 *)
Definition pr_h (x : Z) : list Z := text "0x" ++ pr_x 0 x. (* 0x%llx, nbd-trplay.c:67 *)

(** one line (nbd-trplay.c:51, 67-70, 90, 95, 108, 120, 136, 142, 174-180, 192-194,
    208-212, 220, 223, 226, 232).  The command of line 142 is unsigned and printed
    with %d. *)
Definition pline_text (l : pline) : list Z :=
  match l with
  | QLine l => line_text l
  | QReq ck cmd off len =>
      text "> H=" ++ pr_x 16 ck ++ text " C=0x" ++ pr_x 8 cmd ++ text " (" ++ pr_s 13 (command_name (Z.land cmd NBD_CMD_MASK_COMMAND)) ++ text "+" ++
      pr_s 4 (if flag cmd NBD_CMD_FLAG_FUA then text "FUA" else text "NONE") ++ text ") O=" ++ pr_x 16 off ++ text " L=" ++ pr_x 8 len ++ [10]
  | QBlock cur off len =>
      text "block " ++ pr_u cur ++ text " (" ++ pr_h cur ++ text "): writing to offset " ++ pr_d off ++ text " (" ++ pr_h (u64 off) ++
      text "), len " ++ pr_d len ++ text " (" ++ pr_h len ++ text ")." ++ [10]
  | QEnd n => text "End of transaction log, total " ++ pr_u n ++ text " blocks written." ++ [10]
  | QMax n => text "g_max_blocks (" ++ pr_u n ++ text ", " ++ pr_h n ++ text ") reached!." ++ [10]
  | QBadOffset off bs =>
      text "  Got offset " ++ pr_u off ++ text " (" ++ pr_h off ++ text "), not a multiple of the block size " ++ pr_d bs ++ text " (" ++ pr_h bs ++ text ")." ++ [10]
  | QBadLen len bs =>
      text "  Got len " ++ pr_u len ++ text " (" ++ pr_h len ++ text "), not a multiple of the block size " ++ pr_d bs ++ text " (" ++ pr_h bs ++ text ")." ++ [10]
  | QNoData => text "  NBD_CMD_WRITE without data log, replay impossible." ++ [10]
  | QBadCommand cmd => text "  Unexpected command " ++ pr_d (i32 cmd) ++ text " (" ++ pr_h cmd ++ text "), replay impossible." ++ [10]
  | QUnknown m => text "? Unknown transaction type " ++ pr_x 8 m ++ text ", replay impossible." ++ [10]
  end.

(** * main *)
(** How main ends with what it printed; [PtUb]: a null pointer is printed with %s *)
Inductive ptext := PText (out : list Z) (r : pend) | PtUb. (* nbd-trplay.c:264-266 *)
(** line 265: the option, and its argument (NULL when it has none) *)
Definition opt_debug (v c : Z) (arg : option (list Z)) : option (list Z) :=
  if 3 <=? v then
    match arg with
    | None => None
    | Some a => Some (text "getopt: opt " ++ [c] ++ text ", optarg " ++ a ++ text "." ++ [10])
    end
  else Some [].
(** show_help (nbd-trplay.c:241-253) *)
Definition help_text (a0 version : list Z) : list Z :=
  [10] ++ text "This is nbd-trplay, part of nbd " ++ version ++ text "." ++ [10] ++
  text "Use: " ++ a0 ++ text " -i <image> -l <log> [-m <max blocks>] [-b <block size]" ++ [10] ++
  text " Applies up to <max blocks> elements from file <log> to disk image <image>." ++ [10] ++
  text " Command line parameters:" ++ [10] ++
  text " <image>: name of the initial image file." ++ [10] ++
  text " <log>: nbd trace log. Must contain actual data (datalog=true)." ++ [10] ++
  text " <block size>: device block size. Default 512." ++ [10] ++
  text " <max blocks>: where to stop the replay. Default all." ++ [10] ++
  text "  -v: Increase verbose level. Specify multiple times to increase further." ++ [10].

(** Result of the loop over the options: verbosity and settings; main returns; or
    undefined (nbd-trplay.c:263-309) *)
Inductive popt_end := OGo (out : list Z) (v : Z) (p : pset) | OEnd (out : list Z) (code : Z) | OUb.
Definition printed (t : list Z) (o : popt_end) : popt_end := (* nbd-trplay.c:265 *)
  match o with OGo out v p => OGo (t ++ out) v p | OEnd out c => OEnd (t ++ out) c | OUb => OUb end.
(** the loop (nbd-trplay.c:263-309); [eno] is the errno of a file that cannot be
    opened.  [PHelp] stands for -h and for '?', both without an argument. *)
Fixpoint popts_text (a0 version : list Z) (eno : list Z -> Z) (fs : pfiles) (os : list popt) (v : Z) (p : pset) : popt_end :=
  match os with
  | [] => OGo [] v p
  | o :: t =>
      match (match o with
             | PV => opt_debug v 118 None | PHelp => opt_debug v 104 None | PM s => opt_debug v 109 (Some s)
             | PB s => opt_debug v 98 (Some s) | PI f => opt_debug v 105 (Some f) | PL f => opt_debug v 108 (Some f)
             end) with
      | None => OUb
      | Some d =>
          printed d
            (match o with
             | PV => popts_text a0 version eno fs t (v + 1) p
             | PHelp => OEnd (help_text a0 version) 0
             | PM s =>
                 let n := strtoull0 s in
                 if n =? 0 then OEnd (text "  Invalid block count." ++ [10]) 1
                 else popts_text a0 version eno fs t v (mkP (p_bs p) n (p_img p) (p_log p))
             | PB s =>
                 let n := strtoull0 s in
                 if n =? 0 then OEnd (text "  Invalid block size." ++ [10]) 1
                 else if TRBUFSIZE <? n then OEnd (text " block size is larger than " ++ pr_d TRBUFSIZE ++ text ", not supported." ++ [10]) 1
                 else popts_text a0 version eno fs t v (mkP n (p_max p) (p_img p) (p_log p))
             | PI f =>
                 match pf_img fs f with
                 | None => OEnd (text "  Opening disk image failed, errno " ++ pr_d (eno f) ++ text ".") 1
                 | Some _ => popts_text a0 version eno fs t v (mkP (p_bs p) (p_max p) (Some f) (p_log p))
                 end
             | PL f =>
                 match pf_log fs f with
                 | None => OEnd (text "  Opening disk image failed, errno " ++ pr_d (eno f) ++ text ".") 1
                 | Some _ => popts_text a0 version eno fs t v (mkP (p_bs p) (p_max p) (p_img p) (Some f))
                 end
             end)
      end
  end.

(** main (nbd-trplay.c:256-327).  Simplification: printing does not fail. *)
Definition trplay_main_text (a0 version : list Z) (eno : list Z -> Z) (fs : pfiles) (pw : nat -> Z) (os : list popt) : ptext :=
  let first := a0 ++ text " -i <image> -l <log> [-m <max blocks>] [-b <block size]" ++ [10] in
  match popts_text a0 version eno fs os 0 pset0 with
  | OUb => PtUb
  | OEnd out code => PText (first ++ out) (PEnd code None)
  | OGo out v p =>
      match p_log p, p_img p with
      | None, _ => PText (first ++ out ++ text "  Log file not specified, this is mandatory." ++ [10]) (PEnd 1 None)      (* 311-314 *)
      | _, None => PText (first ++ out ++ text "  Disk image not specified, this is mandatory." ++ [10]) (PEnd 1 None)    (* 315-318 *)
      | Some l, Some i =>
          match pf_log fs l, pf_img fs i with
          | Some log, Some img =>
              let set := if 1 <=? v
                         then text " block size: " ++ pr_d (p_bs p) ++ text " bytes (" ++ pr_h (p_bs p) ++ text " bytes)." ++ [10] ++
                              text " max blocks to apply: " ++ pr_u (p_max p) ++ text " (" ++ pr_h (p_max p) ++ text ")." ++ [10]
                         else [] in                                                                                       (* 320-323 *)
              let '(ls, o) := play_text v (p_bs p) (p_max p) pw log img in
              PText (first ++ out ++ set ++ concat (map pline_text ls))
                    (match o with TExit code s => PEnd code (Some (i, t_img s)) | _ => PStuck end)
          | _, _ => PText [] PStuck
          end
      end
  end.
