(** The text nbd-trdump prints (nbd-trdump.c:43-168) and the names it shows
    (nbd-helper.h:31-76).  Definitions only; the values shown are in M_Log. *)
From Coq Require Import String.
From Verif Require Import Base M_Nego M_Virt M_Const M_Log.
Local Open Scope list_scope.

(** getcommandname (nbd-helper.h:32-46) *)
Definition command_name (c : Z) : list Z :=
  if c =? NBD_CMD_READ then text "NBD_CMD_READ"
  else if c =? NBD_CMD_WRITE then text "NBD_CMD_WRITE"
  else if c =? NBD_CMD_DISC then text "NBD_CMD_DISC"
  else if c =? NBD_CMD_FLUSH then text "NBD_CMD_FLUSH"
  else if c =? NBD_CMD_TRIM then text "NBD_CMD_TRIM"
  else if c =? NBD_CMD_CACHE then text "NBD_CMD_CACHE"
  else if c =? NBD_CMD_WRITE_ZEROES then text "NBD_CMD_WRITE_ZEROES"
  else if c =? 7 then text "NBD_CMD_BLOCK_STATUS"                    (* nbd.h:40 *)
  else if c =? 8 then text "NBD_CMD_RESIZE"                          (* nbd.h:41 *)
  else text "UNKNOWN".
(** gettracelogname (nbd-helper.h:54-60) *)
Definition tracelog_name (t : Z) : list Z := if t =? 1 then text "NBD_TRACELOG_SET_DATALOG" else text "UNKNOWN".
(** getstructreplname (nbd-helper.h:62-75) *)
Definition chunk_name (t : Z) : list Z :=
  if t =? NBD_REPLY_TYPE_NONE then text "NBD_REPLY_TYPE_NONE"
  else if t =? NBD_REPLY_TYPE_OFFSET_DATA then text "NBD_REPLY_TYPE_OFFSET_DATA"
  else if t =? 2 then text "NBD_REPLY_TYPE_OFFSET_HOLE"              (* nbd.h:78 *)
  else if t =? 3 then text "NBD_REPLY_TYPE_BLOCK_STATUS"             (* nbd.h:79 *)
  else if t =? NBD_REPLY_TYPE_ERROR then text "NBD_REPLY_TYPE_ERROR"
  else if t =? NBD_REPLY_TYPE_ERROR_OFFSET then text "NBD_REPLY_TYPE_ERROR_OFFSET"
  else text "UNKNOWN".

(** the hexadecimal digits of a number below 2^64 (the x conversions of
    nbd-trdump.c:83, 108, 123, 153, 162) *)
Fixpoint xdigits (fuel : nat) (x : Z) (acc : list Z) : list Z :=
  match fuel with
  | O => acc
  | S fuel => let acc := digit (x mod 16) :: acc in if x / 16 =? 0 then acc else xdigits fuel (x / 16) acc
  end.
Definition pr_x (w : nat) (x : Z) : list Z := (* %0<w>x, nbd-trdump.c:83 *)
  let d := xdigits 16 x [] in repeat 48 (w - length d) ++ d.
Definition pr_s (w : nat) (s : list Z) : list Z := repeat 32 (w - length s) ++ s. (* %<w>s, nbd-trdump.c:83 *)

(** one line (nbd-trdump.c:83-89, 108-110, 123-127, 136, 139, 142, 153-158, 162) *)
Definition line_text (l : line) : list Z :=
  match l with
  | LReq ck cmd off len =>
      text "> H=" ++ pr_x 16 ck ++ text " C=0x" ++ pr_x 8 cmd ++ text " (" ++ pr_s 20 (command_name (Z.land cmd NBD_CMD_MASK_COMMAND)) ++ text "+" ++
      pr_s 4 (if flag cmd NBD_CMD_FLAG_FUA then text "FUA" else text "NONE") ++ text ") O=" ++ pr_x 16 off ++ text " L=" ++ pr_x 8 len ++ [10]
  | LRep ck e => text "< H=" ++ pr_x 16 ck ++ text " E=0x" ++ pr_x 8 e ++ [10]
  | LOpt cmd off len =>
      text "TRACE_OPTION C=0x" ++ pr_x 8 cmd ++ text " (" ++ pr_s 23 (tracelog_name cmd) ++ text ") O=" ++ pr_x 16 off ++ text " L=" ++ pr_x 8 len ++ [10]
  | LData on => text "TRACE_OPTION DATALOG set to " ++ [if on : bool then 49 else 48] ++ text "." ++ [10]
  | LUnknownOpt => text "TRACE_OPTION ? Unknown type" ++ [10]
  | LUnknownFrom => text "TRACE_OPTION ? Unknown FROM_MAGIC" ++ [10]
  | LChunk ck ty fl n =>
      text "<S: H=" ++ pr_x 16 ck ++ text " T=0x" ++ pr_x 4 ty ++ text " (" ++ pr_s 20 (chunk_name ty) ++ text ") F=0x" ++ pr_x 4 fl ++ text " L=0x" ++ pr_x 4 n ++ [10]
  | LUnknown m => text "? Unknown transaction type " ++ pr_x 8 m ++ [10]
  end.

(** strcmp with a literal (nbd-trdump.c:61); arguments hold no zero byte *)
Definition arg_is (a : list Z) (s : string) : bool := if list_eq_dec Z.eq_dec a (text s) then true else false.
(** main (nbd-trdump.c:43-168): the status and what is printed.  [argv0] and
    [version] are texts printed as they are; [args] are the arguments.
    Simplification: printing does not fail. *)
Definition trdump_main (argv0 version : list Z) (args : list (list Z)) (log : list Z) : Z * list Z :=
  match args with
  | a :: _ =>                                                        (* 59-68 *)
      let usage := text "This is nbd-trdump, part of nbd " ++ version ++ text "." ++ [10] ++ text "Use: " ++ argv0 ++ text " < transactionlog" ++ [10] in
      if arg_is a "--help" || arg_is a "-h" then (0, usage)
      else (1, text "E: unknown option " ++ a ++ text "." ++ [10] ++ usage)
  | [] => (0, concat (map line_text (fst (trdump log))))             (* 70-165 *)
  end.
