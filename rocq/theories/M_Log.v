(** The tools reading transaction logs: nbd-trplay.c and nbd-trdump.c, and the
    marker the server puts at the head of a log with data
    (nbd-server.c:2211-2266).  Definitions only. *)
From Verif Require Import Base M_Const.

(** The record written when data is logged (nbd-server.c:2225-2242): magic, type
    SET_DATALOG, cookie 0, the from magic, length TRUE. *)
Definition datalog_mark : list Z :=
  be 4 NBD_TRACELOG_MAGIC ++ be 4 1 ++ be 8 0 ++ be 8 NBD_TRACELOG_FROM_MAGIC ++ be 4 1.

(** The file after a session wrote [new] into a log that held [old]: it is opened
    without O_TRUNC and O_APPEND (nbd-server.c:2216-2219). *)
Definition log_file (old new : list Z) : list Z := new ++ skipn (length new) old.

(** doread (nbd-trplay.c:44-61, nbd-trdump.c:28-41) of [n] bytes; [None]: the end
    of the file comes first and the program exits with status 0.
    Simplification: read() of a log file does not fail; short reads are
    continued and make no difference. *)
Definition doread (n : Z) (s : list Z) : option (list Z * list Z) :=
  if zlen s <? n then None else Some (firstn (Z.to_nat n) s, skipn (Z.to_nat n) s).

(** * nbd-trplay *)
(** The program's state: rest of the log, image, g_with_datalog (30), g_cur_blocks
    (40), number of pwrite calls so far. *)
Record tstate := mkT { t_log : list Z; t_img : Z -> Z; t_dl : bool; t_blocks : Z; t_calls : nat }. (* nbd-trplay.c:29-42 *)

(** go on, exit with a status, or an exhausted bound (nbd-trplay.c:53,56) *)
Inductive tout := TGo (s : tstate) | TExit (code : Z) (s : tstate) | TStuck.

(** bytes of a buffer put into the image (pwrite, nbd-trplay.c:74) *)
Definition poke (img : Z -> Z) (off : Z) (b : list Z) : Z -> Z :=
  fun i => if (off <=? i) && (i <? off + zlen b) then nth (Z.to_nat (i - off)) b 0 else img i.

(** dowriteimage (nbd-trplay.c:63-84).  [pw] gives what each pwrite returns, at
    most what was asked; an offset that is negative as off_t fails. *)
Fixpoint dowriteimage (fuel : nat) (pw : nat -> Z) (buf : list Z) (offset : Z) (s : tstate) : tout :=
  if zlen buf <=? 0 then TGo s
  else match fuel with
  | O => TStuck
  | S fuel =>
      let res := if offset <? 0 then -1 else Z.min (pw (t_calls s)) (zlen buf) in
      if res <=? 0 then TExit (if res =? 0 then 0 else 1) s                        (* 74-79 *)
      else dowriteimage fuel pw (skipn (Z.to_nat res) buf) (offset + res)
             (mkT (t_log s) (poke (t_img s) offset (firstn (Z.to_nat res) buf)) (t_dl s) (t_blocks s) (S (t_calls s)))
  end.

(** the loop of WRITE (nbd-trplay.c:111-123) and of TRIM/WRITE_ZEROES (127-139);
    [data]: blocks are read from the log *)
Fixpoint block_loop (fuel : nat) (bs max : Z) (pw : nat -> Z) (data : bool) (offset len : Z) (s : tstate) : tout :=
  if len <=? 0 then TGo s
  else match fuel with
  | O => TStuck
  | S fuel =>
      match (if data : bool then doread bs (t_log s) else Some (repeat 0 (Z.to_nat bs), t_log s)) with
      | None => TExit 0 s
      | Some (b, rest) =>
          match dowriteimage (length b) pw b (i64 offset) (mkT rest (t_img s) (t_dl s) (t_blocks s) (t_calls s)) with
          | TGo s1 =>
              let s2 := mkT (t_log s1) (t_img s1) (t_dl s1) (u64 (t_blocks s1 + 1)) (t_calls s1) in
              if t_blocks s2 =? max then TExit 0 s2                                 (* 119-122 *)
              else block_loop fuel bs max pw data (u64 (offset + bs)) (u32 (len - bs)) s2
          | o => o
          end
      end
  end.

(** process_command (nbd-trplay.c:87-146); [bs]: g_blocksize, [max]: g_max_blocks *)
Definition process_command (bs max : Z) (pw : nat -> Z) (command offset len : Z) (s : tstate) : tout :=
  if negb (offset mod bs =? 0) then TExit 1 s
  else if negb (len mod bs =? 0) then TExit 1 s
  else
    let cmd := Z.land command NBD_CMD_MASK_COMMAND in
    if (cmd =? NBD_CMD_READ) || (cmd =? NBD_CMD_DISC) || (cmd =? NBD_CMD_FLUSH) then TGo s
    else if cmd =? NBD_CMD_WRITE then
      if negb (t_dl s) then TExit 1 s
      else block_loop (Z.to_nat (len / bs)) bs max pw true offset len s
    else if (cmd =? NBD_CMD_TRIM) || (cmd =? NBD_CMD_WRITE_ZEROES) then
      block_loop (Z.to_nat (len / bs)) bs max pw false offset len s
    else TExit 1 s.

(** the log after some bytes were read (nbd-trplay.c:161) *)
Definition t_rest (r : list Z) (s : tstate) : tstate := mkT r (t_img s) (t_dl s) (t_blocks s) (t_calls s).

(** one round of main_loop (nbd-trplay.c:159-235) *)
Definition play_round (bs max : Z) (pw : nat -> Z) (s : tstate) : tout :=
  match doread 4 (t_log s) with
  | None => TExit 0 s
  | Some (m, r) =>
      let magic := unbe m in
      if magic =? NBD_REQUEST_MAGIC then                                            (* 164-184 *)
        match doread 24 r with
        | None => TExit 0 s
        | Some (h, r) =>
            process_command bs max pw (unbe (firstn 4 h)) (unbe (firstn 8 (skipn 12 h))) (unbe (skipn 20 h)) (t_rest r s)
        end
      else if magic =? NBD_REPLY_MAGIC then                                         (* 186-196 *)
        match doread 12 r with
        | None => TExit 0 s
        | Some (_, r) => TGo (t_rest r s)
        end
      else if magic =? NBD_TRACELOG_MAGIC then                                      (* 198-228 *)
        match doread 24 r with
        | None => TExit 0 s
        | Some (h, r) =>
            TGo (if (unbe (firstn 8 (skipn 12 h)) =? NBD_TRACELOG_FROM_MAGIC) && (unbe (firstn 4 h) =? 1)
                 then mkT r (t_img s) (negb (unbe (skipn 20 h) =? 0)) (t_blocks s) (t_calls s)
                 else t_rest r s)
        end
      else TExit 1 s                                                                (* 231-233 *)
  end.

(** main_loop (nbd-trplay.c:148-239) *)
Fixpoint play_loop (fuel : nat) (bs max : Z) (pw : nat -> Z) (s : tstate) : tout :=
  match fuel with
  | O => TStuck
  | S fuel => match play_round bs max pw s with
              | TGo s' => play_loop fuel bs max pw s'
              | o => o
              end
  end.
(** nbd-trplay on a log and an image (nbd-trplay.c:29-42, 324) *)
Definition trplay (bs max : Z) (pw : nat -> Z) (log : list Z) (img : Z -> Z) : tout :=
  play_loop (S (length log)) bs max pw (mkT log img false 0 0%nat).

(** * nbd-trdump *)
(** One line of output: the values shown (nbd-trdump.c:83-89, 108-110, 123-127,
    136, 139, 142, 153-158, 162). *)
Inductive line :=
| LReq (cookie command offset len : Z)
| LRep (cookie error : Z)
| LOpt (command offset len : Z)
| LData (on : bool)
| LUnknownOpt
| LUnknownFrom
| LChunk (cookie type flags paylen : Z)
| LUnknown (magic : Z).

(** ntohs of a 32-bit big-endian field on a little-endian machine: the field is
    first cut to its two bytes of lowest address (nbd-trdump.c:150) *)
Definition ntohs_field (b : list Z) : Z := unbe (firstn 2 b).

(** lines printed and whether data is logged; [None] in place of a state: the
    program has ended with status 0 (nbd-trdump.c:34) *)
Definition dump_round (dl : bool) (s : list Z) : list line * option (bool * list Z) := (* nbd-trdump.c:71-164 *)
  match doread 4 s with
  | None => ([], None)
  | Some (m, r) =>
      let magic := unbe m in
      if magic =? NBD_REQUEST_MAGIC then                                            (* 75-103 *)
        match doread 24 r with
        | None => ([], None)
        | Some (h, r) =>
            let command := unbe (firstn 4 h) in
            let len := unbe (skipn 20 h) in
            let l := [LReq (unbe (firstn 8 (skipn 4 h))) command (unbe (firstn 8 (skipn 12 h))) len] in
            if (Z.land command NBD_CMD_MASK_COMMAND =? NBD_CMD_WRITE) && dl then
              match doread len r with                                               (* 92-100, in pieces of BUFSIZE *)
              | None => (l, None)
              | Some (_, r) => (l, Some (dl, r))
              end
            else (l, Some (dl, r))
        end
      else if magic =? NBD_REPLY_MAGIC then                                         (* 104-113 *)
        match doread 12 r with
        | None => ([], None)
        | Some (h, r) => ([LRep (unbe (skipn 4 h)) (unbe (firstn 4 h))], Some (dl, r))
        end
      else if magic =? NBD_TRACELOG_MAGIC then                                      (* 115-144 *)
        match doread 24 r with
        | None => ([], None)
        | Some (h, r) =>
            let command := unbe (firstn 4 h) in
            let offset := unbe (firstn 8 (skipn 12 h)) in
            let len := unbe (skipn 20 h) in
            let l := LOpt command offset len in
            if offset =? NBD_TRACELOG_FROM_MAGIC then
              if command =? 1 then ([l; LData (negb (len =? 0))], Some (negb (len =? 0), r))
              else ([l; LUnknownOpt], Some (dl, r))
            else ([l; LUnknownFrom], Some (dl, r))
        end
      else if magic =? NBD_STRUCTURED_REPLY_MAGIC then                              (* 145-160 *)
        match doread 16 r with
        | None => ([], None)
        | Some (h, r) =>
            ([LChunk (unbe (firstn 8 (skipn 4 h))) (unbe (firstn 2 (skipn 2 h))) (unbe (firstn 2 h)) (ntohs_field (skipn 12 h))],
             Some (dl, r))
        end
      else ([LUnknown magic], Some (dl, r))                                         (* 161-163 *)
  end.

(** the loop (nbd-trdump.c:70-165); the second component: ended *)
Fixpoint dump_loop (fuel : nat) (dl : bool) (s : list Z) : list line * bool :=
  match fuel with
  | O => ([], false)
  | S fuel => match dump_round dl s with
              | (l, None) => (l, true)
              | (l, Some (dl, r)) => let (l', e) := dump_loop fuel dl r in (l ++ l', e)
              end
  end.
Definition trdump (log : list Z) : list line * bool := dump_loop (S (length log)) false log. (* nbd-trdump.c:25, 70 *)
