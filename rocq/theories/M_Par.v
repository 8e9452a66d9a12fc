(** The transmission phase with its worker threads: the code of M_Raw.v again,
    this time as a tree of atomic steps, and a machine running several such
    trees (the thread pool), the thread that reads requests, the socket mutex
    and the log semaphore.  Definitions only. *)
From Verif Require Import Base M_Const M_Disk M_Tree M_Raw.

(** A thread's code.  [PAct]: one step that no other thread interrupts - a
    system call or an access to shared memory (nbd-server.c:1213, 1457, 1647,
    1652, ...).  [PSend]: lock client->lock, write the bytes to the socket,
    unlock (nbd-server.c:1313-1318, 1422-1427, 2953-2956).  [PLog]:
    lock_logsem, write the bytes to the transaction log, unlock_logsem
    (nbd-server.c:1290-1296). *)
Inductive P (A : Type) : Type :=
| PRet (a : A)
| PAct (X : Type) (m : M X) (k : X -> P A)
| PSend (m : list Z) (k : P A)
| PLog (m : list Z) (k : P A).
Arguments PRet {A}. Arguments PAct {A}. Arguments PSend {A}. Arguments PLog {A}.

(** statement sequence (e.g. nbd-server.c:1206-1213) *)
Fixpoint pbind {A B} (p : P A) (f : A -> P B) : P B :=
  match p with
  | PRet a => f a
  | PAct X m k => PAct X m (fun x => pbind (k x) f)
  | PSend m k => PSend m (pbind k f)
  | PLog m k => PLog m (pbind k f)
  end.
Notation "x <~- m ;; k" := (pbind m (fun x => k)) (at level 61, m at next level, right associativity).
Notation "m ;;- k" := (pbind m (fun _ => k)) (at level 61, right associativity).

(** one atomic step (e.g. nbd-server.c:1213) *)
Definition act {X} (m : M X) : P X := PAct X m PRet.
(** one message sent (nbd-server.c:1313-1318) *)
Definition psend (m : list Z) : P unit := PSend m (PRet tt).
(** one record written to the log (nbd-server.c:1290-1304), if there is one *)
Definition plog (lg : bool) (m : list Z) : P unit := if lg then PLog m (PRet tt) else PRet tt.

(** A C loop (nbd-server.c:1276, 1473, 1571, 1639, ...) as in M_Disk.mloop. *)
Fixpoint ploopP {S R} (body : S -> P (S + R)) (n : positive) (s : S) : P (S + R) :=
  match n with
  | xH => body s
  | xO q => r <~- ploopP body q s ;;
            match r with inl s' => ploopP body q s' | inr r => PRet (inr r) end
  | xI q => r <~- body s ;;
            match r with
            | inl s1 => r2 <~- ploopP body q s1 ;;
                        match r2 with inl s2 => ploopP body q s2 | inr r => PRet (inr r) end
            | inr r => PRet (inr r)
            end
  end.
(** the loop with its iteration bound (nbd-server.c:1276 etc.); reaching the
    bound is not a behaviour of the code *)
Definition ploop {S R} (bound : Z) (body : S -> P (S + R)) (s : S) : P R :=
  r <~- ploopP body (Z.to_pos (bound + 1)) s ;;
  match r with inl _ => act (fun _ => Stuck) | inr r => PRet r end.

(** ** The data path *)
(** nbd-server.c:1214-1255 *)
Definition p_sync_after (c : client) (h : fref) (fua : bool) : P unit :=
  if cflag c F_SYNC then act (sys_fsync h) ;;- PRet tt
  else if fua then act (sys_fsync h) ;;- PRet tt
  else PRet tt.

(** rawexpwrite (nbd-server.c:1200-1261).  get_filepos (nbd-server.c:1142-1187)
    is one step: for arrays of files it reads memory that never changes, for
    tree exports open_treefile runs under client->lock (treefiles.c:71,105). *)
Definition p_rawexpwrite (c : client) (a : Z) (d : Z -> Z) (len : Z) (fua : bool) : P Z :=
  p <~- act (get_filepos c a) ;;
  match p with
  | None => PRet (-1)
  | Some (h, foffset, maxbytes) =>
      k <~- act (sys_pwrite h foffset (clamp maxbytes len) d) ;;
      p_sync_after c h fua ;;-
      PRet k
  end.

(** nbd-server.c:1276-1280 *)
Definition p_rawexpwrite_fully_body (c : client) (d : Z -> Z) (fua : bool) (s : Z * Z * Z)
  : P ((Z * Z * Z) + bool) :=
  let '(a, b, len) := s in
  if 0 <? len then
    k <~- p_rawexpwrite c a (fun i => d (b + i)) len fua ;;
    if 0 <? k then PRet (inl (a + k, b + k, len - k))
    else PRet (inr true)
  else PRet (inr false).

(** rawexpwrite_fully (nbd-server.c:1273-1282) *)
Definition p_rawexpwrite_fully (c : client) (a : Z) (d : Z -> Z) (len : Z) (fua : bool) : P bool :=
  ploop (len + 1) (p_rawexpwrite_fully_body c d fua) (a, 0, len).

(** rawexpread (nbd-server.c:1444-1462) *)
Definition p_rawexpread (c : client) (a len : Z) : P (Z * (Z -> Z)) :=
  p <~- act (get_filepos c a) ;;
  match p with
  | None => PRet (-1, fun _ => 0)
  | Some (h, foffset, maxbytes) => act (sys_pread h foffset (clamp maxbytes len))
  end.

(** The header of a simple reply (nbd.h:102-106), as also logged by log_reply
    (nbd-server.c:1290-1296) *)
Definition simple_head (cookie : list Z) (e : Z) : list Z := be 4 NBD_REPLY_MAGIC ++ be 4 e ++ cookie.
(** The header of a structured chunk (nbd.h:111-117), as also logged by
    log_structured_reply (nbd-server.c:1298-1304) *)
Definition chunk_head (cookie : list Z) (flags type length : Z) : list Z :=
  be 4 NBD_STRUCTURED_REPLY_MAGIC ++ be 2 flags ++ be 2 type ++ cookie ++ be 4 (u32 length).

(** A simple reply is logged, then sent (nbd-server.c:1421-1427, 2952-2956,
    3087-3090). *)
Definition p_simple (lg : bool) (cookie : list Z) (e : Z) (data : list Z) : P unit :=
  plog lg (simple_head cookie e) ;;- psend (simple_reply cookie e data).
(** A structured chunk is sent, then logged (nbd-server.c:1313-1319). *)
Definition p_chunk (lg : bool) (cookie : list Z) (flags type length : Z) (payload : list Z) : P unit :=
  psend (chunk cookie flags type length payload) ;;- plog lg (chunk_head cookie flags type length).

(** confirm_read (nbd-server.c:1362-1368) *)
Definition p_confirm_read (lg : bool) (rq : request) (x : readctx) (len_read : Z) : P unit :=
  if x_structured x && negb (x_df x) then
    p_chunk lg (rq_cookie rq) 0 NBD_REPLY_TYPE_OFFSET_DATA (len_read + 8)
            (be 8 (u64 (rq_from rq + x_off x)) ++ slice (x_buf x) 0 len_read)
  else PRet tt.

(** nbd-server.c:1473-1481 *)
Definition p_rawexpread_fully_body (lg : bool) (rq : request) (c : client) (x : readctx)
  : P (readctx + (readctx * bool)) :=
  if 0 <? x_len x then
    xi <~- act (find_read_buf x) ;;
    let '(x1, i) := xi in
    kd <~- p_rawexpread c (i64 (rq_from rq) + x_off x) (x_len x) ;;
    let '(k, d) := kd in
    if k <=? 0 then PRet (inr (x1, true))
    else
      x2 <~- act (buf_store x1 i k d) ;;
      p_confirm_read lg rq x2 k ;;-
      PRet (inl (ctx_set x2 (x_off x + k) (x_len x - k)))
  else PRet (inr (x, false)).

(** rawexpread_fully (nbd-server.c:1468-1483) *)
Definition p_rawexpread_fully (lg : bool) (rq : request) (c : client) (x : readctx) : P (readctx * bool) :=
  ploop (x_len x + 1) (p_rawexpread_fully_body lg rq c) x.

(** nbd-server.c:1571-1601.  The export_lock (waitfile exports only) is not
    part of this model: the export array of [c] is fixed here; see M_Wait.v. *)
Definition p_expread_body (lg : bool) (rq : request) (c : client) (maph : Z) (s : Z * Z * Z * readctx)
  : P ((Z * Z * Z * readctx) + (readctx * bool)) :=
  let '(mapcnt, a, len, x) := s in
  if mapcnt <=? maph then
    let pagestart := mapcnt * DIFFPAGESIZE in
    let offset := a - pagestart in
    let rdlen := page_part offset len in
    v <~- act (read_map mapcnt) ;;
    if negb (v =? NOPAGE) then
      xi <~- act (find_read_buf x) ;;
      let '(x1, i) := xi in
      kd <~- act (sys_pread FDiff (diff_off v offset) rdlen) ;;
      let '(k, d) := kd in
      x2 <~- act (buf_store x1 i k d) ;;
      if negb (k =? rdlen) then PRet (inr (x2, true))
      else
        p_confirm_read lg rq x2 rdlen ;;-
        PRet (inl (mapcnt + 1, a + rdlen, u64 (len - rdlen), x2))
    else if waiting c then PRet (inr (x, true))
    else
      xr <~- p_rawexpread_fully lg rq c (ctx_set x (x_off x) (u32 rdlen)) ;;
      let '(x2, failed) := xr in
      if failed then PRet (inr (x2, true))
      else PRet (inl (mapcnt + 1, a + rdlen, u64 (len - rdlen), x2))
  else PRet (inr (x, false)).

(** expread (nbd-server.c:1557-1610) *)
Definition p_expread (lg : bool) (rq : request) (c : client) (x : readctx) : P (readctx * bool) :=
  let a := x_off x + i64 (rq_from rq) in
  let len := rq_len rq in
  if negb (cflag c F_COPYONWRITE) && negb (waiting c) then p_rawexpread_fully lg rq c x
  else
    let mapl := a / DIFFPAGESIZE in
    let maph := map_high a len in
    ploop (maph - mapl + 1) (p_expread_body lg rq c maph) (mapl, a, len, x).

(** nbd-server.c:1664-1668 *)
Definition p_copyin_body (c : client) (s : Z * Z * Z * (Z -> Z))
  : P ((Z * Z * Z * (Z -> Z)) + (Z * (Z -> Z))) :=
  let '(pagestart, p, rdlen, pb) := s in
  if 0 <? rdlen then
    kd <~- p_rawexpread c pagestart rdlen ;;
    let '(k, d) := kd in
    if 0 <? k then
      PRet (inl (pagestart + k, p + k, rdlen - k,
                fun j => if (p <=? j) && (j <? p + k) then d (j - p) else pb j))
    else PRet (inr (k, pb))
  else PRet (inr (1, pb)).

(** nbd-server.c:1656-1671 *)
Definition p_fill_page (c : client) (pagestart offset wrlen : Z) (pb : Z -> Z) : P (option (Z -> Z)) :=
  if negb (offset =? 0) || negb (wrlen =? DIFFPAGESIZE) then
    if waiting c then PRet None
    else
      kp <~- ploop (DIFFPAGESIZE + 1) (p_copyin_body c) (pagestart, 0, DIFFPAGESIZE, pb) ;;
      let '(k, pb1) := kp in
      if k <? 0 then PRet None else PRet (Some pb1)
  else PRet (Some pb).

(** nbd-server.c:1639-1678.  "difmap[mapcnt] = difffilelen++" (nbd-server.c:1652)
    is three accesses to memory: read difffilelen, write it, write the map
    entry; no lock is held for copy-on-write exports (nbd-server.c:1645-1646). *)
Definition p_expwrite_body (c : client) (d : Z -> Z) (maph : Z) (s : Z * Z * Z * Z * (Z -> Z))
  : P ((Z * Z * Z * Z * (Z -> Z)) + bool) :=
  let '(mapcnt, a, b, len, pb) := s in
  if mapcnt <=? maph then
    let pagestart := mapcnt * DIFFPAGESIZE in
    let offset := a - pagestart in
    let wrlen := page_part offset len in
    v <~- act (read_map mapcnt) ;;
    if negb (v =? NOPAGE) then
      k <~- act (sys_pwrite FDiff (diff_off v offset) wrlen (fun i => d (b + i))) ;;
      if negb (k =? wrlen) then PRet (inr true)
      else PRet (inl (mapcnt + 1, a + wrlen, b + wrlen, u64 (len - wrlen), pb))
    else
      (if cflag c F_SPARSE then act (modify (set_map mapcnt (u32 mapcnt)))
       else
         n <~- act (get w_dlen) ;;
         act (modify (set_map mapcnt n)) ;;- act (modify (set_dlen (u32 (n + 1))))) ;;-
      pb1 <~- p_fill_page c pagestart offset wrlen pb ;;
      match pb1 with
      | None => PRet (inr true)
      | Some pb1 =>
          let pb2 := fun j => if (offset <=? j) && (j <? offset + wrlen)
                              then d (b + (j - offset)) else pb1 j in
          k <~- act (sys_write_diff DIFFPAGESIZE pb2) ;;
          if negb (k =? DIFFPAGESIZE) then PRet (inr true)
          else PRet (inl (mapcnt + 1, a + wrlen, b + wrlen, u64 (len - wrlen), pb2))
      end
  else PRet (inr false).

(** expwrite (nbd-server.c:1624-1692) *)
Definition p_expwrite (c : client) (a : Z) (d : Z -> Z) (len : Z) (fua : bool) : P bool :=
  if negb (cflag c F_COPYONWRITE) && negb (waiting c) then p_rawexpwrite_fully c a d len fua
  else
    let mapl := a / DIFFPAGESIZE in
    let maph := map_high a len in
    g <~- act (get w_heap) ;;
    failed <~- ploop (maph - mapl + 1) (p_expwrite_body c d maph) (mapl, a, 0, len, g) ;;
    if failed : bool then PRet true
    else p_sync_after c FDiff fua ;;- PRet false.

(** nbd-server.c:1711-1721 *)
Definition p_expwrite_zeroes_body (c : client) (a : Z) (fua : bool) (len : Z) : P (Z + bool) :=
  if 0 <? len then
    let l := if ZMAX <? len then ZMAX else len in
    failed <~- p_expwrite c a (fun _ => 0) l fua ;;
    if failed : bool then PRet (inr true) else PRet (inl (len - l))
  else PRet (inr false).

(** expwrite_zeroes (nbd-server.c:1704-1724) *)
Definition p_expwrite_zeroes (c : client) (rq : request) (fua : bool) : P bool :=
  ploop (rq_len rq + 1) (p_expwrite_zeroes_body c (i64 (rq_from rq)) fua) (rq_len rq).

(** nbd-server.c:1751-1755 *)
Fixpoint p_fsync_all (fis : list finfo) : P bool :=
  match fis with
  | [] => PRet false
  | fi :: t =>
      r <~- act (sys_fsync (fi_h fi)) ;;
      if r <? 0 then PRet true else p_fsync_all t
  end.

(** expflush (nbd-server.c:1732-1758) *)
Definition p_expflush (c : client) : P bool :=
  if cflag c F_COPYONWRITE then r <~- act (sys_fsync FDiff) ;; PRet (negb (r =? 0))
  else if cflag c F_WAIT then r <~- act (sys_fsync FDiff) ;; PRet (negb (r =? 0))
  else if cflag c F_TREEFILES then
    if cflag c F_READONLY then PRet false else act sys_sync ;;- PRet false
  else
    match c_export c with
    | None => act ub
    | Some fis => p_fsync_all fis
    end.

(** nbdsrv.c:285-288 *)
Definition p_trim_tree_body (c : client) (max : Z) (min : Z) : P (Z + unit) :=
  if min <? max then
    act (delete_treefile (c_namelen c) (i64 (c_size c)) min) ;;-
    PRet (inl (min + TREEPAGESIZE))
  else PRet (inr tt).

(** nbdsrv.c:295-310 *)
Definition p_trim_body (c : client) (export : list finfo) (rq : request) (s : fref * Z * Z)
  : P ((fref * Z * Z) + unit) :=
  let '(h, start, i) := s in
  let next := match nth_error export (Z.to_nat i) with
              | Some nx => (fi_h nx, fi_start nx)
              | None => (FBad, i64 (c_size c))
              end in
  (if (start <=? rq_from rq) && (rq_len rq <=? snd next - start) then
     let reqoff := i64 (rq_from rq - start) in
     let curlen := snd next - reqoff in
     let reqlen := if rq_len rq <? curlen - reqoff then rq_len rq else curlen - reqoff in
     act (punch_hole h reqoff reqlen)
   else PRet tt) ;;-
  let i' := i + 1 in
  if (i' <? zlen export) && (snd next <? u64 (rq_from rq + rq_len rq))
  then PRet (inl (fst next, snd next, i'))
  else PRet (inr tt).

(** exptrim (nbdsrv.c:270-313) *)
Definition p_exptrim (c : client) (rq : request) : P unit :=
  act (assert_ (negb (cflag c F_READONLY))) ;;-
  act (assert_ (u64 (rq_from rq + rq_len rq) <=? c_size c)) ;;-
  if cflag c F_COPYONWRITE then PRet tt
  else if cflag c F_TREEFILES then
    let min := i64 (u64 (rq_from rq + TREEPAGESIZE - 1) / TREEPAGESIZE * TREEPAGESIZE) in
    let max := i64 (u64 (rq_from rq + rq_len rq) / TREEPAGESIZE * TREEPAGESIZE) in
    ploop (rq_len rq + 1) (p_trim_tree_body c max) min
  else
    match c_export c with
    | None => act ub
    | Some export =>
        match nth_error export 0 with
        | None => act ub
        | Some cur => ploop (zlen export + 1) (p_trim_body c export rq) (fi_h cur, fi_start cur, 1)
        end
    end.

(** complete_read (nbd-server.c:1370-1431) *)
Definition p_complete_read (lg : bool) (rq : request) (x : readctx) (e : Z) (msg : list Z) : P unit :=
  if x_structured x then
    (if x_df x && (e =? 0) then
       p_chunk lg (rq_cookie rq) 0 NBD_REPLY_TYPE_OFFSET_DATA (u32 (rq_len rq + 8))
               (be 8 (rq_from rq) ++ slice (x_buf x) 0 0)
     else PRet tt) ;;-
    if negb (e =? 0) then
      p_chunk lg (rq_cookie rq) NBD_REPLY_FLAG_DONE NBD_REPLY_TYPE_ERROR (6 + zlen msg)
              (be 4 e ++ le16 (zlen msg) ++ msg)
    else p_chunk lg (rq_cookie rq) NBD_REPLY_FLAG_DONE NBD_REPLY_TYPE_NONE 0 []
  else
    p_simple lg (rq_cookie rq) e (if e =? 0 then slice (x_buf x) 0 (x_buflen x) else []).

(** handle_normal_read (nbd-server.c:2871-2913) *)
Definition p_handle_normal_read (lg : bool) (c : client) (rq : request) : P unit :=
  let st := c_structured c in
  let df := flag (rq_type rq) NBD_CMD_FLAG_DF in
  if st && df && (1048576 <? rq_len rq) then
    p_chunk lg (rq_cookie rq) NBD_REPLY_FLAG_DONE NBD_REPLY_TYPE_ERROR (6 + zlen too_long)
            (le32 NBD_EOVERFLOW ++ le16 (zlen too_long) ++ too_long)
  else
    g <~- act (get w_heap) ;;
    let x := if df || negb st
             then mkCtx g (rq_len rq) (rq_len rq) 0 (rq_len rq) st df
             else mkCtx g 0 0 0 (rq_len rq) st df in
    xr <~- p_expread lg rq c x ;;
    let '(x1, failed) := xr in
    if failed : bool then
      e <~- act (get w_errno) ;;
      p_complete_read lg rq x1 (nbd_errno e) read_failed
    else p_complete_read lg rq x1 0 [].

(** nbd-server.c:1538-1542 *)
Definition p_expsplice_in_body (c : client) (s : Z * Z * list Z) : P ((Z * Z * list Z) + option (list Z)) :=
  let '(a, len, acc) := s in
  if 0 <? len then
    kd <~- p_rawexpread c a len ;;
    let '(k, d) := kd in
    if 0 <? k then PRet (inl (a + k, len - k, acc ++ slice d 0 k))
    else PRet (inr None)
  else PRet (inr (Some acc)).

(** expsplice reading (nbd-server.c:1534-1544) *)
Definition p_expsplice_in (c : client) (a len : Z) : P (option (list Z)) :=
  ploop (len + 1) (p_expsplice_in_body c) (a, len, []).

(** handle_splice_read (nbd-server.c:2840-2868) *)
Definition p_handle_splice_read (lg : bool) (c : client) (rq : request) : P bool :=
  if c_tls c then PRet false
  else
    ok <~- act (mkpipe (rq_len rq)) ;;
    if negb ok then PRet false
    else
      r <~- p_expsplice_in c (i64 (rq_from rq)) (rq_len rq) ;;
      match r with
      | None => PRet false
      | Some data => p_simple lg (rq_cookie rq) 0 data ;;- PRet true
      end.

(** handle_read (nbd-server.c:2915-2927) *)
Definition p_handle_read (lg : bool) (c : client) (rq : request) : P unit :=
  done <~- (if cflag c F_SPLICE then p_handle_splice_read lg c rq else PRet false) ;;
  if done : bool then PRet tt else p_handle_normal_read lg c rq.

(** handle_write (nbd-server.c:2929-2958) *)
Definition p_handle_write (lg : bool) (c : client) (rq : request) (p : payload) : P unit :=
  let fua := flag (rq_type rq) NBD_CMD_FLAG_FUA in
  failed <~- (match p with
             | PBuf d => p_expwrite c (i64 (rq_from rq)) d (rq_len rq) fua
             | PPipe d => p_rawexpwrite_fully c (i64 (rq_from rq)) d (rq_len rq) fua
             | PNone => act ub
             end) ;;
  e <~- act (get w_errno) ;;
  p_simple lg (rq_cookie rq) (if failed : bool then nbd_errno e else 0) [].

(** handle_flush (nbd-server.c:2960-2972) *)
Definition p_handle_flush (lg : bool) (c : client) (rq : request) : P unit :=
  failed <~- p_expflush c ;;
  e <~- act (get w_errno) ;;
  p_simple lg (rq_cookie rq) (if failed : bool then nbd_errno e else 0) [].

(** handle_trim (nbd-server.c:2974-2986) *)
Definition p_handle_trim (lg : bool) (c : client) (rq : request) : P unit :=
  p_exptrim c rq ;;-
  p_simple lg (rq_cookie rq) 0 [].

(** handle_write_zeroes (nbd-server.c:2988-3004) *)
Definition p_handle_write_zeroes (lg : bool) (c : client) (rq : request) : P unit :=
  let fua := flag (rq_type rq) NBD_CMD_FLAG_FUA in
  failed <~- p_expwrite_zeroes c rq fua ;;
  e <~- act (get w_errno) ;;
  p_simple lg (rq_cookie rq) (if failed : bool then nbd_errno e else 0) [].

(** nbd-server.c:3084-3090 *)
Definition p_reply_error (lg : bool) (rq : request) (e : Z) : P unit :=
  p_simple lg (rq_cookie rq) (nbd_errno e) [].

(** handle_request (nbd-server.c:3025-3093): what one worker does with one
    package.  [lg]: client->transactionlogfd != -1. *)
Definition p_handle_request (lg : bool) (c : client) (rq : request) (p : payload) : P unit :=
  if bad_flags rq then p_reply_error lg rq EINVAL
  else if cmd_of rq =? NBD_CMD_READ then
    if bad_range c rq then p_reply_error lg rq EINVAL else p_handle_read lg c rq
  else if cmd_of rq =? NBD_CMD_WRITE then
    if bad_write c then p_reply_error lg rq EPERM
    else if bad_range c rq then p_reply_error lg rq ENOSPC
    else p_handle_write lg c rq p
  else if cmd_of rq =? NBD_CMD_FLUSH then p_handle_flush lg c rq
  else if cmd_of rq =? NBD_CMD_TRIM then
    if bad_write c then p_reply_error lg rq EPERM
    else if bad_range c rq then p_reply_error lg rq EINVAL
    else p_handle_trim lg c rq
  else if cmd_of rq =? NBD_CMD_WRITE_ZEROES then
    if bad_write c then p_reply_error lg rq EPERM
    else if bad_range c rq then p_reply_error lg rq ENOSPC
    else p_handle_write_zeroes lg c rq
  else p_reply_error lg rq EINVAL.

(** ** The machine *)

(** A pool thread (g_thread_pool, nbd-server.c:3245, 3983): idle; running the
    code of request number [i] with its own errno; holding client->lock with
    some bytes still to be written (nbd-server.c:1313-1318); holding the log
    semaphore likewise (nbd-server.c:1290-1296); stuck in g_thread_pool_free
    called by itself through socket_closed_transmission (nbd-server.c:402-408,
    452-453, 464-467), which waits for all threads of the pool including the
    caller, client->lock still held. *)
Inductive worker :=
| WIdle
| WRun (i : nat) (e : Z) (p : P unit)
| WSend (i : nat) (e : Z) (rest : list Z) (p : P unit)
| WLog (i : nat) (e : Z) (rest : list Z) (p : P unit)
| WHung (i : nat).

(** Where the reading thread is (mainloop_threaded, nbd-server.c:3095-3152):
    reading a header; header read, to be logged (3106-3117); logged and
    converted, [held] telling whether the log semaphore is still held (3112);
    reading the payload of a WRITE (3128-3137); payload read, [held]; pushing
    the package (3150); in finalize_client waiting for the pool
    (nbd-server.c:453), after DISC or after a lost connection, the semaphore
    possibly still held; done: returned
    after DISC or exited by err() (nbd-server.c:468). *)
Inductive reader :=
| RHead
| RLog (hdr : list Z)
| RDecode (hdr : list Z) (held : bool)
| RPayload (rq : request) (held : bool)
| RLogData (rq : request) (p : payload) (data : list Z) (held : bool)
| RPush (rq : request) (p : payload)
| RJoin (disc held : bool)
| RDone (disc : bool).

(** The process: storage and memory; bytes the client has sent and the server
    not yet read; the reading thread; the queue of the pool
    (nbd-server.c:3150); its threads; bytes written to the socket; bytes
    written to the log after the connection was set up; who has the log
    semaphore (nbd-server.c:427-432).  client->lock is held by the thread in
    [WSend] or [WHung].  [y_next]: number of requests pushed so far;
    [y_hist]: ghost, requests pushed in order; [y_msgs]: ghost, messages in the
    order client->lock was taken for them, with the number of the request;
    [y_recs]: ghost, records in the order the semaphore was taken for them,
    with the number of the request or [None] for the reading thread. *)
Record sys := mkY {
  y_w : world;
  y_in : list Z;
  y_rd : reader;
  y_q : list (nat * request * payload);
  y_th : list worker;
  y_out : list Z;
  y_log : list Z;
  y_next : nat;
  y_hist : list (request * payload);
  y_msgs : list (nat * list Z);
  y_recs : list (option nat * list Z)
}.

(** One scheduling decision: the reading thread moves; pool thread [t] moves,
    its write() (if it is writing) accepting [n] bytes (cliserv.c:152); its
    write() fails (cliserv.c:152-158) with an errno other than EPIPE; the
    process is killed by SIGPIPE (the server never blocks it). *)
Inductive choice := CReader | CWork (t : nat) (n : nat) | CFail (t : nat) | CPipe (t : nat).

(** Outcome of one decision: the next state; not possible now (blocked or
    nothing to do); undefined behaviour; process exit by err() or a signal. *)
Inductive sout := SGo (s : sys) | SNot | SUb | SExit (s : sys).

(** [client->lock] held by pool thread (nbd-server.c:1313) *)
Definition holds_lock (x : worker) : bool :=
  match x with WSend _ _ _ _ | WHung _ => true | _ => false end.
(** log semaphore held by a pool thread (nbd-server.c:1292) *)
Definition holds_sem (x : worker) : bool := match x with WLog _ _ _ _ => true | _ => false end.
(** log semaphore held by the reading thread (nbd-server.c:3107,3114,3142) *)
Definition rd_sem (r : reader) : bool :=
  match r with
  | RDecode _ h | RPayload _ h | RLogData _ _ _ h | RJoin _ h => h
  | _ => false
  end.
(** pool thread waiting for work (g_thread_pool_free waits for all of them,
    nbd-server.c:453) *)
Definition is_idle (x : worker) : bool := match x with WIdle => true | _ => false end.

(** nobody has client->lock (nbd-server.c:1313) *)
Definition lock_free (s : sys) : bool := negb (existsb holds_lock (y_th s)).
(** nobody has the log semaphore (nbd-server.c:428) *)
Definition sem_free (s : sys) : bool := negb (existsb holds_sem (y_th s)) && negb (rd_sem (y_rd s)).

(** replace one pool thread (nbd-server.c:3245) *)
Definition set_th (l : list worker) (t : nat) (x : worker) : list worker :=
  firstn t l ++ x :: skipn (S t) l.

(** field updates of the process state (nbd-server.c:3095-3152) *)
Definition y_setw (w : world) (s : sys) : sys :=
  mkY w (y_in s) (y_rd s) (y_q s) (y_th s) (y_out s) (y_log s) (y_next s) (y_hist s) (y_msgs s) (y_recs s).
(** a pool thread changes its state (nbd-server.c:3025) *)
Definition y_setth (t : nat) (x : worker) (s : sys) : sys :=
  mkY (y_w s) (y_in s) (y_rd s) (y_q s) (set_th (y_th s) t x) (y_out s) (y_log s) (y_next s) (y_hist s) (y_msgs s) (y_recs s).
(** the reading thread goes on (nbd-server.c:3101-3151) *)
Definition y_setrd (r : reader) (s : sys) : sys :=
  mkY (y_w s) (y_in s) r (y_q s) (y_th s) (y_out s) (y_log s) (y_next s) (y_hist s) (y_msgs s) (y_recs s).
(** bytes taken off the socket (nbd-server.c:3104,3137) *)
Definition y_setin (b : list Z) (s : sys) : sys :=
  mkY (y_w s) b (y_rd s) (y_q s) (y_th s) (y_out s) (y_log s) (y_next s) (y_hist s) (y_msgs s) (y_recs s).
(** a package taken by a pool thread (nbd-server.c:3245) *)
Definition y_setq (q : list (nat * request * payload)) (s : sys) : sys :=
  mkY (y_w s) (y_in s) (y_rd s) q (y_th s) (y_out s) (y_log s) (y_next s) (y_hist s) (y_msgs s) (y_recs s).
(** bytes accepted by the socket (cliserv.c:152) *)
Definition y_put (b : list Z) (s : sys) : sys :=
  mkY (y_w s) (y_in s) (y_rd s) (y_q s) (y_th s) (y_out s ++ b) (y_log s) (y_next s) (y_hist s) (y_msgs s) (y_recs s).
(** bytes appended to the log (nbd-server.c:1293,3108,3141) *)
Definition y_putlog (b : list Z) (s : sys) : sys :=
  mkY (y_w s) (y_in s) (y_rd s) (y_q s) (y_th s) (y_out s) (y_log s ++ b) (y_next s) (y_hist s) (y_msgs s) (y_recs s).
(** ghost: a message begins (nbd-server.c:1313) *)
Definition y_addmsg (i : nat) (m : list Z) (s : sys) : sys :=
  mkY (y_w s) (y_in s) (y_rd s) (y_q s) (y_th s) (y_out s) (y_log s) (y_next s) (y_hist s) (y_msgs s ++ [(i, m)]) (y_recs s).
(** ghost: a log record begins (nbd-server.c:1292,3107); [None]: written by the
    reading thread *)
Definition y_addrec (i : option nat) (m : list Z) (s : sys) : sys :=
  mkY (y_w s) (y_in s) (y_rd s) (y_q s) (y_th s) (y_out s) (y_log s) (y_next s) (y_hist s) (y_msgs s) (y_recs s ++ [(i, m)]).
(** g_thread_pool_push (nbd-server.c:3150) *)
Definition y_push (rq : request) (p : payload) (s : sys) : sys :=
  mkY (y_w s) (y_in s) (y_rd s) (y_q s ++ [(y_next s, rq, p)]) (y_th s) (y_out s) (y_log s) (S (y_next s))
      (y_hist s ++ [(rq, p)]) (y_msgs s) (y_recs s).

(** One move of the reading thread (mainloop_threaded, nbd-server.c:3095-3152).
    socket_read of bytes that never come ends in socket_closed_transmission
    (nbd-server.c:363-369, 464-469): finalize_client, then err().
    Simplification: readit's partial reads (cliserv.c:119-138) are not
    separate moves, only this thread reads. *)
Definition reader_step (lg : bool) (c : client) (s : sys) : sout :=
  match y_rd s with
  | RHead =>
      if (length (y_in s) <? 28)%nat then SGo (y_setrd (RJoin false false) s)
      else SGo (y_setin (skipn 28 (y_in s)) (y_setrd (RLog (firstn 28 (y_in s))) s))
  | RLog hdr =>
      if lg then
        if sem_free s then
          let held := (cmd_of (snd (decode_request hdr)) =? NBD_CMD_WRITE) && cflag c F_DATALOG
                      && negb (cflag c F_SPLICE) in
          SGo (y_putlog hdr (y_addrec None hdr (y_setrd (RDecode hdr held) s)))
        else SNot
      else SGo (y_setrd (RDecode hdr false) s)
  | RDecode hdr held =>
      let '(magic, rq) := decode_request hdr in
      if negb (magic =? NBD_REQUEST_MAGIC) then SExit s
      else if cmd_of rq =? NBD_CMD_WRITE then SGo (y_setrd (RPayload rq held) s)
      else if rq_type rq =? NBD_CMD_DISC then SGo (y_setrd (RJoin true held) s)
      else SGo (y_setrd (RPush rq PNone) s)
  | RPayload rq held =>
      if zlen (y_in s) <? rq_len rq then SGo (y_setrd (RJoin false held) s)
      else
        let n := Z.to_nat (rq_len rq) in
        match receive_payload c rq (firstn n (y_in s)) (y_w s) with
        | Ret p w' => SGo (y_setw w' (y_setin (skipn n (y_in s)) (y_setrd (RLogData rq p (firstn n (y_in s)) held) s)))
        | Ub => SUb
        | Die _ | Stuck => SExit s
        end
  | RLogData rq p data held =>
      let s1 := y_setrd (RPush rq p) s in
      SGo (if held then y_putlog data (y_addrec None data s1) else s1)
  | RPush rq p => SGo (y_setrd RHead (y_push rq p s))
  | RJoin disc _ =>
      if match y_q s with [] => true | _ => false end && forallb is_idle (y_th s)
      then SGo (y_setrd (RDone disc) s) else SNot
  | RDone _ => SNot
  end.

(** One move of pool thread [t] whose next write() accepts at most [n] bytes
    (but at least one). *)
Definition worker_step (lg : bool) (c : client) (t n : nat) (s : sys) : sout :=
  match nth_error (y_th s) t with
  | None => SNot
  | Some WIdle =>
      match y_q s with
      | [] => SNot
      | (i, rq, p) :: q =>
          SGo (y_setth t (WRun i (w_errno (y_w s)) (p_handle_request lg c rq p)) (y_setq q s))
      end
  | Some (WRun i e (PRet _)) => SGo (y_setth t WIdle s)
  | Some (WRun i e (PAct X m k)) =>
      match m (set_errno e (y_w s)) with
      | Ret a w' => SGo (y_setth t (WRun i (w_errno w') (k a)) (y_setw (set_errno (w_errno (y_w s)) w') s))
      | Ub => SUb
      | Die w' => SExit (y_setw w' s)
      | Stuck => SExit s
      end
  | Some (WRun i e (PSend m k)) =>
      if lock_free s then SGo (y_addmsg i m (y_setth t (WSend i e m k) s)) else SNot
  | Some (WSend i e [] k) => SGo (y_setth t (WRun i e k) s)
  | Some (WSend i e rest k) =>
      let n := Nat.max 1 (Nat.min n (length rest)) in
      SGo (y_put (firstn n rest) (y_setth t (WSend i e (skipn n rest) k) s))
  | Some (WRun i e (PLog m k)) =>
      if sem_free s then SGo (y_addrec (Some i) m (y_setth t (WLog i e m k) s)) else SNot
  | Some (WLog i e [] k) => SGo (y_setth t (WRun i e k) s)
  | Some (WLog i e rest k) =>
      let n := Nat.max 1 (Nat.min n (length rest)) in
      SGo (y_putlog (firstn n rest) (y_setth t (WLog i e (skipn n rest) k) s))
  | Some (WHung i) => SNot
  end.

(** One scheduling decision (the operating system's scheduler over the threads
    of nbd-server.c:3095-3152 and 3025-3093). *)
Definition sys_step (lg : bool) (c : client) (x : choice) (s : sys) : sout :=
  match x with
  | CReader => reader_step lg c s
  | CWork t n => worker_step lg c t n s
  | CFail t =>
      match nth_error (y_th s) t with
      | Some (WSend i _ (_ :: _) _) => SGo (y_setth t (WHung i) s)
      | _ => SNot
      end
  | CPipe t =>
      match nth_error (y_th s) t with
      | Some (WSend i _ (_ :: _) _) => SExit s
      | _ => SNot
      end
  end.

(** A schedule; decisions that are not possible are skipped. *)
Fixpoint sys_run (lg : bool) (c : client) (l : list choice) (s : sys) : sout :=
  match l with
  | [] => SGo s
  | x :: l =>
      match sys_step lg c x s with
      | SGo s' => sys_run lg c l s'
      | SNot => sys_run lg c l s
      | SUb => SUb
      | SExit s' => SExit s'
      end
  end.

(** Start of the transmission phase: [n] pool threads (nbd-server.c:3245,
    3983), nothing in the queue. *)
Definition sys_init (n : nat) (inp : list Z) (w : world) : sys :=
  mkY w inp RHead [] (repeat WIdle n) [] [] 0 [] [] [].
