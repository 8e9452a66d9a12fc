(** The data path of nbd-server: locating an offset in the backing files, raw
    transfers, copy-on-write, zeroing, flushing, trimming, and the handling of
    one request.  Definitions only.  The transaction log is modelled
    separately (M_Par.v); here [transactionlogfd] is -1. *)
From Verif Require Import Base M_Const M_Disk M_Tree.

(** FILE_INFO (nbdsrv.h:88-91) *)
Record finfo := mkFI { fi_h : fref; fi_start : Z }.

(** The part of CLIENT and its SERVER used by the data path (nbdsrv.h:31-83):
    export flags, export size, export array ([None] is NULL), length of the
    export name, structured replies negotiated (clientflags), TLS session
    present. *)
Record client := mkC {
  c_flags : Z;
  c_size : Z;
  c_export : option (list finfo);
  c_namelen : Z;
  c_structured : bool;
  c_tls : bool
}.

(** [client->server->flags & f] (e.g. nbd-server.c:1150) *)
Definition cflag (c : client) (f : Z) : bool := flag (c_flags c) f.

(** Body of the binary search loop (nbd-server.c:1161-1172); state (start,end);
    leaves with the final value of [end]. *)
Definition search_body (export : list finfo) (a : Z) (se : Z * Z) : M ((Z * Z) + Z) :=
  let '(start, end_) := se in
  if start <=? end_ then
    let mid := (start + end_) / 2 in
    match nth_error export (Z.to_nat mid) with
    | None => ub
    | Some fi =>
        if fi_start fi <? a then ret (inl (mid + 1, end_))
        else if a <? fi_start fi then ret (inl (start, mid - 1))
        else ret (inr mid)
    end
  else ret (inr end_).

(** get_filepos (nbd-server.c:1142-1187): [None] is return value -1, otherwise
    (fhandle, foffset, maxbytes). *)
Definition get_filepos (c : client) (a : Z) : M (option (fref * Z * Z)) :=
  if a <? 0 then ret None
  else if cflag c F_TREEFILES then
    h <- open_treefile (c_namelen c) (negb (cflag c F_READONLY)) (i64 (c_size c)) a ;;
    ret (Some (h, a mod TREEPAGESIZE, (1 + a / TREEPAGESIZE) * TREEPAGESIZE - a))
  else
    match c_export c with
    | None => ub
    | Some export =>
        end_ <- mloop (zlen export + 1) (search_body export a) (0, zlen export - 1) ;;
        assert_ (0 <=? end_) ;;;
        match nth_error export (Z.to_nat end_) with
        | None => ub
        | Some fi =>
            ret (Some (fi_h fi, a - fi_start fi,
                       match nth_error export (Z.to_nat (end_ + 1)) with
                       | Some nx => u64 (fi_start nx - a)
                       | None => 0
                       end))
        end
    end.

(** "if(maxbytes && len > maxbytes) len = maxbytes" (nbd-server.c:1208-1209,
    1452-1453, 1496-1497) *)
Definition clamp (maxbytes len : Z) : Z :=
  if negb (maxbytes =? 0) && (maxbytes <? len) then maxbytes else len.

(** The sync after a write (nbd-server.c:1214-1255, 1513-1516): results
    ignored. *)
Definition sync_after (c : client) (h : fref) (fua : bool) : M unit :=
  if cflag c F_SYNC then sys_fsync h ;;; ret tt
  else if fua then sys_fsync h ;;; ret tt
  else ret tt.

(** rawexpwrite (nbd-server.c:1200-1261) *)
Definition rawexpwrite (c : client) (a : Z) (d : Z -> Z) (len : Z) (fua : bool) : M Z :=
  p <- get_filepos c a ;;
  match p with
  | None => ret (-1)
  | Some (h, foffset, maxbytes) =>
      k <- sys_pwrite h foffset (clamp maxbytes len) d ;;
      sync_after c h fua ;;;
      ret k
  end.

(** Loop body of rawexpwrite_fully (nbd-server.c:1276-1280): state (a, index
    into buf, len); leaves with the function's return value. *)
Definition rawexpwrite_fully_body (c : client) (d : Z -> Z) (fua : bool) (s : Z * Z * Z)
  : M ((Z * Z * Z) + bool) :=
  let '(a, b, len) := s in
  if 0 <? len then
    k <- rawexpwrite c a (fun i => d (b + i)) len fua ;;
    if 0 <? k then ret (inl (a + k, b + k, len - k))
    else ret (inr true)
  else ret (inr false).

(** rawexpwrite_fully (nbd-server.c:1273-1282): [true] is a nonzero (failure)
    return value. *)
Definition rawexpwrite_fully (c : client) (a : Z) (d : Z -> Z) (len : Z) (fua : bool) : M bool :=
  mloop (len + 1) (rawexpwrite_fully_body c d fua) (a, 0, len).

(** rawexpread (nbd-server.c:1444-1462) *)
Definition rawexpread (c : client) (a len : Z) : M (Z * (Z -> Z)) :=
  p <- get_filepos c a ;;
  match p with
  | None => ret (-1, fun _ => 0)
  | Some (h, foffset, maxbytes) => sys_pread h foffset (clamp maxbytes len)
  end.

(** struct nbd_request after conversion to host order (nbd.h:90-96,
    nbd-server.c:3119-3121).  The cookie is never converted: it is kept as its
    eight bytes in memory. *)
Record request := mkReq {
  rq_type : Z;
  rq_cookie : list Z;
  rq_from : Z;
  rq_len : Z
}.

(** READ_CTX (nbdsrv.h:93-101).  [x_buf]/[x_alloc]: contents and allocated size
    of [buf]. *)
Record readctx := mkCtx {
  x_buf : Z -> Z;
  x_alloc : Z;
  x_buflen : Z;
  x_off : Z;
  x_len : Z;
  x_structured : bool;
  x_df : bool
}.

(** Assignment of the bookkeeping fields (nbd-server.c:1479-1480, 1594) *)
Definition ctx_set (x : readctx) (off len : Z) : readctx :=
  mkCtx (x_buf x) (x_alloc x) (x_buflen x) off len (x_structured x) (x_df x).

(** A simple reply (setup_reply nbd-server.c:1284-1288; struct nbd_reply
    nbd.h:102-106) with error [e] followed by [data]. *)
Definition simple_reply (cookie : list Z) (e : Z) (data : list Z) : list Z :=
  be 4 NBD_REPLY_MAGIC ++ be 4 e ++ cookie ++ data.

(** A structured chunk as sent by send_structured_chunk(_v)
    (nbd-server.c:1306-1341; struct nbd.h:111-117): [length] is the value of
    the length field, [payload] the bytes really sent. *)
Definition chunk (cookie : list Z) (flags type length : Z) (payload : list Z) : list Z :=
  be 4 NBD_STRUCTURED_REPLY_MAGIC ++ be 2 flags ++ be 2 type ++ cookie ++ be 4 (u32 length) ++ payload.

(** find_read_buf (nbd-server.c:1351-1360): where the next data goes, as
    (context, index into the buffer).  In structured mode a fresh buffer of
    [current_len] bytes is allocated. *)
Definition find_read_buf (x : readctx) : M (readctx * Z) :=
  if negb (x_structured x) || x_df x then ret (x, x_off x)
  else
    g <- get w_heap ;;
    ret (mkCtx g (x_len x) (x_buflen x) (x_off x) (x_len x) (x_structured x) (x_df x), 0).

(** Data arriving in the buffer: [n] bytes [d] at index [i]; writing outside
    the allocation is undefined (nbd-server.c:1457, 1582). *)
Definition buf_store (x : readctx) (i n : Z) (d : Z -> Z) : M readctx :=
  if n <=? 0 then ret x
  else if (0 <=? i) && (i + n <=? x_alloc x) then
    ret (mkCtx (fun j => if (i <=? j) && (j <? i + n) then d (j - i) else x_buf x j)
               (x_alloc x) (x_buflen x) (x_off x) (x_len x) (x_structured x) (x_df x))
  else ub.

(** confirm_read (nbd-server.c:1362-1368) *)
Definition confirm_read (rq : request) (x : readctx) (len_read : Z) : M unit :=
  if x_structured x && negb (x_df x) then
    send (chunk (rq_cookie rq) 0 NBD_REPLY_TYPE_OFFSET_DATA (len_read + 8)
            (be 8 (u64 (rq_from rq + x_off x)) ++ slice (x_buf x) 0 len_read))
  else ret tt.

(** Loop body of rawexpread_fully (nbd-server.c:1473-1481); leaves with the
    context and the function's return value. *)
Definition rawexpread_fully_body (rq : request) (c : client) (x : readctx)
  : M (readctx + (readctx * bool)) :=
  if 0 <? x_len x then
    xi <- find_read_buf x ;;
    let '(x1, i) := xi in
    kd <- rawexpread c (i64 (rq_from rq) + x_off x) (x_len x) ;;
    let '(k, d) := kd in
    if k <=? 0 then ret (inr (x1, true))
    else
      x2 <- buf_store x1 i k d ;;
      confirm_read rq x2 k ;;;
      ret (inl (ctx_set x2 (x_off x + k) (x_len x - k)))
  else ret (inr (x, false)).

(** rawexpread_fully (nbd-server.c:1468-1483) *)
Definition rawexpread_fully (rq : request) (c : client) (x : readctx) : M (readctx * bool) :=
  mloop (x_len x + 1) (rawexpread_fully_body rq c) x.

(** "(flags & F_WAIT) && (client->export == NULL)" (nbd-server.c:1566,1587,1634,1657) *)
Definition waiting (c : client) : bool :=
  cflag c F_WAIT && match c_export c with None => true | Some _ => false end.

(** Number of bytes of the request in the current page
    (nbd-server.c:1574-1575, 1642-1643). *)
Definition page_part (offset len : Z) : Z :=
  if (0 <? DIFFPAGESIZE - offset) && (len <? u64 (DIFFPAGESIZE - offset))
  then len else i64 (u64 (DIFFPAGESIZE - offset)).

(** client->difmap[mapcnt] (nbd-server.c:1578,1647) *)
Definition read_map (i : Z) : M Z := fun w =>
  if (0 <=? i) && (i <? w_mapsz w) then Ret (w_map w i) w else Ub.

(** Byte position of a diff page: u32 multiplication, then off_t addition
    (nbd-server.c:1582,1650,1950). *)
Definition diff_off (v offset : Z) : Z := u32 (v * DIFFPAGESIZE) + offset.

(** Loop body of expread in copy-on-write/waitfile mode (nbd-server.c:1571-1601);
    state (mapcnt, a, len, ctx). *)
Definition expread_body (rq : request) (c : client) (maph : Z) (s : Z * Z * Z * readctx)
  : M ((Z * Z * Z * readctx) + (readctx * bool)) :=
  let '(mapcnt, a, len, x) := s in
  if mapcnt <=? maph then
    let pagestart := mapcnt * DIFFPAGESIZE in
    let offset := a - pagestart in
    let rdlen := page_part offset len in
    v <- read_map mapcnt ;;
    if negb (v =? NOPAGE) then
      xi <- find_read_buf x ;;
      let '(x1, i) := xi in
      kd <- sys_pread FDiff (diff_off v offset) rdlen ;;
      let '(k, d) := kd in
      x2 <- buf_store x1 i k d ;;
      if negb (k =? rdlen) then ret (inr (x2, true))
      else
        confirm_read rq x2 rdlen ;;;
        ret (inl (mapcnt + 1, a + rdlen, u64 (len - rdlen), x2))
    else if waiting c then ret (inr (x, true))
    else
      xr <- rawexpread_fully rq c (ctx_set x (x_off x) (u32 rdlen)) ;;
      let '(x2, failed) := xr in
      if failed then ret (inr (x2, true))
      else ret (inl (mapcnt + 1, a + rdlen, u64 (len - rdlen), x2))
  else ret (inr (x, false)).

(** maph = (a+len-1)/DIFFPAGESIZE, computed in size_t (nbd-server.c:1569,1637) *)
Definition map_high (a len : Z) : Z := u64 (a + len - 1) / DIFFPAGESIZE.

(** expread (nbd-server.c:1557-1610) *)
Definition expread (rq : request) (c : client) (x : readctx) : M (readctx * bool) :=
  let a := x_off x + i64 (rq_from rq) in
  let len := rq_len rq in
  if negb (cflag c F_COPYONWRITE) && negb (waiting c) then rawexpread_fully rq c x
  else
    let mapl := a / DIFFPAGESIZE in
    let maph := map_high a len in
    mloop (maph - mapl + 1) (expread_body rq c maph) (mapl, a, len, x).

(** Body of the copy-in loop of expwrite (nbd-server.c:1664-1668); state
    (pagestart, index into pagebuf, rdlen, pagebuf); leaves with the last
    [ret] and pagebuf. *)
Definition copyin_body (c : client) (s : Z * Z * Z * (Z -> Z))
  : M ((Z * Z * Z * (Z -> Z)) + (Z * (Z -> Z))) :=
  let '(pagestart, p, rdlen, pb) := s in
  if 0 <? rdlen then
    kd <- rawexpread c pagestart rdlen ;;
    let '(k, d) := kd in
    if 0 <? k then
      ret (inl (pagestart + k, p + k, rdlen - k,
                fun j => if (p <=? j) && (j <? p + k) then d (j - p) else pb j))
    else ret (inr (k, pb))
  else ret (inr (1, pb)).

(** The page buffer of a not yet mapped page (nbd-server.c:1656-1671): [None] is
    "goto fail". *)
Definition fill_page (c : client) (pagestart offset wrlen : Z) (pb : Z -> Z) : M (option (Z -> Z)) :=
  if negb (offset =? 0) || negb (wrlen =? DIFFPAGESIZE) then
    if waiting c then ret None
    else
      kp <- mloop (DIFFPAGESIZE + 1) (copyin_body c) (pagestart, 0, DIFFPAGESIZE, pb) ;;
      let '(k, pb1) := kp in
      if k <? 0 then ret None else ret (Some pb1)
  else ret (Some pb).

(** Loop body of expwrite in copy-on-write/waitfile mode
    (nbd-server.c:1639-1678); state (mapcnt, a, index into buf, len, pagebuf);
    leaves with [true] on "goto fail". *)
Definition expwrite_body (c : client) (d : Z -> Z) (maph : Z) (s : Z * Z * Z * Z * (Z -> Z))
  : M ((Z * Z * Z * Z * (Z -> Z)) + bool) :=
  let '(mapcnt, a, b, len, pb) := s in
  if mapcnt <=? maph then
    let pagestart := mapcnt * DIFFPAGESIZE in
    let offset := a - pagestart in
    let wrlen := page_part offset len in
    v <- read_map mapcnt ;;
    if negb (v =? NOPAGE) then
      k <- sys_pwrite FDiff (diff_off v offset) wrlen (fun i => d (b + i)) ;;
      if negb (k =? wrlen) then ret (inr true)
      else ret (inl (mapcnt + 1, a + wrlen, b + wrlen, u64 (len - wrlen), pb))
    else
      (if cflag c F_SPARSE then modify (set_map mapcnt (u32 mapcnt))
       else
         n <- get w_dlen ;;
         modify (set_map mapcnt n) ;;; modify (set_dlen (u32 (n + 1)))) ;;;
      pb1 <- fill_page c pagestart offset wrlen pb ;;
      match pb1 with
      | None => ret (inr true)
      | Some pb1 =>
          let pb2 := fun j => if (offset <=? j) && (j <? offset + wrlen)
                              then d (b + (j - offset)) else pb1 j in
          k <- sys_write_diff DIFFPAGESIZE pb2 ;;
          if negb (k =? DIFFPAGESIZE) then ret (inr true)
          else ret (inl (mapcnt + 1, a + wrlen, b + wrlen, u64 (len - wrlen), pb2))
      end
  else ret (inr false).

(** expwrite (nbd-server.c:1624-1692): [true] is failure. *)
Definition expwrite (c : client) (a : Z) (d : Z -> Z) (len : Z) (fua : bool) : M bool :=
  if negb (cflag c F_COPYONWRITE) && negb (waiting c) then rawexpwrite_fully c a d len fua
  else
    let mapl := a / DIFFPAGESIZE in
    let maph := map_high a len in
    g <- get w_heap ;;
    failed <- mloop (maph - mapl + 1) (expwrite_body c d maph) (mapl, a, 0, len, g) ;;
    if failed then ret true
    else sync_after c FDiff fua ;;; ret false.

(** maxsize (nbd-server.c:1707) *)
Definition ZMAX := 67108864.

(** Loop body of expwrite_zeroes (nbd-server.c:1711-1721); note that [a] is not
    advanced. *)
Definition expwrite_zeroes_body (c : client) (a : Z) (fua : bool) (len : Z) : M (Z + bool) :=
  if 0 <? len then
    let l := if ZMAX <? len then ZMAX else len in
    failed <- expwrite c a (fun _ => 0) l fua ;;
    if failed then ret (inr true) else ret (inl (len - l))
  else ret (inr false).

(** expwrite_zeroes (nbd-server.c:1704-1724) *)
Definition expwrite_zeroes (c : client) (rq : request) (fua : bool) : M bool :=
  mloop (rq_len rq + 1) (expwrite_zeroes_body c (i64 (rq_from rq)) fua) (rq_len rq).

(** fsync of each file in turn (nbd-server.c:1751-1755); [true] is -1. *)
Fixpoint fsync_all (fis : list finfo) : M bool :=
  match fis with
  | [] => ret false
  | fi :: t =>
      r <- sys_fsync (fi_h fi) ;;
      if r <? 0 then ret true else fsync_all t
  end.

(** expflush (nbd-server.c:1732-1758); [true] is a nonzero return value. *)
Definition expflush (c : client) : M bool :=
  if cflag c F_COPYONWRITE then r <- sys_fsync FDiff ;; ret (negb (r =? 0))
  else if cflag c F_WAIT then r <- sys_fsync FDiff ;; ret (negb (r =? 0))
  else if cflag c F_TREEFILES then
    if cflag c F_READONLY then ret false else sys_sync ;;; ret false
  else
    match c_export c with
    | None => ub
    | Some fis => fsync_all fis
    end.

(** Loop of the tree branch of exptrim (nbdsrv.c:285-288); state min. *)
Definition trim_tree_body (c : client) (max : Z) (min : Z) : M (Z + unit) :=
  if min <? max then
    delete_treefile (c_namelen c) (i64 (c_size c)) min ;;;
    ret (inl (min + TREEPAGESIZE))
  else ret (inr tt).

(** One step of the do/while loop of exptrim (nbdsrv.c:295-310); state
    (cur.fhandle, cur.startoff, i). *)
Definition trim_body (c : client) (export : list finfo) (rq : request) (s : fref * Z * Z)
  : M ((fref * Z * Z) + unit) :=
  let '(h, start, i) := s in
  let next := match nth_error export (Z.to_nat i) with
              | Some nx => (fi_h nx, fi_start nx)
              | None => (FBad, i64 (c_size c))
              end in
  (if (start <=? rq_from rq) && (rq_len rq <=? snd next - start) then
     let reqoff := i64 (rq_from rq - start) in
     let curlen := snd next - reqoff in
     let reqlen := if rq_len rq <? curlen - reqoff then rq_len rq else curlen - reqoff in
     punch_hole h reqoff reqlen
   else ret tt) ;;;
  let i' := i + 1 in
  if (i' <? zlen export) && (snd next <? u64 (rq_from rq + rq_len rq))
  then ret (inl (fst next, snd next, i'))
  else ret (inr tt).

(** exptrim (nbdsrv.c:270-313); always returns 0. *)
Definition exptrim (c : client) (rq : request) : M unit :=
  assert_ (negb (cflag c F_READONLY)) ;;;
  assert_ (u64 (rq_from rq + rq_len rq) <=? c_size c) ;;;
  if cflag c F_COPYONWRITE then ret tt
  else if cflag c F_TREEFILES then
    let min := i64 (u64 (rq_from rq + TREEPAGESIZE - 1) / TREEPAGESIZE * TREEPAGESIZE) in
    let max := i64 (u64 (rq_from rq + rq_len rq) / TREEPAGESIZE * TREEPAGESIZE) in
    mloop (rq_len rq + 1) (trim_tree_body c max) min
  else
    match c_export c with
    | None => ub
    | Some export =>
        match nth_error export 0 with
        | None => ub
        | Some cur => mloop (zlen export + 1) (trim_body c export rq) (fi_h cur, fi_start cur, 1)
        end
    end.

(** nbd_errno (nbd-server.c:2767-2786), before the htonl: the value that
    appears in the big-endian error field. *)
Definition nbd_errno (e : Z) : Z :=
  if e =? EPERM then 1
  else if e =? EIO then 5
  else if e =? ENOMEM then 12
  else if e =? EINVAL then 22
  else if (e =? EFBIG) || (e =? ENOSPC) || (e =? EDQUOT) then 28
  else 22.

(** "Read failed" with its terminating zero (nbd-server.c:2874,2910) *)
Definition read_failed : list Z := [82; 101; 97; 100; 32; 102; 97; 105; 108; 101; 100; 0].
(** "Request too long for unfragmented reply" with terminating zero
    (nbd-server.c:2892) *)
Definition too_long : list Z :=
  [82;101;113;117;101;115;116;32;116;111;111;32;108;111;110;103;32;102;111;114;32;
   117;110;102;114;97;103;109;101;110;116;101;100;32;114;101;112;108;121;0].

(** A 16-bit field stored in host (little-endian) order
    (nbd-server.c:1392, 2895). *)
Definition le16 (x : Z) : list Z := [x mod 256; x / 256 mod 256].
(** A 32-bit field stored in host order (nbd-server.c:2894). *)
Definition le32 (x : Z) : list Z := [x mod 256; x / 256 mod 256; x / 65536 mod 256; x / 16777216 mod 256].

(** complete_read (nbd-server.c:1370-1431) with with_offset = false and
    err_offset = 0, as called at nbd-server.c:2912; [e] is the protocol error
    (0 for success; nbd_errno already put it in network order). *)
Definition complete_read (rq : request) (x : readctx) (e : Z) (msg : list Z) : M unit :=
  if x_structured x then
    (if x_df x && (e =? 0) then
       send (chunk (rq_cookie rq) 0 NBD_REPLY_TYPE_OFFSET_DATA (u32 (rq_len rq + 8))
               (be 8 (rq_from rq) ++ slice (x_buf x) 0 0))
     else ret tt) ;;;
    if negb (e =? 0) then
      send (chunk (rq_cookie rq) NBD_REPLY_FLAG_DONE NBD_REPLY_TYPE_ERROR (6 + zlen msg)
              (be 4 e ++ le16 (zlen msg) ++ msg))
    else send (chunk (rq_cookie rq) NBD_REPLY_FLAG_DONE NBD_REPLY_TYPE_NONE 0 [])
  else
    send (simple_reply (rq_cookie rq) e (if e =? 0 then slice (x_buf x) 0 (x_buflen x) else [])).

(** handle_normal_read (nbd-server.c:2871-2913).  Simplification: malloc
    succeeds. *)
Definition handle_normal_read (c : client) (rq : request) : M unit :=
  let st := c_structured c in
  let df := flag (rq_type rq) NBD_CMD_FLAG_DF in
  if st && df && (1048576 <? rq_len rq) then
    send (chunk (rq_cookie rq) NBD_REPLY_FLAG_DONE NBD_REPLY_TYPE_ERROR (6 + zlen too_long)
            (le32 NBD_EOVERFLOW ++ le16 (zlen too_long) ++ too_long))
  else
    g <- get w_heap ;;
    let x := if df || negb st
             then mkCtx g (rq_len rq) (rq_len rq) 0 (rq_len rq) st df
             else mkCtx g 0 0 0 (rq_len rq) st df in
    xr <- expread rq c x ;;
    let '(x1, failed) := xr in
    if failed then
      e <- get w_errno ;;
      complete_read rq x1 (nbd_errno e) read_failed
    else complete_read rq x1 0 [].

(** rawexpsplice from file to pipe (nbd-server.c:1486-1521, dir = SPLICE_IN):
    one splice() moving data from the file at the located offset.
    Simplification: splice behaves like pread with respect to the bytes
    moved. *)
Definition rawexpsplice_in (c : client) (a len : Z) : M (Z * (Z -> Z)) :=
  rawexpread c a len.

(** Loop body of expsplice reading (nbd-server.c:1538-1542); state (a, len,
    bytes in the pipe so far). *)
Definition expsplice_in_body (c : client) (s : Z * Z * list Z) : M ((Z * Z * list Z) + option (list Z)) :=
  let '(a, len, acc) := s in
  if 0 <? len then
    kd <- rawexpsplice_in c a len ;;
    let '(k, d) := kd in
    if 0 <? k then ret (inl (a + k, len - k, acc ++ slice d 0 k))
    else ret (inr None)
  else ret (inr (Some acc)).

(** expsplice in read direction (nbd-server.c:1534-1544) *)
Definition expsplice_in (c : client) (a len : Z) : M (option (list Z)) :=
  mloop (len + 1) (expsplice_in_body c) (a, len, []).

(** expsplice in write direction (nbd-server.c:1534-1544): like
    rawexpwrite_fully, taking the data from the pipe. *)
Definition expsplice_out (c : client) (a : Z) (d : Z -> Z) (len : Z) (fua : bool) : M bool :=
  rawexpwrite_fully c a d len fua.

(** mkpipe (nbd-server.c:2798-2816): [true] if a pipe could be made. *)
Definition mkpipe (len : Z) : M bool :=
  if MAX_PIPE_SIZE <? len then ret false
  else r <- pull ;; ret (match r with RErr _ => false | _ => true end).

(** handle_splice_read (nbd-server.c:2840-2868): [true] if the reply was sent. *)
Definition handle_splice_read (c : client) (rq : request) : M bool :=
  if c_tls c then ret false
  else
    ok <- mkpipe (rq_len rq) ;;
    if negb ok then ret false
    else
      r <- expsplice_in c (i64 (rq_from rq)) (rq_len rq) ;;
      match r with
      | None => ret false
      | Some data => send (simple_reply (rq_cookie rq) 0 data) ;;; ret true
      end.

(** handle_read (nbd-server.c:2915-2927), with HAVE_SPLICE *)
Definition handle_read (c : client) (rq : request) : M unit :=
  done <- (if cflag c F_SPLICE then handle_splice_read c rq else ret false) ;;
  if done : bool then ret tt else handle_normal_read c rq.

(** Where the payload of a WRITE is (struct work_package, nbd-server.c:2818-2837,
    3128-3137): a malloc'ed buffer or a pipe; nothing for other commands. *)
Inductive payload := PBuf (d : Z -> Z) | PPipe (d : Z -> Z) | PNone.

(** handle_write (nbd-server.c:2929-2958) *)
Definition handle_write (c : client) (rq : request) (p : payload) : M unit :=
  let fua := flag (rq_type rq) NBD_CMD_FLAG_FUA in
  failed <- (match p with
             | PBuf d => expwrite c (i64 (rq_from rq)) d (rq_len rq) fua
             | PPipe d => expsplice_out c (i64 (rq_from rq)) d (rq_len rq) fua
             | PNone => ub
             end) ;;
  e <- get w_errno ;;
  send (simple_reply (rq_cookie rq) (if failed : bool then nbd_errno e else 0) []).

(** handle_flush (nbd-server.c:2960-2972) *)
Definition handle_flush (c : client) (rq : request) : M unit :=
  failed <- expflush c ;;
  e <- get w_errno ;;
  send (simple_reply (rq_cookie rq) (if failed : bool then nbd_errno e else 0) []).

(** handle_trim (nbd-server.c:2974-2986) *)
Definition handle_trim (c : client) (rq : request) : M unit :=
  exptrim c rq ;;;
  send (simple_reply (rq_cookie rq) 0 []).

(** handle_write_zeroes (nbd-server.c:2988-3004) *)
Definition handle_write_zeroes (c : client) (rq : request) : M unit :=
  let fua := flag (rq_type rq) NBD_CMD_FLAG_FUA in
  failed <- expwrite_zeroes c rq fua ;;
  e <- get w_errno ;;
  send (simple_reply (rq_cookie rq) (if failed : bool then nbd_errno e else 0) []).

(** bad_write (nbd-server.c:3007-3014) *)
Definition bad_write (c : client) : bool := cflag c F_READONLY || cflag c F_AUTOREADONLY.

(** bad_range (nbd-server.c:3016-3023): uint64_t arithmetic *)
Definition bad_range (c : client) (rq : request) : bool :=
  (c_size c <? rq_from rq) || (c_size c <? u64 (rq_from rq + rq_len rq)).

(** The "error:" exit of handle_request (nbd-server.c:3084-3090) *)
Definition reply_error (rq : request) (e : Z) : M unit :=
  send (simple_reply (rq_cookie rq) (nbd_errno e) []).

(** [req->type & NBD_CMD_MASK_COMMAND] (nbd-server.c:3027) *)
Definition cmd_of (rq : request) : Z := rq_type rq mod 65536.
(** flags other than FUA and NO_HOLE present (nbd-server.c:3028,3032) *)
Definition bad_flags (rq : request) : bool :=
  negb (Z.land (rq_type rq) (4294901760 - NBD_CMD_FLAG_FUA - NBD_CMD_FLAG_NO_HOLE) =? 0).

(** handle_request (nbd-server.c:3025-3093) *)
Definition handle_request (c : client) (rq : request) (p : payload) : M unit :=
  if bad_flags rq then reply_error rq EINVAL
  else if cmd_of rq =? NBD_CMD_READ then
    if bad_range c rq then reply_error rq EINVAL else handle_read c rq
  else if cmd_of rq =? NBD_CMD_WRITE then
    if bad_write c then reply_error rq EPERM
    else if bad_range c rq then reply_error rq ENOSPC
    else handle_write c rq p
  else if cmd_of rq =? NBD_CMD_FLUSH then handle_flush c rq
  else if cmd_of rq =? NBD_CMD_TRIM then
    if bad_write c then reply_error rq EPERM
    else if bad_range c rq then reply_error rq EINVAL
    else handle_trim c rq
  else if cmd_of rq =? NBD_CMD_WRITE_ZEROES then
    if bad_write c then reply_error rq EPERM
    else if bad_range c rq then reply_error rq ENOSPC
    else handle_write_zeroes c rq
  else reply_error rq EINVAL.

(** Decoding of the 28 bytes of struct nbd_request read from the socket
    (nbd.h:90-96, nbd-server.c:3104,3119-3123): magic and request. *)
Definition decode_request (b : list Z) : Z * request :=
  (unbe (firstn 4 b),
   mkReq (unbe (firstn 4 (skipn 4 b)))
         (firstn 8 (skipn 8 b))
         (unbe (firstn 8 (skipn 16 b)))
         (unbe (firstn 4 (skipn 24 b)))).

(** How a session ends: DISC (nbd-server.c:3145-3149), connection lost
    (socket_closed_transmission, nbd-server.c:464-469), bad magic
    (nbd-server.c:3123-3124), input not fully processed by the model. *)
Inductive ending := EndDisc (rest : list Z) | EndClosed | EndMagic | EndFuel.

(** package_create and reception of the payload (nbd-server.c:2818-2837,
    3126-3137).  [data] are the payload bytes already taken from the stream. *)
Definition receive_payload (c : client) (rq : request) (data : list Z) : M payload :=
  if cflag c F_SPLICE then
    ok <- mkpipe (rq_len rq) ;;
    if ok : bool then
      if c_tls c then
        (* pkg->data is NULL, the else branch reads into it *)
        (if 0 <? rq_len rq then ub else ret (PPipe (bytefn data)))
      else ret (PPipe (bytefn data))
    else ret (PBuf (bytefn data))
  else ret (PBuf (bytefn data)).

(** mainloop_threaded (nbd-server.c:3095-3152) with each request handled before
    the next one is read (one of the possible schedules; the others are
    treated in M_Par.v).  The fuel is the length of the input. *)
Fixpoint mainloop (fuel : nat) (c : client) (inp : list Z) : M ending :=
  match fuel with
  | O => ret EndFuel
  | S fuel =>
      if (length inp <? 28)%nat then ret EndClosed
      else
        let '(magic, rq) := decode_request (firstn 28 inp) in
        let inp1 := skipn 28 inp in
        if negb (magic =? NBD_REQUEST_MAGIC) then ret EndMagic
        else if cmd_of rq =? NBD_CMD_WRITE then
          if zlen inp1 <? rq_len rq then ret EndClosed
          else
            let n := Z.to_nat (rq_len rq) in
            p <- receive_payload c rq (firstn n inp1) ;;
            handle_request c rq p ;;;
            mainloop fuel c (skipn n inp1)
        else if rq_type rq =? NBD_CMD_DISC then ret (EndDisc inp1)
        else
          handle_request c rq PNone ;;;
          mainloop fuel c inp1
  end.
