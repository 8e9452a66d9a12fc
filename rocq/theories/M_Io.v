(** Socket transfer loops and header byte order.  Definitions only.

    A receive loop is run against the list of results of its successive
    read()/gnutls_record_recv() calls; a send loop likewise.  When the list is
    used up the call has not returned yet ([Pending]).  Quantifying over all
    lists covers every execution.  DEBUG() and log messages are left out. *)
From Verif Require Import Base M_Const.

(** * Memory objects *)
(** A buffer in memory: the object occupies addresses [o_lo, o_hi). *)
(** the buffer handed to readit/writeit (cliserv.c:119, 148) *)
Record obj := mkObj { o_lo : Z; o_hi : Z }.
(** an access of [n] bytes at [p] stays inside the object (cliserv.c:123, 152) *)
Definition in_obj (o : obj) (p n : Z) : bool := (o_lo o <=? p) && (p + n <=? o_hi o).
(** memory after the kernel stored [bs] at [p] (cliserv.c:123) *)
Definition store (m : Z -> Z) (p : Z) (bs : list Z) : Z -> Z :=
  fun i => if (p <=? i) && (i <? p + zlen bs) then znth 0 bs (i - p) else m i.

(** * Receiving *)
(** Result of one receive call: data (up to [k] bytes), an error, or end of
    stream.  For TLS [RdFail e] is a gnutls error: [e = EAGAIN] stands for
    every non-fatal one (cliserv.c:123-134, nbd-server.c:329-341). *)
Inductive rdres := RdSome (k : Z) | RdFail (e : Z) | RdEof.

(** what has been received but not read yet, the results of the calls to come,
    and memory (cliserv.c:119-138) *)
Record rst := mkR { r_in : list Z; r_calls : list rdres; r_mem : Z -> Z }.

(** outcome of a transfer function: return 0, return -1, exit(), access outside
    the buffer, not returned yet (cliserv.c:119, 148; nbd-server.c:337) *)
Inductive io (A : Type) := Done (a : A) | Failed (a : A) | Exited (a : A) | Oob | Pending (a : A).
Arguments Done {A}. Arguments Failed {A}. Arguments Exited {A}. Arguments Oob {A}. Arguments Pending {A}.

(** number of bytes one call transfers when the kernel is willing to move [k],
    [len] are wanted and [avail] are there (read(2), write(2): at least one) *)
(** read(f, buf, len) in cliserv.c:123 *)
Definition some_bytes (k len avail : Z) : Z := Z.min (Z.max 1 k) (Z.min len avail).

(** readit (cliserv.c:119-138).  With nothing left in the stream a call that
    would deliver data reports end of stream. *)
Fixpoint readit (calls : list rdres) (inp : list Z) (m : Z -> Z) (o : obj) (p len : Z) : io rst :=
  if len =? 0 then Done (mkR inp calls m)
  else match calls with
  | [] => Pending (mkR inp [] m)
  | RdSome k :: t =>
      let n := some_bytes k len (zlen inp) in
      if n =? 0 then Failed (mkR inp t m)
      else if in_obj o p n then
        readit t (skipn (Z.to_nat n) inp) (store m p (firstn (Z.to_nat n) inp)) o (p + n) (len - n)
      else Oob
  | RdFail e :: t => if e =? EAGAIN then readit t inp m o p len else Failed (mkR inp t m)
  | RdEof :: t => Failed (mkR inp t m)
  end.

(** readit_tls (nbd-server.c:324-344): end of stream ends the process. *)
Fixpoint readit_tls (calls : list rdres) (inp : list Z) (m : Z -> Z) (o : obj) (p len : Z) : io rst :=
  if len =? 0 then Done (mkR inp calls m)
  else match calls with
  | [] => Pending (mkR inp [] m)
  | RdSome k :: t =>
      let n := some_bytes k len (zlen inp) in
      if n =? 0 then Exited (mkR inp t m)
      else if in_obj o p n then
        readit_tls t (skipn (Z.to_nat n) inp) (store m p (firstn (Z.to_nat n) inp)) o (p + n) (len - n)
      else Oob
  | RdFail e :: t => if e =? EAGAIN then readit_tls t inp m o p len else Failed (mkR inp t m)
  | RdEof :: t => Exited (mkR inp t m)
  end.

(** socket_read (nbd-server.c:346-369): a failure runs socket_closed, which does
    not return (464-469, 410-412). *)
Definition socket_read (tls : bool) (o : obj) (p len : Z) (s : rst) : io rst :=
  match (if tls then readit_tls else readit) (r_calls s) (r_in s) (r_mem s) o p len with
  | Failed s' => Exited s'
  | r => r
  end.

(** body of the loop in consume (nbd-server.c:381-385); state: bytes left *)
Definition consume_body (tls : bool) (o : obj) (bufsiz : Z) (st : rst * Z) : (rst * Z) + io rst :=
  let '(s, len) := st in
  if 0 <? len then
    let curlen := if bufsiz <? len then bufsiz else len in
    match socket_read tls o (o_lo o) curlen s with
    | Done s' => inl (s', len - curlen)
    | r => inr r
    end
  else inr (Done s).

(** consume (nbd-server.c:379-386); [o] is the buffer.  The bound [len + 1] on
    the number of iterations is never reached for [0 < bufsiz]. *)
Definition consume (tls : bool) (o : obj) (len bufsiz : Z) (s : rst) : io rst :=
  match loopP (consume_body tls o bufsiz) (Z.to_pos (len + 1)) (s, len) with
  | inr r => r
  | inl (s', _) => Pending s'
  end.

(** consume_len (nbd-server.c:393-400): [lo] is the variable [len], [bo] the
    1024-byte buffer. *)
Definition consume_len (tls : bool) (lo bo : obj) (s : rst) : io rst :=
  match socket_read tls lo (o_lo lo) 4 s with
  | Done s' => consume tls bo (unbe (slice (r_mem s') (o_lo lo) 4)) 1024 s'
  | r => r
  end.

(** * Sending *)
(** Result of one send call: up to [k] bytes taken, -1 with errno [e], or 0
    (errno then still holds an old value [e]) (cliserv.c:152-160). *)
Inductive wrres := WrSome (k : Z) | WrFail (e : Z) | WrZero (e : Z).

(** writeit (cliserv.c:148-165).  After EAGAIN [res] is -1: line 161 adds one to
    [len] and line 162 moves [buf] one byte back.  [wire]: bytes sent so far. *)
Fixpoint writeit (calls : list wrres) (m : Z -> Z) (o : obj) (p len : Z) (wire : list Z) : io (list Z) :=
  if len =? 0 then Done wire
  else match calls with
  | [] => Pending wire
  | WrSome k :: t =>
      let n := some_bytes k len len in
      if in_obj o p n then writeit t m o (p + n) (len - n) (wire ++ slice m p n) else Oob
  | WrFail e :: t => if e =? EAGAIN then writeit t m o (p - 1) (u64 (len + 1)) wire else Failed wire
  | WrZero e :: t => if e =? EAGAIN then writeit t m o p len wire else Failed wire
  end.

(** writeit_tls (nbd-server.c:304-322); [WrFail EAGAIN] stands for every
    non-fatal gnutls error, which is simply retried. *)
Fixpoint writeit_tls (calls : list wrres) (m : Z -> Z) (o : obj) (p len : Z) (wire : list Z) : io (list Z) :=
  if len =? 0 then Done wire
  else match calls with
  | [] => Pending wire
  | WrSome k :: t =>
      let n := some_bytes k len len in
      if in_obj o p n then writeit_tls t m o (p + n) (len - n) (wire ++ slice m p n) else Oob
  | WrFail e :: t => if e =? EAGAIN then writeit_tls t m o p len wire else Failed wire
  | WrZero _ :: t => writeit_tls t m o p len wire
  end.

(** * Byte order *)
(** An integer field of [n] bytes in memory on a little-endian host (layout of
    the packed structs in nbd.h:90-122) *)
Definition le (n : nat) (x : Z) : list Z := rev (be n x).
Definition unle (l : list Z) : Z := unbe (rev l). (* nbd.h:90-122, loading such a field *)

(** htonl/ntohl and htons/ntohs on such a host (used e.g. nbd-server.c:1308-1312) *)
Definition swap32 (x : Z) : Z := unbe (le 4 x).
Definition swap16 (x : Z) : Z := unbe (le 2 x). (* nbd-server.c:1309 *)
(** ntohll (cliserv.c:101-107) *)
Definition ntohll (a : Z) : Z :=
  let lo := u32 (Z.land a 4294967295) in
  let hi := u32 (Z.shiftr a 32) in
  let lo := swap32 lo in
  let hi := swap32 hi in
  Z.lor (u64 (Z.shiftl lo 32)) hi.

(** struct nbd_request in memory (nbd.h:90-96) *)
Record c_request := mkCReq { cr_magic : Z; cr_type : Z; cr_cookie : Z; cr_from : Z; cr_len : Z }.
(** the 28 received bytes as that struct (nbd.h:90-96, nbd-server.c:3104) *)
Definition load_request (b : list Z) : c_request :=
  mkCReq (unle (firstn 4 b)) (unle (firstn 4 (skipn 4 b))) (unle (firstn 8 (skipn 8 b)))
         (unle (firstn 8 (skipn 16 b))) (unle (firstn 4 (skipn 24 b))).
(** conversions in mainloop_threaded (nbd-server.c:3119-3121) *)
Definition host_request (r : c_request) : c_request :=
  mkCReq (cr_magic r) (swap32 (cr_type r)) (cr_cookie r) (ntohll (cr_from r)) (swap32 (cr_len r)).
(** the magic test passes (nbd-server.c:3123) *)
Definition request_magic_ok (r : c_request) : bool := cr_magic r =? swap32 NBD_REQUEST_MAGIC.
(** a request in memory as a client would fill it in (nbd.h:90-96; field
    conversions as in nbd-trplay.c and nbd-tester-client.c, inverse of
    nbd-server.c:3119-3123) *)
Definition store_request (type cookie from len : Z) : list Z :=
  le 4 (swap32 NBD_REQUEST_MAGIC) ++ le 4 (swap32 type) ++ le 8 cookie ++ le 8 (ntohll from) ++ le 4 (swap32 len).

(** struct nbd_reply as sent (nbd.h:102-106; setup_reply nbd-server.c:1284-1288,
    error set by htonl e.g. 2930) with the cookie copied from the request *)
Definition store_reply (cookie error : Z) : list Z :=
  le 4 (swap32 NBD_REPLY_MAGIC) ++ le 4 (swap32 error) ++ le 8 cookie.

(** struct nbd_structured_reply as sent (nbd.h:111-117, nbd-server.c:1307-1312) *)
Definition store_chunk (flags type cookie length : Z) : list Z :=
  le 4 (swap32 NBD_STRUCTURED_REPLY_MAGIC) ++ le 2 (swap16 flags) ++ le 2 (swap16 type) ++
  le 8 cookie ++ le 4 (swap32 length).

(** option reply header (send_reply, nbd-server.c:1796-1806); [htonll] is
    [ntohll] (cliserv.h) *)
Definition store_optreply (opt type datasize : Z) : list Z :=
  le 8 (ntohll NBD_OPT_REPLY_MAGIC) ++ le 4 (swap32 opt) ++ le 4 (swap32 type) ++ le 4 (swap32 datasize).
(** the same header as read by nbd-client (struct reply, read_reply,
    nbd-client.c:398-420): (magic, opt, reply_type, datasize) *)
Definition load_optreply (b : list Z) : Z * Z * Z * Z :=
  (ntohll (unle (firstn 8 b)), swap32 (unle (firstn 4 (skipn 8 b))),
   swap32 (unle (firstn 4 (skipn 12 b))), swap32 (unle (firstn 4 (skipn 16 b)))).

(** option request header (nbd-client send_request, nbd-client.c:365-374) *)
Definition store_option (opt datasize : Z) : list Z :=
  le 8 (ntohll OPTS_MAGIC) ++ le 4 (swap32 opt) ++ le 4 (swap32 datasize).
(** the same as read by the server (negotiate, nbd-server.c:2690-2705, and the
    length read in consume_len 397 or the handlers): (magic, opt, length) *)
Definition load_option (b : list Z) : Z * Z * Z :=
  (ntohll (unle (firstn 8 b)), swap32 (unle (firstn 4 (skipn 8 b))), swap32 (unle (firstn 4 (skipn 12 b)))).
