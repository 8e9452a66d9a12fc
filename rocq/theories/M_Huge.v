(** make-integrityhuge: a transaction log of random requests.  Definitions only.
    The fields req.handle and rep.handle (make-integrityhuge.c:78-79) are called
    cookie at this commit (nbd.h:93, 105), so the file has to be adapted to compile;
    they are modelled as those fields. *)
From Verif Require Import Base M_Const.
Local Open Scope list_scope.

Definition filesize : Z := 50 * 1000 * 1000. (* make-integrityhuge.c:18 *)
Definition transactions : nat := 250. (* make-integrityhuge.c:19 *)

(** getrandomuint64 (make-integrityhuge.c:34-41); [rnd k] is what the [k]th call of
    random() returns *)
Fixpoint stir (rnd : nat -> Z) (n k : nat) (r : Z) : Z :=
  match n with
  | O => r
  | S n => stir rnd n (S k) (u64 (Z.lxor r (Z.lxor (rnd k) (u64 (Z.shiftl r 15)))))
  end.
Definition random64 (rnd : nat -> Z) (k : nat) : Z := stir rnd 5 k 0. (* make-integrityhuge.c:34-41 *)
(** & ~((uint64_t)0x3ff) (make-integrityhuge.c:62) *)
Definition clear10 (x : Z) : Z := Z.land x (u64 (Z.lnot 0x3ff)).

(** command, offset and length of a request (make-integrityhuge.c:53-76); [k]: calls
    of random() before it *)
Definition pick (rnd : nat -> Z) (k : nat) : Z * Z * Z :=
  let length := u64 (clear10 (random64 rnd k mod (filesize - 0x800)) + 0x400) in
  let offset := clear10 (random64 rnd (k + 5) mod (filesize - length)) in
  let flags := random64 rnd (k + 10) in
  let command := if Z.land flags 0x01 =? 0 then NBD_CMD_WRITE else NBD_CMD_READ in
  let command := if Z.land flags 0x0f =? 0 then Z.lor NBD_CMD_FLAG_FUA NBD_CMD_WRITE else command in
  if Z.land flags 0xf0 =? 0 then (NBD_CMD_FLUSH, 0, 0) else (command, offset, length).

(** struct nbd_request and struct nbd_reply in network byte order (nbd.h:90-106;
    make-integrityhuge.c:49-51, 78-82) *)
Definition req_bytes (command handle offset len : Z) : list Z :=
  be 4 NBD_REQUEST_MAGIC ++ be 4 (u32 command) ++ be 8 handle ++ be 8 offset ++ be 4 (u32 len).
Definition rep_bytes (handle : Z) : list Z := be 4 NBD_REPLY_MAGIC ++ be 4 0 ++ be 8 handle. (* make-integrityhuge.c:50-51, 79 *)

(** What is on standard output, the number of calls of write(), and whether the
    program goes on or has called exit(1) (make-integrityhuge.c:21-32) *)
Inductive hout := HGo (out : list Z) (n : nat) | HExit (out : list Z) | HStuck.
(** dowrite (make-integrityhuge.c:21-32); [wr n] is what the [n]th write() returns, at
    most the length given *)
Fixpoint dowrite (fuel : nat) (wr : nat -> Z) (buf : list Z) (out : list Z) (n : nat) : hout :=
  if zlen buf <=? 0 then HGo out n
  else match fuel with
  | O => HStuck
  | S fuel =>
      let res := Z.min (wr n) (zlen buf) in
      if res <=? 0 then HExit out
      else dowrite fuel wr (skipn (Z.to_nat res) buf) (out ++ firstn (Z.to_nat res) buf) (S n)
  end.
Definition dowrite_all (wr : nat -> Z) (buf : list Z) (o : hout) : hout := (* make-integrityhuge.c:84-85, 91 *)
  match o with HGo out n => dowrite (length buf) wr buf out n | o => o end.

(** the loop (make-integrityhuge.c:53-86): [n] requests from [handle] on *)
Fixpoint huge_loop (n : nat) (rnd wr : nat -> Z) (handle : nat) (o : hout) : hout :=
  match n with
  | O => o
  | S n =>
      let '(command, offset, len) := pick rnd (15 * handle) in
      huge_loop n rnd wr (S handle)
        (dowrite_all wr (rep_bytes (Z.of_nat handle)) (dowrite_all wr (req_bytes command (Z.of_nat handle) offset len) o))
  end.
(** main (make-integrityhuge.c:43-94); the last request keeps the handle of the one
    before *)
Definition huge_main (rnd wr : nat -> Z) : hout :=
  dowrite_all wr (req_bytes NBD_CMD_DISC (Z.of_nat (transactions - 1)) 0 0) (huge_loop transactions rnd wr 0 (HGo [] 0)).
