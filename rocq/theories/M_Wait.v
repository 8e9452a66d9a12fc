(** Waitfile exports: requests, one at a time, on an export whose file does not
    exist yet, and the thread that waits for the file and moves the pages
    written so far into it (nbd-server.c:1557-1692, 1732-1741, 1937-2011,
    2142-2167).  Definitions only.

    Simplifications: the diff file never fails; requests have a positive length
    (for length 0 the page loops count differently); replies are a result and
    the bytes read; one thread handles the requests; the number of pages fits an int
    (nbd-server.c:1939: below 8 TiB); the file waited for is the one configured, for
    a virtualised export the text with its %s (nbd-server.c:1987).  What happens between the
    locking and unlocking of export_lock is one step. *)
From Verif Require Import Base M_Const M_Disk.

(** requests (nbd-server.c:3060-3088) *)
Inductive wreq := WRead (a len : Z) | WWrite (a len : Z) (d : Z -> Z) (fua : bool) | WFlush.
(** their outcome: bytes read (none for the others), or an error
    (nbd-server.c:2877-2893, 2924-2931, 2935-2942) *)
Inductive wres := WOk (data : list Z) | WErr.

(** the thread handling requests: between requests, in the loop over pages with
    what is left to do (nbd-server.c:1571, 1639), or about to use the file
    (nbd-server.c:1567, 1635) *)
Inductive rpc :=
| RIdle
| RMapR (rq : wreq) (a len : Z) (acc : list Z)
| RMapW (rq : wreq) (a len : Z) (d : Z -> Z) (fua : bool)
| RRaw (rq : wreq).
(** wait_file: waiting (nbd-server.c:1984-1988), in commit_diff at page i with
    dirtycount, [locked] when the whole pass holds export_lock
    (nbd-server.c:1993-2001), finished *)
Inductive cpc := CWait | CPass (locked : bool) (i dirty : Z) | CDone.

(** difmap, difffilelen; the diff file with its size and file position; the
    awaited file with its size, and what of it is on the disk; client->export set;
    the two threads; requests to come and finished (CLIENT, nbdsrv.h:54-84) *)
Record wst := mkWt {
  w_map : Z -> Z; w_dlen : Z; w_diff : Z -> Z; w_dsize : Z; w_dpos : Z;
  w_file : Z -> Z; w_fsize : Z; w_disk : Z -> Z;
  w_export : bool; w_rpc : rpc; w_cpc : cpc; w_in : list wreq; w_log : list (wreq * wres) }.

(** the export: size, F_SPARSE, the file as found, what a stack buffer holds
    (nbd-server.c:1625, 1652, 1984-1988, 2028) *)
Record wenv := mkWe { we_size : Z; we_sparse : bool; we_f0 : Z -> Z; we_f0size : Z; we_junk : Z -> Z }.
Definition pages (e : wenv) : Z := we_size e / DIFFPAGESIZE. (* nbd-server.c:1939, 2160 *)

(** [d] written at [o] (pwrite, write; nbd-server.c:1650, 1672, 1957) *)
Definition put (f : Z -> Z) (o n : Z) (d : Z -> Z) : Z -> Z :=
  fun b => if (o <=? b) && (b <? o + n) then d (b - o) else f b.
Definition set_at (f : Z -> Z) (p v : Z) : Z -> Z := fun x => if x =? p then v else f x. (* nbd-server.c:1652, 1964 *)

(** assignments (nbd-server.c:1557-1692, 1937-2011) *)
Definition s_rpc r s := mkWt (w_map s) (w_dlen s) (w_diff s) (w_dsize s) (w_dpos s) (w_file s) (w_fsize s) (w_disk s) (w_export s) r (w_cpc s) (w_in s) (w_log s). (* nbd-server.c:1571, 1639 *)
Definition s_cpc c s := mkWt (w_map s) (w_dlen s) (w_diff s) (w_dsize s) (w_dpos s) (w_file s) (w_fsize s) (w_disk s) (w_export s) (w_rpc s) c (w_in s) (w_log s). (* nbd-server.c:1943, 1993-2001 *)
Definition s_in i s := mkWt (w_map s) (w_dlen s) (w_diff s) (w_dsize s) (w_dpos s) (w_file s) (w_fsize s) (w_disk s) (w_export s) (w_rpc s) (w_cpc s) i (w_log s). (* nbd-server.c:3104-3150 *)
Definition s_map m n s := mkWt m n (w_diff s) (w_dsize s) (w_dpos s) (w_file s) (w_fsize s) (w_disk s) (w_export s) (w_rpc s) (w_cpc s) (w_in s) (w_log s). (* nbd-server.c:1652, 1964 *)
Definition s_diff d n p s := mkWt (w_map s) (w_dlen s) d n p (w_file s) (w_fsize s) (w_disk s) (w_export s) (w_rpc s) (w_cpc s) (w_in s) (w_log s). (* nbd-server.c:1650, 1672 *)
Definition s_file f n s := mkWt (w_map s) (w_dlen s) (w_diff s) (w_dsize s) (w_dpos s) f n (w_disk s) (w_export s) (w_rpc s) (w_cpc s) (w_in s) (w_log s). (* nbd-server.c:1213, 1957, 1987 *)
Definition s_disk f s := mkWt (w_map s) (w_dlen s) (w_diff s) (w_dsize s) (w_dpos s) (w_file s) (w_fsize s) f (w_export s) (w_rpc s) (w_cpc s) (w_in s) (w_log s). (* nbd-server.c:1253, 1740 *)
Definition s_export s := mkWt (w_map s) (w_dlen s) (w_diff s) (w_dsize s) (w_dpos s) (w_file s) (w_fsize s) (w_disk s) true (w_rpc s) (w_cpc s) (w_in s) (w_log s). (* nbd-server.c:2006 *)
(** reply (nbd-server.c:2877-2893, 2924-2931) *)
Definition done (rq : wreq) (r : wres) s :=
  mkWt (w_map s) (w_dlen s) (w_diff s) (w_dsize s) (w_dpos s) (w_file s) (w_fsize s) (w_disk s) (w_export s) RIdle (w_cpc s) (w_in s) (w_log s ++ [(rq, r)]).

(** outcome of a step: new state, the thread cannot run, undefined behaviour *)
Inductive wout := WGo (s : wst) | WNot | WUb. (* nbd-server.c:1577, 1946 *)

(** where a page is in the diff file: a 32-bit product (nbd-server.c:1582, 1650, 1950) *)
Definition at_slot (x : Z) : Z := u32 (x * DIFFPAGESIZE).
(** NOPAGE of M_Const is (u32)-1 (nbd-server.c:1578) *)
Definition there (x : Z) : bool := negb (x =? NOPAGE).
(** nbd-server.c:1574-1575, 1642-1643 *)
Definition chunk (a len : Z) : Z := Z.min len (DIFFPAGESIZE - a mod DIFFPAGESIZE).

(** one page of expread (nbd-server.c:1576-1607) *)
Definition read_page (e : wenv) (s : wst) (rq : wreq) (a len : Z) (acc : list Z) : wout :=
  let p := a / DIFFPAGESIZE in
  let n := chunk a len in
  if negb (p <? pages e) then WUb else
  let go b := let acc := acc ++ b in
    if len - n =? 0 then WGo (done rq (WOk acc) s) else WGo (s_rpc (RMapR rq (a + n) (len - n) acc) s) in
  if there (w_map s p) then
    let o := at_slot (w_map s p) + a mod DIFFPAGESIZE in
    if o + n <=? w_dsize s then go (slice (w_diff s) o n) else WGo (done rq WErr s)
  else if negb (w_export s) then WGo (done rq WErr s)
  else if a + n <=? w_fsize s then go (slice (w_file s) a n) else WGo (done rq WErr s).

(** one page of expwrite (nbd-server.c:1645-1677) and its end (nbd-server.c:1679-1687);
    fsync of the diff file leaves [w_disk] as it is *)
Definition write_page (e : wenv) (s : wst) (rq : wreq) (a len : Z) (d : Z -> Z) (fua : bool) : wout :=
  let p := a / DIFFPAGESIZE in
  let off := a mod DIFFPAGESIZE in
  let n := chunk a len in
  if negb (p <? pages e) then WUb else
  let go s := if len - n =? 0 then WGo (done rq (WOk []) s) else WGo (s_rpc (RMapW rq (a + n) (len - n) (fun i => d (i + n)) fua) s) in
  if there (w_map s p) then
    let o := at_slot (w_map s p) + off in
    go (s_diff (put (w_diff s) o n d) (Z.max (w_dsize s) (o + n)) (w_dpos s) s)
  else
    let slot := if we_sparse e then u32 p else w_dlen s in
    let s := s_map (set_at (w_map s) p slot) (if we_sparse e then w_dlen s else u32 (w_dlen s + 1)) s in
    if (negb (off =? 0) || negb (n =? DIFFPAGESIZE)) && negb (w_export s) then WGo (done rq WErr s) else
    let ps := p * DIFFPAGESIZE in
    let old i := if (off =? 0) && (n =? DIFFPAGESIZE) then we_junk e i else if ps + i <? w_fsize s then w_file s (ps + i) else we_junk e i in
    let pagebuf := put old off n d in
    go (s_diff (put (w_diff s) (w_dpos s) DIFFPAGESIZE pagebuf) (Z.max (w_dsize s) (w_dpos s + DIFFPAGESIZE)) (w_dpos s + DIFFPAGESIZE) s).

(** the file itself (rawexpread_fully, rawexpwrite_fully: nbd-server.c:1200-1261,
    1268-1282, 1440-1482) *)
Definition raw (s : wst) (rq : wreq) : wout :=
  match rq with
  | WRead a len => if a + len <=? w_fsize s then WGo (done rq (WOk (slice (w_file s) a len)) s) else WGo (done rq WErr s)
  | WWrite a len d fua =>
      let s := s_file (put (w_file s) a len d) (Z.max (w_fsize s) (a + len)) s in
      WGo (done rq (WOk []) (if fua then s_disk (w_file s) s else s))
  | WFlush => WGo (done rq (WOk []) s)
  end.

(** the thread that handles requests: takes the next and looks whether there is a
    file, without a lock (nbd-server.c:1566, 1634); FLUSH is fsync(difffile)
    (nbd-server.c:1739-1741).  It waits while a pass holds the lock. *)
Definition req_step (e : wenv) (s : wst) : wout :=
  match w_rpc s with
  | RIdle =>
      match w_in s with
      | [] => WNot
      | rq :: l =>
          let s := s_in l s in
          match rq with
          | WFlush => WGo (done rq (WOk []) s)
          | WRead a len => WGo (s_rpc (if w_export s then RRaw rq else RMapR rq a len []) s)
          | WWrite a len d fua => WGo (s_rpc (if w_export s then RRaw rq else RMapW rq a len d fua) s)
          end
      end
  | RMapR rq a len acc =>
      match w_cpc s with CPass true _ _ => WNot | _ => read_page e s rq a len acc end
  | RMapW rq a len d fua =>
      match w_cpc s with CPass true _ _ => WNot | _ => write_page e s rq a len d fua end
  | RRaw rq => raw s rq
  end.

(** the waiting thread: the file appears; one page of commit_diff with [k] bytes
    written by pwrite; the end of a pass; the switch (nbd-server.c:1943-1971,
    1984-2007) *)
Definition com_step (e : wenv) (k : Z) (s : wst) : wout :=
  match w_cpc s with
  | CWait => WGo (s_cpc (CPass false 0 0) (s_disk (fun b => if b <? we_f0size e then we_f0 e b else 0)
               (s_file (fun b => if b <? we_f0size e then we_f0 e b else 0) (we_f0size e) s)))
  | CPass locked i dirty =>
      if i <? pages e then
        if 2147483647 <? DIFFPAGESIZE * i then WUb else
        if there (w_map s i) then
          let o := at_slot (w_map s i) in
          let again := s_cpc (CPass locked 0 0) in
          if negb (o + DIFFPAGESIZE <=? w_dsize s) then WGo (again s) else
          let k := Z.max 0 (Z.min k DIFFPAGESIZE) in
          let s := s_file (put (w_file s) (DIFFPAGESIZE * i) k (fun j => w_diff s (o + j)))
                     (if k =? 0 then w_fsize s else Z.max (w_fsize s) (DIFFPAGESIZE * i + k)) s in
          if negb (k =? DIFFPAGESIZE) then WGo (again s) else
          WGo (s_cpc (CPass locked (i + 1) (dirty + 1)) (s_map (set_at (w_map s) i NOPAGE) (w_dlen s) s))
        else WGo (s_cpc (CPass locked (i + 1) dirty) s)
      else if 0 <? dirty then WGo (s_cpc (CPass locked 0 0) s)
      else if locked then WGo (s_cpc CDone (s_export s))
      else WGo (s_cpc (CPass true 0 0) s)
  | CDone => WNot
  end.

(** who runs next *)
Inductive wchoice := WReq | WCom (k : Z). (* nbd-server.c:2032, 3095 *)
Definition wstep (e : wenv) (c : wchoice) (s : wst) : wout := (* nbd-server.c:2032, 3095 *)
  match c with WReq => req_step e s | WCom k => com_step e k s end.
Fixpoint wrun (e : wenv) (l : list wchoice) (s : wst) : wout := (* nbd-server.c:2032, 3095 *)
  match l with
  | [] => WGo s
  | c :: l => match wstep e c s with WGo s => wrun e l s | r => r end
  end.
(** after setupexport and copyonwrite_prepare (nbd-server.c:2026-2036, 2155-2164) *)
Definition wstart (l : list wreq) : wst :=
  mkWt (fun _ => NOPAGE) 0 (fun _ => 0) 0 0 (fun _ => 0) 0 (fun _ => 0) false RIdle CWait l [].
