(** The ring buffer of the TLS proxy (buffer.c) and the proxy loop
    (crypto-gnutls.c).  Definitions only. *)
From Verif Require Import Base M_Io.

(** * buffer.c *)
(** struct buffer (buffer.c:31-39); [rb_mem] is the content of [buf] *)
Record ring := mkRing {
  rb_mem : Z -> Z; rb_size : Z; rb_hwm : Z; rb_ridx : Z; rb_widx : Z; rb_empty : bool
}.

(** bufNew (buffer.c:78-87); allocation failure is not modelled *)
Definition bufNew (size hwm : Z) : ring := mkRing (fun _ => 0) size hwm 0 0 true.

(** the idiom "len = a - b; if (len <= 0) len = size - b" (buffer.c:109-111,
    132-134, 146-148, 176-178) *)
Definition span (size a b : Z) : Z := let len := a - b in if len <=? 0 then size - b else len.

(** bufGetReadSpan (buffer.c:100-113): offset of the span ([None] is NULL) and
    its length *)
Definition bufGetReadSpan (b : ring) : option Z * Z :=
  if rb_empty b then (None, 0) else (Some (rb_ridx b), span (rb_size b) (rb_widx b) (rb_ridx b)).

(** bufGetWriteSpan (buffer.c:117-136); resets the indices of an empty buffer *)
Definition bufGetWriteSpan (b : ring) : option Z * Z * ring :=
  if rb_empty b then (Some 0, rb_size b, mkRing (rb_mem b) (rb_size b) (rb_hwm b) 0 0 true)
  else if rb_ridx b =? rb_widx b then (None, 0, b)
  else (Some (rb_widx b), span (rb_size b) (rb_ridx b) (rb_widx b), b).

(** one iteration of bufDoneRead (buffer.c:143-166); state: buffer, size *)
Definition doneread_body (st : ring * Z) : (ring * Z) + ring :=
  let '(b, size) := st in
  if negb (rb_empty b) && (0 <? size) then
    let len := span (rb_size b) (rb_widx b) (rb_ridx b) in
    let len := if size <? len then size else len in
    let ridx := rb_ridx b + len in
    let ridx := if rb_size b <=? ridx then 0 else ridx in
    let b' := if ridx =? rb_widx b then mkRing (rb_mem b) (rb_size b) (rb_hwm b) 0 0 true
              else mkRing (rb_mem b) (rb_size b) (rb_hwm b) ridx (rb_widx b) (rb_empty b) in
    inl (b', size - len)
  else inr b.

(** bufDoneRead (buffer.c:140-167); the iteration bound is never reached on a
    well-formed buffer, [None] would mean it was *)
Definition bufDoneRead (b : ring) (size : Z) : option ring :=
  match loopP doneread_body (Z.to_pos (size + 1)) (b, size) with inr b' => Some b' | inl _ => None end.

(** one iteration of bufDoneWrite (buffer.c:173-192) *)
Definition donewrite_body (st : ring * Z) : (ring * Z) + ring :=
  let '(b, size) := st in
  if (rb_empty b || negb (rb_ridx b =? rb_widx b)) && (0 <? size) then
    let len := span (rb_size b) (rb_ridx b) (rb_widx b) in
    let len := if size <? len then size else len in
    let widx := rb_widx b + len in
    let widx := if rb_size b <=? widx then 0 else widx in
    inl (mkRing (rb_mem b) (rb_size b) (rb_hwm b) (rb_ridx b) widx false, size - len)
  else inr b.

(** bufDoneWrite (buffer.c:170-193) *)
Definition bufDoneWrite (b : ring) (size : Z) : option ring :=
  match loopP donewrite_body (Z.to_pos (size + 1)) (b, size) with inr b' => Some b' | inl _ => None end.

(** bufIsEmpty (buffer.c:195-199), bufGetCount (219-225), bufIsFull (201-205),
    bufIsOverHWM (207-211), bufGetFree (213-217) *)
Definition bufIsEmpty (b : ring) : bool := rb_empty b.
Definition bufGetCount (b : ring) : Z := (* buffer.c:219-225 *)
  if rb_empty b then 0
  else rb_widx b - rb_ridx b + (if rb_ridx b <? rb_widx b then 0 else rb_size b).
Definition bufIsFull (b : ring) : bool := negb (rb_empty b) && (rb_ridx b =? rb_widx b). (* buffer.c:201-205 *)
Definition bufIsOverHWM (b : ring) : bool := rb_hwm b <? bufGetCount b. (* buffer.c:207-211 *)
Definition bufGetFree (b : ring) : Z := rb_size b - bufGetCount b. (* buffer.c:213-217 *)

(** the user of a write span stores bytes through the returned pointer
    (crypto-gnutls.c:481, 544) *)
Definition fill (b : ring) (addr : Z) (bs : list Z) : ring :=
  mkRing (store (rb_mem b) addr bs) (rb_size b) (rb_hwm b) (rb_ridx b) (rb_widx b) (rb_empty b).

(** * tlssession_mainloop (crypto-gnutls.c:357-628) *)
(** Outcomes of the four transfers.  Calls interrupted by a signal are repeated
    by the code (479-483, 514-518, 542-546, 581-592) and count as one.  A quit
    request noticed right after a call (484, 519, 550, 593) abandons that
    transfer and leaves the loop, as the error outcomes here do. *)
(** read(plainfd), crypto-gnutls.c:481 *)
Inductive prres := PrData (k : Z) | PrEof | PrErr.
(** write(plainfd), crypto-gnutls.c:516 *)
Inductive pwres := PwSome (k : Z) | PwErr.
(** gnutls_record_recv, crypto-gnutls.c:544 *)
Inductive crres := CrData (k : Z) | CrEof | CrAgain | CrErr.
(** gnutls_record_send, crypto-gnutls.c:585, 589: [CwAgain k]: gnutls took [k]
    bytes into a record it could not flush yet *)
Inductive cwres := CwSome (k : Z) | CwAgain (k : Z) | CwErr.

(** what happens in one iteration: data pending inside gnutls (412), quit (464),
    which descriptors select() reports (458), results of the calls *)
Record event := mkEv {
  ev_buffered : bool; ev_quit : bool; ev_pr : bool; ev_pw : bool; ev_cr : bool; ev_cw : bool;
  ev_prr : prres; ev_pwr : pwres; ev_crr : crres; ev_cwr : cwres
}.

(** variables of the loop (crypto-gnutls.c:360-369) and the outside world: bytes
    that will arrive on each side, bytes handed out on each side, and the
    record gnutls holds unflushed *)
Record proxy := mkPx {
  px_p2c : ring; px_c2p : ring; px_wrint : bool; px_peof : bool; px_ceof : bool;
  px_pin : list Z; px_cin : list Z; px_pout : list Z; px_cout : list Z; px_pend : list Z
}.
(** how an iteration or the loop ends (crypto-gnutls.c:614-628) *)
Inductive pxend := PxStop (s : proxy) | PxError (s : proxy) | PxGo (s : proxy) | PxUb.

(** crypto-gnutls.c:466-501 *)
Definition plain_read (r : prres) (s : proxy) : pxend :=
  let '(addr, len, b) := bufGetWriteSpan (px_p2c s) in
  let s := mkPx b (px_c2p s) (px_wrint s) (px_peof s) (px_ceof s) (px_pin s) (px_cin s) (px_pout s) (px_cout s) (px_pend s) in
  if 0 <? len then
    match r, addr with
    | PrErr, _ => PxError s
    | PrEof, _ => PxGo (mkPx b (px_c2p s) (px_wrint s) true (px_ceof s) (px_pin s) (px_cin s) (px_pout s) (px_cout s) (px_pend s))
    | PrData k, Some a =>
        let n := some_bytes k len (zlen (px_pin s)) in
        if n =? 0 then PxGo (mkPx b (px_c2p s) (px_wrint s) true (px_ceof s) (px_pin s) (px_cin s) (px_pout s) (px_cout s) (px_pend s))
        else if (0 <=? a) && (a + n <=? rb_size b) then
          match bufDoneWrite (fill b a (firstn (Z.to_nat n) (px_pin s))) n with
          | Some b' => PxGo (mkPx b' (px_c2p s) (px_wrint s) (px_peof s) (px_ceof s)
                               (skipn (Z.to_nat n) (px_pin s)) (px_cin s) (px_pout s) (px_cout s) (px_pend s))
          | None => PxUb
          end
        else PxUb
    | PrData _, None => PxUb
    end
  else PxGo s.

(** crypto-gnutls.c:503-529 *)
Definition plain_write (r : pwres) (s : proxy) : pxend :=
  let '(addr, len) := bufGetReadSpan (px_c2p s) in
  if 0 <? len then
    match r, addr with
    | PwErr, _ => PxError s
    | PwSome k, Some a =>
        let n := some_bytes k len len in
        if (0 <=? a) && (a + n <=? rb_size (px_c2p s)) then
          match bufDoneRead (px_c2p s) n with
          | Some b' => PxGo (mkPx (px_p2c s) b' (px_wrint s) (px_peof s) (px_ceof s) (px_pin s) (px_cin s)
                               (px_pout s ++ slice (rb_mem (px_c2p s)) a n) (px_cout s) (px_pend s))
          | None => PxUb
          end
        else PxUb
    | PwSome _, None => PxUb
    end
  else PxGo s.

(** crypto-gnutls.c:531-567 *)
Definition crypt_read (r : crres) (s : proxy) : pxend :=
  let '(addr, len, b) := bufGetWriteSpan (px_c2p s) in
  let s := mkPx (px_p2c s) b (px_wrint s) (px_peof s) (px_ceof s) (px_pin s) (px_cin s) (px_pout s) (px_cout s) (px_pend s) in
  if 0 <? len then
    match r, addr with
    | CrErr, _ => PxError s
    | CrAgain, _ => match bufDoneWrite b (-28) with (* GNUTLS_E_AGAIN *)
                    | Some b' => PxGo (mkPx (px_p2c s) b' (px_wrint s) (px_peof s) (px_ceof s) (px_pin s) (px_cin s) (px_pout s) (px_cout s) (px_pend s))
                    | None => PxUb
                    end
    | CrEof, _ => PxGo (mkPx (px_p2c s) b (px_wrint s) (px_peof s) true (px_pin s) (px_cin s) (px_pout s) (px_cout s) (px_pend s))
    | CrData k, Some a =>
        let n := some_bytes k len (zlen (px_cin s)) in
        if n =? 0 then PxGo (mkPx (px_p2c s) b (px_wrint s) (px_peof s) true (px_pin s) (px_cin s) (px_pout s) (px_cout s) (px_pend s))
        else if (0 <=? a) && (a + n <=? rb_size b) then
          match bufDoneWrite (fill b a (firstn (Z.to_nat n) (px_cin s))) n with
          | Some b' => PxGo (mkPx (px_p2c s) b' (px_wrint s) (px_peof s) (px_ceof s)
                               (px_pin s) (skipn (Z.to_nat n) (px_cin s)) (px_pout s) (px_cout s) (px_pend s))
          | None => PxUb
          end
        else PxUb
    | CrData _, None => PxUb
    end
  else PxGo s.

(** crypto-gnutls.c:569-611.  gnutls_record_send(NULL, 0) resumes an unflushed
    record and returns its length, or is an invalid request when there is none
    (gnutls manual, gnutls_record_send). *)
Definition crypt_write (r : cwres) (s : proxy) : pxend :=
  let '(addr, len) := bufGetReadSpan (px_p2c s) in
  if 0 <? len then
    if px_wrint s then
      match px_pend s, r with
      | [], _ => PxError s
      | _, CwErr => PxError s
      | _, CwAgain _ => PxGo s
      | pend, CwSome _ =>
          match bufDoneRead (px_p2c s) (zlen pend) with
          | Some b' => PxGo (mkPx b' (px_c2p s) true (px_peof s) (px_ceof s) (px_pin s) (px_cin s)
                               (px_pout s) (px_cout s ++ pend) [])
          | None => PxUb
          end
      end
    else
      match r, addr with
      | CwErr, _ => PxError s
      | CwSome k, Some a =>
          let n := some_bytes k len len in
          if (0 <=? a) && (a + n <=? rb_size (px_p2c s)) then
            match bufDoneRead (px_p2c s) n with
            | Some b' => PxGo (mkPx b' (px_c2p s) (px_wrint s) (px_peof s) (px_ceof s) (px_pin s) (px_cin s)
                                 (px_pout s) (px_cout s ++ slice (rb_mem (px_p2c s)) a n) (px_pend s))
            | None => PxUb
            end
          else PxUb
      | CwAgain k, Some a =>
          let n := some_bytes k len len in
          if (0 <=? a) && (a + n <=? rb_size (px_p2c s)) then
            PxGo (mkPx (px_p2c s) (px_c2p s) true (px_peof s) (px_ceof s) (px_pin s) (px_cin s)
                    (px_pout s) (px_cout s) (slice (rb_mem (px_p2c s)) a n))
          else PxUb
      | _, None => PxUb
      end
  else PxGo s.

(** run the next part of an iteration unless it ended (crypto-gnutls.c:404-612) *)
Definition andthen (r : pxend) (k : proxy -> pxend) : pxend := match r with PxGo s => k s | _ => r end.

(** one iteration (crypto-gnutls.c:404-612) *)
Definition proxy_step (e : event) (s : proxy) : pxend :=
  if px_peof s && px_ceof s then PxStop s                                            (* 404 *)
  else if px_peof s && (bufIsEmpty (px_p2c s) && negb (px_wrint s)) then
    PxStop (mkPx (px_p2c s) (px_c2p s) (px_wrint s) (px_peof s) true (px_pin s) (px_cin s) (px_pout s) (px_cout s) (px_pend s)) (* 418-426 *)
  else if px_ceof s && (bufIsEmpty (px_c2p s) && negb (ev_buffered e)) then
    PxStop (mkPx (px_p2c s) (px_c2p s) (px_wrint s) true (px_ceof s) (px_pin s) (px_cin s) (px_pout s) (px_cout s) (px_pend s)) (* 435-444 *)
  else
    let fpw := negb (px_peof s) && negb (bufIsEmpty (px_c2p s)) && ev_pw e in        (* 429-430 *)
    let fpr := negb (px_peof s) && negb (bufIsOverHWM (px_p2c s)) && ev_pr e in      (* 431-432 *)
    let fcw := negb (px_ceof s) && (negb (bufIsEmpty (px_p2c s)) || px_wrint s) && ev_cw e in  (* 448-449 *)
    let fcr := negb (px_ceof s) && negb (bufIsOverHWM (px_c2p s)) && ev_cr e in      (* 450-451 *)
    if ev_quit e then PxStop s                                                       (* 464-465 *)
    else
      andthen (if fpr then plain_read (ev_prr e) s else PxGo s) (fun s =>
      andthen (if fpw then plain_write (ev_pwr e) s else PxGo s) (fun s =>
      andthen (if fcr || ev_buffered e then crypt_read (ev_crr e) s else PxGo s) (fun s =>
      if fcw then crypt_write (ev_cwr e) s else PxGo s))).

(** the loop (crypto-gnutls.c:404-612), driven by the list of iterations *)
Fixpoint proxy_run (evs : list event) (s : proxy) : pxend :=
  match evs with
  | [] => PxGo s
  | e :: t => andthen (proxy_step e s) (proxy_run t)
  end.

(** start of the loop (crypto-gnutls.c:360-369), with the bytes that will arrive *)
Definition proxy_init (size hwm : Z) (pin cin : list Z) : proxy :=
  mkPx (bufNew size hwm) (bufNew size hwm) false false false pin cin [] [] [].
