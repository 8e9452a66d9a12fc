(** The negotiation of nbd-client: nbd-client.c:365-762.  Definitions only.

    What the environment decides: how many bytes each plain read() returns
    ([e_read]), what uninitialised memory holds ([e_junk], indexed by the number
    of the read that left it unset and by position), whether the TLS session, the
    socket pair and the fork succeed ([e_tls]), the texts of strerror(errno) and
    hstrerror(h_errno).  Reading an unset variable is taken to give some value.

    Simplifications: everything written is accepted by the network (a failing
    writeit() is ignored by the program, so it would only send less); malloc and
    realloc succeed; a constant message given to err() is short enough for its
    buffer; the server's bytes end where the connection ends, and readit() then
    fails (cliserv.c:119-138 is modelled in M_Io.v). *)
From Coq Require Import String.
From Verif Require Import Base M_Const M_Io M_Nego.
Local Open Scope list_scope.

(** result of one read() (nbd-client.c:452-515, 607-624) *)
Inductive rdres := RdErr | RdSome (n : Z).
Record kenv := mkE { e_read : nat -> rdres; e_junk : nat -> nat -> Z; e_tls : bool; e_strerror : list Z; e_hstrerror : list Z }. (* nbd-client.c:607-662, cliserv.c:54, 61 *)

(** The client while negotiating: bytes still to come from the server on the
    socket in use; bytes the server will send inside TLS; whether the socket in
    use is the TLS one (nbd-client.c:678-680); everything sent, each piece with
    the kind of socket it went to; number of reads so far; cur_client->size64;
    *flags. *)
Record kst := mkK {                                                  (* nbd-client.c:559-564 *)
  k_in : list Z; k_tin : list Z; k_sec : bool; k_out : list (bool * list Z);
  k_reads : nat; k_size : Z; k_flags : Z }.

(** returned, exit(EXIT_FAILURE), exit(EXIT_SUCCESS), undefined behaviour, loop
    bound used up (nbd-client.c:487, 690, 707) *)
Inductive kout (A : Type) := KRet (a : A) (s : kst) | KFail (s : kst) | KExit0 (s : kst) | KUb (s : kst) | KMore (s : kst).
Arguments KRet {A}. Arguments KFail {A}. Arguments KExit0 {A}. Arguments KUb {A}. Arguments KMore {A}.
Definition K (A : Type) := kst -> kout A.
Definition kret {A} (a : A) : K A := fun s => KRet a s.
Definition kbind {A B} (m : K A) (f : A -> K B) : K B := fun s =>
  match m s with KRet a s1 => f a s1 | KFail s1 => KFail s1 | KExit0 s1 => KExit0 s1 | KUb s1 => KUb s1 | KMore s1 => KMore s1 end.
Declare Scope k_scope.
Notation "x <- m ;; f" := (kbind m (fun x => f)) (at level 61, m at next level, right associativity) : k_scope.
Notation "m ;;; f" := (kbind m (fun _ => f)) (at level 61, right associativity) : k_scope.
Local Open Scope k_scope.
Definition kerr {A} : K A := fun s => KFail s.                        (* cliserv.c:75-79 *)

(** uninitialised bytes (nbd-client.c:548, 560) *)
Definition junk (E : kenv) (s : kst) (n : Z) : list Z := map (e_junk E (k_reads s)) (seq 0 (Z.to_nat n)).

(** readit (cliserv.c:119-138): success and the contents of the buffer, which
    held [old] *)
Definition kreadit_on (old : list Z) (n : Z) : K (bool * list Z) := fun s =>
  if n <=? zlen (k_in s) then
    KRet (true, firstn (Z.to_nat n) (k_in s))
         (mkK (skipn (Z.to_nat n) (k_in s)) (k_tin s) (k_sec s) (k_out s) (S (k_reads s)) (k_size s) (k_flags s))
  else KRet (false, k_in s ++ skipn (length (k_in s)) old)
         (mkK [] (k_tin s) (k_sec s) (k_out s) (S (k_reads s)) (k_size s) (k_flags s)).
Definition kreadit (E : kenv) (n : Z) : K (bool * list Z) := fun s => kreadit_on (junk E s n) n s. (* cliserv.c:119-138 *)

(** read(sock, buf, n) (nbd-client.c:452-461, 607-624): what it returned and the
    contents of the buffer, which held [old] *)
Definition kread_on (E : kenv) (old : list Z) (n : Z) : K (Z * list Z) := fun s =>
  let st l := mkK l (k_tin s) (k_sec s) (k_out s) (S (k_reads s)) (k_size s) (k_flags s) in
  match e_read E (k_reads s) with
  | RdErr => KRet (-1, old) (st (k_in s))
  | RdSome m =>
      let m := Z.max 0 (Z.min m (Z.min n (zlen (k_in s)))) in
      KRet (m, firstn (Z.to_nat m) (k_in s) ++ skipn (Z.to_nat m) old) (st (skipn (Z.to_nat m) (k_in s)))
  end.
(** into an unset variable; a variable of ask_list that holds an old value is
    treated the same way (nbd-client.c:438-445) *)
Definition kread (E : kenv) (n : Z) : K (Z * list Z) := fun s => kread_on E (junk E s n) n s.

(** writeit on the socket in use (cliserv.c:148-165) *)
Definition ksend (b : list Z) : K unit := fun s =>
  KRet tt (mkK (k_in s) (k_tin s) (k_sec s) (k_out s ++ [(k_sec s, b)]) (k_reads s) (k_size s) (k_flags s)).
(** *size and *flags (nbd-client.c:530-534) *)
Definition kset (size flags : Z) : K unit := fun s =>
  KRet tt (mkK (k_in s) (k_tin s) (k_sec s) (k_out s) (k_reads s) size flags).
(** the decrypted socket replaces the plain one (nbd-client.c:677-680) *)
Definition ksecure : K unit := fun s =>
  KRet tt (mkK (k_tin s) [] true (k_out s) (k_reads s) (k_size s) (k_flags s)).

(** header of a request (nbd-client.c:366-374) *)
Definition opt_head (opt datasize : Z) : list Z := be 8 OPTS_MAGIC ++ be 4 opt ++ be 4 (u32 datasize).
(** send_request without data (nbd-client.c:365-383) *)
Definition send_request (opt datasize : Z) : K unit := ksend (opt_head opt datasize).
(** send_info_request without information requests (nbd-client.c:385-396) *)
Definition send_info_request (opt : Z) (name : list Z) : K unit :=
  send_request opt (4 + zlen name + 2) ;;;
  ksend (be 4 (u32 (zlen name))) ;;; ksend name ;;; ksend (be 2 0).

(** parse_sizes (nbd-client.c:530-544) of ten bytes; size>>12 is never above
    ULONG_MAX with 64-bit longs *)
Definition parse_sizes (b : list Z) : K unit := kset (unbe (firstn 8 b)) (unbe (firstn 2 (skipn 8 b))).

Definition FLAG_NO_ZEROES := 2.                                      (* cliserv.h:123 *)

(** send_opt_exportname (nbd-client.c:546-557) *)
Definition send_opt_exportname (E : kenv) (no_optgo : bool) (name : list Z) (global_flags : Z) : K unit :=
  ksend (opt_head OPT_EXPORT_NAME (zlen name)) ;;; ksend name ;;;
  r <- kreadit E 10 ;;
  (if negb (fst r) && negb no_optgo then kerr                        (* 549-551 *)
   else
     parse_sizes (snd r) ;;;
     if flag global_flags FLAG_NO_ZEROES then kret tt
     else _ <- kreadit E 124 ;; kret tt).

(** A reply (nbd-client.c:398-404): type, datasize, and the bytes allocated for
    its data. *)
Record kreply := mkR { r_type : Z; r_size : Z; r_data : list Z }.    (* nbd-client.c:398-404 *)
(** read_reply (nbd-client.c:406-435); [None]: NULL *)
Definition read_reply (E : kenv) : K (option kreply) :=
  h <- kreadit E 20 ;;
  (if negb (fst h) then kret None
   else
     let type := unbe (firstn 4 (skipn 12 (snd h))) in
     let size := unbe (skipn 16 (snd h)) in
     if negb (unbe (firstn 8 (snd h)) =? NBD_OPT_REPLY_MAGIC) then kerr
     else if (0 <? size) && (size <? 4096) then                      (* 425-433; the result of readit is not looked at *)
       d <- kreadit E size ;; kret (Some (mkR type size (snd d)))
     else kret (Some (mkR type size []))).

(** the C string at the start of a buffer (nbd-client.c:721) *)
Fixpoint cstring (l : list Z) : list Z :=
  match l with 0 :: _ | [] => [] | c :: t => c :: cstring t end.
(** strstr (cliserv.c:54, 61): position of two given bytes *)
Fixpoint strstr2 (a b : Z) (l : list Z) (n : Z) : option Z :=
  match l with
  | x :: ((y :: _) as t) => if (x =? a) && (y =? b) then Some n else strstr2 a b t (n + 1)
  | _ => None
  end.
(** err_nonfatal (cliserv.c:49-73) stays inside its 150 bytes: 52-57, 60-65.  A
    text without %m and %h is cut at 149 bytes. *)
Definition err_safe (E : kenv) (s : list Z) : bool :=
  match strstr2 37 109 s 0 with                                      (* %m *)
  | Some p => p + zlen (e_strerror E) <? 150
  | None => match strstr2 37 104 s 0 with                            (* %h *)
            | Some p => p + zlen (e_hstrerror E) <? 150
            | None => true
            end
  end.
(** err(errstr) with a text from the server (nbd-client.c:718-725, 729-736):
    rep->data[rep->datasize - 1] = 0, snprintf into 1024 bytes, err *)
Definition server_said (E : kenv) (prefix : list Z) (r : kreply) : K unit :=
  if 0 <? r_size r then
    if zlen (r_data r) <? r_size r then KUb
    else
      let msg := firstn 1023 (prefix ++ cstring (firstn (Z.to_nat (r_size r - 1)) (r_data r))) in
      if err_safe E msg then kerr else KUb
  else kerr.
(* nbd-client.c:721, 732 *)
Definition policy_prefix : list Z := text "Connection not allowed by server policy. Server said: ".
Definition unknown_prefix : list Z := text "Unknown error returned by server. Server said: ".

(** the loop after NBD_OPT_GO (nbd-client.c:702-760) *)
Fixpoint go_loop (fuel : nat) (E : kenv) (name : list Z) (global_flags : Z) : K unit :=
  match fuel with
  | O => KMore
  | S fuel =>
    r <- read_reply E ;;
    match r with
    | None => kerr                                                   (* 705-708 *)
    | Some r =>
      if flag (r_type r) 2147483648 then                             (* 709-740 *)
        if r_type r =? REP_ERR_UNSUP then send_opt_exportname E false name global_flags
        else if r_type r =? REP_ERR_POLICY then server_said E policy_prefix r
        else server_said E unknown_prefix r
      else if r_type r =? REP_INFO then                              (* 743-754 *)
        if zlen (r_data r) <? 2 then KUb
        else if unbe (firstn 2 (r_data r)) =? INFO_EXPORT then
          if zlen (r_data r) <? 12 then KUb
          else parse_sizes (skipn 2 (r_data r)) ;;; go_loop fuel E name global_flags
        else go_loop fuel E name global_flags
      else if r_type r =? REP_ACK then kret tt                       (* 755-756, 760 *)
      else go_loop fuel E name global_flags                          (* 757-758 *)
    end
  end.

(** ask_list (nbd-client.c:437-528): BUF_SIZE is 1024.  An access outside [buf]
    is [KUb]; [Fail] when the program gives up. *)
Definition list_round (E : kenv) : K bool :=                         (* nbd-client.c:450-526 *)
  m <- kread E 8 ;; (if fst m <? 0 then kerr else
  o <- kread E 4 ;; (if fst o <? 0 then kerr else
  t <- kread E 4 ;; (if fst t <? 0 then kerr else
  l <- kread E 4 ;; (if fst l <? 0 then kerr else
  let type := unbe (snd t) in
  let len := unbe (snd l) in
  if negb (unbe (snd m) =? NBD_OPT_REPLY_MAGIC) then kerr            (* 467-469 *)
  else if flag type 2147483648 then                                  (* 470-487 *)
    if (0 <? len) && (len <? 1024) then
      r <- kread E len ;;
      (if fst r <? 0 then kerr else if 1024 <=? fst r then KUb else kerr)
    else kerr
  else if type =? REP_ACK then kret false                            (* 489, 526 *)
  else if negb (type =? REP_SERVER) then kerr                        (* 490-492 *)
  else
    n <- kread E 4 ;; (if fst n <? 0 then kerr else                  (* 493-496 *)
    let lenn := unbe (snd n) in
    if 1024 <=? lenn then kerr                                       (* 498-501 *)
    else
      x <- kread E lenn ;; (if fst x <? 0 then kerr else             (* 502-505 *)
      if 1024 <=? lenn then KUb                             (* 506 *)
      else
        let rest := u32 (u32 (len - lenn) - 4) in                    (* 508-509 *)
        if 0 <? rest then                                            (* 510 *)
          if 1024 <=? rest then kerr                                 (* 511-514 *)
          else
            y <- kread E rest ;; (if fst y <? 0 then kerr else       (* 515-518 *)
            if 1024 <=? rest then KUb else kret true)       (* 519 *)
        else kret true)))))).
Fixpoint ask_loop (fuel : nat) (E : kenv) : K unit :=                (* nbd-client.c:450-526 *)
  match fuel with
  | O => KMore
  | S fuel => again <- list_round E ;; if again : bool then ask_loop fuel E else kret tt
  end.
Definition ask_list (fuel : nat) (E : kenv) : K unit :=              (* nbd-client.c:437-528 *)
  send_request OPT_LIST 0 ;;; ask_loop fuel E ;;; send_request OPT_ABORT 0.

(** what the user asked for (nbdclt.h:4-27, nbd-client.c:936-938) *)
Record kcfg := mkCfg { g_tls : bool; g_list : bool; g_no_optgo : bool; g_name : list Z; g_needed : Z; g_cflags : Z }.

Definition CLISERV_MAGIC := 0x00420281861253.                        (* cliserv.c:12 *)

(** STARTTLS (nbd-client.c:598-681).  tmp32 is used three times, so a short read
    leaves bytes of its earlier value (little-endian) in it. *)
Definition kstarttls (E : kenv) : K unit :=
  send_request OPT_STARTTLS 0 ;;;
  m <- kread E 8 ;; (if fst m <? 0 then kerr else if negb (unbe (snd m) =? NBD_OPT_REPLY_MAGIC) then kerr else
  o <- kread E 4 ;; (if fst o <? 0 then kerr else if negb (unbe (snd o) =? OPT_STARTTLS) then kerr else
  t <- kread_on E (le 4 (unbe (snd o))) 4 ;; (if fst t <? 0 then kerr else if negb (unbe (snd t) =? REP_ACK) then kerr else
  l <- kread_on E (le 4 (unbe (snd t))) 4 ;; (if fst l <? 0 then kerr else if negb (unbe (snd l) =? 0) then kerr else
  if e_tls E then ksecure else kerr)))).

(** negotiate (nbd-client.c:559-762) *)
Definition knegotiate (fuel : nat) (E : kenv) (g : kcfg) : K unit :=
  p <- kreadit_on (repeat 0 8) 8 ;;                                  (* 563, 567 *)
  (if negb (forallb (fun x => fst x =? snd x) (combine (snd p) (text "NBDMAGIC"))) then kerr else
  m <- kreadit E 8 ;;
  (if unbe (snd m) =? CLISERV_MAGIC then kerr else                   (* 573-577 *)
  f <- kreadit E 2 ;;
  let global_flags := unbe (snd f) in
  if negb (Z.land (g_needed g) global_flags =? g_needed g) then kerr (* 581-587 *)
  else
    let cf := if flag global_flags FLAG_NO_ZEROES then Z.lor (g_cflags g) 2 else g_cflags g in
    ksend (be 4 cf) ;;;                                              (* 589-594 *)
    (if g_tls g then kstarttls E else kret tt) ;;;
    if g_list g then ask_list fuel E ;;; (fun s => KExit0 s)         (* 688-691 *)
    else if g_no_optgo g then send_opt_exportname E true (g_name g) global_flags
    else send_info_request OPT_GO (g_name g) ;;; go_loop fuel E (g_name g) global_flags)).

(** the client before it starts (nbd-client.c:932, 979-982) *)
Definition kstart (plain tls : list Z) : kst := mkK plain tls false [] 0 0 0.
