(** The negotiation phase of nbd-server (nbd-server.c:1795-1815, 2169-2195,
    2283-2428, 2469-2765).  Definitions only. *)
From Coq Require Import String Ascii.
From Verif Require Import Base M_Const M_Disk M_Tree M_Raw M_Setup M_Io M_Acl.
Open Scope list_scope.

(* nbd-server.c:196 *) Definition F_LIST := 2.
(* nbd-server.c:197 *) Definition F_NO_ZEROES := 4.
(* nbd-server.c:190 *) Definition OFFT_MAX := 9223372036854775807.
(* cliserv.h:100 *) Definition OPT_EXPORT_NAME := 1.
(* cliserv.h:101 *) Definition OPT_ABORT := 2.
(* cliserv.h:102 *) Definition OPT_LIST := 3.
(* cliserv.h:103 *) Definition OPT_STARTTLS := 5.
(* cliserv.h:104 *) Definition OPT_INFO := 6.
(* cliserv.h:105 *) Definition OPT_GO := 7.
(* cliserv.h:106 *) Definition OPT_STRUCTURED := 8.
(* cliserv.h:109 *) Definition REP_ACK := 1.
(* cliserv.h:110 *) Definition REP_SERVER := 2.
(* cliserv.h:111 *) Definition REP_INFO := 3.
(* cliserv.h:113 *) Definition REP_ERR_UNSUP := 2147483649.
(* cliserv.h:114 *) Definition REP_ERR_POLICY := 2147483650.
(* cliserv.h:115 *) Definition REP_ERR_INVALID := 2147483651.
(* cliserv.h:117 *) Definition REP_ERR_TLS_REQD := 2147483653.
(* cliserv.h:118 *) Definition REP_ERR_UNKNOWN := 2147483654.
(* cliserv.h:129 *) Definition INFO_EXPORT := 0.

(** the bytes of a string literal (the message texts of nbd-server.c:2409-2757) *)
Definition text (s : string) : list Z := map (fun a => Z.of_N (N_of_ascii a)) (list_ascii_of_string s).

(** An export as far as negotiation is concerned (SERVER, nbdsrv.h:31-51): its
    name (a C string), flags, content of the authorization file, expected size,
    whether a prerun command is set, and the files found when it is opened. *)
Record export := mkX {
  x_name : list Z; x_flags : Z; x_auth : option (option (list Z));
  x_expected : Z; x_prerun : bool; x_files : list member
}.
Definition set_xflags (f : Z) (e : export) : export :=  (* nbd-server.c:2079-2080 *)
  mkX (x_name e) f (x_auth e) (x_expected e) (x_prerun e) (x_files e).

(** The environment: getaddrinfo, the client's address, whether the server forks
    ([dontfork], nbd-server.c:2302), whether a TLS key is configured
    (nbd-server.c:2728), and the outcomes of the n-th environment call: does a
    write succeed, the byte read from the parent (nbd-server.c:2308), does any
    other call succeed. *)
Record nenv := mkE {
  e_gai : list Z -> option (list sa); e_peer : sa; e_dontfork : bool; e_key : bool;
  e_write : nat -> bool; e_parent : nat -> Z; e_ok : nat -> bool
}.

(** What the server does to its environment, in order: messages sent (within TLS
    or not; [NCut]: the connection broke while sending), TLS established
    (nbd-server.c:2512), parent asked whether the limit permits a connection
    (2306-2308), [NStale]: parent not asked and the answer variable unset,
    address looked up (2321), prerun run (2337), files opened (2343), diff file
    prepared (2348, 2354). *)
Inductive nev :=
| NSend (tls : bool) (b : list Z)
| NCut (tls : bool) (b : list Z)
| NTls
| NParent (name : list Z) (ans : Z)
| NStale (v : Z)
| NPeer (ok : bool)
| NPrerun (i : nat) (ok : bool)
| NOpen (i : nat) (ok : bool)
| NCow (i : nat) (ok : bool).

(** State of a negotiation: bytes still to arrive on the transport in use, bytes
    that will arrive inside TLS, and the fields of CLIENT (nbdsrv.h:56-83) and
    globals involved: tls_session, clientflags & F_STRUCTURED, exportsize, the
    servers array, glob_flags, whether commsocket is still open; a counter of
    environment calls; the trace. *)
Record nst := mkN {
  n_in : list Z; n_next : list Z; n_tls : bool; n_struct : bool; n_size : Z;
  n_exports : list export; n_glob : Z; n_comm : bool; n_tick : nat; n_tr : list nev
}.

(** Outcome: normal, undefined behaviour, process exit (nbd_err,
    cliserv.c:75-79, or failed assertion), loop bound exhausted *)
Inductive nout (A : Type) := NRet (a : A) (s : nst) | NUb (s : nst) | NDie (s : nst) | NStuck.
Arguments NRet {A}. Arguments NUb {A}. Arguments NDie {A}. Arguments NStuck {A}.
Definition N (A : Type) := nst -> nout A. (* sequencing of C statements, nbd-server.c:2169-2765 *)
Definition nret {A} (a : A) : N A := fun s => NRet a s. (* nbd-server.c:2169-2765 *)
Definition nbind {A B} (m : N A) (f : A -> N B) : N B := (* nbd-server.c:2169-2765 *)
  fun s => match m s with
           | NRet a s' => f a s'
           | NUb s' => NUb s' | NDie s' => NDie s' | NStuck => NStuck
           end.
Declare Scope nego_scope.
Notation "x <~ m ;; f" := (nbind m (fun x => f)) (at level 61, m at next level, right associativity) : nego_scope.
Notation "m ;;~ f" := (nbind m (fun _ => f)) (at level 61, right associativity) : nego_scope.
Open Scope nego_scope.

Definition nget {A} (f : nst -> A) : N A := fun s => NRet (f s) s. (* nbdsrv.h:56-83 *)
Definition ndie {A} : N A := fun s => NDie s. (* cliserv.c:75-79 *)
Definition nub {A} : N A := fun s => NUb s. (* undefined behaviour; cited at each use *)

(* updates of single fields of the state above, nbdsrv.h:56-83 *)
Definition put_in (b : list Z) : N unit := fun s => (* nbd-server.c:363 *)
  NRet tt (mkN b (n_next s) (n_tls s) (n_struct s) (n_size s) (n_exports s) (n_glob s) (n_comm s) (n_tick s) (n_tr s)).
Definition put_struct (b : bool) : N unit := fun s => (* nbd-server.c:2549, 2739 *)
  NRet tt (mkN (n_in s) (n_next s) (n_tls s) b (n_size s) (n_exports s) (n_glob s) (n_comm s) (n_tick s) (n_tr s)).
Definition put_size (z : Z) : N unit := fun s => (* nbd-server.c:2288, 2119-2130 *)
  NRet tt (mkN (n_in s) (n_next s) (n_tls s) (n_struct s) z (n_exports s) (n_glob s) (n_comm s) (n_tick s) (n_tr s)).
Definition put_exports (l : list export) : N unit := fun s => (* nbd-server.c:2079-2080 *)
  NRet tt (mkN (n_in s) (n_next s) (n_tls s) (n_struct s) (n_size s) l (n_glob s) (n_comm s) (n_tick s) (n_tr s)).
Definition put_glob (z : Z) : N unit := fun s => (* nbd-server.c:2675 *)
  NRet tt (mkN (n_in s) (n_next s) (n_tls s) (n_struct s) (n_size s) (n_exports s) z (n_comm s) (n_tick s) (n_tr s)).
Definition close_comm : N unit := fun s => (* nbd-server.c:2309 *)
  NRet tt (mkN (n_in s) (n_next s) (n_tls s) (n_struct s) (n_size s) (n_exports s) (n_glob s) false (n_tick s) (n_tr s)).
(** after the handshake the session is in effect and further input arrives
    through it (nbd-server.c:2512-2514) *)
Definition enter_tls : N unit := fun s =>
  NRet tt (mkN (n_next s) [] true (n_struct s) (n_size s) (n_exports s) (n_glob s) (n_comm s) (n_tick s) (n_tr s ++ [NTls])).
Definition emit (v : nev) : N unit := fun s => (* the trace, see [nev] *)
  NRet tt (mkN (n_in s) (n_next s) (n_tls s) (n_struct s) (n_size s) (n_exports s) (n_glob s) (n_comm s) (n_tick s) (n_tr s ++ [v])).
(** take the outcome of the next environment call (readit/writeit and the calls
    listed at [nenv]) *)
Definition npull {A} (f : nat -> A) : N A := fun s =>
  NRet (f (n_tick s)) (mkN (n_in s) (n_next s) (n_tls s) (n_struct s) (n_size s) (n_exports s) (n_glob s) (n_comm s) (S (n_tick s)) (n_tr s)).

(** socket_read (nbd-server.c:363-369) of exactly [n] bytes; if the client closes
    before, the process exits (socket_closed_negotiate 410-412, readit_tls 338,
    socket_closed_transmission 464-469).  That partial reads assemble to exactly
    these bytes is C29. *)
Definition nread (n : Z) : N (list Z) := fun s =>
  if zlen (n_in s) <? n then NDie s
  else NRet (firstn (Z.to_nat n) (n_in s))
            (mkN (skipn (Z.to_nat n) (n_in s)) (n_next s) (n_tls s) (n_struct s) (n_size s) (n_exports s) (n_glob s) (n_comm s) (n_tick s) (n_tr s)).
(** an unsigned field of [k] bytes in network order (e.g. nbd-server.c:2367-2368) *)
Definition nread_be (k : Z) : N Z := b <~ nread k ;; nret (unbe b).
(** consume (nbd-server.c:379-386); skipping exactly [n] bytes is C29 *)
Definition nconsume (n : Z) : N unit := nread n ;;~ nret tt.
(** consume_len (nbd-server.c:393-400) *)
Definition nconsume_len : N unit := n <~ nread_be 4 ;; nconsume n.

Section Env.
Variable E : nenv.

(** socket_write (nbd-server.c:402-408) *)
Definition nsend (b : list Z) : N unit :=
  ok <~ npull (e_write E) ;;
  tls <~ nget n_tls ;;
  if ok then emit (NSend tls b) else emit (NCut tls b) ;;~ ndie.

(** header of an option reply (nbd-server.c:1796-1806); big-endian, see C31 *)
Definition optreply (opt type datasize : Z) : list Z :=
  be 8 NBD_OPT_REPLY_MAGIC ++ be 4 opt ++ be 4 type ++ be 4 datasize.
(** send_reply (nbd-server.c:1795-1815) with data, and with NULL data *)
Definition send_data (opt type : Z) (data : list Z) : N unit :=
  nsend (optreply opt type (zlen data)) ;;~ nsend data.
Definition send_head (opt type size : Z) : N unit := nsend (optreply opt type size). (* nbd-server.c:1811-1814 *)

(** the transmission flags (nbd-server.c:2171-2187) *)
Definition export_flags (xflags : Z) (structured : bool) : Z :=
  let f := Z.lor NBD_FLAG_HAS_FLAGS NBD_FLAG_SEND_WRITE_ZEROES in
  let f := if flag xflags F_READONLY then Z.lor f NBD_FLAG_READ_ONLY else f in
  let f := if flag xflags F_FLUSH then Z.lor f NBD_FLAG_SEND_FLUSH else f in
  let f := if flag xflags F_FUA then Z.lor f NBD_FLAG_SEND_FUA else f in
  let f := if flag xflags F_ROTATIONAL then Z.lor f NBD_FLAG_ROTATIONAL else f in
  let f := if flag xflags F_TRIM then Z.lor f NBD_FLAG_SEND_TRIM else f in
  let f := if negb (flag xflags F_COPYONWRITE) then Z.lor f NBD_FLAG_CAN_MULTI_CONN else f in
  if structured then Z.lor f NBD_FLAG_SEND_DF else f.

Definition no_export : export := mkX [] 0 None 0 false []. (* never reached: indices come from a search of the array *)
Definition nth_export (i : nat) (s : nst) : export := nth i (n_exports s) no_export. (* g_array_index, nbd-server.c:2379 *)

(** send_export_info (nbd-server.c:2169-2195) *)
Definition send_export_info (i : nat) (maybe_zeroes : bool) : N unit :=
  size <~ nget n_size ;;
  nsend (be 8 size) ;;~
  e <~ nget (nth_export i) ;;
  st <~ nget n_struct ;;
  nsend (be 2 (export_flags (x_flags e) st)) ;;~
  g <~ nget n_glob ;;
  if negb (flag g F_NO_ZEROES) && maybe_zeroes then nsend (repeat 0 124) else nret tt.

(** Flags of the export record after setupexport, which changes them in place
    even if it fails later (nbd-server.c:2076-2081) *)
Definition setup_flags (flags expected : Z) (ms : list member) : Z :=
  if flag flags F_TREEFILES || flag flags F_WAIT then flags
  else if flag flags F_MULTIFILE then
    match setup_multi flags ms 0 0 with Some (f, _, _, _) => f | None => flags end
  else match open_single flags expected ms with Some (f, _, _) => f | None => flags end.

Fixpoint set_nth {A} (i : nat) (a : A) (l : list A) : list A := (* nbd-server.c:2079-2080 *)
  match l, i with
  | [], _ => []
  | _ :: t, O => a :: t
  | x :: t, S i => x :: set_nth i a t
  end.

(** the copyonwrite_prepare calls (nbd-server.c:2347-2357) *)
Definition nprepare (i : nat) (wanted : bool) : N bool :=
  if wanted then ok <~ npull (e_ok E) ;; emit (NCow i ok) ;;~ nret ok else nret true.

(** the answer about the connection limit (nbd-server.c:2302-2310).  After the
    first call commsocket is closed and [acl] is never set. *)
Definition ask_parent (name : list Z) : N Z :=
  if e_dontfork E then nret 89
  else
    open <~ nget n_comm ;;
    v <~ npull (e_parent E) ;;
    (if open : bool then emit (NParent name v) else emit (NStale v)) ;;~
    close_comm ;;~ nret v.

(** commit_client (nbd-server.c:2283-2360).  Simplifications: the lock
    initialisations (2290-2297) are one call that may fail; setup_transactionlog
    (2333) never affects the decision; do_run without a command is 0 (444). *)
Definition commit_client (i : nat) : N bool :=
  put_size OFFT_MAX ;;~
  e <~ nget (nth_export i) ;;
  locks <~ npull (e_ok E) ;;
  if negb locks then nret false else
  acl <~ ask_parent (x_name e) ;;
  if (acl =? 78) || (acl =? 88) then nret false else
  peer <~ npull (e_ok E) ;;
  emit (NPeer peer) ;;~
  if negb peer then nret false else
  match authorized_client (e_gai E) (x_auth e) (e_peer E) with
  | AUb => nub
  | AAbort => ndie
  | ANo => nret false
  | AYes =>
      pre <~ (if x_prerun e then ok <~ npull (e_ok E) ;; emit (NPrerun i ok) ;;~ nret ok else nret true) ;;
      if negb pre then nret false else
      l <~ nget n_exports ;;
      put_exports (set_nth i (set_xflags (setup_flags (x_flags e) (x_expected e) (x_files e)) e) l) ;;~
      match setupexport (x_flags e) (x_expected e) (x_files e) with
      | SetupUb => nub
      | SetupFail => emit (NOpen i false) ;;~ nret false
      | SetupOk su =>
          emit (NOpen i true) ;;~
          put_size (su_size su) ;;~
          c1 <~ nprepare i (flag (su_flags su) F_COPYONWRITE) ;;
          if negb c1 then nret false else
          nprepare i (flag (su_flags su) F_WAIT)
      end
  end.

(** does the C string compare equal (strcmp, nbd-server.c:2384, 2593) *)
Definition name_eqb (a b : list Z) : bool := if list_eq_dec Z.eq_dec a (cstr b) then true else false.
Definition hidden (tls : bool) (e : export) : bool := flag (x_flags e) F_FORCEDTLS && negb tls. (* nbd-server.c:2381, 2417, 2594 *)

(** first visible export of that name (nbd-server.c:2377-2392) *)
Fixpoint find_first (tls : bool) (name : list Z) (i : nat) (l : list export) : option nat :=
  match l with
  | [] => None
  | e :: t => if negb (hidden tls e) && name_eqb (x_name e) name then Some i else find_first tls name (S i) t
  end.
(** last visible export of that name, and whether a hidden one had it
    (nbd-server.c:2591-2601) *)
Fixpoint find_last (tls : bool) (name : list Z) (i : nat) (l : list export) (acc : option nat * bool) : option nat * bool :=
  match l with
  | [] => acc
  | e :: t =>
      find_last tls name (S i) t
        (if name_eqb (x_name e) name then
           if hidden tls e then (fst acc, true) else (Some i, snd acc)
         else acc)
  end.

(** handle_export_name (nbd-server.c:2362-2398) *)
Definition handle_export_name : N (option nat) :=
  namelen <~ nread_be 4 ;;
  if 4096 <? namelen then nret None else
  name <~ nread namelen ;;
  tls <~ nget n_tls ;;
  l <~ nget n_exports ;;
  match find_first tls name 0 l with
  | None => ndie
  | Some i =>
      ok <~ commit_client i ;;
      if ok : bool then send_export_info i true ;;~ nret (Some i) else nret None
  end.

(** handle_list (nbd-server.c:2400-2428).  A name longer than 1020 bytes is sent
    from a 1024-byte buffer: undefined behaviour (2423-2424). *)
Fixpoint list_loop (tls : bool) (l : list export) : N unit :=
  match l with
  | [] => nret tt
  | e :: t =>
      if hidden tls e then list_loop tls t
      else if 1020 <? zlen (x_name e) then nub
      else send_data OPT_LIST REP_SERVER (be 4 (zlen (x_name e)) ++ x_name e) ;;~ list_loop tls t
  end.
Definition handle_list : N unit := (* nbd-server.c:2400-2428 *)
  len <~ nread_be 4 ;;
  (if negb (len =? 0)
   then send_data OPT_LIST REP_ERR_INVALID (text "NBD_OPT_LIST with nonzero data length is not a valid request")
   else nret tt) ;;~
  g <~ nget n_glob ;;
  if negb (flag g F_LIST)
  then send_data OPT_LIST REP_ERR_POLICY (text "Listing of exports denied by server configuration")
  else
    tls <~ nget n_tls ;;
    l <~ nget n_exports ;;
    list_loop tls l ;;~
    send_head OPT_LIST REP_ACK 0.

(** handle_starttls (nbd-server.c:2469-2527); the length is not byte-swapped
    (2478-2481).  Simplification: loading the credentials and the handshake
    (2488-2511) are one call that may fail. *)
Definition handle_starttls : N bool :=
  b <~ nread 4 ;;
  if negb (unle b =? 0) then
    nconsume (u64 (i32 (unle b))) ;;~
    send_data OPT_STARTTLS REP_ERR_INVALID (text "Sending a STARTTLS command with data is invalid") ;;~
    nret false
  else
    send_head OPT_STARTTLS REP_ACK 0 ;;~
    ok <~ npull (e_ok E) ;;
    if ok : bool then enter_tls ;;~ nret true else nret false.

(** handle_structured_reply (nbd-server.c:2533-2551) *)
Definition handle_structured_reply : N unit :=
  len <~ nread_be 4 ;;
  if negb (len =? 0) then
    send_data OPT_STRUCTURED REP_ERR_INVALID (text "NBD_OPT_STRUCTURED_REPLY with nonzero data length is not a valid request") ;;~
    nconsume len
  else
    st <~ nget n_struct ;;
    if st : bool
    then send_data OPT_STRUCTURED REP_ERR_INVALID (text "NBD_OPT_STRUCTURED_REPLY has already been called")
    else put_struct true ;;~ send_head OPT_STRUCTURED REP_ACK 0.

(** one REP_INFO reply (nbd-server.c:2625-2627, 2636-2638) *)
Definition send_info (opt : Z) (i : nat) : N unit :=
  send_head opt REP_INFO 12 ;;~ nsend (be 2 INFO_EXPORT) ;;~ send_export_info i false.

(** the loop over the information requests (nbd-server.c:2621-2634) *)
Fixpoint info_loop (opt : Z) (i : nat) (n : nat) (sent : bool) : N bool :=
  match n with
  | O => nret sent
  | S n =>
      r <~ nread_be 2 ;;
      if r =? INFO_EXPORT then send_info opt i ;;~ info_loop opt i n true
      else info_loop opt i n sent
  end.

(** handle_info (nbd-server.c:2556-2643).  Neither of the first two complaints
    returns; malloc(namelen + 1) is malloc(0) for namelen = 2^32-1, so the
    store to name[namelen] is out of bounds (2580-2585). *)
Definition handle_info (opt : Z) : N (option nat) :=
  len <~ nread_be 4 ;;
  namelen <~ nread_be 4 ;;
  (if u32 (len - 6) <? namelen then
     send_data opt REP_ERR_INVALID (text "An OPT_INFO request cannot be smaller than the length of the name + 6") ;;~
     nconsume (u64 (len - 4))
   else nret tt) ;;~
  (if 4096 <? namelen then
     send_data opt REP_ERR_INVALID (text "The name for this OPT_INFO request is too long") ;;~
     nconsume namelen
   else nret tt) ;;~
  mem <~ (if 0 <? namelen then npull (e_ok E) else nret true) ;;
  if negb mem then
    send_data opt REP_ERR_UNKNOWN (text "nbd server out of memory") ;;~ nret None
  else
  (if namelen =? 4294967295 then nub else nret tt) ;;~
  name <~ nread namelen ;;
  tls <~ nget n_tls ;;
  l <~ nget n_exports ;;
  let found := find_last tls name 0 l (None, false) in
  nreq <~ nread_be 2 ;;
  match fst found with
  | None =>
      nconsume (nreq * 2) ;;~
      (if snd found : bool
       then send_data opt REP_ERR_TLS_REQD (text "TLS is required for that export")
       else send_data opt REP_ERR_UNKNOWN (text "Export unknown")) ;;~
      nret None
  | Some i =>
      ok <~ (if opt =? OPT_GO then commit_client i else nret true) ;;
      if negb ok then
        nconsume (nreq * 2) ;;~
        send_data opt REP_ERR_POLICY (text "Access denied by server configuration") ;;~
        nret None
      else
        sent <~ info_loop opt i (Z.to_nat nreq) false ;;
        (if sent : bool then nret tt else send_info opt i) ;;~
        send_head opt REP_ACK 0 ;;~
        nret (Some i)
  end.

(** what one turn of the loop leads to: another one, return NULL, or return the
    client (nbd-server.c:2678-2765) *)
Inductive turn := Again | Closed | Serve (i : nat).

(** body of the loop once magic and option number are read (nbd-server.c:2686-2756) *)
Definition do_option (opt : Z) : N turn :=
  tls <~ nget n_tls ;;
  g <~ nget n_glob ;;
  if negb tls && flag g F_FORCEDTLS && negb (opt =? OPT_STARTTLS) then
    if opt =? OPT_EXPORT_NAME then nret Closed
    else if opt =? OPT_ABORT then nret Closed
    else
      nconsume_len ;;~
      send_data opt REP_ERR_TLS_REQD (text "TLS is required on this server") ;;~
      nret Again
  else if opt =? OPT_EXPORT_NAME then
    r <~ handle_export_name ;;
    match r with Some i => nret (Serve i) | None => nret Closed end
  else if opt =? OPT_LIST then handle_list ;;~ nret Again
  else if opt =? OPT_ABORT then nret Closed
  else if opt =? OPT_STARTTLS then
    if tls : bool then
      nconsume_len ;;~
      send_data opt REP_ERR_INVALID (text "Invalid STARTTLS request: TLS has already been negotiated!") ;;~
      nret Again
    else if negb (e_key E) then
      nconsume_len ;;~
      send_data opt REP_ERR_POLICY (text "TLS not allowed on this server") ;;~
      nret Again
    else
      ok <~ handle_starttls ;;
      if ok : bool then put_struct false ;;~ nret Again else nret Closed
  else if (opt =? OPT_GO) || (opt =? OPT_INFO) then
    r <~ handle_info opt ;;
    match r with
    | Some i => if opt =? OPT_GO then nret (Serve i) else nret Again
    | None => nret Again
    end
  else if opt =? OPT_STRUCTURED then handle_structured_reply ;;~ nret Again
  else
    nconsume_len ;;~
    send_data opt REP_ERR_UNSUP (text "The given option is unknown to this server implementation") ;;~
    nret Again.

(** the loop (nbd-server.c:2678-2758); each turn reads at least 12 bytes, so the
    number of turns is bounded by the input *)
Fixpoint nego_loop (fuel : nat) : N (option nat) :=
  match fuel with
  | O => fun _ => NStuck
  | S fuel =>
      magic <~ nread_be 8 ;;
      if negb (magic =? OPTS_MAGIC) then nret None else
      opt <~ nread_be 4 ;;
      t <~ do_option opt ;;
      match t with
      | Again => nego_loop fuel
      | Closed => nret None
      | Serve i => nret (Some i)
      end
  end.

(** negotiate (nbd-server.c:2652-2765): [Some i] is the client returned with
    client->server the i-th export *)
Definition negotiate : N (option nat) :=
  nsend (be 8 0x4e42444d41474943) ;;~
  nsend (be 8 OPTS_MAGIC) ;;~
  nsend (be 2 3) ;;~
  cflags <~ nread_be 4 ;;
  (if flag cflags 2 then g <~ nget n_glob ;; put_glob (Z.lor g F_NO_ZEROES) else nret tt) ;;~
  fuel <~ nget (fun s => S (length (n_in s) + length (n_next s))) ;;
  nego_loop fuel.
End Env.

(** a new connection: [plain] arrives in clear, [secure] inside TLS if it comes to
    that (negotiate, nbd-server.c:2652-2666; handle_modern_connection 3219-3261) *)
Definition fresh (l : list export) (glob : Z) (plain secure : list Z) : nst :=
  mkN plain secure false false 0 l glob true 0 [].
