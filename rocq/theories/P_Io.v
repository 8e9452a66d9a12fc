(** Socket transfer loops and header byte order: C29, C30, C31. *)
From Verif Require Import Base M_Const M_Io S_Io L_Io.
From Verif Require M_Raw.

(** ** C29: socket reads deliver exactly the requested bytes *)
(** Whatever the successive receive calls return: success means exactly [len]
    bytes of the stream, in order, are in the buffer and nothing else changed;
    otherwise fewer bytes arrived, and giving up is due to the end of the stream
    or a hard error.  No byte outside the buffer is touched. *)
Theorem C29_readit_delivers_exactly :
  forall calls inp m o p len, 0 <= len -> o_lo o <= p -> p + len <= o_hi o ->
    exists got,
    match readit calls inp m o p len with
    | Done s => delivered inp (r_in s) m (r_mem s) p got /\ zlen got = len
    | Failed s | Exited s =>
        delivered inp (r_in s) m (r_mem s) p got /\ zlen got < len /\
        (r_in s = [] \/ exists c, In c calls /\ hard c)
    | Pending s => delivered inp (r_in s) m (r_mem s) p got /\ zlen got < len
    | Oob => False
    end.
Proof. exact readit_received. Qed.
Print Assumptions C29_readit_delivers_exactly.

Theorem C29_readit_tls_delivers_exactly :
  forall calls inp m o p len, 0 <= len -> o_lo o <= p -> p + len <= o_hi o ->
    exists got,
    match readit_tls calls inp m o p len with
    | Done s => delivered inp (r_in s) m (r_mem s) p got /\ zlen got = len
    | Failed s | Exited s =>
        delivered inp (r_in s) m (r_mem s) p got /\ zlen got < len /\
        (r_in s = [] \/ exists c, In c calls /\ hard c)
    | Pending s => delivered inp (r_in s) m (r_mem s) p got /\ zlen got < len
    | Oob => False
    end.
Proof. exact readit_tls_received. Qed.
Print Assumptions C29_readit_tls_delivers_exactly.

(** without hard errors, with enough data and as many data-carrying calls as
    bytes wanted at most, both succeed; "try again" results are harmless *)
Theorem C29_healthy_reads_complete :
  forall calls inp m o p len, 0 <= len -> o_lo o <= p -> p + len <= o_hi o ->
    (forall c, In c calls -> ~ hard c) -> len <= zlen inp -> len <= data_calls calls ->
    (exists s, readit calls inp m o p len = Done s) /\ (exists s, readit_tls calls inp m o p len = Done s).
Proof. intros. split; [apply readit_completes|apply readit_tls_completes]; assumption. Qed.
Print Assumptions C29_healthy_reads_complete.

(** skipping [len] bytes through a buffer of any size advances the stream by
    exactly [len] *)
Theorem C29_consume_skips_exactly :
  forall tls o len bufsiz s, 0 <= len -> 0 < bufsiz -> o_hi o = o_lo o + bufsiz ->
    match consume tls o len bufsiz s with
    | Done s' => exists skip, r_in s = skip ++ r_in s' /\ zlen skip = len
    | Exited s' | Pending s' => exists skip, r_in s = skip ++ r_in s' /\ zlen skip < len
    | _ => False
    end.
Proof. exact consume_spec. Qed.
Print Assumptions C29_consume_skips_exactly.

Theorem C29_consume_len_skips_exactly :
  forall tls lo bo s, o_hi lo = o_lo lo + 4 -> o_hi bo = o_lo bo + 1024 -> Forall is_byte (r_in s) ->
    match consume_len tls lo bo s with
    | Done s' => exists hdr skip, r_in s = hdr ++ skip ++ r_in s' /\ zlen hdr = 4 /\ zlen skip = unbe hdr
    | Exited s' | Pending s' => exists skip, r_in s = skip ++ r_in s' /\
        (zlen skip < 4 \/ zlen skip < 4 + unbe (firstn 4 (r_in s)))
    | _ => False
    end.
Proof. exact consume_len_spec. Qed.
Print Assumptions C29_consume_len_skips_exactly.

Definition demo_calls : list rdres := [RdSome 2; RdFail EAGAIN; RdSome 1; RdSome 9; RdSome 9].
Example C29_demo :
  let o := mkObj 100 105 in let inp := [1;2;3;4;5;6] in
  0 <= 5 /\ o_lo o <= 100 /\ 100 + 5 <= o_hi o /\ (forall c, In c demo_calls -> ~ hard c \/ c = RdFail EAGAIN) /\
  match readit demo_calls inp (fun _ => 0) o 100 5 with
  | Done s => r_in s = [6] /\ r_calls s = [RdSome 9] /\ slice (r_mem s) 99 7 = [0;1;2;3;4;5;0]
  | _ => False
  end /\
  match readit [RdSome 2; RdEof] inp (fun _ => 0) o 100 5 with Failed s => r_in s = [3;4;5;6] | _ => False end /\
  match readit_tls [RdSome 2; RdEof] inp (fun _ => 0) o 100 5 with Exited s => r_in s = [3;4;5;6] | _ => False end.
Proof.
  cbn zeta. repeat (split; [cbn; lia|]). split.
  - intros c [<-|[<-|[<-|[<-|[<-|[]]]]]]; cbn; auto.
  - vm_compute. repeat split.
Qed.

Example C29_skip_demo :
  let s := mkR ([0;0;0;3] ++ [7;8;9] ++ [55]) (repeat (RdSome 2) 9) (fun _ => 0) in
  Forall is_byte (r_in s) /\
  match consume_len false (mkObj 0 4) (mkObj 8 1032) s with Done s' => r_in s' = [55] | _ => False end /\
  match consume true (mkObj 0 2) 5 2 s with Done s' => r_in s' = [8;9;55] | _ => False end.
Proof. split; [repeat constructor; lia|]. vm_compute. repeat split. Qed.

(** ** C30: socket writes *)
(** Plain sockets: exactly the given bytes, provided no call is refused with
    EAGAIN. *)
Theorem C30_writeit_partial :
  forall calls m o p len wire, 0 <= len -> o_lo o <= p -> p + len <= o_hi o -> ~ In (WrFail EAGAIN) calls ->
    match writeit calls m o p len wire with
    | Done w => w = wire ++ slice m p len
    | Failed w | Pending w => exists n, 0 <= n < len /\ w = wire ++ slice m p n
    | Exited _ | Oob => False
    end.
Proof. exact writeit_spec. Qed.
Print Assumptions C30_writeit_partial.

(** TLS connections: in all cases *)
Theorem C30_writeit_tls_sends_exactly :
  forall calls m o p len wire, 0 <= len -> o_lo o <= p -> p + len <= o_hi o ->
    match writeit_tls calls m o p len wire with
    | Done w => w = wire ++ slice m p len
    | Failed w | Pending w => exists n, 0 <= n < len /\ w = wire ++ slice m p n
    | Exited _ | Oob => False
    end.
Proof. exact writeit_tls_spec. Qed.
Print Assumptions C30_writeit_tls_sends_exactly.

(** EAGAIN in the middle of a transfer: success is reported but a byte went out
    twice *)
Theorem C30_eagain_duplicates_a_byte_refuted :
  exists calls m o p len w, 0 <= len /\ o_lo o <= p /\ p + len <= o_hi o /\
    writeit calls m o p len [] = Done w /\ w <> slice m p len.
Proof.
  exists [WrSome 2; WrFail EAGAIN; WrSome 9], (fun i => 10 * i), (mkObj 0 4), 0, 4, [0;10;10;20;30].
  repeat (split; [cbn; lia|]). split; [vm_compute; reflexivity|vm_compute; discriminate].
Qed.
Print Assumptions C30_eagain_duplicates_a_byte_refuted.

(** EAGAIN on the first call of any transfer, followed by a call that takes
    data: the byte before the buffer is sent *)
Theorem C30_eagain_first_reads_before_the_buffer :
  forall calls m o len wire, 0 < len < 18446744073709551615 ->
    (exists k, nth_error calls 0 = Some (WrSome k)) ->
    writeit (WrFail EAGAIN :: calls) m o (o_lo o) len wire = Oob.
Proof. exact writeit_eagain_first. Qed.
Print Assumptions C30_eagain_first_reads_before_the_buffer.

Example C30_demo :
  let m := fun i => 10 * i in let o := mkObj 0 4 in
  ~ In (WrFail EAGAIN) [WrSome 1; WrZero EAGAIN; WrSome 2; WrSome 2] /\
  writeit [WrSome 1; WrZero EAGAIN; WrSome 2; WrSome 2] m o 0 4 [99] = Done [99;0;10;20;30] /\
  writeit [WrSome 1; WrFail EIO] m o 0 4 [] = Failed [0] /\
  writeit_tls [WrFail EAGAIN; WrSome 1; WrFail EAGAIN; WrSome 9] m o 0 4 [] = Done [0;10;20;30] /\
  writeit [WrFail EAGAIN; WrSome 1] m o 0 4 [] = Oob.
Proof.
  cbn zeta. split; [intros [H|[H|[H|[H|[]]]]]; discriminate|]. vm_compute. repeat split.
Qed.

(** ** C31: header codecs *)
(** the request struct as the server sees it after its conversions is the
    big-endian reading of the 28 bytes; the cookie is kept byte for byte *)
Theorem C31_request_is_big_endian :
  forall b, length b = 28%nat -> Forall is_byte b ->
    let r := host_request (load_request b) in
    cr_type r = unbe (firstn 4 (skipn 4 b)) /\ cr_from r = unbe (firstn 8 (skipn 16 b)) /\
    cr_len r = unbe (firstn 4 (skipn 24 b)) /\ le 8 (cr_cookie r) = firstn 8 (skipn 8 b) /\
    (request_magic_ok (load_request b) = true <-> unbe (firstn 4 b) = 0x25609513).
Proof. exact request_big_endian. Qed.
Print Assumptions C31_request_is_big_endian.

(** so the request decoder of the data-path model (M_Raw.v) is the server's *)
Theorem C31_request_decoder_agrees :
  forall b, length b = 28%nat -> Forall is_byte b ->
    let r := host_request (load_request b) in
    snd (M_Raw.decode_request b) = M_Raw.mkReq (cr_type r) (le 8 (cr_cookie r)) (cr_from r) (cr_len r).
Proof. exact request_decoder. Qed.
Print Assumptions C31_request_decoder_agrees.

Theorem C31_request_round_trip :
  forall type cookie from len, is_u32 type -> is_u64 cookie -> is_u64 from -> is_u32 len ->
    let b := store_request type cookie from len in
    length b = 28%nat /\ request_magic_ok (load_request b) = true /\
    host_request (load_request b) = mkCReq (cr_magic (load_request b)) type cookie from len.
Proof. exact request_round_trip. Qed.
Print Assumptions C31_request_round_trip.

Theorem C31_reply_layouts :
  forall cookie e flags type len,
    store_reply cookie e = be 4 0x67446698 ++ be 4 e ++ le 8 cookie /\
    store_chunk flags type cookie len = be 4 0x668e33ef ++ be 2 flags ++ be 2 type ++ le 8 cookie ++ be 4 len /\
    length (store_reply cookie e) = 16%nat /\ length (store_chunk flags type cookie len) = 20%nat.
Proof. exact reply_layouts. Qed.
Print Assumptions C31_reply_layouts.

Theorem C31_option_headers_round_trip :
  forall opt type len, is_u32 opt -> is_u32 type -> is_u32 len ->
    store_optreply opt type len = be 8 0x3e889045565a9 ++ be 4 opt ++ be 4 type ++ be 4 len /\
    load_optreply (store_optreply opt type len) = (0x3e889045565a9, opt, type, len) /\
    store_option opt len = be 8 0x49484156454F5054 ++ be 4 opt ++ be 4 len /\
    load_option (store_option opt len) = (0x49484156454F5054, opt, len).
Proof. exact option_headers. Qed.
Print Assumptions C31_option_headers_round_trip.

Theorem C31_ntohll_is_an_involution : forall a, is_u64 a -> ntohll (ntohll a) = a.
Proof. exact ntohll_involutive. Qed.
Print Assumptions C31_ntohll_is_an_involution.

Theorem C31_ntohll_reverses_bytes : forall a, is_u64 a -> le 8 (ntohll a) = be 8 a.
Proof. exact ntohll_store. Qed.
Print Assumptions C31_ntohll_reverses_bytes.

Example C31_demo :
  is_u64 0x0102030405060708 /\ ntohll 0x0102030405060708 = 0x0807060504030201 /\
  store_request 1 0x1122 512 4096 =
    [0x25;0x60;0x95;0x13] ++ [0;0;0;1] ++ [0x22;0x11;0;0;0;0;0;0] ++ [0;0;0;0;0;0;2;0] ++ [0;0;16;0] /\
  store_optreply 7 3 12 = [0;3;0xe8;0x89;4;0x55;0x65;0xa9] ++ [0;0;0;7] ++ [0;0;0;3] ++ [0;0;0;12].
Proof. split; [unfold is_u64; lia|]. vm_compute. repeat split. Qed.
