(** Specification: the NBD wire format as seen by a client, written from the
    protocol document (doc/proto.md), not from the server's code. *)
From Verif Require Import Base.

(** [n] bytes from the front of a stream *)
Definition take (n : Z) (s : list Z) : option (list Z * list Z) :=
  if (0 <=? n) && (n <=? zlen s) then Some (firstn (Z.to_nat n) s, skipn (Z.to_nat n) s) else None.
(** an [n]-byte big-endian integer *)
Definition take_be (n : Z) (s : list Z) : option (Z * list Z) :=
  match take n s with Some (b, r) => Some (unbe b, r) | None => None end.

(** what a client learns from the answer to one request *)
Inductive answer := Ok (data : list Z) | Err (e : Z).

(** a client's view of one structured chunk *)
Record chunk_view := mkChunk { k_flags : Z; k_type : Z; k_cookie : list Z; k_payload : list Z }.

Definition eqb_bytes (a b : list Z) : bool := if list_eq_dec Z.eq_dec a b then true else false.

(** magic already consumed *)
Definition parse_chunk (s : list Z) : option (chunk_view * list Z) :=
  match take_be 2 s with
  | Some (fl, s) =>
    match take_be 2 s with
    | Some (ty, s) =>
      match take 8 s with
      | Some (ck, s) =>
        match take_be 4 s with
        | Some (n, s) =>
          match take n s with
          | Some (pl, s) => Some (mkChunk fl ty ck pl, s)
          | None => None
          end
        | None => None
        end
      | None => None
      end
    | None => None
    end
  | None => None
  end.

(** A strict client's collection of the chunks of one READ answer: all chunks
    carry the cookie; content chunks (type 1) arrive in order, are non-empty,
    start exactly at the next missing byte [pos] and stay below [stop]; the
    DONE flag (1) is set on the last chunk only, which is empty (type 0) or an
    error (type 2^15+1).  A success must have covered everything. *)
Fixpoint collect (fuel : nat) (cookie : list Z) (pos stop : Z) (acc : list Z) (s : list Z)
  : option (answer * list Z) :=
  match fuel with
  | O => None
  | S fuel =>
    match take_be 4 s with
    | Some (magic, s1) =>
      if magic =? 0x668e33ef then
        match parse_chunk s1 with
        | Some (k, s2) =>
          if eqb_bytes (k_cookie k) cookie then
            if (k_type k =? 1) && (k_flags k =? 0) then
              match take_be 8 (k_payload k) with
              | Some (off, data) =>
                if (off =? pos) && (0 <? zlen data) && (pos + zlen data <=? stop)
                then collect fuel cookie (pos + zlen data) stop (acc ++ data) s2
                else None
              | None => None
              end
            else if (k_type k =? 0) && (k_flags k =? 1) then
              if (pos =? stop) && (zlen (k_payload k) =? 0) then Some (Ok acc, s2) else None
            else if (k_type k =? 32769) && (k_flags k =? 1) then
              match take_be 4 (k_payload k) with
              | Some (e, _) => Some (Err e, s2)
              | None => None
              end
            else None
          else None
        | None => None
        end
      else None
    | None => None
    end
  end.

(** The answer to a request with the given cookie, from a byte stream; [from]
    and [len] are the range of a READ, [len = 0] for every other command.
    Returns the rest of the stream. *)
Definition read_answer (cookie : list Z) (from len : Z) (s : list Z) : option (answer * list Z) :=
  match take_be 4 s with
  | Some (magic, s1) =>
    if magic =? 0x67446698 then
      match take_be 4 s1 with
      | Some (e, s2) =>
        match take 8 s2 with
        | Some (ck, s3) =>
          if eqb_bytes ck cookie then
            if e =? 0 then
              match take len s3 with
              | Some (data, s4) => Some (Ok data, s4)
              | None => None
              end
            else Some (Err e, s3)
          else None
        | None => None
        end
      | None => None
      end
    else collect (length s) cookie from (from + len) [] s
  | None => None
  end.

(** what a client finds in the payload of an error chunk: error, and the message
    if it is complete *)
Definition error_payload (p : list Z) : option (Z * list Z) :=
  match take_be 4 p with
  | Some (e, p1) =>
    match take_be 2 p1 with
    | Some (n, p2) => match take n p2 with Some (m, []) => Some (e, m) | _ => None end
    | None => None
    end
  | None => None
  end.

(** ** Requests on the wire *)
Record wreq := mkWreq {
  q_type : Z;          (* 16-bit flags, 16-bit command *)
  q_cookie : list Z;
  q_from : Z;
  q_len : Z;
  q_data : list Z      (* payload, for WRITE only *)
}.
Definition q_cmd (q : wreq) : Z := q_type q mod 65536.
Definition q_flags (q : wreq) : Z := q_type q / 65536.

Definition wreq_ok (q : wreq) : Prop :=
  is_u32 (q_type q) /\ length (q_cookie q) = 8%nat /\ is_u64 (q_from q) /\ is_u32 (q_len q) /\
  zlen (q_data q) = (if q_cmd q =? 1 then q_len q else 0).

Definition encode (q : wreq) : list Z :=
  be 4 0x25609513 ++ be 4 (q_type q) ++ q_cookie q ++ be 8 (q_from q) ++ be 4 (q_len q) ++ q_data q.

(** defined wire errors *)
Definition wire_error (e : Z) : Prop := e = 1 \/ e = 5 \/ e = 12 \/ e = 22 \/ e = 28.

(** How a request stream can stop: cut inside a header, a header without the
    request magic, DISC (type exactly 2), or a WRITE whose payload is cut. *)
Inductive stream_end := StopCut | StopMagic | StopDisc (rest : list Z).
Definition header (q : wreq) : list Z :=
  be 4 0x25609513 ++ be 4 (q_type q) ++ q_cookie q ++ be 8 (q_from q) ++ be 4 (q_len q).
Inductive stops : list Z -> stream_end -> Prop :=
| stop_short s : zlen s < 28 -> stops s StopCut
| stop_magic s : 28 <= zlen s -> unbe (firstn 4 s) <> 0x25609513 -> stops s StopMagic
| stop_payload q s : is_u32 (q_type q) -> length (q_cookie q) = 8%nat -> is_u64 (q_from q) ->
    is_u32 (q_len q) -> q_cmd q = 1 -> zlen s < q_len q -> stops (header q ++ s) StopCut
| stop_disc q rest : wreq_ok q -> q_type q = 2 -> stops (encode q ++ rest) (StopDisc rest).
