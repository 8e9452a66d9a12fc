(** Specification for concurrent processing: what a client that keeps many
    requests in flight finds in the byte stream it receives, written from the
    protocol document. *)
From Verif Require Import Base S_Wire.

(** one reply message, without its cookie *)
Inductive view := VSimple (e : Z) (data : list Z) | VChunk (flags type : Z) (payload : list Z).

(** its bytes *)
Definition enc_view (cookie : list Z) (v : view) : list Z :=
  match v with
  | VSimple e data => be 4 0x67446698 ++ be 4 e ++ cookie ++ data
  | VChunk fl ty p => be 4 0x668e33ef ++ be 2 fl ++ be 2 ty ++ cookie ++ be 4 (zlen p) ++ p
  end.

(** sizes of its fields; [dlen] is the number of bytes that follow a simple
    reply without error *)
Definition wf_view (dlen : Z) (v : view) : Prop :=
  match v with
  | VSimple e data => is_u32 e /\ zlen data = (if e =? 0 then dlen else 0)
  | VChunk fl ty p => 0 <= fl < 65536 /\ 0 <= ty < 65536 /\ is_u32 (zlen p)
  end.

(** the DONE flag (bit 0) *)
Definition is_done (v : view) : bool := match v with VSimple _ _ => true | VChunk fl _ _ => Z.odd fl end.
Definition is_chunk (v : view) : bool := match v with VSimple _ _ => false | VChunk _ _ _ => true end.

(** one simple reply, or chunks of which exactly the last has DONE *)
Definition whole_answer (vs : list view) : Prop :=
  (exists e data, vs = [VSimple e data]) \/
  (exists init last, vs = init ++ [last] /\ is_chunk last = true /\ is_done last = true /\
     Forall (fun v => is_chunk v = true /\ is_done v = false) init).

(** A client cutting the stream into messages; [dlen] tells how many bytes
    follow a simple reply without error for the request with that cookie. *)
Fixpoint split_replies (fuel : nat) (dlen : list Z -> Z) (s : list Z) : option (list (list Z * view)) :=
  match s with
  | [] => Some []
  | _ =>
    match fuel with
    | O => None
    | S fuel =>
      match take_be 4 s with
      | Some (magic, s1) =>
        if magic =? 0x67446698 then
          match take_be 4 s1 with
          | Some (e, s2) =>
            match take 8 s2 with
            | Some (ck, s3) =>
              match take (if e =? 0 then dlen ck else 0) s3 with
              | Some (data, s4) =>
                match split_replies fuel dlen s4 with
                | Some l => Some ((ck, VSimple e data) :: l)
                | None => None
                end
              | None => None
              end
            | None => None
            end
          | None => None
          end
        else if magic =? 0x668e33ef then
          match parse_chunk s1 with
          | Some (k, s2) =>
            match split_replies fuel dlen s2 with
            | Some l => Some ((k_cookie k, VChunk (k_flags k) (k_type k) (k_payload k)) :: l)
            | None => None
            end
          | None => None
          end
        else None
      | None => None
      end
    end
  end.

(** the messages with a given cookie, in order *)
Definition with_cookie (ck : list Z) (l : list (list Z * view)) : list view :=
  map snd (filter (fun x => eqb_bytes (fst x) ck) l).

(** the length of data a READ with that cookie asked for *)
Fixpoint data_len (qs : list wreq) (ck : list Z) : Z :=
  match qs with
  | [] => 0
  | q :: t => if eqb_bytes (q_cookie q) ck then (if q_cmd q =? 0 then q_len q else 0) else data_len t ck
  end.

(** the part of a reply message that goes to the transaction log: its header *)
Definition enc_head (cookie : list Z) (v : view) : list Z :=
  match v with
  | VSimple e _ => be 4 0x67446698 ++ be 4 e ++ cookie
  | VChunk fl ty p => be 4 0x668e33ef ++ be 2 fl ++ be 2 ty ++ cookie ++ be 4 (zlen p)
  end.

(** ** Reading the transaction log back *)

(** a reply header *)
Inductive hview := HSimple (e : Z) | HChunk (flags type len : Z).
Definition head_view (v : view) : hview :=
  match v with VSimple e _ => HSimple e | VChunk fl ty p => HChunk fl ty (zlen p) end.

(** a log entry: a request, with its data if data is logged, or a reply
    header *)
Inductive lview := GReq (q : wreq) | GRep (cookie : list Z) (h : hview).

(** [dl]: the payload of each WRITE follows its header *)
Fixpoint parse_log (fuel : nat) (dl : bool) (s : list Z) : option (list lview) :=
  match s with
  | [] => Some []
  | _ =>
    match fuel with
    | O => None
    | S fuel =>
      match take_be 4 s with
      | Some (magic, s) =>
        if magic =? 0x25609513 then
          match take_be 4 s with
          | Some (type, s) =>
            match take 8 s with
            | Some (ck, s) =>
              match take_be 8 s with
              | Some (from, s) =>
                match take_be 4 s with
                | Some (len, s) =>
                  match take (if dl && (type mod 65536 =? 1) then len else 0) s with
                  | Some (data, s) =>
                    match parse_log fuel dl s with
                    | Some l => Some (GReq (mkWreq type ck from len data) :: l)
                    | None => None
                    end
                  | None => None
                  end
                | None => None
                end
              | None => None
              end
            | None => None
            end
          | None => None
          end
        else if magic =? 0x67446698 then
          match take_be 4 s with
          | Some (e, s) =>
            match take 8 s with
            | Some (ck, s) =>
              match parse_log fuel dl s with
              | Some l => Some (GRep ck (HSimple e) :: l)
              | None => None
              end
            | None => None
            end
          | None => None
          end
        else if magic =? 0x668e33ef then
          match take_be 2 s with
          | Some (fl, s) =>
            match take_be 2 s with
            | Some (ty, s) =>
              match take 8 s with
              | Some (ck, s) =>
                match take_be 4 s with
                | Some (n, s) =>
                  match parse_log fuel dl s with
                  | Some l => Some (GRep ck (HChunk fl ty n) :: l)
                  | None => None
                  end
                | None => None
                end
              | None => None
              end
            | None => None
            end
          | None => None
          end
        else None
      | None => None
      end
    end
  end.

(** the requests found in a log, in order *)
Fixpoint log_requests (l : list lview) : list wreq :=
  match l with
  | [] => []
  | GReq q :: t => q :: log_requests t
  | GRep _ _ :: t => log_requests t
  end.
(** the reply headers with a given cookie, in order *)
Fixpoint log_replies (ck : list Z) (l : list lview) : list hview :=
  match l with
  | [] => []
  | GReq _ :: t => log_replies ck t
  | GRep ck' h :: t => if eqb_bytes ck' ck then h :: log_replies ck t else log_replies ck t
  end.

(** a request as the log keeps it *)
Definition logged (dl : bool) (q : wreq) : wreq :=
  mkWreq (q_type q) (q_cookie q) (q_from q) (q_len q) (if dl then q_data q else []).

(** the stream ends between requests or with DISC; [last]: the DISC *)
Definition ends_clean (tail : list Z) (last : list wreq) : Prop :=
  (zlen tail < 28 /\ last = []) \/
  (exists q rest, wreq_ok q /\ q_type q = 2 /\ tail = encode q ++ rest /\ last = [q]).
