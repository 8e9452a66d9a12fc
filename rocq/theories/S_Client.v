(** Specification vocabulary for the negotiation of nbd-client. *)
From Coq Require Import String.
From Verif Require Import Base M_Nego M_Client.
Local Open Scope list_scope.

(** the state a run ended in, whatever the way it ended *)
Definition end_of {A} (o : kout A) : kst :=
  match o with KRet _ s | KFail s | KExit0 s | KUb s | KMore s => s end.
(** the run got through: into transmission, or to the end of a listing *)
Definition succeeded {A} (o : kout A) : Prop :=
  match o with KRet _ _ | KExit0 _ => True | _ => False end.

(** all bytes sent in clear, and all bytes sent inside TLS *)
Definition clear_bytes (l : list (bool * list Z)) : list Z :=
  concat (map (fun p : bool * list Z => if fst p then [] else snd p) l).
Definition secret_bytes (l : list (bool * list Z)) : list Z :=
  concat (map (fun p : bool * list Z => if fst p then snd p else []) l).
Definition prefix (a b : list Z) : Prop := exists c, b = a ++ c.

(** messages of the protocol, byte by byte *)
Definition IHAVEOPT : list Z := [0x49; 0x48; 0x41; 0x56; 0x45; 0x4F; 0x50; 0x54].
Definition greeting (flags : Z) : list Z := [0x4e; 0x42; 0x44; 0x4d; 0x41; 0x47; 0x49; 0x43] ++ IHAVEOPT ++ be 2 flags.
Definition starttls_request : list Z := IHAVEOPT ++ [0; 0; 0; 5] ++ [0; 0; 0; 0].
Definition export_name_request (name : list Z) : list Z := IHAVEOPT ++ [0; 0; 0; 1] ++ be 4 (zlen name) ++ name.
Definition go_request (name : list Z) : list Z :=
  IHAVEOPT ++ [0; 0; 0; 7] ++ be 4 (zlen name + 6) ++ be 4 (zlen name) ++ name ++ [0; 0].
Definition REPLY_MAGIC : list Z := [0; 3; 0xe8; 0x89; 0x04; 0x55; 0x65; 0xa9].
Definition reply (opt type : Z) (data : list Z) : list Z :=
  REPLY_MAGIC ++ be 4 opt ++ be 4 type ++ be 4 (zlen data) ++ data.
Definition export_info (size flags : Z) : list Z := [0; 0] ++ be 8 size ++ be 2 flags.

(** every read() of the system call delivers what is there, up to what was asked
    for, and does not fail *)
Definition full_reads (E : kenv) : Prop := forall i, exists m, e_read E i = RdSome m /\ 1024 <= m.

(** a text contains %m or %h *)
Definition has_format (l : list Z) : Prop := exists a c b, l = a ++ 37 :: c :: b /\ (c = 109 \/ c = 104).

(** The replies a client must be wary of, at the head of a stream: an error reply
    with 4096 bytes or more of text, an error reply whose text contains %m or %h
    or is cut short, an information reply too small for what it announces or of
    4096 bytes or more. *)
Definition wary (l : list Z) : Prop :=
  exists opt type size d,
    l = REPLY_MAGIC ++ opt ++ be 4 type ++ be 4 size ++ d /\ zlen opt = 4 /\ 0 <= type < 2 ^ 32 /\ 0 <= size < 2 ^ 32 /\
    (2 ^ 31 <= type /\ type <> 2 ^ 31 + 1 /\ 0 < size /\
       (4096 <= size \/ zlen d < size \/ has_format (firstn (Z.to_nat size) d))
     \/ type = 3 /\ (size < 2 \/ 4096 <= size \/ size < 12 /\ (zlen d < size \/ firstn 2 d = [0; 0]))).

(** an intermediate reply that announces no size: other information, or a type
    the client does not know *)
Definition announces_nothing (type : Z) (data : list Z) : Prop :=
  0 <= type < 2 ^ 31 /\ zlen data < 4096 /\
  (type = 3 /\ (exists a b t, data = a :: b :: t /\ [a; b] <> [0; 0] /\ is_byte a /\ is_byte b) \/
   type <> 3 /\ type <> 1).

(** [size] and [flags] stand in the stream where a server announces them: in an
    information reply of kind 0, or behind an error reply of type "unsupported",
    as the answer to EXPORT_NAME *)
Definition announced_in (l : list Z) (size flags : Z) : Prop :=
  (exists pre opt len rest, zlen opt = 4 /\
     l = pre ++ REPLY_MAGIC ++ opt ++ [0; 0; 0; 3] ++ be 4 len ++ [0; 0] ++ be 8 size ++ be 2 flags ++ rest) \/
  (exists pre opt len d rest, zlen opt = 4 /\ zlen d <= len /\
     l = pre ++ REPLY_MAGIC ++ opt ++ [128; 0; 0; 1] ++ be 4 len ++ d ++ be 8 size ++ be 2 flags ++ rest).

(** any intermediate reply a client can digest *)
Definition digestible (type : Z) (data : list Z) : Prop :=
  announces_nothing type data \/
  type = 3 /\ zlen data < 4096 /\ exists size flags more, data = export_info size flags ++ more.

(** one reply: option it belongs to, type, data *)
Definition msgs (l : list (Z * Z * list Z)) : list Z :=
  concat (map (fun r : Z * Z * list Z => let '(o, t, d) := r in reply o t d) l).

(** the bytes a well-behaved server has for a client: greeting, agreement to
    STARTTLS if the client wants TLS, and [stream], on the right channel *)
Definition serves (E : kenv) (g : kcfg) (gf : Z) (stream plain tls : list Z) : Prop :=
  0 <= gf < 65536 /\ Z.land (g_needed g) gf = g_needed g /\ zlen (g_name g) < 2 ^ 32 - 6 /\
  if g_tls g then full_reads E /\ e_tls E = true /\ plain = greeting gf ++ reply 5 1 [] /\ tls = stream
  else plain = greeting gf ++ stream.

(** what the client has said by then: its flags, and STARTTLS *)
Definition hello (g : kcfg) (gf : Z) : list Z :=
  be 4 (if Z.testbit gf 1 then Z.lor (g_cflags g) 2 else g_cflags g) ++ (if g_tls g then starttls_request else []).
Definition all_sent (s : kst) : list Z := concat (map snd (k_out s)).
