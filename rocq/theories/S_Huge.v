(** What the log made by make-integrityhuge should be. *)
From Verif Require Import Base S_Wire S_Par.
Local Open Scope list_scope.

(** a request for a disk of [size] bytes, in units of 1024 bytes: a READ, a WRITE, a
    WRITE with FUA, of at least one unit; or a FLUSH *)
Definition huge_ok (size : Z) (q : wreq) : Prop :=
  (In (q_type q) [0; 1; 65537] /\ 1024 <= q_len q /\ q_len q mod 1024 = 0 /\ 0 <= q_from q /\ q_from q mod 1024 = 0 /\ q_from q + q_len q <= size) \/
  (q_type q = 3 /\ q_from q = 0 /\ q_len q = 0).

(** the entries: each request with its number as cookie, then its reply, without
    error; DISC at the end *)
Fixpoint answered (h : Z) (qs : list wreq) (last : wreq) : list lview :=
  match qs with
  | [] => [GReq last]
  | q :: t => GReq q :: GRep (be 8 h) (HSimple 0) :: answered (h + 1) t last
  end.
Fixpoint cookies_from (h : Z) (qs : list wreq) : Prop :=
  match qs with [] => True | q :: t => q_cookie q = be 8 h /\ cookies_from (h + 1) t end.
(** what random() may return *)
Definition random_ok (rnd : nat -> Z) : Prop := forall k, 0 <= rnd k < 2147483648.
(** [q'] is [q] as a client would send it: the same, with the data a WRITE needs *)
Definition sent_as (q q' : wreq) : Prop :=
  q_type q' = q_type q /\ q_cookie q' = q_cookie q /\ q_from q' = q_from q /\ q_len q' = q_len q /\ zlen (q_data q') = (if q_cmd q' =? 1 then q_len q' else 0).
