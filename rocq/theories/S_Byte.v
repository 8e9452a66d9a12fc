(** Specification: what one request may do to one byte of the disk, and what
    its answer may say about it. *)
From Verif Require Import Base S_Wire S_Par.

(** the request asks to change byte [j] *)
Definition touches (q : wreq) (j : Z) : bool :=
  ((q_cmd q =? 1) || (q_cmd q =? 4) || (q_cmd q =? 6)) && (q_from q <=? j) && (j <? q_from q + q_len q).

(** byte [j] was [v0] before request [q], which touches it, and is [v] after
    it was answered with error code [e] (0: success).  Zeroing is only promised
    for the first 64 MiB of a WRITE_ZEROES; TRIM may or may not zero. *)
Definition byte_effect (q : wreq) (j v0 e v : Z) : Prop :=
  (q_cmd q = 1 ->
     (e = 0 -> v = bytefn (q_data q) (j - q_from q)) /\
     (v = v0 \/ v = bytefn (q_data q) (j - q_from q))) /\
  (q_cmd q = 4 -> v = v0 \/ v = 0) /\
  (q_cmd q = 6 ->
     (e = 0 -> j < q_from q + 67108864 -> v = 0) /\ (v = v0 \/ v = 0)).

(** the values one message of the answer to READ [q] gives for byte [j] *)
Definition told_view (q : wreq) (j : Z) (v : view) : list Z :=
  match v with
  | VSimple e data => if (e =? 0) && (q_from q <=? j) && (j <? q_from q + zlen data)
                      then [bytefn data (j - q_from q)] else []
  | VChunk _ ty p =>
      let o := unbe (firstn 8 p) in
      let d := skipn 8 p in
      if (ty =? 1) && (o <=? j) && (j <? o + zlen d) then [bytefn d (j - o)] else []
  end.
Definition told (q : wreq) (j : Z) (vs : list view) : list Z := flat_map (told_view q j) vs.
(** no message reports an error *)
Definition fine (vs : list view) : bool :=
  forallb (fun v => match v with VSimple e _ => e =? 0 | VChunk _ ty _ => ty <? 32768 end) vs.

(** Request [q] was answered with [vs]; byte [j] was [v0] before and is [v]
    after, nobody else having changed it. *)
Definition byte_outcome (q : wreq) (j v0 : Z) (vs : list view) (v : Z) : Prop :=
  (touches q j = true -> exists e, vs = [VSimple e []] /\ byte_effect q j v0 e v) /\
  (touches q j = false -> v = v0) /\
  (q_cmd q = 0 -> q_from q <= j < q_from q + q_len q ->
     Forall (eq v0) (told q j vs) /\ (fine vs = true -> told q j vs = [v0])).

(** the disk after a WRITE took effect, and after several in order *)
Definition stored (q : wreq) (d : Z -> Z) : Z -> Z := fun j =>
  if (q_cmd q =? 1) && ((q_from q <=? j) && (j <? q_from q + q_len q)) then bytefn (q_data q) (j - q_from q) else d j.
Definition stored_all (l : list wreq) (d : Z -> Z) : Z -> Z := fold_left (fun d q => stored q d) l d.
(** no byte is touched by two of the requests *)
Definition disjoint (qs : list wreq) : Prop :=
  forall i k q q' j, nth_error qs i = Some q -> nth_error qs k = Some q' -> k <> i -> touches q j = true -> touches q' j = false.
