(** What replaying and showing a transaction log should do. *)
From Verif Require Import Base S_Wire S_Disk S_Par.

(** the effect of a logged request on a disk image *)
Definition effect (q : wreq) (d : Z -> Z) : Z -> Z := fun i =>
  if (q_from q <=? i) && (i <? q_from q + q_len q) then
    if q_cmd q =? 1 then content (q_data q) (i - q_from q)
    else if (q_cmd q =? 4) || (q_cmd q =? 6) then 0
    else d i
  else d i.
Definition effects (qs : list wreq) (d : Z -> Z) : Z -> Z := fold_left (fun d q => effect q d) qs d.

(** Requests nbd-trplay can replay with block size [bs]: a known command, whole
    blocks, inside what a file can have. *)
Definition replayable (bs : Z) (q : wreq) : Prop :=
  (q_cmd q = 0 \/ q_cmd q = 1 \/ q_cmd q = 2 \/ q_cmd q = 3 \/ q_cmd q = 4 \/ q_cmd q = 6) /\
  0 <= q_from q /\ 0 <= q_len q < 4294967296 /\ q_from q mod bs = 0 /\ q_len q mod bs = 0 /\
  q_from q + q_len q <= 9223372036854775807.
(** number of blocks written for a request *)
Definition block_count (bs : Z) (q : wreq) : Z :=
  if (q_cmd q =? 1) || (q_cmd q =? 4) || (q_cmd q =? 6) then q_len q / bs else 0.
Fixpoint blocks_in (bs : Z) (qs : list wreq) : Z :=
  match qs with [] => 0 | q :: t => block_count bs q + blocks_in bs t end.
(** replies of the simple kind only *)
Definition simple_only (ents : list lview) : Prop :=
  forall ck h, In (GRep ck h) ents -> exists e, h = HSimple e.

(** every request of the history succeeded, did all it was asked for, and is
    not a TRIM *)
Definition all_done (h : list (wreq * answer)) : Prop :=
  forall q a, In (q, a) h -> (exists data, a = Ok data) /\ q_cmd q <> 4 /\ (q_cmd q = 6 -> q_len q <= 67108864).
