(** Specification: which reads of a copy-on-write export come out right. *)
From Verif Require Import Base S_Wire S_Disk.

(** [q] may modify 4096-byte page [p] *)
Definition writes_page (q : wreq) (p : Z) : Prop :=
  (q_cmd q = 1 \/ q_cmd q = 6) /\ q_from q / 4096 <= p <= (q_from q + q_len q - 1) / 4096.

Definition never_written (before : list wreq) (p : Z) : Prop :=
  forall b, In b before -> ~ writes_page b p.

(** Requests the export serves correctly, given what was requested before:
    a READ is non-empty and none of its pages except possibly the last was
    written before; with structured replies, a READ of several pages touches no
    page written before.  WRITEs are non-empty.  No request reaches into an
    incomplete last page. *)
Definition cow_fine (size : Z) (ro structured : bool) (before : list wreq) (q : wreq) : Prop :=
  refusal size ro q = None ->
  (q_cmd q = 0 -> 0 < q_len q /\
     (forall p, q_from q / 4096 <= p < (q_from q + q_len q - 1) / 4096 -> never_written before p) /\
     (structured = true -> (q_from q + q_len q - 1) / 4096 = q_from q / 4096 \/
        never_written before ((q_from q + q_len q - 1) / 4096))) /\
  (q_cmd q = 1 -> 0 < q_len q) /\
  (q_cmd q = 0 \/ q_cmd q = 1 \/ q_cmd q = 6 -> q_from q + q_len q <= 4096 * (size / 4096)).

Definition cow_fine_all (size : Z) (ro structured : bool) (qs : list wreq) : Prop :=
  forall before q after, qs = before ++ q :: after -> cow_fine size ro structured before q.

(** Requests that cannot lead the server astray, whether or not they are
    answered correctly: no empty READ or WRITE at offset 0, nothing in an
    incomplete last page, and with structured replies no READ whose pages after
    the first were written before. *)
Definition cow_safe (size : Z) (ro structured : bool) (before : list wreq) (q : wreq) : Prop :=
  refusal size ro q = None ->
  (q_cmd q = 0 \/ q_cmd q = 1 -> 0 < q_from q + q_len q) /\
  (q_cmd q = 0 \/ q_cmd q = 1 \/ q_cmd q = 6 -> q_from q + q_len q <= 4096 * (size / 4096)) /\
  (q_cmd q = 0 -> structured = true ->
     forall p, q_from q / 4096 < p <= (q_from q + q_len q - 1) / 4096 -> never_written before p).

Definition cow_safe_all (size : Z) (ro structured : bool) (qs : list wreq) : Prop :=
  forall before q after, qs = before ++ q :: after -> cow_safe size ro structured before q.
