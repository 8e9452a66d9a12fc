(** Specification: a flat disk of [size] bytes, and what each request may do
    to it. *)
From Verif Require Import Base S_Wire.

Definition disk := Z -> Z.
Definition unchanged (d d' : disk) : Prop := forall i, d' i = d i.
(** exactly the range replaced by [new] *)
Definition replaced (d d' : disk) (from len : Z) (new : Z -> Z) : Prop :=
  forall i, d' i = if (from <=? i) && (i <? from + len) then new (i - from) else d i.
(** each byte of the range old or new, nothing else changed *)
Definition touched (d d' : disk) (from len : Z) (new : Z -> Z) : Prop :=
  forall i, (from <= i < from + len -> d' i = d i \/ d' i = new (i - from)) /\
            (~ (from <= i < from + len) -> d' i = d i).
Definition zeroes : Z -> Z := fun _ => 0.
Definition content (l : list Z) : Z -> Z := fun i => nth (Z.to_nat i) l 0.

(** the [len] bytes of the disk at [from] *)
Definition bytes_at (d : disk) (from len : Z) : list Z :=
  map (fun k => d (from + Z.of_nat k)) (seq 0 (Z.to_nat len)).

Definition inside (size : Z) (q : wreq) : Prop := q_from q + q_len q <= size.

(** only FUA (bit 0) and NO_HOLE (bit 1) are accepted as command flags *)
Definition known_flags (q : wreq) : Prop := q_flags q < 4.

Definition failed (ans : answer) : Prop := exists e, wire_error e /\ ans = Err e.

(** One request on the flat disk. *)
Definition flat_step (size : Z) (ro : bool) (d : disk) (q : wreq) (d' : disk) (ans : answer) : Prop :=
  (~ known_flags q -> ans = Err 22 /\ unchanged d d') /\
  (known_flags q ->
   (* READ *)
   (q_cmd q = 0 -> unchanged d d' /\
      (~ inside size q -> ans = Err 22) /\
      (inside size q -> ans = Ok (bytes_at d (q_from q) (q_len q)) \/ failed ans)) /\
   (* WRITE *)
   (q_cmd q = 1 ->
      (ro = true -> ans = Err 1 /\ unchanged d d') /\
      (ro = false -> ~ inside size q -> ans = Err 28 /\ unchanged d d') /\
      (ro = false -> inside size q ->
         (ans = Ok [] /\ replaced d d' (q_from q) (q_len q) (content (q_data q))) \/
         (failed ans /\ touched d d' (q_from q) (q_len q) (content (q_data q))))) /\
   (* FLUSH *)
   (q_cmd q = 3 -> unchanged d d' /\ (ans = Ok [] \/ failed ans)) /\
   (* TRIM *)
   (q_cmd q = 4 ->
      (ro = true -> ans = Err 1 /\ unchanged d d') /\
      (ro = false -> ~ inside size q -> ans = Err 22 /\ unchanged d d') /\
      (ro = false -> inside size q ->
         ans = Ok [] /\ touched d d' (q_from q) (q_len q) zeroes)) /\
   (* WRITE_ZEROES *)
   (q_cmd q = 6 ->
      (ro = true -> ans = Err 1 /\ unchanged d d') /\
      (ro = false -> ~ inside size q -> ans = Err 28 /\ unchanged d d') /\
      (ro = false -> inside size q ->
         (ans = Ok [] /\ touched d d' (q_from q) (q_len q) zeroes /\
          (q_len q <= 67108864 -> replaced d d' (q_from q) (q_len q) zeroes)) \/
         (failed ans /\ touched d d' (q_from q) (q_len q) zeroes))) /\
   (* anything else *)
   (q_cmd q <> 0 -> q_cmd q <> 1 -> q_cmd q <> 3 -> q_cmd q <> 4 -> q_cmd q <> 6 ->
      ans = Err 22 /\ unchanged d d')).

(** A request during which the process exited: only bytes a WRITE/WRITE_ZEROES/
    TRIM was to change may differ. *)
Definition died_step (size : Z) (ro : bool) (d : disk) (q : wreq) (d' : disk) : Prop :=
  unchanged d d' \/
  (known_flags q /\ ro = false /\ inside size q /\
    ((q_cmd q = 1 /\ touched d d' (q_from q) (q_len q) (content (q_data q))) \/
     ((q_cmd q = 4 \/ q_cmd q = 6) /\ touched d d' (q_from q) (q_len q) zeroes))).

(** A history of answered requests. *)
Inductive history (size : Z) (ro : bool) : disk -> list (wreq * answer) -> disk -> Prop :=
| hist_nil d d' : unchanged d d' -> history size ro d [] d'
| hist_cons d q ans d1 h d2 :
    flat_step size ro d q d1 ans -> history size ro d1 h d2 ->
    history size ro d ((q, ans) :: h) d2.

(** Answers extracted by a client that knows which requests it sent, in order. *)
Fixpoint answers (qs : list wreq) (s : list Z) : option (list (wreq * answer) * list Z) :=
  match qs with
  | [] => Some ([], s)
  | q :: qs =>
    match read_answer (q_cookie q) (q_from q) (if q_cmd q =? 0 then q_len q else 0) s with
    | Some (a, s1) =>
      match answers qs s1 with
      | Some (l, s2) => Some ((q, a) :: l, s2)
      | None => None
      end
    | None => None
    end
  end.

(** Files laid end to end: what a user expects of a multi-file export.
    [sizes]: (size, content) of each file. *)
Fixpoint joined (files : list (Z * (Z -> Z))) (i : Z) : Z :=
  match files with
  | [] => 0
  | (n, f) :: t => if i <? n then f i else joined t (i - n)
  end.
Fixpoint total (files : list (Z * (Z -> Z))) : Z :=
  match files with
  | [] => 0
  | (n, _) :: t => n + total t
  end.

(** Which file, and where in it, an offset of files laid end to end falls. *)
Fixpoint place (sizes : list Z) (i : Z) : option (nat * Z) :=
  match sizes with
  | [] => None
  | n :: t => if i <? n then Some (O, i)
              else match place t (i - n) with Some (k, o) => Some (S k, o) | None => None end
  end.

(** Which requests are refused before anything is touched, and with which
    error: unknown flags or command (EINVAL), modification of a read-only export
    (EPERM), range outside the export (EINVAL for READ/TRIM, ENOSPC for
    WRITE/WRITE_ZEROES). *)
Definition refusal (size : Z) (ro : bool) (q : wreq) : option Z :=
  let outside := size <? q_from q + q_len q in
  if 4 <=? q_flags q then Some 22
  else if q_cmd q =? 0 then if outside then Some 22 else None
  else if q_cmd q =? 1 then if ro then Some 1 else if outside then Some 28 else None
  else if q_cmd q =? 3 then None
  else if q_cmd q =? 4 then if ro then Some 1 else if outside then Some 22 else None
  else if q_cmd q =? 6 then if ro then Some 1 else if outside then Some 28 else None
  else Some 22.

(** the error reply a client sees: magic, error, cookie *)
Definition error_reply (q : wreq) (e : Z) : list Z := be 4 0x67446698 ++ be 4 e ++ q_cookie q.
