(** Specification vocabulary for tree exports with several connections. *)
From Verif Require Import Base M_Disk M_TreeMulti.
Local Open Scope list_scope.

(** the export as its clients think of it: pages of bytes *)
Definition store := Z -> Z -> Z.
Definition effect (o : top) (s : store) : store :=
  match o with
  | TWrite p off d => fun q i => if (q =? p) && (off <=? i) && (i <? off + zlen d) then znth 0 d (i - off) else s q i
  | TRead _ _ _ => s
  | TTrim p => fun q i => if q =? p then 0 else s q i
  end.
(** the answer that is right for the present contents *)
Definition right_answer (s : store) (o : top) (r : tres) : Prop :=
  match o with
  | TRead p off n => r = TData (slice (s p) off n)
  | _ => r = TDone
  end.
(** The pieces finished one after the other: every answer is right for what the
    pieces finished before it make of the contents. *)
Fixpoint explains (s : store) (log : list (nat * top * tres)) : Prop :=
  match log with
  | [] => True
  | (_, o, r) :: t => right_answer s o r /\ explains (effect o s) t
  end.
Definition final (s : store) (log : list (nat * top * tres)) : store := fold_left (fun s e => effect (snd (fst e)) s) log s.

(** the block files hold the contents [s]: missing pages are zeroes *)
Definition holds_page (b : blocks) (s : store) (p : Z) : Prop :=
  match d_dir b p with
  | None => forall i, 0 <= i < 4096 -> s p i = 0
  | Some n => 4096 <= fsize (d_ino b n) /\ forall i, 0 <= i < 4096 -> frd (d_ino b n) i = s p i
  end.
Definition holds (b : blocks) (s : store) : Prop := forall p, holds_page b s p.
(** block files that could be there: different pages have different files *)
Definition sane (b : blocks) : Prop :=
  (forall p n, d_dir b p = Some n -> (n < d_next b)%nat) /\
  (forall p q n, d_dir b p = Some n -> d_dir b q = Some n -> p = q).
(** a piece that stays within its page *)
Definition in_page (o : top) : Prop :=
  match o with
  | TWrite _ off d => 0 <= off /\ off + zlen d <= 4096
  | TRead _ off n => 0 <= off /\ 0 < n /\ off + n <= 4096
  | TTrim _ => True
  end.
(** a page only connection [k] works on *)
Definition only_by (p : Z) (k : nat) (qs : list (list top)) : Prop :=
  forall j q o, nth_error qs j = Some q -> In o q -> page_of o = p -> j = k.
(** a page whose block file is there and that nobody discards *)
Definition settled (b : blocks) (p : Z) (qs : list (list top)) : Prop :=
  d_dir b p <> None /\ forall q, In q qs -> ~ In (TTrim p) q.
(** what connection [k] asked and was answered, in its order *)
Definition of_conn (k : nat) (log : list (nat * top * tres)) : list (top * tres) :=
  map (fun e => (snd (fst e), snd e)) (filter (fun e => Nat.eqb (fst (fst e)) k) log).
(** Some order of the pieces, keeping the order of every connection, explains all
    answers. *)
Definition explainable (s : store) (log : list (nat * top * tres)) : Prop :=
  exists log', (forall k, of_conn k log' = of_conn k log) /\ explains s log'.
(** how often a schedule runs connection [k] *)
Definition turns (k : nat) (l : list nat) : nat := count_occ Nat.eq_dec l k.
(** a value that byte [i] of page [p] had at the start, or zero, or that some WRITE
    puts there *)
Definition could_be (s : store) (qs : list (list top)) (p i v : Z) : Prop :=
  v = 0 \/ v = s p i \/
  exists q off d, In q qs /\ In (TWrite p off d) q /\ off <= i < off + zlen d /\ v = znth 0 d (i - off).
