(** What nbd-trplay's command line asks for, and what its limit means. *)
From Verif Require Import Base S_Wire S_Acl S_Log.

(** the first [n] blocks of a request *)
Definition cut (bs n : Z) (q : wreq) : wreq :=
  mkWreq (q_type q) (q_cookie q) (q_from q) (n * bs) (firstn (Z.to_nat (n * bs)) (q_data q)).
(** requests up to and including the [n]th block stored by them, [n] from 1 *)
Fixpoint upto (bs n : Z) (qs : list wreq) : list wreq :=
  match qs with
  | [] => []
  | q :: t => if n <=? block_count bs q then [cut bs n q] else q :: upto bs (n - block_count bs q) t
  end.

(** [img'] differs from [img] at most in [n] runs of [bs] bytes *)
Definition at_most (bs n : Z) (img img' : Z -> Z) : Prop :=
  exists l, zlen l <= n /\ forall i, img' i <> img i -> exists o, In o l /\ o <= i < o + bs.

(** The last value given, or [d] *)
Fixpoint latest {A B} (f : A -> option B) (l : list A) (d : B) : B :=
  match l with
  | [] => d
  | a :: t => latest f t (match f a with Some b => b | None => d end)
  end.

(** What a user asks for: verbosity, a block size, a limit, an image, a log *)
Inductive ask := AVerbose | ABlock (b : Z) | AMax (n : Z) | AImage (f : list Z) | ALog (f : list Z).
Definition block_of (a : ask) : option Z := match a with ABlock b => Some b | _ => None end.
Definition max_of (a : ask) : option Z := match a with AMax n => Some n | _ => None end.
Definition image_of (a : ask) : option (option (list Z)) := match a with AImage f => Some (Some f) | _ => None end.
Definition log_of (a : ask) : option (option (list Z)) := match a with ALog f => Some (Some f) | _ => None end.
(** what can be had *)
Definition ask_ok (can_write can_read : list Z -> bool) (a : ask) : bool :=
  match a with
  | AVerbose => true
  | ABlock b => (1 <=? b) && (b <=? 131072)
  | AMax n => (1 <=? n) && (n <=? 18446744073709551615)
  | AImage f => can_write f
  | ALog f => can_read f
  end.
(** numbers a command line can spell *)
Definition ask_num (a : ask) : Prop :=
  match a with
  | ABlock n => 0 <= n < 10 ^ 20
  | AMax n => 0 <= n <= 18446744073709551615
  | _ => True
  end.
