(** How the text of nbd-trplay is to be read. *)
From Coq Require Import String.
From Verif Require Import Base M_Nego M_Log M_Play S_Wire S_Par S_Log M_PlayText S_DumpText.
Local Open Scope list_scope.

(** verbosity from which on a line is printed *)
Definition level (l : pline) : Z :=
  match l with QBlock _ _ _ => 2 | QReq _ _ _ _ | QLine (LRep _ _) | QLine (LOpt _ _ _) | QLine (LData _) => 1 | _ => 0 end.

(** the blocks a text says are written: number, place, length *)
Definition blocks_shown (ls : list pline) : list (Z * Z * Z) :=
  flat_map (fun l => match l with QBlock c o n => [(c, o, n)] | _ => [] end) ls.
Fixpoint numbered_from (n : Z) (l : list (Z * Z * Z)) : Prop :=
  match l with [] => True | (c, _, _) :: t => c = n /\ numbered_from (n + 1) t end.
(** what differs lies in a block that is shown *)
Definition covered (img img' : Z -> Z) (l : list (Z * Z * Z)) : Prop :=
  forall i, img' i <> img i -> exists c o n, In (c, o, n) l /\ o <= i < o + n.

(** a last line that says how the program ends: the status and the count *)
Definition closing (max c n : Z) (l : pline) : Prop :=
  match l with
  | QEnd k => c = 0 /\ k = n
  | QMax k => c = 0 /\ k = max /\ n = max
  | QBadOffset _ _ | QBadLen _ _ | QNoData | QBadCommand _ | QUnknown _ => c = 1
  | _ => False
  end.

(** the lines for the entries of a log, with [n] blocks before them *)
Definition request_blocks (bs n : Z) (q : wreq) : list pline :=
  map (fun k => QBlock (n + Z.of_nat k) (q_from q + Z.of_nat k * bs) bs) (seq 0 (Z.to_nat (block_count bs q))).
Fixpoint told (bs n : Z) (ents : list lview) : list pline :=
  match ents with
  | [] => [QEnd n]
  | GReq q :: t => QReq (unbe (q_cookie q)) (q_type q) (q_from q) (q_len q) :: request_blocks bs n q ++ told bs (n + block_count bs q) t
  | GRep ck (HSimple e) :: t => QLine (LRep (unbe ck) e) :: told bs n t
  | GRep _ (HChunk _ _ _) :: _ => []
  end.

(** values that fit their fields, and lines this program prints *)
Definition p_range (l : pline) : Prop :=
  let u32 x := 0 <= x < 4294967296 in let u64 x := 0 <= x < 18446744073709551616 in
  match l with
  | QLine (LReq _ _ _ _) | QLine (LChunk _ _ _ _) | QLine (LUnknown _) => False
  | QLine l => in_range l
  | QReq ck cmd off len => u64 ck /\ u32 cmd /\ u64 off /\ u32 len
  | QBlock cur off len => u64 cur /\ -9223372036854775808 <= off < 9223372036854775808 /\ u64 len
  | QEnd n | QMax n => u64 n
  | QBadOffset off bs => u64 off /\ u64 bs
  | QBadLen len bs => u32 len /\ u64 bs
  | QNoData => True
  | QBadCommand cmd => u32 cmd
  | QUnknown m => u32 m
  end.

(** the number written in decimal digits, with a sign *)
Definition dec_value (l : list Z) : Z := fold_left (fun a c => 10 * a + (c - 48)) l 0.
Definition sdec_value (l : list Z) : Z := match l with 45 :: t => - dec_value t | _ => dec_value l end.
(** the digits, with a sign, a text begins with *)
Definition numeral (c : Z) : bool := (48 <=? c) && (c <=? 57) || (c =? 45).
Fixpoint lead (l : list Z) : list Z := match l with c :: t => if numeral c then c :: lead t else [] | [] => [] end.
(** what follows the first occurrence of a word *)
Fixpoint starts (w l : list Z) : option (list Z) :=
  match w, l with
  | [], l => Some l
  | x :: w, y :: l => if x =? y then starts w l else None
  | _, [] => None
  end.
Fixpoint after (w l : list Z) : list Z :=
  match starts w l with
  | Some r => r
  | None => match l with _ :: t => after w t | [] => [] end
  end.
(** the number that follows a word *)
Definition number_after (w : string) (l : list Z) : Z := sdec_value (lead (after (text w) l)).

(** the options without an argument *)
Definition no_argument (o : popt) : bool := match o with PV | PHelp => true | _ => false end.
