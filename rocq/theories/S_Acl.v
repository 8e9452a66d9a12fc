(** Specification of address masks and authorization files. *)
From Verif Require Import Base M_Acl.

(** bit [i] of an address, most significant first *)
Definition addr_bit (a : list Z) (i : Z) : bool := Z.testbit (znth 0 a (i / 8)) (7 - i mod 8).
Definition same_prefix (n : Z) (a b : list Z) : Prop := forall i, 0 <= i < n -> addr_bit a i = addr_bit b i.

Definition good_addr (a : sa) : Prop :=
  match a with
  | V4 b => length b = 4%nat /\ Forall is_byte b
  | V6 b => length b = 16%nat /\ Forall is_byte b
  | VOther => False
  end.

(** the 16-byte form ::ffff:a.b.c.d *)
Definition v4mapped (b : list Z) : list Z := repeat 0 10 ++ [255; 255] ++ b.

(** the decimal text of a number *)
Fixpoint dec (fuel : nat) (n : Z) : list Z :=
  match fuel with
  | O => []
  | S fuel => if n <? 10 then [48 + n] else dec fuel (n / 10) ++ [48 + n mod 10]
  end.
Definition decimal (n : Z) : list Z := dec 20 n.

(** an authorization file: lines separated by newlines, '#' starts a comment, the
    first word of what remains is the entry *)
Fixpoint text_lines (s : list Z) : list (list Z) :=
  match s with
  | [] => []
  | c :: t =>
      if c =? 10 then [] :: text_lines t
      else match text_lines t with
           | [] => [[c]]
           | l :: ls => (c :: l) :: ls
           end
  end.
Definition is_blank (c : Z) : bool := (c =? 32) || ((9 <=? c) && (c <=? 13)).
Fixpoint uncomment (l : list Z) : list Z :=
  match l with
  | [] => []
  | c :: t => if c =? 35 then [] else c :: uncomment t
  end.
Fixpoint trim (l : list Z) : list Z :=
  match l with
  | [] => []
  | c :: t => if is_blank c then trim t else l
  end.
Fixpoint word (l : list Z) : list Z :=
  match l with
  | [] => []
  | c :: t => if is_blank c then [] else c :: word t
  end.
Definition line_entry (l : list Z) : list Z := word (trim (uncomment l)).
(** the entries of a file *)
Definition entries (s : list Z) : list (list Z) :=
  filter (fun e => negb (match e with [] => true | _ => false end)) (map line_entry (text_lines s)).

(** which clients a getaddrinfo result admits *)
Definition admits (client r : sa) (n : Z) : Prop :=
  match client, r with
  | V4 a, V4 b => same_prefix n a b
  | V6 a, V6 b => same_prefix n a b
  | V6 a, V4 b => exists c, length c = 4%nat /\ a = v4mapped c /\ same_prefix n c b
  | _, _ => False
  end.

Definition addr_bits (a : sa) : Z := match a with V4 _ => 32 | V6 _ => 128 | VOther => 0 end.
Definition v6_for_v4 (client r : sa) : Prop := match client, r with V4 _, V6 _ => True | _, _ => False end.

(** a plain address entry (no mask) of the client's own family *)
Definition same_family (client r : sa) : Prop :=
  match client, r with V4 _, V4 _ => True | V6 _, V6 _ => True | _, _ => False end.

(** no NUL bytes, and lines short enough for the server's 256-byte line buffer *)
Definition plain_text (s : list Z) : Prop := ~ In 0 s /\ Forall (fun l => (length l <= 254)%nat) (text_lines s).

(** getaddrinfo returns well-formed addresses *)
Definition gai_ok (gai : list Z -> option (list sa)) : Prop :=
  forall h res, gai h = Some res -> Forall good_addr res.

Definition tame (a : aout) : Prop := a = AYes \/ a = ANo.

(** text of the form host/number with number at most 32, or no IPv4 result *)
Definition narrow (gai : list Z -> option (list sa)) (mask : list Z) : Prop :=
  (exists host t, ~ In 47 host /\ mask = host ++ 47 :: t /\ strtol t <= 32 /\ -2147483648 <= strtol t) \/
  (forall res, gai (fst (split_at 47 mask)) = Some res -> Forall (fun r => match r with V4 _ => False | _ => True end) res).
