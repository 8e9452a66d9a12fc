(** Numbers in a configuration file, stated on their text. *)
From Verif Require Import Base.
Open Scope list_scope.
Open Scope Z_scope.

Definition blank (c : Z) : Prop := c = 32 \/ 9 <= c <= 13.
Definition digit (c : Z) : Prop := 48 <= c <= 57.
(** the number that digits stand for *)
Definition worth (ds : list Z) : Z := fold_left (fun a c => 10 * a + (c - 48)) ds 0.
(** [v] begins, after blanks, with the decimal number [n], and [rest] follows it *)
Definition begins_with (v : list Z) (n : Z) (rest : list Z) : Prop :=
  exists blanks sign ds,
    v = blanks ++ sign ++ ds ++ rest /\ Forall blank blanks /\ Forall digit ds /\ ds <> [] /\
    (forall c t, rest = c :: t -> ~ digit c) /\
    ((sign = [45] /\ n = - worth ds) \/ ((sign = [] \/ sign = [43]) /\ n = worth ds)).
(** a whole number that fits an int; what comes after a blank is not looked at *)
Definition an_int (v : list Z) (n : Z) : Prop :=
  -2147483648 <= n <= 2147483647 /\
  exists rest, begins_with v n rest /\ (rest = [] \/ exists c t, rest = c :: t /\ blank c).
(** a number and nothing after it *)
Definition a_number (v : list Z) (n : Z) : Prop := begins_with v n [].
(** the closest number of 64 bits *)
Definition closest (n : Z) : Z := Z.max (-9223372036854775808) (Z.min 9223372036854775807 n).
