(** Specification of the layout of a tree export: block number [b] lives in the
    file named by its base-1024 digits, most significant first. *)
From Verif Require Import Base.

Definition hex_chars : list Z := [48;49;50;51;52;53;54;55;56;57;65;66;67;68;69;70]. (* 0-9 A-F *)
Definition hex_name (n : Z) : list Z :=
  map (fun k => nth (Z.to_nat (n / 16 ^ k mod 16)) hex_chars 0) [3; 2; 1; 0].
Definition slash_tree : list Z := [47; 84; 82; 69; 69]. (* "/TREE" *)
Definition slash_file : list Z := [47; 70; 73; 76; 69]. (* "/FILE" *)

(** digit number [k] in base 1024 *)
Definition digit (b : Z) (k : nat) : Z := b / 1024 ^ Z.of_nat k mod 1024.

(** directories for digits [d] .. 1, then the file for digit 0 *)
Fixpoint block_dirs (d : nat) (b : Z) : list Z :=
  match d with
  | O => []
  | S d' => slash_tree ++ hex_name (digit b d) ++ block_dirs d' b
  end.
Definition block_path (d : nat) (b : Z) : list Z := block_dirs d b ++ slash_file ++ hex_name (digit b 0).

(** nesting depth for an export of [size] bytes: as few levels as possible with
    room for all offsets below [size], each level having 1024 entries *)
Definition is_depth (size : Z) (d : nat) : Prop :=
  size < 4096 * 1024 ^ (Z.of_nat d + 1) /\ (d <> O -> 4096 * 1024 ^ Z.of_nat d <= size).
