(** How the text of nbd-trdump is to be read. *)
From Coq Require Import String.
From Verif Require Import Base M_Nego M_Log.
Local Open Scope list_scope.

(** the number written in hexadecimal digits 0-9 and a-f *)
Definition hex_value (l : list Z) : Z := fold_left (fun a c => 16 * a + (if c <? 58 then c - 48 else c - 87)) l 0.
(** [n] columns from column [a], and from [a] columns before the end *)
Definition cols (a n : nat) (t : list Z) : list Z := firstn n (skipn a t).
Definition cols_end (a n : nat) (t : list Z) : list Z := firstn n (skipn (length t - a) t).
(** a word with blanks before it *)
Fixpoint unpad (l : list Z) : list Z := match l with 32 :: t => unpad t | _ => l end.

(** the names of the protocol *)
Definition command_names : list (Z * string) :=
  [ (0, "NBD_CMD_READ"); (1, "NBD_CMD_WRITE"); (2, "NBD_CMD_DISC"); (3, "NBD_CMD_FLUSH"); (4, "NBD_CMD_TRIM"); (5, "NBD_CMD_CACHE");
    (6, "NBD_CMD_WRITE_ZEROES"); (7, "NBD_CMD_BLOCK_STATUS"); (8, "NBD_CMD_RESIZE") ]%string.
Definition chunk_names : list (Z * string) :=
  [ (0, "NBD_REPLY_TYPE_NONE"); (1, "NBD_REPLY_TYPE_OFFSET_DATA"); (2, "NBD_REPLY_TYPE_OFFSET_HOLE"); (3, "NBD_REPLY_TYPE_BLOCK_STATUS");
    (32769, "NBD_REPLY_TYPE_ERROR"); (32770, "NBD_REPLY_TYPE_ERROR_OFFSET") ]%string.
(** the columns from [a] to [z] before the end *)
Definition between (a z : nat) (t : list Z) : list Z := cols a (length t - a - z) t.
Fixpoint name_of (n : Z) (t : list (Z * string)) : list Z :=
  match t with [] => text "UNKNOWN" | (k, s) :: t => if n =? k then text s else name_of n t end.

(** values that fit their fields *)
Definition in_range (l : line) : Prop :=
  let u16 x := 0 <= x < 65536 in let u32 x := 0 <= x < 4294967296 in let u64 x := 0 <= x < 18446744073709551616 in
  match l with
  | LReq ck cmd off len => u64 ck /\ u32 cmd /\ u64 off /\ u32 len
  | LRep ck e => u64 ck /\ u32 e
  | LOpt cmd off len => u32 cmd /\ u64 off /\ u32 len
  | LChunk ck ty fl n => u64 ck /\ u16 ty /\ u16 fl /\ u16 n
  | LUnknown m => u32 m
  | _ => True
  end.
