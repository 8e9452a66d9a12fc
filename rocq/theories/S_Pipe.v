(** Pages of a range of a file. *)
From Verif Require Import Base.
(** the number of pages of 4096 bytes that have a byte of [a, a+len) *)
Definition pages (a len : Z) : Z := if len <=? 0 then 0 else (a + len - 1) / 4096 - a / 4096 + 1.
