(** What a FLUSH on a tree export promises. *)
From Verif Require Import Base M_TreeMulti S_TreeMulti M_TreeSync.
Local Open Scope list_scope.

(** after a crash, a byte may be what it was at any of the moments not synced away *)
Definition after_crash (v : vsys) (p i x : Z) : Prop := exists b, In b (firstn (v_n v) (v_hist v)) /\ x = page_byte b p i.
(** a piece changes byte [i] of page [p] *)
Definition changes (o : top) (p i : Z) : Prop :=
  match o with
  | TWrite q off d => q = p /\ off <= i < off + zlen d
  | TRead _ _ _ => False
  | TTrim q => q = p
  end.
