(** When connections may affect each other. *)
From Verif Require Import Base M_Const M_Disk M_Raw M_Par M_Conn M_Crowd S_Leak.

(** The connection may change the file [g] of the machine: it is one of its
    export, the export is not read-only, and changes are not kept in a diff file *)
Definition changes_file (c : client) (g : nat) : Prop :=
  own c (FExp g) /\ cflag c F_READONLY = false /\ cflag c F_AUTOREADONLY = false /\
  (cflag c F_COPYONWRITE = false \/ cflag c F_SPLICE = true).
(** it may change the block files of its tree *)
Definition changes_tree (c : client) : Prop := cflag c F_TREEFILES = true /\ cflag c F_READONLY = false.

(** client->export lists files of the machine *)
Definition proper (c : client) : Prop :=
  forall l fi, c_export c = Some l -> In fi l -> exists g, fi_h fi = FExp g.

(** nothing that connection [b] uses is changed by another one *)
Definition undisturbed (es : list entry) (b : nat) : Prop :=
  forall eb a ea, nth_error es b = Some eb -> nth_error es a = Some ea -> a <> b ->
    (forall g, own (en_client eb) (FExp g) -> ~ changes_file (en_client ea) g) /\
    (en_export ea = en_export eb -> ~ changes_tree (en_client ea)).

(** the decisions of a schedule that concern connection [b] *)
Fixpoint turns_of (b : nat) (l : list (nat * choice)) : list choice :=
  match l with
  | [] => []
  | (a, x) :: l => if (a =? b)%nat then x :: turns_of b l else turns_of b l
  end.

(** how far connection [b] got *)
Definition got (b : nat) (k : crowd) : option sout :=
  match nth_error (cd_tasks k) b with
  | Some t => Some (if tk_gone t then SExit (tk_sys t) else SGo (tk_sys t))
  | None => None
  end.
