(** Specification vocabulary for the names of block files. *)
From Verif Require Import Base M_Const M_Hook M_Disk M_TreeName S_Tree.
Open Scope list_scope.

(** [q] is the name of a block file of a tree of [size] bytes in directory [dir] *)
Definition block_file (dir : list Z) (size : Z) (q : list Z) : Prop :=
  exists d b, is_depth size d /\ q = dir ++ block_path d b.

Definition same_opt (f f' : option file) : Prop :=
  match f, f' with
  | Some f, Some f' => fsize f = fsize f' /\ forall k, fdata f k = fdata f' k
  | None, None => True
  | _, _ => False
  end.
(** two machines that differ only in files outside the tree / only in the tree *)
Definition same_tree (dir : list Z) (size : Z) (fs fs' : names) : Prop :=
  forall q, block_file dir size q -> same_opt (fs q) (fs' q).
Definition same_but_tree (dir : list Z) (size : Z) (fs fs' : names) : Prop :=
  forall q, ~ block_file dir size q -> same_opt (fs q) (fs' q).

(** only the tree was changed *)
Definition only_tree (dir : list Z) (size : Z) (fs fs' : names) : Prop :=
  forall q, ~ block_file dir size q -> fs' q = fs q.

(** the client is sent, and the log is given, the same *)
Definition same_end (x y : tree_end) : Prop :=
  match x, y with
  | TEnd _ o l, TEnd _ o' l' => o = o' /\ l = l'
  | TRefused, TRefused | TNot, TNot | TUb, TUb => True
  | _, _ => False
  end.

(** client->exportname survives commit_client: no diff file is made, or it goes
    to a directory of its own and the name does not end in a slash *)
Definition keeps_name (a : attempt) : Prop :=
  (flag (h_flags (a_conf a)) F_COPYONWRITE = false /\ flag (h_flags (a_conf a)) F_WAIT = false) \/
  (h_cowdir (a_conf a) <> None /\ last (a_name a) 0 <> 47).
