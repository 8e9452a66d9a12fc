(** Specification vocabulary for virtual export paths. *)
From Verif Require Import Base M_Acl S_Acl.
Local Open Scope list_scope.

(** the host a client address stands for: an IPv4 address and the IPv6 address
    it is mapped to are the same host *)
Definition host (a : sa) : list Z := match a with V4 b => v4mapped b | V6 b => b | VOther => [] end.

(** a byte does not occur in a text *)
Definition free_of (c : Z) (s : list Z) : Prop := ~ In c s.

(** a name that can stand for a file in a directory without leading elsewhere *)
Definition plain_name (s : list Z) : Prop := free_of 47 s /\ s <> [46] /\ s <> [46; 46].
