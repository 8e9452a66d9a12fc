(** What is expected of nbd-client -d and nbd-get-status. *)
From Coq Require Import String.
From Verif Require Import Base M_Nego M_Tab S_Acl S_Dev.
Local Open Scope list_scope.

(** the name of a device *)
Definition dev_name (n : Z) : list Z := text "/dev/nbd" ++ decimal n.
(** a command line of options only, without -l *)
Definition only_options (l : list arg) : Prop := Forall (fun a => match a with AOpt o _ => o <> "l"%string | AWord _ => False end) l.
(** what nbd-get-status says of a device *)
Definition says (n : Z) (connected : bool) : list Z := dev_name n ++ (if connected then text ": connected" else text ": disconnected").
