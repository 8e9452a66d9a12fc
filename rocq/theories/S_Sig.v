(** What is expected of the root process and signals. *)
From Verif Require Import Base M_Sig.
Local Open Scope list_scope.

(** its children, serving or not waited for *)
Definition child_of (s : sroot) (pid : Z) : Prop := exists x, In (pid, x) (s_procs s).
Definition serving (s : sroot) (pid : Z) : Prop := In (pid, Serving) (s_procs s).
Definition ended (s : sroot) (pid : Z) : Prop := In (pid, Zombie) (s_procs s).
(** the root process takes [n] turns with nothing new coming in *)
Definition undisturbed (n : nat) : list sev := repeat (Goes None) n.
