(** Specification vocabulary for the commands run around a connection and the
    diff file it uses. *)
From Verif Require Import Base M_Nego M_Hook S_Virt.
Local Open Scope list_scope.

(** what a trace holds *)
Definition posts (t : list hev) : list (list Z) := flat_map (fun e => match e with HPost c => [c] | _ => [] end) t.
Definition pres (t : list hev) : list (list Z) := flat_map (fun e => match e with HPre c true => [c] | _ => [] end) t.
Definition made (t : list hev) : list (list Z) := flat_map (fun e => match e with HMake f => [f] | _ => [] end) t.
Definition removed (t : list hev) : list (list Z) := flat_map (fun e => match e with HRemove f => [f] | _ => [] end) t.

(** [command], with the name of the file in the place of its %s if it has one, is
    [cmd]; a command without text is never run *)
Inductive fills : list Z -> list Z -> list Z -> Prop :=
| fills_plain : forall command file, command <> [] -> free_of 37 command -> fills command file command
| fills_file : forall pre post file, free_of 37 pre -> free_of 37 post ->
    fills (pre ++ [37; 115] ++ post) file (pre ++ file ++ post).
(** the commands that running [command] for [file] comes to *)
Inductive runs : list Z -> list Z -> list (list Z) -> Prop :=
| runs_none : forall file, runs [] file []
| runs_one : forall command file cmd, fills command file cmd -> runs command file [cmd].

(** a path: a directory and a name in it *)
Definition in_dir (p d b : list Z) : Prop :=
  p = d ++ [47] ++ b /\ d <> [] /\ last d 0 <> 47 /\ b <> [] /\ free_of 47 b.

(** a client that keeps to the protocol and is let be: no wrong magic, no signal
    from outside; and a lost connection is not turned into a signal *)
Definition fair (sigpipe : bool) (evs : list fev) : Prop :=
  ~ In FMagic evs /\ ~ In FKill evs /\ (sigpipe = true \/ ~ In FWrite evs).

(** an attempt that is turned away by the time its prerun has ended *)
Definition turned_away (a : attempt) : Prop :=
  a_named a && a_allowed a = false \/ (h_prerun (a_conf a) <> [] /\ a_pre a = false).
(** nothing but prerun commands that refused *)
Definition only_refusals (t : list hev) : Prop := Forall (fun e => exists cmd, e = HPre cmd false) t.
(** an attempt that gets through *)
Definition gets_in (a : attempt) : Prop :=
  a_named a && a_allowed a = true /\ (h_prerun (a_conf a) = [] \/ a_pre a = true) /\ a_setup a = true /\ a_make a = true.

(** a command that can be run for any file: at most one %s and no other % *)
Definition well_formed (command : list Z) : Prop := forall file, exists cmds, runs command file cmds.

(** bytes that mean nothing to the shell: digits, a to f, colon and full stop *)
Definition harmless (c : Z) : bool := ((48 <=? c) && (c <=? 58)) || ((97 <=? c) && (c <=? 102)) || (c =? 46).
