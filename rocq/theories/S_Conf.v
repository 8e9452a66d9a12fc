(** What a configuration file means, stated independently of the parser. *)
From Coq Require Import String.
From Verif Require Import Base M_Conf S_Root.
Open Scope list_scope.
Open Scope Z_scope.

(** the yes/no options of an export and the bit each stands for (nbd-server(5)
    names the options; the bits are those of nbdsrv.h:153-171) *)
Definition options : list (string * Z) :=
  [("readonly"%string, 0); ("multifile"%string, 1); ("treefiles"%string, 13); ("copyonwrite"%string, 2);
   ("waitfile"%string, 16); ("sparse_cow"%string, 4); ("sdp"%string, 5); ("sync"%string, 6); ("flush"%string, 7);
   ("fua"%string, 8); ("rotational"%string, 9); ("temporary"%string, 10); ("trim"%string, 11);
   ("datalog"%string, 17); ("force_tls"%string, 14); ("splice"%string, 15)].

(** the flags are exactly those written *)
Definition flags_as_written (keys : list (string * list Z)) (flags : Z) : Prop :=
  forall b, 0 <= b -> (Z.testbit flags b = true <-> exists k, In (k, b) options /\ says_yes k keys).

(** combinations that make no sense *)
Definition clash (keys : list (string * list Z)) : Prop :=
  (says_yes "copyonwrite" keys /\ says_yes "splice" keys)
  \/ (says_yes "copyonwrite" keys /\ says_yes "waitfile" keys)
  \/ (says_yes "datalog" keys /\ says_yes "splice" keys).

(** sections describing exports: all but the first of the main file, all of the
    files of the included directory whose name ends in .conf *)
Definition ends_conf (n : list Z) : Prop := exists p, n = p ++ [46; 99; 111; 110; 102].
Definition included (dir : list Z -> option (list dirent)) (keys : list (string * list Z)) (g : group) : Prop :=
  exists d es e gs, last_value "includedir" keys = Some d /\ dir d = Some es /\ In e es
    /\ de_regular e = true /\ ends_conf (de_name e) /\ de_file e = Some gs /\ In g gs.
Definition section (dir : list Z -> option (list dirent)) (file : list group) (g : group) : Prop :=
  match file with
  | [] => False
  | gen :: gs => In g gs \/ included dir (g_keys gen) g
  end.

(** "false" and "0", possibly followed by blanks *)
Definition no_value (v : list Z) : Prop :=
  exists blanks, Forall (fun c => c = 32 \/ 9 <= c <= 13) blanks
    /\ (v = [102; 97; 108; 115; 101] ++ blanks \/ v = [48] ++ blanks).
(** every yes/no option that is written has a value of that form *)
Definition well_formed (keys : list (string * list Z)) : Prop :=
  forall k b v, In (k, b) options -> last_value k keys = Some v -> yes_value v \/ no_value v.
