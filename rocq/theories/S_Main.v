(** What starting the server is expected to do, stated on arguments, configuration
    texts, addresses, users and groups. *)
From Coq Require Import String.
From Verif Require Import Base M_Conf M_Main S_Root S_Acl S_Conf.
Open Scope list_scope.
Open Scope Z_scope.

(** * The command line *)
Definition words (l : list sarg) : list (list Z) := flat_map (fun a => match a with SWord s => [s] | SOpt _ _ => [] end) l.
Definition given (o : string) (l : list sarg) : Prop := exists s, In (SOpt o s) l.
(** the argument of the last occurrence of an option *)
Fixpoint last_arg (o : string) (l : list sarg) : option (list Z) :=
  match l with
  | [] => None
  | a :: t => match last_arg o t with
              | Some x => Some x
              | None => match a with
                        | SOpt o' s => if String.eqb o' o then Some s else None
                        | SWord _ => None
                        end
              end
  end.
(** "port", "address:port", "address@port" *)
Definition names_port (w : list Z) (addr : option (list Z)) (port : list Z) : Prop :=
  match addr with
  | None => w = port /\ w <> [] /\ ~ In 58 w /\ ~ In 64 w
  | Some a => (w = a ++ 58 :: port /\ ~ In 58 a /\ ~ In 58 port)
              \/ (w = a ++ 64 :: port /\ ~ In 64 a /\ (~ In 58 w \/ exists x y z, a = x ++ 58 :: y ++ 58 :: z))
  end.
(** a number, optionally followed by k, K, m or M *)
Definition names_size (w : list Z) (n : Z) : Prop :=
  exists m, 0 <= m < 10 ^ 19 /\
    ((w = decimal m /\ n = m) \/ ((w = decimal m ++ [107] \/ w = decimal m ++ [75]) /\ n = m * 1024)
     \/ ((w = decimal m ++ [109] \/ w = decimal m ++ [77]) /\ n = m * 1048576)).

(** two exports are the same but for their names *)
Definition same_export (a b : server) : Prop :=
  s_export a = s_export b /\ s_auth a = s_auth b /\ s_size a = s_size b /\ s_flags a = s_flags b
  /\ s_virt a = s_virt b /\ s_prerun a = s_prerun b /\ s_postrun a = s_postrun b /\ s_log a = s_log b
  /\ s_cow a = s_cow b /\ s_max a = s_max b.

(** * Listening *)
(** the names in a list: maximal runs of bytes other than comma, blank and tab *)
Definition sep (c : Z) : Prop := c = 44 \/ c = 32 \/ c = 9.
Inductive listed : list Z -> list (list Z) -> Prop :=
| listed_nil : listed [] []
| listed_sep c s l : sep c -> listed s l -> listed (c :: s) l
| listed_end w : w <> [] -> Forall (fun c => ~ sep c) w -> listed w [w]
| listed_word w c s l : w <> [] -> Forall (fun c => ~ sep c) w -> sep c -> listed s l -> listed (w ++ c :: s) (w :: l).
(** the TCP addresses among the sockets *)
Definition tcp (l : list lsock) : list (list Z) := flat_map (fun s => match s with LTcp a => [a] | LUnix _ => [] end) l.

(** an export as a section describes it *)
Definition from_section (g : group) (s : server) : Prop :=
  s_name s = g_name g /\ s_export s = last_value "exportname" (g_keys g) /\ s_auth s = last_value "authfile" (g_keys g)
  /\ flags_as_written (g_keys g) (s_flags s).

(** * User and group *)
(** runs as this user and this group and nothing else *)
Definition only (u g : Z) (c : cred) : Prop := cr_u c = (u, u, u) /\ cr_g c = (g, g, g) /\ cr_groups c = [].
Definition as_root (c : cred) : Prop := exists r s, cr_u c = (r, 0, s).
