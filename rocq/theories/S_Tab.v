(** What an nbdtab file says (nbdtab(5)), stated without the lexer, the parser
    and the actions.  Types of the settings are shared with M_Tab. *)
From Coq Require Import String.
From Verif Require Import Base M_Nego M_Tab.
Local Open Scope list_scope.

(** a word of the file: no blank, newline, comma or '=', and no '#' in front *)
Definition word_char (c : Z) : Prop := ~ In c [0; 32; 9; 10; 44; 61].
Definition word (w : list Z) : Prop := Forall word_char w /\ exists c t, w = c :: t /\ c <> 35.
Definition blanks (s : list Z) : Prop := s <> [] /\ Forall (fun c => c = 32 \/ c = 9) s.

(** an entry: device, host, export and options, with the blanks between them *)
Record entry := mkEn { e_dev : list Z; e_sep1 : list Z; e_hostn : list Z; e_sep2 : list Z; e_export : list Z;
                       e_sep3 : list Z; e_opts : list (list Z * option (list Z)) }.
Inductive item := IEntry (e : entry) | IComment (c : list Z) | IBlank.

Definition opt_text (o : list Z * option (list Z)) : list Z :=
  match snd o with Some v => fst o ++ [61] ++ v | None => fst o end.
Fixpoint opts_text (l : list (list Z * option (list Z))) : list Z :=
  match l with
  | [] => []
  | [o] => opt_text o
  | o :: l => opt_text o ++ [44] ++ opts_text l
  end.
Definition entry_text (e : entry) : list Z :=
  e_dev e ++ e_sep1 e ++ e_hostn e ++ e_sep2 e ++ e_export e ++
  match e_opts e with [] => [] | _ => e_sep3 e ++ opts_text (e_opts e) end.
Definition item_text (i : item) : list Z :=
  match i with IEntry e => entry_text e | IComment c => 35 :: c | IBlank => [] end.
Definition tab_text (l : list item) : list Z := flat_map (fun i => item_text i ++ [10]) l.

Definition good_opt (o : list Z * option (list Z)) : Prop :=
  word (fst o) /\ forall v, snd o = Some v -> word v.
Definition good_item (i : item) : Prop :=
  match i with
  | IEntry e => word (e_dev e) /\ word (e_hostn e) /\ word (e_export e) /\
                blanks (e_sep1 e) /\ blanks (e_sep2 e) /\ blanks (e_sep3 e) /\ Forall good_opt (e_opts e)
  | IComment c => ~ In 10 c
  | IBlank => True
  end.
Definition entries (l : list item) : list entry :=
  flat_map (fun i => match i with IEntry e => [e] | _ => [] end) l.

(** short name of a device *)
Definition short (d s : list Z) : Prop := d = text "/dev/" ++ s \/ (d = s /\ forall t, d <> text "/dev/" ++ t).
Definition about (s : list Z) (e : entry) : Prop := short (e_dev e) s.

(** the value given last for a key *)
Fixpoint value (k : string) (l : list (list Z * option (list Z))) : option (list Z) :=
  match l with
  | [] => None
  | (k', v) :: l =>
      match value k l with
      | Some x => Some x
      | None => if list_eq_dec Z.eq_dec k' (text k) then v else None
      end
  end.
Definition has (k : string) (l : list (list Z * option (list Z))) : Prop := In (text k, None) l.

(** [a] if given, else [b] *)
Definition or_else {A} (a b : option A) : option A := match a with Some _ => a | None => b end.

(** [c] is what the options [l] make of [b]; [num] reads a number *)
Record configured (num : list Z -> Z) (l : list (list Z * option (list Z))) (b c : tcl) : Prop := {
  conf_port : t_port c = or_else (value "port" l) (t_port b);
  conf_cert : t_cert c = or_else (value "certfile" l) (t_cert b);
  conf_key : t_key c = or_else (value "keyfile" l) (t_key b);
  conf_cacert : t_cacert c = or_else (value "cacertfile" l) (t_cacert b);
  conf_tlshost : t_tlshost c = or_else (value "tlshostname" l) (t_tlshost b);
  conf_prio : t_prio c = or_else (value "priority" l) (t_prio b);
  conf_bs : t_bs c = match value "bs" l with Some v => i32 (num v) | None => t_bs b end;
  conf_timeout : t_timeout c = match value "timeout" l with Some v => i32 (num v) | None => t_timeout b end;
  conf_nconn : t_nconn c = match value "conns" l with Some v => i32 (num v) | None => t_nconn b end;
  conf_no_optgo : t_no_optgo c = true <-> has "no_optgo" l \/ t_no_optgo b = true;
  conf_persist : t_persist c = true <-> has "persist" l \/ t_persist b = true;
  conf_swap : t_swap c = true <-> has "swap" l \/ t_swap b = true;
  conf_unix : t_unix c = true <-> has "unix" l \/ t_unix b = true;
  conf_preinit : t_preinit c = true <-> has "preinit" l \/ t_preinit b = true;
  conf_tls : t_tls c = true <-> has "tls" l \/ t_tls b = true;
  conf_force : t_force c = t_force b;
  conf_ro : t_ro c = t_ro b }.

(** nothing configured but block size 512 and one connection *)
Definition nothing_set (c : tcl) : Prop :=
  t_port c = None /\ t_cert c = None /\ t_key c = None /\ t_cacert c = None /\ t_tlshost c = None /\ t_prio c = None /\
  t_bs c = 512 /\ t_timeout c = 0 /\ t_nconn c = 1 /\ t_force c = 0 /\
  t_no_optgo c = false /\ t_persist c = false /\ t_swap c = false /\ t_unix c = false /\
  t_preinit c = false /\ t_tls c = false /\ t_ro c = false.

(** an option word of the command line *)
Definition given (o : string) (l : list arg) : Prop := exists s, In (AOpt o s) l.
(** the words of the command line that are neither options nor key=value *)
Definition words (l : list arg) : list (list Z) :=
  flat_map (fun a => match a with AWord s => if existsb (fun x => x =? 61) s then [] else [s] | AOpt _ _ => [] end) l.
(** a word that names an NBD device *)
Definition names_device (w : list Z) : Prop := exists t, w = text "nbd" ++ t \/ w = text "/dev/nbd" ++ t.
