(** What the root process is expected to do, stated on configurations and on the
    conversation with its children. *)
From Coq Require Import String.
From Verif Require Import Base M_Conf M_Root.
Open Scope list_scope.
Open Scope Z_scope.

(** The name a message asks for: four bytes, least significant first, give a
    length; the name follows and stops at a zero byte. *)
Fixpoint upto0 (l : list Z) : list Z :=
  match l with
  | [] => []
  | b :: t => if b =? 0 then [] else b :: upto0 t
  end.
Definition wanted (m : list Z) : option (list Z) :=
  match m with
  | b0 :: b1 :: b2 :: b3 :: t =>
      let n := b0 + 256 * (b1 + 256 * (b2 + 256 * b3)) in
      if n <? 4294967294 then Some (upto0 (firstn (Z.to_nat n) t)) else None
  | _ => None
  end.

(** how often a name has been granted, given the messages and answers so far *)
Definition is_grant (n : list Z) (x : list Z * Z) : bool :=
  (snd x =? 89) && match wanted (fst x) with
                   | Some n' => if list_eq_dec Z.eq_dec n' n then true else false
                   | None => false
                   end.
Definition granted (n : list Z) (log : list (list Z * Z)) : Z :=
  Z.of_nat (length (filter (is_grant n) log)).

(** the exports a process knows, in order *)
Definition served (s : proc) : list (option server) :=
  map (fun p => option_map r_conf (nth_error (pr_heap s) p)) (pr_servers s).
Definition is_named (n : list Z) (x : option server) : bool :=
  match x with
  | Some c => if list_eq_dec Z.eq_dec (s_name c) n then true else false
  | None => false
  end.
(** the export a name stands for: the first one *)
Definition export_named (n : list Z) (s : proc) : option server :=
  match find (is_named n) (served s) with Some x => x | None => None end.

(** the answer due *)
Definition due (n : list Z) (s : proc) (log : list (list Z * Z)) : Z :=
  match export_named n s with
  | None => 88
  | Some c => if (s_max c =? 0) || (granted n log <? s_max c) then 89 else 78
  end.

(** a section says yes to an option; the last line counts *)
Fixpoint last_value (k : string) (l : list (string * list Z)) : option (list Z) :=
  match l with
  | [] => None
  | (k', v) :: t => match last_value k t with
                    | Some x => Some x
                    | None => if String.eqb k' k then Some v else None
                    end
  end.
(** "true" and "1", possibly followed by blanks *)
Definition yes_value (v : list Z) : Prop :=
  exists blanks, Forall (fun c => c = 32 \/ 9 <= c <= 13) blanks
    /\ (v = [116; 114; 117; 101] ++ blanks \/ v = [49] ++ blanks).
Definition says_yes (k : string) (keys : list (string * list Z)) : Prop :=
  exists v, last_value k keys = Some v /\ yes_value v.

(** the configuration on disk asks for the old protocol *)
Definition wants_oldstyle (e : rev) : Prop :=
  match e with
  | EvHup _ (Some (g :: _)) => says_yes "oldstyle" (g_keys g)
  | _ => False
  end.

(** a pointer is in use *)
Definition held (s : proc) (p : nat) : Prop := In p (pr_servers s) \/ pr_client s = Some p.
Definition alive (s : proc) (p : nat) : Prop :=
  exists r, nth_error (pr_heap s) p = Some r /\ r_freed r = false.

(** what a reload adds: the first export of each name not yet known, in order *)
Fixpoint new_names (known : list (list Z)) (l : list server) : list server :=
  match l with
  | [] => []
  | c :: t => if in_dec (list_eq_dec Z.eq_dec) (s_name c) known then new_names known t
              else c :: new_names (s_name c :: known) t
  end.
(** the exports of a process, when all are there *)
Definition serves (s : proc) (cs : list server) : Prop := served s = map Some cs.
