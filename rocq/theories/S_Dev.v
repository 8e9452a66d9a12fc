(** What the command line of nbd-client says, and what a device is, stated apart
    from the option loop and from the calls made. *)
From Coq Require Import String.
From Verif Require Import Base M_Nego M_Tab S_Tab.
Local Open Scope list_scope.

(** the last argument that [sel] selects *)
Fixpoint last_sel (sel : arg -> option (list Z)) (l : list arg) : option (list Z) :=
  match l with
  | [] => None
  | a :: t => match last_sel sel t with Some x => Some x | None => sel a end
  end.
Definition opt_arg (o : string) (a : arg) : option (list Z) :=
  match a with AOpt o' s => if (o' =? o)%string then Some s else None | AWord _ => None end.
(** the argument of the last option [o] *)
Definition last_opt (o : string) (l : list arg) : option (list Z) := last_sel (opt_arg o) l.
(** the last of option [o] and words of the form key=value, [k] being the key
    with its '=' *)
Definition opt_or_word (o : string) (k : string) (a : arg) : option (list Z) :=
  match a with
  | AOpt o' s => if (o' =? o)%string then Some s else None
  | AWord s => if list_eq_dec Z.eq_dec (firstn (String.length k) s) (text k) then Some (skipn (String.length k) s) else None
  end.
Definition last_set (o k : string) (l : list arg) : option (list Z) := last_sel (opt_or_word o k) l.
Definition or_num (num : list Z -> Z) (x : option (list Z)) (d : Z) : Z := match x with Some s => num s | None => d end.
(** words "host device" or "host port device" *)
Definition host_and_device (num : list Z -> Z) (w : list (list Z)) (h d : list Z) : Prop :=
  (w = [h; d] /\ num d = 0) \/ exists p, w = [h; p; d] /\ num p <> 0.
