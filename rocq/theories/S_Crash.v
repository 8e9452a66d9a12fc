(** Specification of crashes.  The trace of events (newest first) determines
    what each byte of each file may hold after the machine crashes: data
    written since the last sync of that file may or may not have reached the
    disk, each byte on its own. *)
From Verif Require Import Base M_Disk.

Definition covers (off n i : Z) : bool := (off <=? i) && (i <? off + n).

(** what the byte reads as now ([init]: before the first event) *)
Fixpoint now (init : fref -> Z -> Z) (tr : list event) (h : fref) (i : Z) : Z :=
  match tr with
  | [] => init h i
  | EWrite h' off n d :: t =>
      if fref_eq_dec h h' then if covers off n i then d (i - off) else now init t h i else now init t h i
  | EPunch h' off n :: t =>
      if fref_eq_dec h h' then if covers off n i then 0 else now init t h i else now init t h i
  | ECreate p :: t | EUnlink p :: t => if fref_eq_dec h (FTree p) then 0 else now init t h i
  | _ :: t => now init t h i
  end.

(** everything it may read as after a crash at this point *)
Fixpoint after_crash (init : fref -> Z -> Z) (tr : list event) (h : fref) (i : Z) : list Z :=
  match tr with
  | [] => [init h i]
  | EWrite h' off n d :: t =>
      if fref_eq_dec h h' then
        if covers off n i then d (i - off) :: after_crash init t h i else after_crash init t h i
      else after_crash init t h i
  | EPunch h' off n :: t =>
      if fref_eq_dec h h' then
        if covers off n i then 0 :: after_crash init t h i else after_crash init t h i
      else after_crash init t h i
  | ECreate p :: t | EUnlink p :: t =>
      if fref_eq_dec h (FTree p) then 0 :: after_crash init t h i else after_crash init t h i
  | ESync h' :: t => if fref_eq_dec h h' then [now init t h i] else after_crash init t h i
  | ESyncAll :: t => [now init t h i]
  | ESend _ :: t => after_crash init t h i
  end.

(** the byte is on disk: [v] is the only possibility *)
Definition durable (init : fref -> Z -> Z) (tr : list event) (h : fref) (i v : Z) : Prop :=
  forall x, In x (after_crash init tr h i) -> x = v.

(** events that do not modify byte [i] of [h] *)
Definition leaves (h : fref) (i : Z) (e : event) : Prop :=
  match e with
  | EWrite h' off n _ | EPunch h' off n => h' <> h \/ covers off n i = false
  | ECreate p | EUnlink p => h <> FTree p
  | _ => True
  end.

(** [init] describes the storage before the trace: following the trace gives
    what the files hold now (missing block files read as zeroes; the anonymous
    temporary file of read-only trees is not tracked) *)
Definition held (w : world) (h : fref) (i : Z) : Z :=
  match h with
  | FTree p => if w_exists w p then frd (w_file w h) i else 0
  | _ => frd (w_file w h) i
  end.
Definition traced (init : fref -> Z -> Z) (w : world) : Prop :=
  forall h i, h <> FDummy -> now init (w_tr w) h i = held w h i.
