(** What several connections to one waitfile export should see, stated on their
    requests and outcomes alone. *)
From Verif Require Import Base M_Wait S_Wait M_WaitMulti.

(** pages a request reads or writes, and those it writes *)
Definition touches (rq : wreq) (p : Z) : Prop :=
  match rq with
  | WRead a len | WWrite a len _ _ => exists b, a <= b < a + len /\ b / 4096 = p
  | WFlush => False
  end.
Definition rewrites (rq : wreq) (p : Z) : Prop :=
  match rq with WWrite a len _ _ => exists b, a <= b < a + len /\ b / 4096 = p | _ => False end.
(** no connection uses a page another one writes *)
Definition apart (reqss : list (list wreq)) : Prop :=
  forall i j ri rj x y p, i <> j -> nth_error reqss i = Some ri -> nth_error reqss j = Some rj ->
    In x ri -> In y rj -> touches x p -> rewrites y p -> False.

(** no switch of any connection falls into one of its own writes *)
Definition steady (e : wenv) (k : nat) (c : wchoice) (g : wgroup) : Prop :=
  forall s s', nth_error (wg_conns g) k = Some s -> conn_step e c (lend g s) = WGo s' ->
    w_export s = false -> w_export s' = true -> ~ in_write s.
Fixpoint all_steady (e : wenv) (l : list (nat * wchoice)) (g : wgroup) : Prop :=
  match l with
  | [] => True
  | (k, c) :: l => steady e k c g /\ match wg_step e k c g with WgGo g' => all_steady e l g' | WgUb => True end
  end.
