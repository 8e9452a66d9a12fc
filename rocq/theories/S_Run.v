(** Specification: what must happen whatever the scheduler does. *)
From Verif Require Import Base M_Const M_Disk M_Raw M_Par S_Wire S_Par.

(** no write() fails and no signal arrives *)
Definition healthy (x : choice) : Prop := match x with CReader | CWork _ _ => True | _ => False end.

(** [F] is reached in finitely many moves, whatever moves the scheduler
    chooses among the possible ones; until then some move is possible, and no
    move is undefined or ends the process. *)
Inductive inevitable (lg : bool) (c : client) (F : sys -> Prop) (s : sys) : Prop :=
| Now : F s -> inevitable lg c F s
| Later :
    (exists x s', healthy x /\ sys_step lg c x s = SGo s') ->
    (forall x, healthy x -> sys_step lg c x s <> SUb) ->
    (forall x s', healthy x -> sys_step lg c x s <> SExit s') ->
    (forall x s', healthy x -> sys_step lg c x s = SGo s' -> inevitable lg c F s') ->
    inevitable lg c F s.

(** [s] can be reached *)
Definition reaches (lg : bool) (c : client) (s0 s : sys) : Prop :=
  exists l, sys_run lg c l s0 = SGo s \/ sys_run lg c l s0 = SExit s.

(** the beginning of an answer: chunks of which none is the last, or all of it *)
Definition answer_so_far (vs : list view) : Prop :=
  Forall (fun v => is_chunk v = true /\ is_done v = false) vs \/ whole_answer vs.

(** [part] begins the message [v] of some request in [qs] and does not end it *)
Definition unfinished (qs : list wreq) (part : list Z) : Prop :=
  exists q v rest, In q qs /\ rest <> [] /\ enc_view (q_cookie q) v = part ++ rest.

(** what a client finds when the server is done with its connection *)
Definition all_answered (qs : list wreq) (e : stream_end) (s : sys) : Prop :=
  exists d ls, y_rd s = RDone d /\ (d = true -> e = StopDisc (y_in s)) /\ (d = false -> e = StopCut) /\
    length (y_hist s) = length qs /\
    split_replies (length (y_out s)) (data_len qs) (y_out s) = Some ls /\
    (forall q, In q qs -> whole_answer (with_cookie (q_cookie q) ls)) /\
    (forall x, In x ls -> exists q, In q qs /\ fst x = q_cookie q).

(** the stream does not end inside the payload of a WRITE whose data is being
    logged *)
Definition drop_ok (lg : bool) (c : client) (tail : list Z) (e : stream_end) : Prop :=
  lg = false \/ cflag c F_DATALOG = false \/ zlen tail < 28 \/ exists r, e = StopDisc r.

(** the connection is not finished and nothing can happen any more *)
Definition deadlock (lg : bool) (c : client) (s : sys) : Prop :=
  (forall d, y_rd s <> RDone d) /\ forall x, sys_step lg c x s = SNot.
