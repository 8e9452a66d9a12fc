(** Specification: several clients using the same export at the same time. *)
From Verif Require Import Base M_Const M_Disk M_Raw M_Setup M_Par M_Multi S_Wire L_Setup L_PlainS S_Par S_Byte.

(** One client's connection: what was negotiated, whether the server logs, how
    many threads serve it, its requests, what the client sends after them, how
    its stream ends, and the memory of the process serving it. *)
Record talk := mkTalk {
  tk_namelen : Z; tk_structured : bool; tk_tls : bool;
  tk_lg : bool; tk_threads : nat;
  tk_qs : list wreq; tk_tail : list Z; tk_end : stream_end;
  tk_own : world
}.
Definition client_for (s : setup) (t : talk) : client := client_of s (tk_namelen t) (tk_structured t) (tk_tls t).
Definition conn_for (s : setup) (t : talk) : conn :=
  mkConn (client_for s t) (tk_lg t) (tk_threads t) (concat (map encode (tk_qs t)) ++ tk_tail t) (tk_own t).

(** A client that keeps the rules of the protocol; the last part says that the
    files of a single process, which a plain export does not use, are there. *)
Definition talk_ok (s : setup) (w : world) (t : talk) : Prop :=
  no_splice_tls (client_for s t) /\ Forall wreq_ok (tk_qs t) /\ Forall (fun q => q_type q <> 2) (tk_qs t) /\
  NoDup (map q_cookie (tk_qs t)) /\ stops (tk_tail t) (tk_end t) /\
  (w_file (tk_own t) FDiff = w_file w FDiff /\ w_file (tk_own t) FDummy = w_file w FDummy).

(** no request of any client but number [i] of client [b] asks to change byte [j] *)
Definition alone (ts : list talk) (b i : nat) (j : Z) : Prop :=
  forall b' t i' q, nth_error ts b' = Some t -> nth_error (tk_qs t) i' = Some q -> (b', i') <> (b, i) -> touches q j = false.
(** no request of any client asks to change byte [j] *)
Definition unasked (ts : list talk) (j : Z) : Prop :=
  forall t q, In t ts -> In q (tk_qs t) -> touches q j = false.

(** [vs] are messages answering [q] in what the client has received, [out] *)
Definition has_got (qs : list wreq) (out : list Z) (q : wreq) (vs : list view) : Prop :=
  exists msgs part, out = concat (map (fun x => enc_view (fst x) (snd x)) msgs) ++ part /\
    Forall (fun x => length (fst x) = 8%nat /\ wf_view (data_len qs (fst x)) (snd x)) msgs /\
    with_cookie (q_cookie q) msgs = vs.

(** at the moment [g] connection [b] has had its whole answer to request
    number [i] *)
Definition answered_by (ts : list talk) (g : group) (b i : nat) : Prop :=
  exists t p q vs, nth_error ts b = Some t /\ nth_error (g_procs g) b = Some p /\ nth_error (tk_qs t) i = Some q /\
    has_got (tk_qs t) (y_out (pr_sys p)) q vs /\ whole_answer vs.
(** at the moment [g] the server has not yet taken in request number [i] of
    connection [b] *)
Definition unread_by (g : group) (b i : nat) : Prop :=
  exists p, nth_error (g_procs g) b = Some p /\ (y_next (pr_sys p) <= i)%nat.
(** nobody but, possibly, request [i] of connection [b] is at work on byte [j]
    between [g1] and [g2]: everybody else who asks to change it had been
    answered before or has not been read after *)
Definition others_idle (ts : list talk) (g1 g2 : group) (who : option (nat * nat)) (j : Z) : Prop :=
  forall b t i q, nth_error ts b = Some t -> nth_error (tk_qs t) i = Some q -> who <> Some (b, i) -> touches q j = true ->
    answered_by ts g1 b i \/ unread_by g2 b i.

(** the event makes byte [i] of [h] read as [v] *)
Definition makes (h : fref) (i v : Z) (e : event) : Prop :=
  match e with
  | EWrite h' off n d => h' = h /\ off <= i < off + n /\ d (i - off) = v
  | EPunch h' off n => h' = h /\ off <= i < off + n /\ v = 0
  | ECreate p | EUnlink p => h = FTree p /\ v = 0
  | _ => False
  end.
