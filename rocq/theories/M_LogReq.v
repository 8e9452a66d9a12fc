(** What the main loop does to a shared log for one request.  Definitions only. *)
From Verif Require Import Base M_Const M_Raw M_LogShare.
Local Open Scope list_scope.

(** the data of the request is logged too (nbd-server.c:3109-3112) *)
Definition logs_data (flags : Z) (hdr : list Z) : bool :=
  (cmd_of (snd (decode_request hdr)) =? NBD_CMD_WRITE) && flag flags F_DATALOG && negb (flag flags F_SPLICE).
(** one turn of the main loop, for the 28 bytes [hdr] of a header; [data] is the payload
    of a WRITE, [None] while it has not come in full (nbd-server.c:3101-3143).  A wrong
    magic ends the process (3123-3124). *)
Definition request_events (flags : Z) (c : nat) (hdr : list Z) (data : option (list Z)) : list lev :=
  LLock c :: LWrite c hdr ::
  (if logs_data flags hdr then [] else [LUnlock c]) ++
  (if negb (fst (decode_request hdr) =? NBD_REQUEST_MAGIC) then [LDie c]
   else match data with
        | Some d => if logs_data flags hdr then [LWrite c d; LUnlock c] else []
        | None => []
        end).
