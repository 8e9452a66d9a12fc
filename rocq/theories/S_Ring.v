(** The ring buffer seen as a queue, and the TLS proxy seen as two relays. *)
From Verif Require Import Base M_Ring.

(** the bytes queued in a buffer, oldest first *)
Definition queued (b : ring) : list Z :=
  slice (fun i => rb_mem b (i mod rb_size b)) (rb_ridx b) (bufGetCount b).

(** indices in range, an empty buffer starts over at 0 *)
Definition ring_ok (b : ring) : Prop :=
  0 < rb_size b /\ 0 <= rb_ridx b < rb_size b /\ 0 <= rb_widx b < rb_size b /\
  (rb_empty b = true -> rb_ridx b = 0 /\ rb_widx b = 0).

(** A user of the buffer: put up to all of [bs] into the next write span, or take
    up to [n] bytes from the next read span. *)
Inductive ring_op := Put (bs : list Z) | Take (n : Z).

(** one operation: bytes accepted, bytes delivered; [None] if a span leaves the
    buffer *)
Definition ring_do (op : ring_op) (b : ring) : option (list Z * list Z * ring) :=
  match op with
  | Put bs =>
      match bufGetWriteSpan b with
      | (None, len, b') => if len =? 0 then Some ([], [], b') else None
      | (Some a, len, b') =>
          if (0 <=? a) && (0 <=? len) && (a + len <=? rb_size b') then
            let bs' := firstn (Z.to_nat len) bs in
            match bufDoneWrite (fill b' a bs') (zlen bs') with Some b'' => Some (bs', [], b'') | None => None end
          else None
      end
  | Take n =>
      match bufGetReadSpan b with
      | (None, len) => if len =? 0 then Some ([], [], b) else None
      | (Some a, len) =>
          if (0 <=? a) && (0 <=? len) && (a + len <=? rb_size b) then
            let k := Z.min (Z.max 0 n) len in
            match bufDoneRead b k with Some b'' => Some ([], slice (rb_mem b) a k, b'') | None => None end
          else None
      end
  end.

Fixpoint ring_run (ops : list ring_op) (b : ring) : option (list Z * list Z * ring) :=
  match ops with
  | [] => Some ([], [], b)
  | op :: t =>
      match ring_do op b with
      | Some (p, g, b') =>
          match ring_run t b' with
          | Some (p', g', b'') => Some (p ++ p', g ++ g', b'')
          | None => None
          end
      | None => None
      end
  end.
