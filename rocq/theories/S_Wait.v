(** What a waitfile export should do, stated on the requests and their outcomes
    alone.  The types of requests, outcomes and schedules are shared with M_Wait. *)
From Verif Require Import Base M_Wait.

(** the byte a request stores at [b] *)
Definition stores (rq : wreq) (b : Z) : option Z :=
  match rq with
  | WWrite a len d _ => if (a <=? b) && (b <? a + len) then Some (d (b - a)) else None
  | _ => None
  end.
(** the byte stored last by an acknowledged write; oldest request first *)
Fixpoint last_write (l : list (wreq * wres)) (b : Z) : option Z :=
  match l with
  | [] => None
  | (rq, r) :: l =>
      match last_write l b with
      | Some x => Some x
      | None => match r with WOk _ => stores rq b | WErr => None end
      end
  end.
(** the awaited file as it was found, zeros behind its end *)
Definition found (e : wenv) (b : Z) : Z := if b <? we_f0size e then we_f0 e b else 0.
(** the byte a client should see *)
Definition latest (e : wenv) (l : list (wreq * wres)) (b : Z) : Z :=
  match last_write l b with Some x => x | None => found e b end.
Definition expected (e : wenv) (l : list (wreq * wres)) (a len : Z) : list Z :=
  map (fun i => latest e l (a + Z.of_nat i)) (seq 0 (Z.to_nat len)).

(** every read that is answered with data got the latest data *)
Definition reads_right (e : wenv) (log : list (wreq * wres)) : Prop :=
  forall l1 a len data l2, log = l1 ++ (WRead a len, WOk data) :: l2 -> data = expected e l1 a len.
(** every write is acknowledged *)
Definition writes_ok (log : list (wreq * wres)) : Prop :=
  forall a len d fua r, In (WWrite a len d fua, r) log -> r = WOk [].

(** requests within the export; writes of whole pages *)
Definition whole (e : wenv) (rq : wreq) : Prop :=
  match rq with
  | WRead a len => 0 <= a /\ 0 < len /\ a + len <= we_size e / 4096 * 4096
  | WWrite a len _ _ => 0 <= a /\ 0 < len /\ a + len <= we_size e / 4096 * 4096 /\ a mod 4096 = 0 /\ len mod 4096 = 0
  | WFlush => True
  end.
(** pages a client writes *)
Definition page_writes (l : list wreq) : Z :=
  fold_right (fun rq n => n + match rq with WWrite _ len _ _ => len / 4096 | _ => 0 end) 0 l.

(** the switch to the file does not happen during a write *)
Definition in_write (s : wst) : Prop := match w_rpc s with RMapW _ _ _ _ _ => True | _ => False end.
Fixpoint clean (e : wenv) (l : list wchoice) (s : wst) : Prop :=
  match l with
  | [] => True
  | c :: l =>
      match wstep e c s with
      | WGo s' => (w_export s = false -> w_export s' = true -> ~ in_write s) /\ clean e l s'
      | _ => True
      end
  end.

(** the export fits the limits of the code: 2 GiB, 2^20 pages written, no "sparse_cow" *)
Definition modest (e : wenv) (reqs : list wreq) : Prop :=
  we_sparse e = false /\ we_size e / 4096 <= 524288 /\ page_writes reqs <= 1048576 /\ Forall (whole e) reqs.
