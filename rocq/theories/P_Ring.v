(** The TLS proxy of nbd-client: C32, C33, C65. *)
From Verif Require Import Base M_Io M_Ring S_Ring L_Io L_Ring L_Proxy.

(** ** C32: the ring buffer is a FIFO *)
(** Any sequence of partial writes into write spans and partial reads from read
    spans: all spans lie in the buffer, and the bytes accepted are exactly the
    bytes delivered followed by the bytes still queued, in order. *)
Theorem C32_ring_is_a_fifo :
  forall size hwm ops, 0 < size ->
    exists put got b, ring_run ops (bufNew size hwm) = Some (put, got, b) /\
      put = got ++ queued b /\ zlen (queued b) <= size.
Proof.
  intros size hwm ops H. destruct (ring_new size hwm H) as [R Q].
  destruct (ring_run_spec ops _ R) as (p & g & b & E & _ & S & Q2 & L).
  exists p, g, b. rewrite Q in Q2. rewrite S in L. auto.
Qed.
Print Assumptions C32_ring_is_a_fifo.

(** one step from any reachable state: data offered for reading are the oldest
    bytes, there is none only when the queue is empty *)
Theorem C32_read_span :
  forall b, ring_ok b ->
    match bufGetReadSpan b with
    | (Some a, len) => 0 < len <= bufGetCount b /\ 0 <= a /\ a + len <= rb_size b /\
        forall n, 0 <= n <= len -> slice (rb_mem b) a n = firstn (Z.to_nat n) (queued b)
    | (None, len) => len = 0 /\ queued b = []
    end.
Proof. exact read_span. Qed.
Print Assumptions C32_read_span.

(** space offered for writing lies in the buffer, away from queued bytes (they
    survive any data stored there), and there is none only when it is full *)
Theorem C32_write_span :
  forall b, ring_ok b ->
    match bufGetWriteSpan b with
    | (Some a, len, b') => 0 < len /\ 0 <= a /\ a + len <= rb_size b /\ bufGetCount b + len <= rb_size b /\
        ring_ok b' /\ queued b' = queued b /\ same_frame b b' /\
        (forall bs, zlen bs <= len ->
           exists b'', bufDoneWrite (fill b' a bs) (zlen bs) = Some b'' /\ ring_ok b'' /\
             queued b'' = queued b ++ bs /\ rb_size b'' = rb_size b /\ rb_hwm b'' = rb_hwm b)
    | (None, len, b') => len = 0 /\ b' = b /\ bufGetCount b = rb_size b
    end.
Proof. exact write_span. Qed.
Print Assumptions C32_write_span.

(** marking any number of bytes as read drops exactly that many *)
Theorem C32_done_read :
  forall b n, ring_ok b -> 0 <= n ->
    exists b', bufDoneRead b n = Some b' /\ ring_ok b' /\ queued b' = skipn (Z.to_nat n) (queued b) /\ same_frame b b'.
Proof. exact done_read. Qed.
Print Assumptions C32_done_read.

(** the counters tell the truth *)
Theorem C32_counters :
  forall b, ring_ok b ->
    bufGetCount b = zlen (queued b) /\ bufGetFree b = rb_size b - zlen (queued b) /\
    (bufIsEmpty b = true <-> queued b = []) /\ (bufIsFull b = true <-> zlen (queued b) = rb_size b) /\
    (bufIsOverHWM b = true <-> rb_hwm b < zlen (queued b)).
Proof. exact ring_counters. Qed.
Print Assumptions C32_counters.

(** a 5-byte buffer, wrapped around twice *)
Example C32_demo :
  0 < 5 /\
  match ring_run [Put [1;2;3;4]; Take 3; Put [5;6;7;8;9]; Put [10;11]; Take 9; Put [12]; Take 9; Take 9] (bufNew 5 3) with
  | Some (put, got, b) => put = [1;2;3;4;5;10;11;12] /\ got = [1;2;3;4;5;10;11;12] /\ queued b = [] /\ rb_widx b = 0
  | None => False
  end /\
  match ring_run [Put [1;2;3;4]; Take 3; Put [5;6;7]; Put [8;9;10]] (bufNew 5 3) with
  | Some (put, got, b) => ring_ok b /\ put = [1;2;3;4;5;8;9;10] /\ got = [1;2;3] /\ queued b = [4;5;8;9;10] /\
      rb_ridx b = 3 /\ rb_widx b = 3 /\ bufIsFull b = true
  | None => False
  end.
Proof. split; [lia|]. split; vm_compute; repeat split; discriminate. Qed.

(** ** C33: the proxy relays in order *)
(** For every buffer size, all data arriving on either side and every sequence of
    loop iterations: what went out on one side is a prefix of what came in on the
    other, and no access leaves the buffers. *)
Theorem C33_relays_in_order :
  forall size hwm pin cin evs, 0 < size ->
    match proxy_run evs (proxy_init size hwm pin cin) with
    | PxStop s | PxError s | PxGo s =>
        (exists rest, pin = px_cout s ++ rest ++ px_pin s) /\ (exists rest, cin = px_pout s ++ rest ++ px_cin s)
    | PxUb => False
    end.
Proof. exact proxy_prefix. Qed.
Print Assumptions C33_relays_in_order.

(** when the loop ends by itself, a direction whose receiving side has not
    closed has been drained: every byte taken from the plain side was handed to
    TLS, respectively the other way round *)
Theorem C33_orderly_end_loses_nothing :
  forall size hwm pin cin evs s, 0 < size ->
    proxy_run evs (proxy_init size hwm pin cin) = PxStop s -> (forall e, In e evs -> ev_quit e = false) ->
    ((forall e, In e evs -> ev_crr e <> CrEof) -> px_cin s <> [] -> pin = px_cout s ++ px_pin s) /\
    ((forall e, In e evs -> ev_prr e <> PrEof) -> px_pin s <> [] -> cin = px_pout s ++ px_cin s).
Proof. exact proxy_end. Qed.
Print Assumptions C33_orderly_end_loses_nothing.

Definition ev_all (pr : prres) (pw : pwres) (cr : crres) (cw : cwres) : event :=
  mkEv false false true true true true pr pw cr cw.
Definition demo_evs : list event :=
  [ev_all (PrData 4) (PwSome 9) (CrData 3) (CwSome 1); ev_all (PrData 9) (PwSome 2) CrAgain (CwAgain 2);
   ev_all PrEof (PwSome 9) (CrData 1) (CwSome 2)].
Example C33_demo :
  0 < 8 /\
  match proxy_run demo_evs (proxy_init 8 6 [1;2;3;4;5;6] [21;22;23;24;25;26]) with
  | PxGo s => px_cout s = [1;2] /\ queued (px_p2c s) = [3;4;5;6] /\ px_pout s = [21;22;23] /\
      queued (px_c2p s) = [24] /\ px_peof s = true /\ px_wrint s = true
  | _ => False
  end /\
  match proxy_run [ev_all (PrData 4) (PwSome 9) (CrData 3) (CwSome 9); ev_all (PrData 9) (PwSome 2) CrAgain (CwSome 9);
                   ev_all PrEof (PwSome 9) (CrData 1) (CwSome 9); ev_all PrEof (PwSome 9) (CrData 1) (CwSome 9)]
          (proxy_init 8 6 [1;2;3;4;5;6] [21;22;23;24;25;26]) with
  | PxStop s => px_cout s = [1;2;3;4;5;6] /\ px_pin s = [] /\ px_cin s = [25;26] /\ px_pout s = [21;22;23]
  | _ => False
  end.
Proof. split; [lia|]. vm_compute. repeat split. Qed.

(** ** C65: the proxy survives a full network buffer *)
(** Once gnutls_record_send has asked to be called again, the loop never
    forgets it (crypto-gnutls.c:600 is the only assignment after 363): after the
    held record is flushed, the next bytes from the plain side end the proxy
    with an error, whatever the network does. *)
Theorem C65_one_retry_ends_the_proxy :
  forall s r, px_wrint s = true -> px_pend s = [] -> ring_ok (px_p2c s) -> queued (px_p2c s) <> [] ->
    exists s', crypt_write r s = PxError s'.
Proof. exact retry_is_fatal. Qed.
Print Assumptions C65_one_retry_ends_the_proxy.

Theorem C65_slow_network_refuted :
  exists pin evs s, (forall e, In e evs -> ev_quit e = false /\ ev_prr e <> PrErr /\ ev_pwr e <> PwErr /\ ev_crr e <> CrErr /\ ev_cwr e <> CwErr) /\
    proxy_run evs (proxy_init 65536 49152 pin []) = PxError s /\ px_cout s <> pin.
Proof.
  exists [1;2;3;4;5;6;7].
  set (evs := [ev_all (PrData 4) (PwSome 9) CrAgain (CwSome 9); ev_all (PrData 1) (PwSome 9) CrAgain (CwAgain 9);
               ev_all (PrData 1) (PwSome 9) CrAgain (CwSome 9); ev_all (PrData 1) (PwSome 9) CrAgain (CwSome 9)]).
  assert (K : match proxy_run evs (proxy_init 65536 49152 [1;2;3;4;5;6;7] []) with
              | PxError s => px_cout s = [1;2;3;4;5] | _ => False end) by (vm_compute; reflexivity).
  exists evs. destruct (proxy_run evs (proxy_init 65536 49152 [1;2;3;4;5;6;7] [])) as [s|s|s|]; try contradiction.
  exists s. split; [intros e [<-|[<-|[<-|[<-|[]]]]]; cbn; repeat split; discriminate|].
  split; [reflexivity|rewrite K; discriminate].
Qed.
Print Assumptions C65_slow_network_refuted.

(** the state just before the error in the run above meets the hypotheses *)
Example C65_demo :
  match proxy_run [ev_all (PrData 4) (PwSome 9) CrAgain (CwSome 9); ev_all (PrData 1) (PwSome 9) CrAgain (CwAgain 9);
                   ev_all (PrData 1) (PwSome 9) CrAgain (CwSome 9)] (proxy_init 8 6 [1;2;3;4;5;6;7] []) with
  | PxGo s => px_wrint s = true /\ px_pend s = [] /\ ring_ok (px_p2c s) /\ queued (px_p2c s) = [6]
  | _ => False
  end.
Proof. vm_compute. repeat split; discriminate. Qed.
