(** Properties of make-integrityhuge (make-integrityhuge.c). *)
From Verif Require Import Base M_Const M_Huge S_Wire S_Disk S_Par S_Huge L_Huge.
Local Open Scope list_scope.

(** C101: if no write fails, however short the writes are, the output is 11028 bytes
    that read as 250 requests, each numbered in turn and answered without error, then a
    DISC with the last number; every request is a READ, WRITE or WRITE with FUA of a
    whole number of KiB inside the 50000000 bytes, or a FLUSH. *)
Theorem C101_log rnd wr : (forall n, 0 < wr n) ->
  exists out n qs, huge_main rnd wr = HGo out n /\ zlen out = 11028 /\
    parse_log 501 false out = Some (answered 0 qs (mkWreq 2 (be 8 249) 0 0 [])) /\ length qs = 250%nat /\ cookies_from 0 qs /\ Forall (huge_ok 50000000) qs.
Proof. exact (log_spec rnd wr). Qed.
Print Assumptions C101_log.
(** writes of one to seven bytes *)
Example C101_log_ex : (forall n, 0 < 1 + Z.of_nat n mod 7) /\
  match huge_main (fun k => Z.of_nat k * 48271 mod 2147483647) (fun n => 1 + Z.of_nat n mod 7) with
  | HGo out n => zlen out = 11028 /\ match parse_log 501 false out with
                                    | Some (GReq q :: _) => q_type q = 1 /\ q_from q = 2784256 /\ q_len q = 1411072
                                    | _ => False
                                    end
  | _ => False
  end.
Proof. split; [intros n; pose proof (Z.mod_pos_bound (Z.of_nat n) 7); lia|]. vm_compute. auto. Qed.

(** C101: whatever write returns, the program ends: with such a log, or, when a write
    returned 0 or less, with a proper beginning of such a log and exit status 1. *)
Theorem C101_failing_write rnd wr : exists out qs,
    parse_log 501 false out = Some (answered 0 qs (mkWreq 2 (be 8 249) 0 0 [])) /\ length qs = 250%nat /\ cookies_from 0 qs /\ Forall (huge_ok 50000000) qs /\
    ((exists n, huge_main rnd wr = HGo out n) \/
     (exists p t k, huge_main rnd wr = HExit p /\ out = p ++ t /\ t <> [] /\ wr k <= 0)).
Proof. exact (short_spec rnd wr). Qed.
Print Assumptions C101_failing_write.
Example C101_failing_write_ex : huge_main (fun _ => 5) (fun n => if (n <? 2)%nat then 28 else -1) = HExit (firstn 44 (huge_log (fun _ => 5))).
Proof. vm_compute. reflexivity. Qed.

(** C101: each 64-bit number can come out of getrandomuint64, even if random() returns
    15 bits only (the comment at make-integrityhuge.c:37). *)
Theorem C101_random64_full x k : 0 <= x < 18446744073709551616 -> exists rnd, (forall i, 0 <= rnd i < 32768) /\ random64 rnd k = x.
Proof. exact (surj_spec x k). Qed.
Print Assumptions C101_random64_full.
Example C101_random64_full_ex : let x := 0xfedcba9876543210 in
  Forall (fun r => 0 <= r < 32768) (seed x) /\ random64 (fun k => nth k (seed x) 0) 0 = x.
Proof. split; [apply seed_ok; lia|vm_compute; reflexivity]. Qed.

(** C101: nothing such a request may be is left out, but for lengths above 49998848:
    at each place of the log each of them can come up. *)
Theorem C101_every_request h q : (h < 250)%nat -> huge_ok 50000000 q -> q_len q <= 49998848 -> q_cookie q = be 8 (Z.of_nat h) -> q_data q = [] ->
  exists rnd, random_ok rnd /\ forall wr, (forall n, 0 < wr n) -> exists out n qs last,
    huge_main rnd wr = HGo out n /\ parse_log 501 false out = Some (answered 0 qs last) /\ nth_error qs h = Some q.
Proof. exact (every_spec h q). Qed.
Print Assumptions C101_every_request.
Example C101_every_request_ex : let q := mkWreq 65537 (be 8 17) 1024 49998848 [] in
  (17 < 250)%nat /\ huge_ok 50000000 q /\ q_len q <= 49998848 /\ pick (plan (15 * 17) (49998848 - 1024) 1024 16) (15 * 17) = (65537, 1024, 49998848).
Proof.
  cbv zeta. split; [apply Nat.ltb_lt; reflexivity|]. split.
  - left. cbn [q_type q_len q_from]. split; [right; right; left; reflexivity|]. split; [lia|]. split; [reflexivity|]. split; [lia|]. split; [reflexivity|lia].
  - split; [cbn [q_len]; lia|]. vm_compute. reflexivity.
Qed.

(** C101: the comment has it that the length is at most the size of the disk less 0x800
    (make-integrityhuge.c:60-61).  It can be 896 bytes more than that. *)
Theorem C101_length_comment_refuted : exists rnd, random_ok rnd /\ 50000000 - 2048 < snd (pick rnd 0).
Proof.
  exists (plan 0 (49998848 - 1024) 1024 16). split; [intros i; destruct (plan_ok 0 (49998848 - 1024) 1024 16) as [P _]; [lia|lia|lia|specialize (P i); lia]|]. vm_compute. reflexivity.
Qed.
Print Assumptions C101_length_comment_refuted.

(** C101: a client that sends the requests of a log, with any data for the WRITEs, to a
    writable export of 49999872 bytes or more sends well-formed requests with different
    cookies, none of which the server refuses: what C01, C04 and C20 ask for. *)
Theorem C101_served rnd wr out n qs last qs' size : huge_main rnd wr = HGo out n -> parse_log 501 false out = Some (answered 0 qs last) ->
  Forall2 sent_as qs qs' -> 49999872 <= size ->
  Forall wreq_ok qs' /\ Forall (fun q => q_type q <> 2) qs' /\ NoDup (map q_cookie qs') /\ Forall (fun q => refusal size false q = None) qs'.
Proof. exact (served_spec rnd wr out n qs last qs' size). Qed.
Print Assumptions C101_served.
(** the same number over and over gives 250 READs at the same place *)
Example C101_served_ex : match huge_main (fun _ => 17) (fun _ => 28) with
  | HGo out _ => match parse_log 501 false out with
                 | Some (GReq q :: GRep _ _ :: GReq q' :: _) => sent_as q q /\ q_type q = 0 /\ q_from q = q_from q' /\ q_cookie q' = be 8 1
                 | _ => False
                 end
  | _ => False
  end.
Proof. vm_compute. repeat split. Qed.

(** C101: on an export one byte shorter, some logs have a request that is refused. *)
Theorem C101_least_size : exists rnd, random_ok rnd /\
  let '(command, offset, len) := pick rnd 0 in refusal 49999871 false (mkWreq command (be 8 0) offset len []) = Some 28.
Proof.
  exists (plan 0 (49998848 - 1024) 1024 16). split; [intros i; destruct (plan_ok 0 (49998848 - 1024) 1024 16) as [P _]; [lia|lia|lia|specialize (P i); lia]|]. vm_compute. reflexivity.
Qed.
Print Assumptions C101_least_size.
