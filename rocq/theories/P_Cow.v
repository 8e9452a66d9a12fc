(** Properties of copy-on-write exports: C07-C11, C64.  (C06 is in P_Plain.) *)
From Verif Require Import Base M_Const M_Disk M_Tree M_Raw M_Setup L_Wp L_Raw S_Wire S_Disk L_Wire L_Req L_Plain L_Session L_Setup L_PlainS L_Gen L_Frame L_Props S_Cow L_Cow L_CowS L_CowP L_CowU X_Demo.

(** A connection to a copy-on-write export: prepare, then serve [inp]. *)
Definition cow_run (c : client) (inp : list Z) : M ending :=
  ok <- copyonwrite_prepare c ;; if ok then run c inp else ret EndMagic.

(** a copy-on-write export of one file of [n] bytes *)
Definition cow_setup (flags n : Z) : setup := mkSetup flags (Some [mkFI (FExp 0) 0]) [true] n None.
Definition cow_world (n : Z) (orc : nat -> sysres) : world := demo_world [demo_file n 100] orc.
Definition cow_client (flags n : Z) (structured : bool) : client := client_of (cow_setup flags n) 4 structured false.
Definition stream (qs : list wreq) : list Z := concat (map encode qs).

(** ** C08: exactness *)

(** Every session on every copy-on-write export (over any number of files, up
    to 4 GiB, not sparse) whose requests are [cow_fine_all] (S_Cow.v): the
    answers form a history of the flat disk made of the base files, and nothing
    but the diff file changes.  If a storage call fails so that a WRITE or
    WRITE_ZEROES is answered with an error, this holds up to that request. *)
Theorem C08_cow_pages_are_exact :
  forall flags expected ms s w namelen structured tls qs tail e w1,
    setupexport flags expected ms = SetupOk s -> 0 <= expected -> cow_flags flags ->
    no_empty_member flags ms -> backed flags ms s w -> sizes_ok w ->
    no_eof (w_orc w) -> su_size s <= 4294967296 ->
    let c := client_of s namelen structured tls in
    copyonwrite_prepare c w = Ret true w1 ->
    Forall wreq_ok qs -> Forall (fun q => q_type q <> 2) qs -> stops tail e ->
    cow_fine_all (su_size s) (bad_write c) structured qs ->
    (exists w2 msgs h d,
       run c (concat (map encode qs) ++ tail) w1 = Ret (model_end e) w2 /\
       sent w2 = sent w ++ msgs /\
       (forall z, answers qs (concat msgs ++ z) = Some (h, z)) /\
       history (su_size s) (bad_write c) (disk_of s w) h d /\ base_kept w w2) \/
    (exists qs1 q qs2 w2 w3 msgs h d err,
       qs = qs1 ++ q :: qs2 /\ (q_cmd q = 1 \/ q_cmd q = 6) /\ wire_error err /\
       run c (concat (map encode qs1)) w1 = Ret EndClosed w2 /\
       run c (concat (map encode (qs1 ++ [q]))) w1 = Ret EndClosed w3 /\
       sent w2 = sent w ++ msgs /\
       (forall z, answers qs1 (concat msgs ++ z) = Some (h, z)) /\
       history (su_size s) (bad_write c) (disk_of s w) h d /\ base_kept w w2 /\
       sent w3 = sent w2 ++ [simple_reply (q_cookie q) err []]).
Proof. exact cow_plain_session. Qed.
Print Assumptions C08_cow_pages_are_exact.

(** two pages; a write across the page boundary, then one read per page, and a
    read over a page never written followed by one that was *)
Definition cow_qs : list wreq :=
  [req_write 12286 [1;2;3;4]; req_read 8190 4; req_read 12285 3; req_read 12288 3; req_read 4095 2;
   req_write 12289 [9]; req_read 12287 1; req_read 12288 3].

Example C08_hypotheses_met :
  setupexport 4 0 [mkMem true true 16384] = SetupOk (cow_setup 4 16384) /\ cow_flags 4 /\
  no_empty_member 4 [mkMem true true 16384] /\
  backed 4 [mkMem true true 16384] (cow_setup 4 16384) (cow_world 16384 some_short) /\
  sizes_ok (cow_world 16384 some_short) /\ no_eof (w_orc (cow_world 16384 some_short)) /\
  (exists w1, copyonwrite_prepare (cow_client 4 16384 false) (cow_world 16384 some_short) = Ret true w1) /\
  Forall wreq_ok cow_qs /\
  cow_fine 16384 false false [req_write 12286 [1;2;3;4]] (req_read 8190 4).
Proof.
  split; [vm_compute; reflexivity|]. split; [repeat split|]. split.
  { intros _ n z. unfold detected. cbn. destruct n as [|n]; cbn; [|destruct n; discriminate].
    intros E; injection E as <-; lia. }
  split.
  { unfold backed. cbn. intros n z. unfold detected. cbn. destruct n as [|n]; cbn; [|destruct n; discriminate].
    intros E; injection E as <-; reflexivity. }
  split; [apply demo_sizes; intros f [<-|[]]; cbn; lia|].
  split. { intros n k. cbn. unfold some_short. destruct (n mod 3 =? 0)%nat; intros E; [injection E as <-; lia|discriminate]. }
  split; [eexists; reflexivity|].
  split; [repeat constructor; try ok_req|].
  intros _. split; [|split; [discriminate|vm_compute; discriminate]].
  intros _. split; [reflexivity|]. split; [|discriminate].
  change (q_from (req_read 8190 4) / 4096) with 1.
  change ((q_from (req_read 8190 4) + q_len (req_read 8190 4) - 1) / 4096) with 2.
  intros p Hp b [<-|[]] [_ Hw]. change (q_from (req_write 12286 [1;2;3;4]) / 4096) with 2 in Hw. lia.
Qed.

Example C08_demo :
  match cow_run (cow_client 4 16384 false) (stream cow_qs) (cow_world 16384 all_full) with
  | Ret EndClosed w1 => option_map (fun r => (map snd (fst r), snd r)) (answers cow_qs (concat (sent w1))) =
     Some ([Ok []; Ok [98; 99; 100; 101]; Ok [97; 1; 2]; Ok [3; 4; 102]; Ok [99; 100]; Ok []; Ok [2]; Ok [3; 9; 102]], [])
  | _ => False
  end.
Proof. vm_compute. reflexivity. Qed.

(** ** C07: read back what was written, any length (refuted) *)

(** On a two-page export, after an acknowledged one-byte write at 4094, a READ
    of four bytes at 4094 is answered successfully with the old byte at 4094
    and two bytes of uninitialised heap memory. *)
Theorem C07_read_back_refuted :
  exists s w qs, setupexport 4 0 [mkMem true true 8192] = SetupOk s /\
    backed 4 [mkMem true true 8192] s w /\ Forall wreq_ok qs /\
    qs = [req_write 4094 [7]; req_read 4094 4] /\
    exists w1, cow_run (client_of s 4 false false) (stream qs) w = Ret EndClosed w1 /\
      answers qs (concat (sent w1)) =
        Some ([(req_write 4094 [7], Ok []);
               (req_read 4094 4, Ok [disk_of s w 4094; disk_of s w 4095; w_heap w 0; w_heap w 0])], []) /\
      disk_of s w 4094 <> 7 /\ w_heap w 0 <> disk_of s w 4096.
Proof.
  exists (cow_setup 4 8192), (cow_world 8192 all_full), [req_write 4094 [7]; req_read 4094 4].
  split; [vm_compute; reflexivity|]. split.
  { unfold backed. cbn. intros n z. unfold detected. cbn. destruct n as [|n]; cbn; [|destruct n; discriminate].
    intros E; injection E as <-; reflexivity. }
  split; [repeat constructor; ok_req|]. split; [reflexivity|].
  apply run_check. vm_compute. repeat split; discriminate.
Qed.
Print Assumptions C07_read_back_refuted.

(** ** C09: sparse_cow (refuted) *)

(** Page 1 is written with 7, then page 0 with 8; the READ of page 1 succeeds
    and returns what page 0 holds. *)
Theorem C09_sparse_cow_refuted :
  exists s w qs, setupexport 20 0 [mkMem true true 8192] = SetupOk s /\
    qs = [req_write 4096 [7]; req_write 0 [8]; req_read 4096 1; req_read 0 1] /\ Forall wreq_ok qs /\
    exists w1, cow_run (client_of s 4 false false) (stream qs) w = Ret EndClosed w1 /\
      answers qs (concat (sent w1)) =
        Some (combine qs [Ok []; Ok []; Ok [8]; Ok [7]], []).
Proof.
  exists (cow_setup 20 8192), (cow_world 8192 all_full), [req_write 4096 [7]; req_write 0 [8]; req_read 4096 1; req_read 0 1].
  split; [vm_compute; reflexivity|]. split; [reflexivity|]. split; [repeat constructor; ok_req|].
  apply run_check. vm_compute. repeat split.
Qed.
Print Assumptions C09_sparse_cow_refuted.

(** ** C10: memory safety (refuted) *)

(** Three in-range sessions that end in undefined behaviour: reading the last
    byte of a 4097-byte export (page map has one entry), an empty READ at
    offset 0 (page index (2^64-1)/4096), and, with structured replies, a READ
    over an unwritten page followed by a written one (zero-sized buffer). *)
Theorem C10_memory_safety_refuted :
  (exists s w qs, setupexport 4 0 [mkMem true true 4097] = SetupOk s /\ qs = [req_read 4096 1] /\
     Forall wreq_ok qs /\ Forall (inside 4097) qs /\ cow_run (client_of s 4 false false) (stream qs) w = Ub) /\
  (exists s w qs, setupexport 4 0 [mkMem true true 8192] = SetupOk s /\ qs = [req_read 0 0] /\
     Forall wreq_ok qs /\ Forall (inside 8192) qs /\ cow_run (client_of s 4 false false) (stream qs) w = Ub) /\
  (exists s w qs, setupexport 4 0 [mkMem true true 8192] = SetupOk s /\ qs = [req_write 4096 [7]; req_read 4095 2] /\
     Forall wreq_ok qs /\ Forall (inside 8192) qs /\ cow_run (client_of s 4 true false) (stream qs) w = Ub).
Proof.
  split; [|split].
  - exists (cow_setup 4 4097), (cow_world 4097 all_full), [req_read 4096 1].
    repeat split; repeat constructor; try ok_req; try (vm_compute; reflexivity); vm_compute; discriminate.
  - exists (cow_setup 4 8192), (cow_world 8192 all_full), [req_read 0 0].
    repeat split; repeat constructor; try ok_req; try (vm_compute; reflexivity); vm_compute; discriminate.
  - exists (cow_setup 4 8192), (cow_world 8192 all_full), [req_write 4096 [7]; req_read 4095 2].
    repeat split; repeat constructor; try ok_req; try (vm_compute; reflexivity); vm_compute; discriminate.
Qed.
Print Assumptions C10_memory_safety_refuted.

(** What does hold: every session whose requests are [cow_safe_all] (S_Cow.v),
    on every copy-on-write export, sparse or not, of any size, whatever the
    files hold and whichever system calls fail or are short, ends as its request
    stream says, without undefined behaviour and without an assertion failing. *)
Theorem C10_no_undefined_behaviour_partial :
  forall flags expected ms s w namelen structured tls qs tail e w1,
    setupexport flags expected ms = SetupOk s -> 0 <= su_size s < 9223372036854775808 ->
    flag flags F_TREEFILES = false -> flag flags F_WAIT = false -> flag flags F_COPYONWRITE = true ->
    flag flags F_SPLICE = false ->
    let c := client_of s namelen structured tls in
    copyonwrite_prepare c w = Ret true w1 ->
    Forall wreq_ok qs -> Forall (fun q => q_type q <> 2) qs -> stops tail e ->
    cow_safe_all (su_size s) (bad_write c) structured qs ->
    exists w2, run c (concat (map encode qs) ++ tail) w1 = Ret (model_end e) w2.
Proof. exact cow_no_ub. Qed.
Print Assumptions C10_no_undefined_behaviour_partial.

(** a sparse export with an incomplete last page; reads over written pages, an
    empty read, storage calls that fail *)
Definition safe_qs : list wreq :=
  [req_write 4090 [1;2;3;4;5;6;7;8]; req_read 4090 8; req_read 8192 0; req_read 4000 200; req_write 8000 [1]; req_read 0 8192].

Definition fails_5 (n : nat) : sysres := if (n =? 5)%nat then RErr EIO else RFull.

Example C10_hypotheses_met :
  setupexport 20 0 [mkMem true true 8200] = SetupOk (cow_setup 20 8200) /\
  flag 20 F_SPARSE = true /\ flag 20 F_TREEFILES = false /\ flag 20 F_WAIT = false /\
  flag 20 F_COPYONWRITE = true /\ flag 20 F_SPLICE = false /\
  (exists w1, copyonwrite_prepare (cow_client 20 8200 false) (cow_world 8200 fails_5) = Ret true w1) /\
  Forall wreq_ok safe_qs /\ cow_safe_all 8200 false false safe_qs /\
  ~ cow_fine 8200 false false [req_write 4090 [1;2;3;4;5;6;7;8]] (req_read 4090 8).
Proof.
  split; [vm_compute; reflexivity|]. repeat (split; [vm_compute; reflexivity|]).
  split; [eexists; reflexivity|]. split; [repeat constructor; try ok_req|]. split.
  - intros b q a E. assert (Hin : In q safe_qs) by (rewrite E; apply in_or_app; right; left; reflexivity).
    clear E. intros _. repeat (destruct Hin as [<-|Hin]; [repeat split; try discriminate; vm_compute; intros; intuition discriminate|]).
    destruct Hin.
  - intros H. destruct (H eq_refl) as (H1 & _). destruct (H1 eq_refl) as (_ & H2 & _).
    apply (H2 0 ltac:(vm_compute; split; [discriminate|reflexivity]) _ (or_introl eq_refl)).
    split; [left; reflexivity|vm_compute; split; discriminate].
Qed.

(** ** C11: failed writes (refuted) *)

(** The append to the diff file fails once (call 3: after open, map
    allocation and the read of the base page).  The WRITE of byte 0 is
    answered EIO.  Afterwards the untouched byte 1 cannot be read, and after
    a successful WRITE to page 1 byte 1 reads as byte 4097 of the disk. *)
Theorem C11_failed_write_refuted :
  exists s w qs, setupexport 4 0 [mkMem true true 8192] = SetupOk s /\
    qs = [req_write 0 [9]; req_read 1 1; req_write 4097 [7]; req_read 1 1; req_read 4097 1] /\ Forall wreq_ok qs /\
    w_orc w = (fun n => if (n =? 3)%nat then RErr EIO else RFull) /\
    exists w1, cow_run (client_of s 4 false false) (stream qs) w = Ret EndClosed w1 /\
      answers qs (concat (sent w1)) =
        Some (combine qs [Err 5; Err 5; Ok []; Ok [7]; Err 5], []).
Proof.
  exists (cow_setup 4 8192), (cow_world 8192 (fun n => if (n =? 3)%nat then RErr EIO else RFull)),
    [req_write 0 [9]; req_read 1 1; req_write 4097 [7]; req_read 1 1; req_read 4097 1].
  split; [vm_compute; reflexivity|]. split; [reflexivity|]. split; [repeat constructor; ok_req|].
  split; [reflexivity|]. apply run_check. vm_compute. repeat split.
Qed.
Print Assumptions C11_failed_write_refuted.

(** ** C64: more than 4 GiB of modified pages (refuted) *)

(** The state after pages 0 .. 2^20-1 of an export of 2^20+1 pages were written
    in order: page p is page p of the diff file. *)
Definition big_cow (d : Z -> Z) : world :=
  mkW (fun h => match h with FDiff => mkFile 4294967296 d | FExp 0 => mkFile 4294971392 (fun _ => 0) | _ => demo_empty end)
      (fun _ => false) all_full 0 0 (fun _ => 170) 4294967296
      (fun p => if p <? 1048576 then p else NOPAGE) 1048577 1048576 [].

(** A WRITE of 7 at 4 GiB is acknowledged; reading it back gives the byte at
    offset 0 of the disk, and a second WRITE there changes the byte at 0. *)
Theorem C64_cow_beyond_4GiB_refuted :
  exists w, (forall p, 0 <= p < 1048576 -> w_map w p = p) /\ w_map w 1048576 = NOPAGE /\
    w_mapsz w = 1048577 /\ w_dlen w = 1048576 /\ w_dpos w = 4294967296 /\
    let qs := [req_read 0 1; req_write 4294967296 [7]; req_read 4294967296 1;
               req_write 4294967296 [8]; req_read 0 1] in
    Forall wreq_ok qs /\ Forall (inside 4294971392) qs /\
    exists w1, run (cow_client 4 4294971392 false) (stream qs) w = Ret EndClosed w1 /\
      answers qs (concat (sent w1)) = Some (combine qs [Ok [55]; Ok []; Ok [55]; Ok []; Ok [8]], []).
Proof.
  exists (big_cow (fun i => if i =? 0 then 55 else 1)).
  split. { intros p Hp. cbn [big_cow w_map]. replace (p <? 1048576) with true by lia. reflexivity. }
  split; [reflexivity|]. split; [reflexivity|]. split; [reflexivity|]. split; [reflexivity|].
  intros qs. split; [repeat constructor; ok_req|]. split; [repeat constructor; vm_compute; discriminate|].
  apply run_check. vm_compute. repeat split.
Qed.
Print Assumptions C64_cow_beyond_4GiB_refuted.
