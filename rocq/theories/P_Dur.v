(** Durability: C17, C18, C19.  The crash specification is S_Crash.v. *)
From Verif Require Import Base M_Const M_Disk M_Tree M_Raw M_Setup L_Wp L_Raw S_Wire S_Disk S_Tree S_Crash L_Wire L_Req L_Plain L_Session L_Setup L_PlainS L_Gen L_Frame L_Props L_Tree L_Crash L_Dur L_DurS X_Demo P_Tree.

(** ** C17: FUA and sync writes *)

(** Plain exports.  If no system call failed while the request was handled, a
    WRITE (or WRITE_ZEROES of at most 64 MiB) with FUA, or any write on a sync
    export, that is acknowledged is on disk: at the place of each byte, the new
    byte is the only possibility after a crash at any later point before the
    byte is modified again ([ext]: what happened since).  Partial: see the
    refuted theorem below for failing syncs; longer WRITE_ZEROES are C16. *)
Theorem C17_plain_fua_write_is_durable_partial :
  forall flags expected ms s w0 namelen structured tls init q p w w1,
    opened flags expected ms s w0 ->
    let c := client_of s namelen structured tls in
    wreq_ok q -> payload_ok q p ->
    q_cmd q = 1 \/ (q_cmd q = 6 /\ q_len q <= 67108864) ->
    cflag c F_SYNC = true \/ Z.odd (q_flags q) = true ->
    handle_request c (mreq q) p w = Ret tt w1 -> acked q w1 -> clean w w1 ->
    forall i, 0 <= i < q_len q ->
      exists n o, place (sizes_of (nfiles s) w0) (q_from q + i) = Some (n, o) /\
        forall ext, Forall (leaves (FExp n) o) ext -> durable init (ext ++ w_tr w1) (FExp n) o (new_bytes q i).
Proof.
  intros flags expected ms s w0 namelen structured tls init q p w w1 Hop c Hq Hp Hc Hf E Ha Hcl i Hi.
  destruct (plain_fua_request flags expected ms s w0 namelen structured tls Hop init q p w w1 Hq Hp Hc Hf E Ha Hcl i Hi) as (n & o & H1 & H2).
  exists n, o. split; [exact H1|]. intros ext He. apply durable_later; assumption.
Qed.
Print Assumptions C17_plain_fua_write_is_durable_partial.

Theorem C17_tree_fua_write_is_durable_partial :
  forall c d init q p w w1,
    cflag c F_TREEFILES = true -> cflag c F_COPYONWRITE = false -> cflag c F_WAIT = false -> cflag c F_READONLY = false ->
    tree_ok (c_namelen c) (c_size c) d ->
    wreq_ok q -> payload_ok q p ->
    q_cmd q = 1 \/ (q_cmd q = 6 /\ q_len q <= 67108864) ->
    cflag c F_SYNC = true \/ Z.odd (q_flags q) = true ->
    handle_request c (mreq q) p w = Ret tt w1 -> acked q w1 -> clean w w1 ->
    forall i, 0 <= i < q_len q ->
      let h := FTree (block_path d ((q_from q + i) / 4096)) in let o := (q_from q + i) mod 4096 in
      forall ext, Forall (leaves h o) ext -> durable init (ext ++ w_tr w1) h o (new_bytes q i).
Proof.
  intros c d init q p w w1 H1 H2 H3 H4 H5 Hq Hp Hc Hf E Ha Hcl i Hi h o ext He.
  apply durable_later; [|exact He].
  exact (tree_fua_request c d H1 H2 H3 H4 H5 init q p w w1 Hq Hp Hc Hf E Ha Hcl i Hi).
Qed.
Print Assumptions C17_tree_fua_write_is_durable_partial.

(** a FUA write over the boundary between the two files *)
Definition fua_write : wreq := mkWreq 65537 cookie2 8 4 [1;2;3;4].
Definition fua_payload : payload := PBuf (bytefn [1;2;3;4]).
Definition two_client : client := client_of two_setup 4 false false.

Example C17_hypotheses_met :
  opened 2 0 two two_setup (two_world some_short) /\ wreq_ok fua_write /\ payload_ok fua_write fua_payload /\
  q_cmd fua_write = 1 /\ Z.odd (q_flags fua_write) = true /\
  exists w1, handle_request two_client (mreq fua_write) fua_payload (two_world some_short) = Ret tt w1 /\
    acked fua_write w1 /\ clean (two_world some_short) w1 /\
    map (fun a => after_crash (held (two_world some_short)) (w_tr w1) (fst a) (snd a))
        [(FExp 0, 7); (FExp 0, 8); (FExp 0, 9); (FExp 1, 0); (FExp 1, 1)] = [[107]; [1]; [2]; [3]; [4]].
Proof.
  split; [apply two_opened|]. split; [ok_req|]. split; [intros _; left; reflexivity|].
  split; [reflexivity|]. split; [reflexivity|].
  destruct (run_check (handle_request two_client (mreq fua_write) fua_payload (two_world some_short)) tt
    (fun w1 => sent w1 = [] ++ [ok_reply fua_write] /\
      map (fun a => after_crash (held (two_world some_short)) (w_tr w1) (fst a) (snd a))
        [(FExp 0, 7); (FExp 0, 8); (FExp 0, 9); (FExp 1, 0); (FExp 1, 1)] = [[107]; [1]; [2]; [3]; [4]])) as (w1 & E & A & C).
  { vm_compute. repeat split. }
  exists w1. split; [exact E|]. split; [eexists; exact A|]. split; [|exact C].
  intros n e _. cbn. unfold some_short. destruct (n mod 3 =? 0)%nat; discriminate.
Qed.

(** the sync fails: the write is acknowledged all the same, and the old bytes
    may come back after a crash *)
Definition sync_fails : nat -> sysres := fun n => match n with 1%nat => RErr 5 | _ => RFull end.
Definition one_setup : setup := mkSetup 0 (Some [mkFI (FExp 0) 0]) [true] 10 None.
Definition one_world (orc : nat -> sysres) : world := demo_world [demo_file 10 100] orc.
Definition fua_short : wreq := mkWreq 65537 cookie2 2 2 [1;2].

Theorem C17_failed_sync_is_acknowledged_refuted :
  exists s w q w1, setupexport 0 0 [mkMem true true 10] = SetupOk s /\
    wreq_ok q /\ q_cmd q = 1 /\ Z.odd (q_flags q) = true /\ traced (held w) w /\
    handle_request (client_of s 4 false false) (mreq q) (PBuf (bytefn (q_data q))) w = Ret tt w1 /\
    acked q w1 /\ place [10] (q_from q) = Some (O, q_from q) /\
    In (disk_of s w (q_from q)) (after_crash (held w) (w_tr w1) (FExp 0) (q_from q)) /\
    disk_of s w (q_from q) <> new_bytes q 0.
Proof.
  exists one_setup, (one_world sync_fails), fua_short.
  destruct (run_check (handle_request (client_of one_setup 4 false false) (mreq fua_short) (PBuf (bytefn (q_data fua_short))) (one_world sync_fails)) tt
    (fun w1 => sent w1 = [] ++ [ok_reply fua_short] /\
      after_crash (held (one_world sync_fails)) (w_tr w1) (FExp 0) 2 = [1; 102])) as (w1 & E & A & C).
  { vm_compute. repeat split. }
  exists w1. split; [vm_compute; reflexivity|]. split; [ok_req|]. split; [reflexivity|]. split; [reflexivity|].
  split; [intros h i _; reflexivity|]. split; [exact E|]. split; [eexists; exact A|]. split; [reflexivity|].
  split; [|vm_compute; discriminate].
  change (q_from fua_short) with 2. rewrite C. change (disk_of one_setup (one_world sync_fails) 2) with 102.
  right. left. reflexivity.
Qed.
Print Assumptions C17_failed_sync_is_acknowledged_refuted.

(** ** C18: FLUSH *)

(** Any export, any state: the answer to a FLUSH is one simple reply; it is
    success only if every file of the export is on disk as it is now, and an
    error from the protocol's list otherwise; a FLUSH changes no data. *)
Theorem C18_flush_answer :
  forall c q p w w1 init, wreq_ok q -> q_cmd q = 3 -> known_flags q ->
    handle_request c (mreq q) p w = Ret tt w1 ->
    exists e, sent w1 = sent w ++ [simple_reply (q_cookie q) e []] /\ w_file w1 = w_file w /\ w_exists w1 = w_exists w /\
      (forall h i, now init (w_tr w1) h i = now init (w_tr w) h i) /\
      (e = 0 -> forall h i, flushed c h -> durable init (w_tr w1) h i (now init (w_tr w) h i)) /\
      (e <> 0 -> wire_error e).
Proof. exact flush_durable. Qed.
Print Assumptions C18_flush_answer.

(** Plain exports: a session (starting in a state [init] describes) whose last
    request is a FLUSH answered with success leaves the whole disk, as the
    client sees it, on disk: a crash at any later point cannot bring back
    anything else at a byte not modified since. *)
Theorem C18_plain_flush_is_durable :
  forall flags expected ms s w0 namelen structured tls,
    opened flags expected ms s w0 ->
    let c := client_of s namelen structured tls in
    no_splice_tls c -> forall init, traced init w0 -> forall qs q w1 e,
    Forall wreq_ok (qs ++ [q]) -> Forall (fun q => q_type q <> 2) (qs ++ [q]) -> q_cmd q = 3 ->
    run c (concat (map encode (qs ++ [q]))) w0 = Ret e w1 -> acked q w1 ->
    forall i, 0 <= i < su_size s -> exists n o, place (sizes_of (nfiles s) w0) i = Some (n, o) /\
      forall ext, Forall (leaves (FExp n) o) ext -> durable init (ext ++ w_tr w1) (FExp n) o (disk_of s w1 i).
Proof. exact plain_flush_run. Qed.
Print Assumptions C18_plain_flush_is_durable.

(** Tree exports (writable) *)
Theorem C18_tree_flush_is_durable :
  forall c d init w0, cflag c F_TREEFILES = true -> cflag c F_COPYONWRITE = false -> cflag c F_WAIT = false ->
    cflag c F_READONLY = false -> c_export c = None -> traced init w0 -> forall qs q w1 e,
    Forall wreq_ok (qs ++ [q]) -> Forall (fun q => q_type q <> 2) (qs ++ [q]) -> q_cmd q = 3 ->
    run c (concat (map encode (qs ++ [q]))) w0 = Ret e w1 -> acked q w1 ->
    forall i, 0 <= i < c_size c ->
      let h := FTree (block_path d (i / 4096)) in let o := i mod 4096 in
      forall ext, Forall (leaves h o) ext -> durable init (ext ++ w_tr w1) h o (tview (c_size c) d w1 i).
Proof.
  intros c d init w0 Ht Hcow Hw Hro Hex Htr qs q w1 e Hok Hnd Hc Hr Ha i Hi h o ext Hext.
  apply durable_later; [|exact Hext].
  replace (tview (c_size c) d w1 i) with (held w1 h o).
  - apply (flush_run c qs q w0 w1 e init); auto; [|discriminate|].
    + intros fis fi E. rewrite Hex in E. discriminate.
    + unfold flushed. rewrite Hcow, Hw, Ht. exact Hro.
  - unfold tview, block, held, h, o. replace ((0 <=? i) && (i / 4096 * 4096 <? c_size c)) with true by lia. reflexivity.
Qed.
Print Assumptions C18_tree_flush_is_durable.

(** Copy-on-write exports: the diff file *)
Theorem C18_cow_flush_is_durable :
  forall c init w0, cflag c F_COPYONWRITE = true -> exp_handles c -> traced init w0 -> forall qs q w1 e,
    Forall wreq_ok (qs ++ [q]) -> Forall (fun q => q_type q <> 2) (qs ++ [q]) -> q_cmd q = 3 ->
    run c (concat (map encode (qs ++ [q]))) w0 = Ret e w1 -> acked q w1 ->
    forall i ext, Forall (leaves FDiff i) ext -> durable init (ext ++ w_tr w1) FDiff i (frd (w_file w1 FDiff) i).
Proof.
  intros c init w0 Hcow Hex Htr qs q w1 e Hok Hnd Hc Hr Ha i ext Hext.
  apply durable_later; [|exact Hext]. change (frd (w_file w1 FDiff) i) with (held w1 FDiff i).
  apply (flush_run c qs q w0 w1 e init); auto; [discriminate|].
  unfold flushed. rewrite Hcow. reflexivity.
Qed.
Print Assumptions C18_cow_flush_is_durable.

Definition flush_qs : list wreq := [req_write 8 [1;2;3;4]; req 6 12 2].
Definition flush : wreq := req 3 0 0.
(** not durable before the FLUSH, durable after it *)
Example C18_demo :
  opened 2 0 two two_setup (two_world some_short) /\ no_splice_tls two_client /\
  traced (held (two_world some_short)) (two_world some_short) /\
  Forall wreq_ok (flush_qs ++ [flush]) /\ Forall (fun q => q_type q <> 2) (flush_qs ++ [flush]) /\ q_cmd flush = 3 /\
  (exists w1, run two_client (concat (map encode flush_qs)) (two_world some_short) = Ret EndClosed w1 /\
     map (fun a => after_crash (held (two_world some_short)) (w_tr w1) (fst a) (snd a))
        [(FExp 0, 9); (FExp 1, 1); (FExp 1, 2)] = [[2; 109]; [4; 201]; [0; 202]]) /\
  (exists w1, run two_client (concat (map encode (flush_qs ++ [flush]))) (two_world some_short) = Ret EndClosed w1 /\
     acked flush w1 /\
     map (fun a => after_crash (held (two_world some_short)) (w_tr w1) (fst a) (snd a))
        [(FExp 0, 9); (FExp 1, 1); (FExp 1, 2)] = [[2]; [4]; [0]]).
Proof.
  split; [apply two_opened|]. split; [left; reflexivity|]. split; [intros h i _; reflexivity|].
  split; [repeat constructor; try ok_req|]. split; [repeat constructor; discriminate|]. split; [reflexivity|].
  split; [apply run_check; vm_compute; repeat split|].
  destruct (run_check (run two_client (concat (map encode (flush_qs ++ [flush]))) (two_world some_short)) EndClosed
    (fun w1 => sent w1 = firstn 2 (sent w1) ++ [ok_reply flush] /\
      map (fun a => after_crash (held (two_world some_short)) (w_tr w1) (fst a) (snd a))
        [(FExp 0, 9); (FExp 1, 1); (FExp 1, 2)] = [[2]; [4]; [0]])) as (w1 & E & A & C).
  { vm_compute. repeat split. }
  exists w1. split; [exact E|]. split; [eexists; exact A|exact C].
Qed.

(** a failing fsync of the second file is reported *)
Example C18_failure_demo :
  exists w1, handle_request two_client (mreq flush) PNone (two_world sync_fails) = Ret tt w1 /\
    sent w1 = [simple_reply cookie1 5 []].
Proof. apply run_check. vm_compute. repeat split. Qed.

(** ** C19: waitfile exports after the switch (refuted) *)

(** The file has appeared (export opened by the waiting thread), a WRITE is
    acknowledged and goes to the file, then a FLUSH is acknowledged: only the
    diff file was synced, the old byte may still come back. *)
Definition wait_client : client := mkC F_WAIT 10 (Some [mkFI (FExp 0) 0]) 4 false false.
Theorem C19_flush_after_switch_refuted :
  exists c w qs w1, cflag c F_WAIT = true /\ c_export c = Some [mkFI (FExp 0) 0] /\
    traced (held w) w /\ Forall wreq_ok qs /\ qs = [req_write 2 [7]; flush] /\
    run c (concat (map encode qs)) w = Ret EndClosed w1 /\
    answers qs (concat (sent w1)) = Some ([(req_write 2 [7], Ok []); (flush, Ok [])], []) /\
    frd (w_file w1 (FExp 0)) 2 = 7 /\
    In (frd (w_file w (FExp 0)) 2) (after_crash (held w) (w_tr w1) (FExp 0) 2) /\
    frd (w_file w (FExp 0)) 2 <> 7.
Proof.
  exists wait_client, (one_world all_full), [req_write 2 [7]; flush].
  destruct (run_check (run wait_client (concat (map encode [req_write 2 [7]; flush])) (one_world all_full)) EndClosed
    (fun w1 => answers [req_write 2 [7]; flush] (concat (sent w1)) = Some ([(req_write 2 [7], Ok []); (flush, Ok [])], []) /\
      frd (w_file w1 (FExp 0)) 2 = 7 /\
      after_crash (held (one_world all_full)) (w_tr w1) (FExp 0) 2 = [7; 102])) as (w1 & E & A & B & C).
  { vm_compute. repeat split. }
  exists w1. split; [reflexivity|]. split; [reflexivity|]. split; [intros h i _; reflexivity|].
  split; [repeat constructor; ok_req|]. split; [reflexivity|]. split; [exact E|]. split; [exact A|]. split; [exact B|].
  split; [|vm_compute; discriminate]. rewrite C. right. left. reflexivity.
Qed.
Print Assumptions C19_flush_after_switch_refuted.
