(** Properties of exports made of plain files: C01-C06, C14-C16, C20, C22,
    C24-C28. *)
From Verif Require Import Base M_Const M_Disk M_Tree M_Raw M_Setup L_Wp L_Raw S_Wire S_Disk L_Wire L_Req L_Plain L_Session L_Setup L_PlainS L_Gen L_Frame L_Props X_Demo.

(** ** C01: a plain export is a flat disk *)

(** For every export setupexport accepts, every list of requests followed by
    any way a stream can stop, and every oracle (in [w]): the server ends
    normally, what it sends is one answer per request in order, and those
    answers form a history of the flat disk made of the files laid end to
    end.  File sizes and everything else on disk stay as they were. *)
Theorem C01_plain_export_is_a_flat_disk :
  forall flags expected ms s w namelen structured tls qs tail e,
    opened flags expected ms s w ->
    let c := client_of s namelen structured tls in
    no_splice_tls c ->
    Forall wreq_ok qs -> Forall (fun q => q_type q <> 2) qs -> stops tail e ->
    exists w1 msgs h,
      (0 < nfiles s)%nat /\ su_size s <= total (files_of (nfiles s) w) /\
      (expected = 0 -> su_size s = total (files_of (nfiles s) w)) /\
      (expected <> 0 -> su_size s = expected) /\
      run c (concat (map encode qs) ++ tail) w = Ret (model_end e) w1 /\
      sent w1 = sent w ++ msgs /\
      (forall z, answers qs (concat msgs ++ z) = Some (h, z)) /\
      history (su_size s) (bad_write c) (disk_of s w) h (disk_of s w1) /\
      (forall n, fsize (w_file w1 (FExp n)) = fsize (w_file w (FExp n))) /\
      (forall f, (forall n, (n < nfiles s)%nat -> f <> FExp n) -> w_file w1 f = w_file w f) /\
      (forall p, w_exists w1 p = w_exists w p).
Proof.
  intros flags expected ms s w namelen structured tls qs tail e (H1 & H2 & H3 & H4 & H5 & H6) c Hst.
  exact (plain_session flags expected ms s w namelen structured tls H1 H2 H3 H4 H5 H6 Hst qs tail e).
Qed.
Print Assumptions C01_plain_export_is_a_flat_disk.

(** every byte stream is of that form *)
Theorem C01_every_stream_is_requests_then_a_stop :
  forall inp, Forall is_byte inp ->
    exists qs tail e, inp = concat (map encode qs) ++ tail /\
      Forall wreq_ok qs /\ Forall (fun q => q_type q <> 2) qs /\ stops tail e.
Proof. exact stream_decompose. Qed.
Print Assumptions C01_every_stream_is_requests_then_a_stop.

Definition demo_qs : list wreq :=
  [req_read 8 6; req_write 8 [1;2;3;4]; req_read 7 6; req 6 12 2; req 3 0 0; req_read 0 16; req_read 15 2].
Definition demo_tail : list Z := encode (req 2 0 0) ++ [7; 7].

Example C01_hypotheses_met :
  opened 2 0 two two_setup (two_world some_short) /\
  no_splice_tls (client_of two_setup 4 false false) /\
  Forall wreq_ok demo_qs /\ Forall (fun q => q_type q <> 2) demo_qs /\ stops demo_tail (StopDisc [7; 7]).
Proof.
  split; [apply two_opened|]. split; [left; reflexivity|].
  split; [repeat constructor; try ok_req|]. split; [repeat constructor; discriminate|].
  apply stop_disc; [ok_req|reflexivity].
Qed.

(** the same session, computed: short transfers everywhere, a write across the
    file boundary, the last read outside the export *)
Example C01_demo_session :
  match run (client_of two_setup 4 false false) (concat (map encode demo_qs) ++ demo_tail) (two_world some_short) with
  | Ret (EndDisc [7; 7]) w1 =>
      match answers demo_qs (concat (sent w1)) with
      | Some (h, []) => map snd h =
          [Ok [108; 109; 200; 201; 202; 203]; Ok []; Ok [107; 1; 2; 3; 4; 202]; Ok []; Ok [];
           Ok [100;101;102;103;104;105;106;107;1;2;3;4;0;0;204;205]; Err 22]
      | _ => False
      end
  | _ => False
  end.
Proof. vm_compute. reflexivity. Qed.

(** ** C02: placement of offsets *)
Theorem C02_offsets_map_to_one_place :
  forall flags expected ms s w namelen structured tls a,
    opened flags expected ms s w -> 0 <= a < su_size s ->
    exists n o mb,
      get_filepos (client_of s namelen structured tls) a w = Ret (Some (FExp n, o, mb)) w /\
      place (sizes_of (nfiles s) w) a = Some (n, o) /\ (n < nfiles s)%nat /\
      su_size s <= total (files_of (nfiles s) w) /\
      (forall len, 0 < len -> a + len <= su_size s ->
         0 < clamp mb len <= len /\ o + clamp mb len <= fsize (w_file w (FExp n))).
Proof.
  intros flags expected ms s w namelen structured tls a (H1 & H2 & H3 & H4 & H5 & H6).
  exact (place_offset flags expected ms s w namelen structured tls H1 H2 H3 H4 H5 H6 a).
Qed.
Print Assumptions C02_offsets_map_to_one_place.

(** distinct offsets never share a backing byte *)
Theorem C02_places_are_distinct :
  forall sizes a b r, place sizes a = Some r -> place sizes b = Some r -> a = b.
Proof. exact place_inj. Qed.
Print Assumptions C02_places_are_distinct.

Example C02_demo :
  opened 2 0 two two_setup (two_world all_full) /\ 0 <= 12 < su_size two_setup /\
  match get_filepos (client_of two_setup 4 false false) 12 (two_world all_full) with
  | Ret r _ => r = Some (FExp 1, 2, 0) | _ => False end /\
  place [10; 6] 12 = Some (1%nat, 2) /\
  match get_filepos (client_of two_setup 4 false false) 7 (two_world all_full) with
  | Ret r _ => r = Some (FExp 0, 7, 3) | _ => False end /\ clamp 3 8 = 3.
Proof. split; [apply two_opened|]. split; [cbn; lia|]. repeat split. Qed.

(** ** C03: empty member files (refuted) *)
Definition with_empty : list member := [mkMem true true 10; mkMem true true 0; mkMem true true 10].
Definition with_empty_setup : setup :=
  mkSetup 2 (Some [mkFI (FExp 0) 0; mkFI (FExp 1) 10; mkFI (FExp 2) 10]) [true; true; true] 20 None.
Definition with_empty_world : world := demo_world [demo_file 10 100; demo_empty; demo_file 10 200] all_full.

(** Files of 10, 0 and 10 bytes make an export of 20 bytes, but a READ of one
    byte at offset 10 fails, and a WRITE there is acknowledged although it goes
    to the empty file: the byte of the 20-byte disk does not change. *)
Theorem C03_empty_member_refuted :
  exists ms s w, setupexport 2 0 ms = SetupOk s /\ backed 2 ms s w /\ su_size s = 20 /\
    total (files_of 3 w) = 20 /\
    (exists w1, run (client_of s 4 false false) (encode (req_read 10 1)) w = Ret EndClosed w1 /\
       answers [req_read 10 1] (concat (sent w1)) = Some ([(req_read 10 1, Err 22)], [])) /\
    (exists w1, run (client_of s 4 false false) (encode (req_write 10 [7])) w = Ret EndClosed w1 /\
       answers [req_write 10 [7]] (concat (sent w1)) = Some ([(req_write 10 [7], Ok [])], []) /\
       fsize (w_file w1 (FExp 1)) = 1 /\ joined (files_of 3 w) 10 = 200 /\
       frd (w_file w1 (FExp 2)) 0 = 200).
Proof.
  exists with_empty, with_empty_setup, with_empty_world.
  split; [vm_compute; reflexivity|]. split.
  { unfold backed. cbn. intros n z. unfold detected. cbn.
    destruct n as [|[|[|n]]]; cbn; [| | |destruct n; cbn; discriminate]; intros E; injection E as <-; reflexivity. }
  split; [reflexivity|]. split; [reflexivity|].
  split; eexists; repeat split; vm_compute; reflexivity.
Qed.
Print Assumptions C03_empty_member_refuted.

(** ** C04: refused requests *)
(** the answer is exactly the error reply and nothing else happens, for every
    kind of export *)
Theorem C04_refused_without_side_effects :
  forall c q p w e, wreq_ok q -> 0 <= c_size c <= 9223372036854775807 ->
    refusal (c_size c) (bad_write c) q = Some e ->
    handle_request c (mreq q) p w = Ret tt (emit (ESend (error_reply q e)) w).
Proof. exact refused_request. Qed.
Print Assumptions C04_refused_without_side_effects.

(** everything else reaches the code that carries it out *)
Theorem C04_valid_requests_are_not_refused :
  forall c q p w, wreq_ok q -> 0 <= c_size c <= 9223372036854775807 ->
    refusal (c_size c) (bad_write c) q = None ->
    handle_request c (mreq q) p w =
      (if q_cmd q =? 0 then handle_read c (mreq q)
       else if q_cmd q =? 1 then handle_write c (mreq q) p
       else if q_cmd q =? 3 then handle_flush c (mreq q)
       else if q_cmd q =? 4 then handle_trim c (mreq q)
       else handle_write_zeroes c (mreq q)) w.
Proof. exact accepted_request. Qed.
Print Assumptions C04_valid_requests_are_not_refused.

(** a request wrapping around 2^64 *)
Example C04_demo :
  let c := client_of two_setup 4 false false in
  let q := mkWreq 4 cookie1 18446744073709551615 17 [] in
  wreq_ok q /\ 0 <= c_size c <= 9223372036854775807 /\ refusal (c_size c) (bad_write c) q = Some 22 /\
  refusal (c_size c) (bad_write c) (req_write 16 [1]) = Some 28 /\
  refusal (c_size c) (bad_write c) (req_write 15 [1]) = None.
Proof. split; [ok_req|]. repeat split; vm_compute; discriminate. Qed.

(** ** C05: read-only exports *)
Theorem C05_readonly_never_modified :
  forall c inp w,
    bad_write c = true -> (cflag c F_READONLY = true \/ cflag c F_TREEFILES = false) ->
    Forall is_byte inp ->
    wlp (run c inp) (fun _ w' => untouched w w') (fun w' => untouched w w') w.
Proof. exact readonly_run. Qed.
Print Assumptions C05_readonly_never_modified.

(** exports that end up read-only *)
Theorem C05_configured_or_demoted :
  forall flags expected ms s namelen structured tls, setupexport flags expected ms = SetupOk s ->
    flag flags F_READONLY = true \/ (flag flags F_COPYONWRITE = false /\ In false (su_rw s)) ->
    let c := client_of s namelen structured tls in
    bad_write c = true /\ cflag c F_READONLY = true.
Proof.
  intros flags expected ms s namelen structured tls Hs H c.
  assert (Hr : cflag c F_READONLY = true).
  { unfold c, cflag, client_of. cbn. destruct H as [H|[H1 H2]]; [eapply setup_ro; eauto|eapply setup_demoted; eauto]. }
  split; [unfold bad_write; rewrite Hr; reflexivity|exact Hr].
Qed.
Print Assumptions C05_configured_or_demoted.

Theorem C05_modifications_answered_eperm :
  forall c q p w, wreq_ok q -> 0 <= c_size c <= 9223372036854775807 -> bad_write c = true ->
    known_flags q -> (q_cmd q = 1 \/ q_cmd q = 4 \/ q_cmd q = 6) ->
    handle_request c (mreq q) p w = Ret tt (emit (ESend (error_reply q 1)) w).
Proof.
  intros c q p w Hq Hsz Hb Hk Hc. apply refused_request; auto.
  unfold refusal, known_flags in *. rewrite Hb. replace (4 <=? q_flags q) with false by lia.
  destruct Hc as [-> | [-> | ->]]; reflexivity.
Qed.
Print Assumptions C05_modifications_answered_eperm.

(** a file that could only be opened for reading *)
Definition ro_members : list member := [mkMem true true 10; mkMem false true 6].
Example C05_demo :
  match setupexport 2 0 ro_members with
  | SetupOk s =>
      In false (su_rw s) /\ bad_write (client_of s 4 false false) = true /\
      match run (client_of s 4 false false) (encode (req_write 3 [1;2]) ++ encode (req 4 0 8) ++ encode (req_read 2 3))
                (two_world all_full) with
      | Ret EndClosed w1 =>
          match answers [req_write 3 [1;2]; req 4 0 8; req_read 2 3] (concat (sent w1)) with
          | Some (h, []) => map snd h = [Err 1; Err 1; Ok [102; 103; 104]]
          | _ => False
          end
      | _ => False
      end
  | _ => False
  end.
Proof. vm_compute. repeat split; auto. Qed.

(** ** C06: copy-on-write leaves the base alone *)
Theorem C06_base_image_untouched :
  forall c inp w,
    cflag c F_COPYONWRITE = true -> cflag c F_SPLICE = false -> cflag c F_TREEFILES = false ->
    Forall is_byte inp ->
    wlp (run c inp) (fun _ w' => base_untouched w w') (fun w' => base_untouched w w') w.
Proof. exact cow_run. Qed.
Print Assumptions C06_base_image_untouched.

Definition cow_client (structured : bool) : client :=
  mkC F_COPYONWRITE 16384 (Some [mkFI (FExp 0) 0]) 4 structured false.
Definition cow_world (orc : nat -> sysres) : world := demo_cow [demo_file 16384 0] orc 4.
Example C06_demo :
  cflag (cow_client false) F_COPYONWRITE = true /\ cflag (cow_client false) F_SPLICE = false /\
  match run (cow_client false) (encode (req_write 4090 (slice (fun _ => 77) 0 12)) ++ encode (req_read 4089 7))
            (cow_world all_full) with
  | Ret EndClosed w1 =>
      fsize (w_file w1 FDiff) = 8192 /\ frd (w_file w1 (FExp 0)) 4095 = 255 /\
      frd (w_file w1 FDiff) 4095 = 77 /\ frd (w_file w1 FDiff) 4089 = 249 /\ w_map w1 1 = 1
  | _ => False
  end.
Proof. vm_compute. repeat split. Qed.

(** ** C14: TRIM stays inside its range (plain exports) *)
Theorem C14_trim_touches_only_its_range :
  forall flags expected ms s w namelen structured tls q,
    opened flags expected ms s w -> wreq_ok q -> q_cmd q = 4 ->
    let c := client_of s namelen structured tls in
    exists w1, handle_request c (mreq q) PNone w = Ret tt w1 /\
      touched (disk_of s w) (disk_of s w1) (q_from q) (q_len q) zeroes.
Proof.
  intros flags expected ms s w namelen structured tls q Ho Hq Hc c.
  destruct (opened_request flags expected ms s w namelen structured tls Ho q PNone Hq) as (w1 & msgs & ans & H1 & H2 & H3 & H4 & H5).
  { intros E. rewrite Hc in E. discriminate. }
  exists w1. split; [exact H1|].
  assert (U : unchanged (disk_of s w) (disk_of s w1) -> touched (disk_of s w) (disk_of s w1) (q_from q) (q_len q) zeroes).
  { intros U i. rewrite U. auto. }
  destruct H4 as [Hn Hk]. destruct (Z_lt_dec (q_flags q) 4) as [K|K]; [|apply U, Hn; exact K].
  destruct (Hk K) as (_ & _ & _ & H6 & _). destruct (H6 Hc) as (a1 & a2 & a3).
  fold c in a1, a2, a3. destruct (bad_write c); [apply U, a1; reflexivity|].
  destruct (Z_le_dec (q_from q + q_len q) (su_size s)) as [i|i]; [apply (a3 eq_refl i)|apply U, (a2 eq_refl i)].
Qed.
Print Assumptions C14_trim_touches_only_its_range.

Example C14_demo :
  opened 2 0 two two_setup (two_world all_full) /\ wreq_ok (req 4 2 4) /\
  match handle_request (client_of two_setup 4 false false) (mreq (req 4 2 4)) PNone (two_world all_full) with
  | Ret _ w1 => slice (disk_of two_setup w1) 0 16 = [100;101;0;0;0;0;106;107;108;109;200;201;202;203;204;205]
  | _ => False
  end.
Proof. split; [apply two_opened|]. split; [ok_req|]. vm_compute. reflexivity. Qed.

(** ** C15: TRIM discards what it was asked to (refuted) *)
(** a single file; the exact range that gets discarded when the kernel
    cooperates: nothing beyond [size - from], counted from [from] *)
Theorem C15_single_file_exact :
  forall c h q w, cflag c F_READONLY = false -> cflag c F_COPYONWRITE = false -> cflag c F_TREEFILES = false ->
    c_export c = Some [mkFI h 0] -> 0 <= c_size c <= 9223372036854775807 ->
    wreq_ok q -> inside (c_size c) q -> (forall n e, w_orc w n <> RErr e) ->
    exists w1, exptrim c (mreq q) w = Ret tt w1 /\
      (forall h', h' <> h -> w_file w1 h' = w_file w h') /\ fsize (w_file w1 h) = fsize (w_file w h) /\
      forall i, fdata (w_file w1 h) i =
        if (q_from q <=? i) && (i <? q_from q + Z.min (q_len q) (c_size c - 2 * q_from q))
        then 0 else fdata (w_file w h) i.
Proof. exact trim_single. Qed.
Print Assumptions C15_single_file_exact.

(** the range is discarded completely as long as it ends early enough *)
Theorem C15_trim_partial :
  forall c h q w, cflag c F_READONLY = false -> cflag c F_COPYONWRITE = false -> cflag c F_TREEFILES = false ->
    c_export c = Some [mkFI h 0] -> 0 <= c_size c <= 9223372036854775807 ->
    wreq_ok q -> 2 * q_from q + q_len q <= c_size c -> (forall n e, w_orc w n <> RErr e) ->
    exists w1, exptrim c (mreq q) w = Ret tt w1 /\
      forall i, fdata (w_file w1 h) i =
        if (q_from q <=? i) && (i <? q_from q + q_len q) then 0 else fdata (w_file w h) i.
Proof.
  intros c h q w H1 H2 H3 H4 H5 Hq Hin Ho.
  assert (Hin' : inside (c_size c) q) by (unfold inside; destruct Hq as (_ & _ & Hf & _); unfold is_u64 in Hf; lia).
  destruct (trim_single c h q w H1 H2 H3 H4 H5 Hq Hin' Ho) as (w1 & E & _ & _ & D).
  exists w1. split; [exact E|]. intros i. rewrite D.
  replace (Z.min (q_len q) (c_size c - 2 * q_from q)) with (q_len q) by lia. reflexivity.
Qed.
Print Assumptions C15_trim_partial.

Definition one_client (structured : bool) : client :=
  mkC F_TRIM 16 (Some [mkFI (FExp 0) 0]) 4 structured false.
Definition one_world (orc : nat -> sysres) : world := demo_world [demo_file 16 100] orc.
Example C15_demo : wreq_ok (req 4 4 8) /\ 2 * q_from (req 4 4 8) + q_len (req 4 4 8) <= c_size (one_client false) /\
  match exptrim (one_client false) (mreq (req 4 4 8)) (one_world all_full) with
  | Ret _ w1 => slice (fdata (w_file w1 (FExp 0))) 0 16 = [100;101;102;103;0;0;0;0;0;0;0;0;112;113;114;115]
  | _ => False
  end.
Proof. split; [ok_req|]. split; [vm_compute; discriminate|]. vm_compute. reflexivity. Qed.

(** TRIM of the second half of a file discards nothing at all *)
Theorem C15_trim_refuted :
  exists c w q, wreq_ok q /\ inside (c_size c) q /\ c_export c = Some [mkFI (FExp 0) 0] /\
    (forall n, w_orc w n = RFull) /\ fsize (w_file w (FExp 0)) = c_size c /\
    exists w1, handle_request c (mreq q) PNone w = Ret tt w1 /\
      sent w1 = [simple_reply (q_cookie q) 0 []] /\
      slice (fdata (w_file w1 (FExp 0))) 8 8 = [108;109;110;111;112;113;114;115].
Proof.
  exists (one_client false), (one_world all_full), (req 4 8 8).
  split; [ok_req|]. split; [vm_compute; discriminate|]. split; [reflexivity|]. split; [reflexivity|]. split; [reflexivity|].
  apply run_check. vm_compute. repeat split.
Qed.
Print Assumptions C15_trim_refuted.

(** ** C16: WRITE_ZEROES *)
(** up to 64 MiB a successful WRITE_ZEROES zeroes exactly its range *)
Theorem C16_write_zeroes_partial :
  forall flags expected ms s w namelen structured tls q,
    opened flags expected ms s w -> wreq_ok q -> known_flags q -> q_cmd q = 6 ->
    let c := client_of s namelen structured tls in
    bad_write c = false -> inside (su_size s) q ->
    exists w1 msgs ans, handle_request c (mreq q) PNone w = Ret tt w1 /\ sent w1 = sent w ++ msgs /\
      (forall z, read_answer (q_cookie q) (q_from q) 0 (concat msgs ++ z) = Some (ans, z)) /\
      touched (disk_of s w) (disk_of s w1) (q_from q) (q_len q) zeroes /\
      (ans = Ok [] \/ failed ans) /\
      (ans = Ok [] -> q_len q <= 67108864 -> replaced (disk_of s w) (disk_of s w1) (q_from q) (q_len q) zeroes).
Proof.
  intros flags expected ms s w namelen structured tls q Ho Hq Hk Hc c Hb Hin.
  destruct (opened_request flags expected ms s w namelen structured tls Ho q PNone Hq) as (w1 & msgs & ans & H1 & H2 & H3 & H4 & H5).
  { intros E. rewrite Hc in E. discriminate. }
  exists w1, msgs, ans. split; [exact H1|]. split; [exact H2|].
  rewrite Hc in H3. change (6 =? 0) with false in H3. split; [exact H3|].
  destruct H4 as [_ H4]. destruct (H4 Hk) as (_ & _ & _ & _ & H6 & _). destruct (H6 Hc) as (_ & _ & a3).
  fold c in a3. destruct (a3 Hb Hin) as [(-> & T & R)|(F & T)].
  - split; [exact T|]. split; [auto|]. intros _; exact R.
  - split; [exact T|]. split; [auto|]. intros ->. destruct F as (e & _ & E). discriminate.
Qed.
Print Assumptions C16_write_zeroes_partial.

Example C16_demo :
  opened 2 0 two two_setup (two_world some_short) /\ wreq_ok (req 6 7 5) /\ known_flags (req 6 7 5) /\
  bad_write (client_of two_setup 4 false false) = false /\ inside (su_size two_setup) (req 6 7 5) /\
  match handle_request (client_of two_setup 4 false false) (mreq (req 6 7 5)) PNone (two_world some_short) with
  | Ret _ w1 => slice (disk_of two_setup w1) 0 16 = [100;101;102;103;104;105;106;0;0;0;0;0;202;203;204;205]
  | _ => False
  end.
Proof.
  split; [apply two_opened|]. split; [ok_req|]. split; [vm_compute; reflexivity|].
  split; [reflexivity|]. split; [vm_compute; discriminate|]. vm_compute. reflexivity.
Qed.

(** one byte more than 64 MiB: acknowledged, but the last byte keeps its value *)
Theorem C16_write_zeroes_refuted :
  exists c w q, wreq_ok q /\ known_flags q /\ q_cmd q = 6 /\ inside (c_size c) q /\ bad_write c = false /\
    c_export c = Some [mkFI (FExp 0) 0] /\ fsize (w_file w (FExp 0)) = c_size c /\
    q_from q <= 67108864 < q_from q + q_len q /\
    exists w1, handle_request c (mreq q) PNone w = Ret tt w1 /\
      sent w1 = [simple_reply (q_cookie q) 0 []] /\
      frd (w_file w1 (FExp 0)) 67108864 = 9.
Proof.
  exists (mkC 0 67108865 (Some [mkFI (FExp 0) 0]) 4 false false),
         (demo_world [mkFile 67108865 (fun _ => 9)] all_full), (req 6 0 67108865).
  split; [ok_req|]. split; [vm_compute; reflexivity|]. split; [reflexivity|].
  split; [vm_compute; discriminate|]. split; [reflexivity|]. split; [reflexivity|]. split; [reflexivity|].
  split; [vm_compute; split; [discriminate|reflexivity]|].
  apply run_check. vm_compute. repeat split.
Qed.
Print Assumptions C16_write_zeroes_refuted.

(** ** C22: the stream stays in step *)
(** Whatever the requests are, refused or not, and whatever the export: exactly
    these requests are executed, in order, and the rest of the stream decides
    how the session ends. *)
Theorem C22_stream_decoded_exactly :
  forall c qs tail e w, Forall wreq_ok qs -> Forall (fun q => q_type q <> 2) qs -> stops tail e ->
    run c (concat (map encode qs) ++ tail) w = (execute c qs ;;; ret (model_end e)) w.
Proof. exact run_execute. Qed.
Print Assumptions C22_stream_decoded_exactly.

(** A refused WRITE (outside the export) and an unknown command with garbage
    flags, followed by a READ. *)
Example C22_demo :
  let qs := [req_write 100 [1;2;3]; mkWreq 4294901763 cookie1 5 9 []; mkWreq 99 cookie2 0 77 []; req_read 4 2] in
  Forall wreq_ok qs /\ Forall (fun q => q_type q <> 2) qs /\ stops [1;2] StopCut /\
  match run (client_of two_setup 4 false false) (concat (map encode qs) ++ [1;2]) (two_world all_full) with
  | Ret EndClosed w1 =>
      match answers qs (concat (sent w1)) with
      | Some (h, []) => map snd h = [Err 28; Err 22; Err 22; Ok [104; 105]]
      | _ => False
      end
  | _ => False
  end.
Proof.
  split; [repeat constructor; try ok_req|]. split; [repeat constructor; discriminate|].
  split; [constructor; vm_compute; reflexivity|]. vm_compute. reflexivity.
Qed.

(** ** C24: structured reads *)
(** A strict client ([collect]) accepts the chunks: in order, contiguous,
    non-empty, inside the range, cookie on each, one DONE chunk at the end; on
    success they carry exactly the disk's bytes. *)
Theorem C24_structured_read_tiles_the_range :
  forall flags expected ms s w namelen structured tls q,
    opened flags expected ms s w ->
    let c := client_of s namelen structured tls in
    structured = true -> cflag c F_SPLICE = false ->
    wreq_ok q -> known_flags q -> q_cmd q = 0 -> inside (su_size s) q ->
    exists w1 msgs ans, handle_request c (mreq q) PNone w = Ret tt w1 /\
      sent w1 = sent w ++ msgs /\
      (forall m, In m msgs -> firstn 4 m = be 4 0x668e33ef) /\
      (forall z, collect (length (concat msgs ++ z)) (q_cookie q) (q_from q) (q_from q + q_len q) []
                   (concat msgs ++ z) = Some (ans, z)) /\
      (ans = Ok (bytes_at (disk_of s w) (q_from q) (q_len q)) \/ failed ans).
Proof.
  intros flags expected ms s w namelen structured tls q Ho.
  exact (opened_structured_read flags expected ms s w namelen structured tls Ho q).
Qed.
Print Assumptions C24_structured_read_tiles_the_range.

Example C24_demo :
  opened 2 0 two two_setup (two_world some_short) /\
  cflag (client_of two_setup 4 true false) F_SPLICE = false /\
  wreq_ok (req_read 5 9) /\ known_flags (req_read 5 9) /\ inside (su_size two_setup) (req_read 5 9) /\
  match handle_request (client_of two_setup 4 true false) (mreq (req_read 5 9)) PNone (two_world some_short) with
  | Ret _ w1 =>
      length (sent w1) = 4%nat /\
      collect 99 cookie1 5 14 [] (concat (sent w1)) = Some (Ok [105;106;107;108;109;200;201;202;203], [])
  | _ => False
  end.
Proof.
  split; [apply two_opened|]. split; [reflexivity|]. split; [ok_req|]. split; [vm_compute; reflexivity|].
  split; [vm_compute; discriminate|]. vm_compute. split; reflexivity.
Qed.

(** ** C25: simple replies to READ in structured mode (refuted) *)
Theorem C25_no_simple_reply_to_read_refuted :
  exists c w q, c_structured c = true /\ wreq_ok q /\ q_cmd q = 0 /\
    handle_request c (mreq q) PNone w = Ret tt (emit (ESend (be 4 0x67446698 ++ be 4 22 ++ q_cookie q)) w).
Proof.
  exists (client_of two_setup 4 true false), (two_world all_full), (req_read 15 2).
  split; [reflexivity|]. split; [ok_req|]. split; [reflexivity|]. reflexivity.
Qed.
Print Assumptions C25_no_simple_reply_to_read_refuted.

(** also with splice: a successful READ *)
Theorem C25_splice_read_refuted :
  exists c w q, c_structured c = true /\ wreq_ok q /\ q_cmd q = 0 /\ inside (c_size c) q /\
    exists w1, handle_request c (mreq q) PNone w = Ret tt w1 /\
    sent w1 = [be 4 0x67446698 ++ be 4 0 ++ q_cookie q ++ [101; 102]].
Proof.
  exists (mkC F_SPLICE 16 (Some [mkFI (FExp 0) 0]) 4 true false), (one_world all_full), (req_read 1 2).
  split; [reflexivity|]. split; [ok_req|]. split; [reflexivity|]. split; [vm_compute; discriminate|].
  apply run_check. vm_compute. repeat split.
Qed.
Print Assumptions C25_splice_read_refuted.

(** every READ refused before being carried out gets a simple reply, always *)
Theorem C25_refused_reads_always_simple :
  forall c q w e, wreq_ok q -> 0 <= c_size c <= 9223372036854775807 -> q_cmd q = 0 ->
    refusal (c_size c) (bad_write c) q = Some e ->
    handle_request c (mreq q) PNone w = Ret tt (emit (ESend (be 4 0x67446698 ++ be 4 e ++ q_cookie q)) w).
Proof. intros c q w e Hq Hs _ Hr. exact (refused_request c q PNone w e Hq Hs Hr). Qed.
Print Assumptions C25_refused_reads_always_simple.

(** without splice, READs that are carried out get structured chunks only *)
Theorem C25_served_reads_partial :
  forall flags expected ms s w namelen tls q,
    opened flags expected ms s w ->
    let c := client_of s namelen true tls in
    cflag c F_SPLICE = false -> wreq_ok q -> known_flags q -> q_cmd q = 0 -> inside (su_size s) q ->
    exists w1 msgs, handle_request c (mreq q) PNone w = Ret tt w1 /\ sent w1 = sent w ++ msgs /\
      forall m, In m msgs -> firstn 4 m = be 4 0x668e33ef.
Proof.
  intros flags expected ms s w namelen tls q Ho c Hs Hq Hk Hc Hi.
  destruct (opened_structured_read flags expected ms s w namelen true tls Ho q eq_refl Hs Hq Hk Hc Hi)
    as (w1 & msgs & ans & H1 & H2 & H3 & _). eauto.
Qed.
Print Assumptions C25_served_reads_partial.

(** ** C26: structured error chunks (refuted) *)
Theorem C26_error_chunk_refuted :
  exists c w q m k, c_structured c = true /\ wreq_ok q /\ q_cmd q = 0 /\ inside (c_size c) q /\
    parse_chunk m = Some (k, []) /\ k_type k = 32769 /\ error_payload (k_payload k) = None /\
    exists w1, handle_request c (mreq q) PNone w = Ret tt w1 /\ sent w1 = [be 4 0x668e33ef ++ m].
Proof.
  exists (client_of two_setup 4 true false), (two_world (fun _ => RErr EIO)), (req_read 5 2).
  exists (skipn 4 (chunk (q_cookie (req_read 5 2)) 1 32769 18 (be 4 5 ++ [12; 0] ++
                    [82; 101; 97; 100; 32; 102; 97; 105; 108; 101; 100; 0]))).
  eexists. split; [reflexivity|]. split; [ok_req|]. split; [reflexivity|]. split; [vm_compute; discriminate|].
  split; [vm_compute; reflexivity|]. split; [vm_compute; reflexivity|]. split; [vm_compute; reflexivity|].
  apply run_check. vm_compute. repeat split.
Qed.
Print Assumptions C26_error_chunk_refuted.

(** the message never decodes: for any error and any message below 64 KiB whose
    length is not the same in both byte orders *)
Theorem C26_message_length_always_swapped :
  forall e msg, is_u32 e -> zlen msg < 65536 -> zlen msg mod 256 <> zlen msg / 256 ->
    error_payload (be 4 e ++ le16 (zlen msg) ++ msg) = None.
Proof. exact error_payload_swapped. Qed.
Print Assumptions C26_message_length_always_swapped.

(** what remains true: the error code itself decodes (client [collect] reads it
    from the big-endian first field) and is a protocol error *)
Theorem C26_error_code_partial :
  forall flags expected ms s w namelen tls q,
    opened flags expected ms s w ->
    let c := client_of s namelen true tls in
    cflag c F_SPLICE = false -> wreq_ok q -> known_flags q -> q_cmd q = 0 -> inside (su_size s) q ->
    exists w1 msgs ans, handle_request c (mreq q) PNone w = Ret tt w1 /\ sent w1 = sent w ++ msgs /\
      (forall z, collect (length (concat msgs ++ z)) (q_cookie q) (q_from q) (q_from q + q_len q) []
                   (concat msgs ++ z) = Some (ans, z)) /\
      (forall e, ans = Err e -> wire_error e).
Proof.
  intros flags expected ms s w namelen tls q Ho c Hs Hq Hk Hc Hi.
  destruct (opened_structured_read flags expected ms s w namelen true tls Ho q eq_refl Hs Hq Hk Hc Hi)
    as (w1 & msgs & ans & H1 & H2 & H3 & H4 & H5). exists w1, msgs, ans. split; [exact H1|]. split; [exact H2|].
  split; [exact H4|]. intros e ->. destruct H5 as [H5|(e' & W & E)]; [discriminate|congruence].
Qed.
Print Assumptions C26_error_code_partial.

Example C26_demo :
  opened 2 0 two two_setup (two_world (fun n => if (n =? 1)%nat then RErr EIO else RShort 2)) /\
  match handle_request (client_of two_setup 4 true false) (mreq (req_read 5 4)) PNone
          (two_world (fun n => if (n =? 1)%nat then RErr EIO else RShort 2)) with
  | Ret _ w1 => collect 99 cookie1 5 9 [] (concat (sent w1)) = Some (Err 5, [])
  | _ => False
  end.
Proof. split; [apply two_opened|]. vm_compute. reflexivity. Qed.

(** ** C27: the don't-fragment flag *)
(** (what is advertised: see P_Neg.v) *)
Theorem C27_df_reads_always_refused :
  forall c q w, wreq_ok q -> 0 <= c_size c <= 9223372036854775807 -> 4 <= q_flags q ->
    handle_request c (mreq q) PNone w = Ret tt (emit (ESend (be 4 0x67446698 ++ be 4 22 ++ q_cookie q)) w).
Proof.
  intros c q w Hq Hs Hf. apply (refused_request c q PNone w 22 Hq Hs).
  unfold refusal. replace (4 <=? q_flags q) with true by lia. reflexivity.
Qed.
Print Assumptions C27_df_reads_always_refused.

Theorem C27_df_refuted :
  exists c w q, c_structured c = true /\ wreq_ok q /\ q_cmd q = 0 /\ q_flags q = 4 /\ inside (c_size c) q /\
    0 < q_len q <= 1048576 /\
    handle_request c (mreq q) PNone w = Ret tt (emit (ESend (be 4 0x67446698 ++ be 4 22 ++ q_cookie q)) w).
Proof.
  exists (client_of two_setup 4 true false), (two_world all_full), (req 262144 0 4).
  split; [reflexivity|]. split; [ok_req|]. split; [reflexivity|]. split; [reflexivity|]. split; [vm_compute; discriminate|].
  split; [vm_compute; split; [reflexivity|discriminate]|]. reflexivity.
Qed.
Print Assumptions C27_df_refuted.

(** ** C28: error codes *)
Theorem C28_errno_mapping_total : forall e, wire_error (nbd_errno e).
Proof. exact nbd_errno_wire. Qed.
Print Assumptions C28_errno_mapping_total.

Theorem C28_errors_are_protocol_errors :
  forall flags expected ms s w namelen structured tls q p,
    opened flags expected ms s w -> wreq_ok q -> payload_ok q p ->
    let c := client_of s namelen structured tls in
    exists w1 msgs ans, handle_request c (mreq q) p w = Ret tt w1 /\ sent w1 = sent w ++ msgs /\
      (forall z, read_answer (q_cookie q) (q_from q) (if q_cmd q =? 0 then q_len q else 0)
                   (concat msgs ++ z) = Some (ans, z)) /\
      (forall e, ans = Err e -> wire_error e) /\
      flat_step (su_size s) (bad_write c) (disk_of s w) q (disk_of s w1) ans.
Proof.
  intros flags expected ms s w namelen structured tls q p Ho Hq Hp c.
  destruct (opened_request flags expected ms s w namelen structured tls Ho q p Hq Hp) as (w1 & msgs & ans & H1 & H2 & H3 & H4 & H5).
  exists w1, msgs, ans. split; [exact H1|]. split; [exact H2|]. split; [exact H3|]. split; [|exact H4].
  intros e ->. eapply flat_step_error; eauto.
Qed.
Print Assumptions C28_errors_are_protocol_errors.

Example C28_demo :
  opened 2 0 two two_setup (two_world (fun _ => RErr 122)) /\
  match handle_request (client_of two_setup 4 false false) (mreq (req_write 3 [1;2])) (PBuf (bytefn [1;2]))
          (two_world (fun _ => RErr 122)) with
  | Ret _ w1 => read_answer cookie2 3 0 (concat (sent w1)) = Some (Err 28, [])
  | _ => False
  end.
Proof. split; [apply two_opened|]. vm_compute. reflexivity. Qed.
