(** Concurrent requests on a plain export, byte by byte: C58. *)
From Verif Require Import Base M_Const M_Disk M_Tree M_Raw M_Setup M_Par L_Wp S_Wire S_Disk L_Setup L_PlainS L_Props S_Par S_Run S_Byte L_ByteS X_Demo P_Par.

(** ** C58: concurrent non-overlapping requests are independent *)
(** Any requests, any number of threads, any schedule, any short or failed
    transfer.  A byte no request asks to change keeps its value, and READs
    answer it; a byte one request asks to change is then what that request and
    the answer to it say. *)
Theorem C58_each_byte_follows_its_request :
  forall flags expected ms su w namelen structured tls lg qs tail e n l s d j,
    let c := client_of su namelen structured tls in
    opened flags expected ms su w ->
    Forall wreq_ok qs -> Forall (fun q => q_type q <> 2) qs -> NoDup (map q_cookie qs) -> stops tail e ->
    sys_run lg c l (sys_init n (concat (map encode qs) ++ tail) w) = SGo s -> y_rd s = RDone d ->
    exists ls, split_replies (length (y_out s)) (data_len qs) (y_out s) = Some ls /\
      ((forall q, In q qs -> touches q j = false) -> disk_of su (y_w s) j = disk_of su w j) /\
      forall i q, nth_error qs i = Some q ->
        (forall k q', nth_error qs k = Some q' -> k <> i -> touches q' j = false) ->
        byte_outcome q j (disk_of su w j) (with_cookie (q_cookie q) ls) (disk_of su (y_w s) j).
Proof. exact opened_bytes. Qed.
Print Assumptions C58_each_byte_follows_its_request.

(** Pairwise disjoint WRITEs (among READs and FLUSHes) that were all answered
    with success leave the disk as applying them one after the other does, in
    whatever order. *)
Theorem C58_disjoint_writes_in_any_order :
  forall flags expected ms su w namelen structured tls lg qs tail e n l s d ls,
    let c := client_of su namelen structured tls in
    opened flags expected ms su w ->
    Forall wreq_ok qs -> Forall (fun q => q_type q <> 2) qs -> NoDup (map q_cookie qs) -> stops tail e ->
    sys_run lg c l (sys_init n (concat (map encode qs) ++ tail) w) = SGo s -> y_rd s = RDone d ->
    disjoint qs -> Forall (fun q => q_cmd q <> 4 /\ q_cmd q <> 6) qs ->
    split_replies (length (y_out s)) (data_len qs) (y_out s) = Some ls ->
    (forall q, In q qs -> q_cmd q = 1 -> with_cookie (q_cookie q) ls = [VSimple 0 []]) ->
    forall qs', (forall q, In q qs' <-> In q qs) ->
    forall j, disk_of su (y_w s) j = stored_all qs' (disk_of su w) j.
Proof. exact opened_disjoint. Qed.
Print Assumptions C58_disjoint_writes_in_any_order.

(** a READ and two WRITEs, two threads, transfers split by [some_short] *)
Definition byte_qs : list wreq :=
  [mkWreq 0 cookie1 8 4 []; mkWreq 1 cookie2 2 3 [91;92;93]; mkWreq 1 cookie3 5 3 [81;82;83]].
Definition byte_start : sys := sys_init 2 (concat (map encode byte_qs) ++ par_tail) (two_world some_short).
Definition byte_sched : list choice :=
  repeat CReader 30 ++ concat (repeat [CWork 0 5; CWork 1 7; CWork 1 7] 40) ++ repeat CReader 2.
Example C58_example :
  opened 2 0 two two_setup (two_world some_short) /\
  Forall wreq_ok byte_qs /\ Forall (fun q => q_type q <> 2) byte_qs /\ NoDup (map q_cookie byte_qs) /\
  stops par_tail (StopDisc [1;2;3]) /\ disjoint byte_qs /\
  exists s, sys_run false par_client byte_sched byte_start = SGo s /\ y_rd s = RDone true /\
    split_replies (length (y_out s)) (data_len byte_qs) (y_out s) =
      Some [(cookie2, VSimple 0 []); (cookie3, VSimple 0 []); (cookie1, VSimple 0 [108;109;200;201])] /\
    slice (disk_of two_setup (y_w s)) 0 9 = slice (stored_all (rev byte_qs) (disk_of two_setup (two_world some_short))) 0 9 /\
    slice (disk_of two_setup (y_w s)) 0 9 = [100;101;91;92;93;81;82;83;108].
Proof.
  split; [apply two_opened|].
  split. { repeat (apply Forall_cons; [ok_req|]). constructor. }
  split. { repeat (apply Forall_cons; [discriminate|]). constructor. }
  split. { repeat (apply NoDup_cons; [cbn; intros H; repeat (destruct H as [H|H]; [discriminate H|]); exact H|]). constructor. }
  split; [apply par_hyps|].
  split.
  { intros i k q q' j Hi Hk Hne Ht. destruct i as [|[|[|i]]]; [| | |destruct i; discriminate];
      (destruct k as [|[|[|k]]]; [| | |destruct k; discriminate]); cbn in Hi, Hk; injection Hi as <-; injection Hk as <-;
      unfold touches in *; cbn in *; try congruence; try reflexivity; lia. }
  assert (K : match sys_run false par_client byte_sched byte_start with
    | SGo s => y_rd s = RDone true /\ split_replies (length (y_out s)) (data_len byte_qs) (y_out s) =
      Some [(cookie2, VSimple 0 []); (cookie3, VSimple 0 []); (cookie1, VSimple 0 [108;109;200;201])] /\
    slice (disk_of two_setup (y_w s)) 0 9 = slice (stored_all (rev byte_qs) (disk_of two_setup (two_world some_short))) 0 9 /\
    slice (disk_of two_setup (y_w s)) 0 9 = [100;101;91;92;93;81;82;83;108]
    | _ => False end) by (vm_compute; repeat split; reflexivity).
  destruct (sys_run false par_client byte_sched byte_start) as [s| | |]; try contradiction. exists s. split; [reflexivity|exact K].
Qed.
