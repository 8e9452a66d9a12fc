(** Properties of tree exports: C12, C13 and the tree part of C14. *)
From Verif Require Import Base M_Const M_Disk M_Tree M_Raw M_Setup L_Wp L_Raw S_Wire S_Disk S_Tree L_Wire L_Req L_Plain L_Session L_Setup L_PlainS L_Tree L_Props X_Demo.

(** ** C12: every block has its own file *)
(** For every export size and offset there is one nesting depth (at most 5)
    that only depends on the size, and the path is the base-1024 expansion of
    the block number ([block_path], S_Tree.v); the server exits when the
    configured name is too long for the path buffer. *)
Theorem C12_path_is_the_base_1024_expansion :
  forall namelen size pos, 0 <= namelen -> 0 <= pos < size -> size < 9223372036854775808 ->
    exists d, is_depth size d /\ (d <= 5)%nat /\
      (namelen + 11 + 9 * Z.of_nat d <= 4096 ->
         exists r, tree_path namelen size pos = PathOk (block_path d (pos / 4096)) r) /\
      (4096 < namelen + 11 + 9 * Z.of_nat d -> tree_path namelen size pos = PathDie).
Proof. exact tree_layout. Qed.
Print Assumptions C12_path_is_the_base_1024_expansion.

Theorem C12_depth_is_unique : forall size d d', is_depth size d -> is_depth size d' -> d = d'.
Proof. exact is_depth_unique. Qed.
Print Assumptions C12_depth_is_unique.

(** two offsets share a file exactly when they are in the same 4096-byte block *)
Theorem C12_same_file_iff_same_block :
  forall size d a b, is_depth size d -> 0 <= a < size -> 0 <= b < size ->
    block_path d (a / 4096) = block_path d (b / 4096) <-> a / 4096 = b / 4096.
Proof. exact tree_same_file. Qed.
Print Assumptions C12_same_file_iff_same_block.

(** one directory level: 8 MiB export, block 1025 *)
Example C12_demo :
  is_depth 8388608 1 /\ 0 <= 4198400 < 8388608 /\
  tree_path 9 8388608 4198400 = PathOk ([47;84;82;69;69;48;48;48;49] ++ [47;70;73;76;69;48;48;48;49]) 0 /\
  block_path 1 1025 = [47;84;82;69;69;48;48;48;49] ++ [47;70;73;76;69;48;48;48;49] /\
  tree_path 4080 8388608 4198400 = PathDie.
Proof. split; [split; [reflexivity|intros _; vm_compute; discriminate]|]. split; [lia|]. repeat split; vm_compute; reflexivity. Qed.

(** ** C13: a tree export is a flat disk *)
(** The disk of a tree export ([tview], L_Tree.v): byte [i] is byte
    [i mod 4096] of the file of block [i / 4096], zero if there is none.
    Every session either ends normally with one answer per request, forming a
    history of that disk, or the process exits (failure to create a block file
    or its directory, treefiles.c:55,81,101) in the middle of one request after
    having answered all earlier ones; that request changed only bytes it was to
    change. *)
Theorem C13_tree_export_is_a_flat_disk :
  forall c d w, cflag c F_TREEFILES = true -> cflag c F_COPYONWRITE = false -> cflag c F_WAIT = false ->
    tree_ok (c_namelen c) (c_size c) d -> (cflag c F_SPLICE = false \/ c_tls c = false) ->
    forall qs tail e, Forall wreq_ok qs -> Forall (fun q => q_type q <> 2) qs -> stops tail e ->
    let disk := tview (c_size c) d in
    (exists w1 msgs h, run c (concat (map encode qs) ++ tail) w = Ret (model_end e) w1 /\
      sent w1 = sent w ++ msgs /\
      (forall z, answers qs (concat msgs ++ z) = Some (h, z)) /\
      history (c_size c) (bad_write c) (disk w) h (disk w1) /\
      (forall h, (forall p, h <> FTree p) -> h <> FDummy -> w_file w1 h = w_file w h)) \/
    (exists w1 qs1 q qs2 msgs msgs' h dk, run c (concat (map encode qs) ++ tail) w = Die w1 /\
      qs = qs1 ++ q :: qs2 /\ sent w1 = sent w ++ msgs ++ msgs' /\
      (forall z, answers qs1 (concat msgs ++ z) = Some (h, z)) /\
      history (c_size c) (bad_write c) (disk w) h dk /\
      died_step (c_size c) (bad_write c) dk q (disk w1)).
Proof. exact tree_session. Qed.
Print Assumptions C13_tree_export_is_a_flat_disk.

(** with no block files at all the disk is all zeroes *)
Theorem C13_initially_zero :
  forall size d w, (forall p, w_exists w p = false) -> forall i, tview size d w i = 0.
Proof. intros size d w H i. unfold tview, block. rewrite H. destruct ((0 <=? i) && (i / 4096 * 4096 <? size)); reflexivity. Qed.
Print Assumptions C13_initially_zero.

Definition tree_client : client := mkC F_TREEFILES 16384 None 9 false false.
Definition tree_qs : list wreq :=
  [req_read 4094 4; req_write 4094 [1;2;3;4]; req_read 4092 8; req 4 0 12288; req_read 4092 8].
Example C13_demo :
  cflag tree_client F_TREEFILES = true /\ cflag tree_client F_COPYONWRITE = false /\ cflag tree_client F_WAIT = false /\
  tree_ok (c_namelen tree_client) (c_size tree_client) 0 /\ (forall p, w_exists (demo_world [] some_short) p = false) /\
  Forall wreq_ok tree_qs /\ Forall (fun q => q_type q <> 2) tree_qs /\ stops [] StopCut /\
  match run tree_client (concat (map encode tree_qs) ++ []) (demo_world [] some_short) with
  | Ret EndClosed w1 =>
      match answers tree_qs (concat (sent w1)) with
      | Some (h, []) => map snd h = [Ok [0;0;0;0]; Ok []; Ok [0;0;1;2;3;4;0;0]; Ok []; Ok [0;0;0;0;0;0;0;0]]
      | _ => False
      end
  | _ => False
  end.
Proof.
  repeat (split; [reflexivity|]).
  split; [unfold tree_ok, is_depth; cbn; lia|].
  split; [reflexivity|].
  split; [repeat constructor; try ok_req|]. split; [repeat constructor; discriminate|].
  split; [constructor; vm_compute; reflexivity|]. vm_compute. reflexivity.
Qed.

(** ** C14 on tree exports: only whole blocks inside the range are dropped *)
Theorem C14_tree_trim_drops_whole_blocks_only :
  forall c d w, cflag c F_TREEFILES = true -> cflag c F_COPYONWRITE = false ->
    tree_ok (c_namelen c) (c_size c) d ->
    forall q, wreq_ok q -> known_flags q -> q_cmd q = 4 -> inside (c_size c) q -> bad_write c = false ->
    exists w1, handle_request c (mreq q) PNone w = Ret tt w1 /\
      sent w1 = sent w ++ [simple_reply (q_cookie q) 0 []] /\
      forall i, tview (c_size c) d w1 i = tview (c_size c) d w i \/
        (q_from q <= i / 4096 * 4096 /\ i / 4096 * 4096 + 4096 <= q_from q + q_len q /\ tview (c_size c) d w1 i = 0).
Proof. exact tree_trim_request. Qed.
Print Assumptions C14_tree_trim_drops_whole_blocks_only.

Definition tree_full : world :=
  mkW (fun h => match h with FTree _ => mkFile 4096 (fun _ => 7) | _ => demo_empty end)
      (fun _ => true) all_full 0 0 (fun _ => 170) 0 (fun _ => NOPAGE) 0 0 [].
Example C14_tree_demo :
  tree_ok (c_namelen tree_client) (c_size tree_client) 0 /\ wreq_ok (req 4 4095 4098) /\
  known_flags (req 4 4095 4098) /\ inside (c_size tree_client) (req 4 4095 4098) /\ bad_write tree_client = false /\
  match handle_request tree_client (mreq (req 4 4095 4098)) PNone tree_full with
  | Ret tt w1 => map (tview 16384 0 w1) [4094; 4095; 4096; 8191; 8192; 8193] = [7; 7; 0; 0; 7; 7]
  | _ => False
  end.
Proof.
  split; [unfold tree_ok, is_depth; cbn; lia|]. split; [ok_req|]. split; [vm_compute; reflexivity|].
  split; [vm_compute; discriminate|]. split; [reflexivity|]. vm_compute. reflexivity.
Qed.
