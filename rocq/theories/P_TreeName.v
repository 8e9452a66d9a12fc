(** C96: a tree export keeps to its directory. *)
From Coq Require Import String.
From Verif Require Import Base M_Nego M_Conf M_Virt M_Hook S_Virt S_Hook.
From Verif Require Import M_Const M_Disk M_Tree M_Raw M_Par M_TreeName S_Tree S_Wire S_TreeName L_TreeName X_Demo P_Cow.
Local Open Scope list_scope.

(** example: a tree of 8192 bytes in /srv/tree, its first block all 7 *)
Definition tn_dir : list Z := text "/srv/tree".
Definition tn_conf (flags : Z) (cowdir : option (list Z)) : hconf := mkHconf (Z.lor F_TREEFILES flags) [] [] cowdir.
Definition tn_att (c : hconf) : attempt := mkAtt c tn_dir (text "10.0.0.1") true true true true true.
Definition sevens : file := mkFile 4096 (fun _ => 7).
Definition tn_fs : names := fun q => if list_eq_dec Z.eq_dec q (text "/srv/tree/FILE0000") then Some sevens else None.
Definition tn_bare : names := fun _ => None.
(** READ of 4 bytes, WRITE of 2 bytes, READ of 4 bytes *)
Definition tn_qs : list wreq := [req_read 10 4; req_write 11 [1; 2]; req_read 10 4].
Definition tn_turns : list choice := concat (repeat [CReader; CWork 0 7] 300).
Definition tn_conn (c : hconf) (fs : names) : tree_end :=
  tree_connection (text "77") (tn_att c) hst0 8192 false false false 1 (stream tn_qs) tn_turns fs (demo_cow [] all_full 2).
Definition tn_show (e : tree_end) :=
  match e with
  | TEnd fs o _ => Some (o, map (fun q => option_map (fun f => slice (fdata f) 10 4) (fs q))
      [text "/srv/tree/FILE0000"; text "/srv/FILE0000"; text "/srv/tree/FILE0001"])
  | _ => None
  end.

(** ** the directory is the one configured, as long as commit_client leaves the name alone *)

(** Whatever the client sends and however system calls end, no file but the
    tree's own block files is made, changed or removed. *)
Theorem C96_only_its_directory : forall pid a s size st tls lg n inp turns fs w fs' o l,
  keeps_name a -> flag (h_flags (a_conf a)) F_TREEFILES = true -> 0 <= size < 9223372036854775808 ->
  tree_connection pid a s size st tls lg n inp turns fs w = TEnd fs' o l -> only_tree (a_name a) size fs fs'.
Proof.
  intros pid a s size st tls lg n inp turns fs w fs' o l Hk Ht Hs H.
  destruct (commit pid a s) as [[] s'| | |] eqn:Ec; try (unfold tree_connection in H; rewrite Ec in H; discriminate).
  rewrite <- (name_kept _ _ _ _ Hk Ec). exact (conn_stays _ _ _ _ _ _ _ _ _ _ _ Ec Ht Hs _ _ _ _ _ H).
Qed.
Print Assumptions C96_only_its_directory.

(** and nothing but the tree's own block files decides what the client gets *)
Theorem C96_sees_only_its_directory : forall pid a s size st tls lg n inp turns fs fs2 w,
  keeps_name a -> flag (h_flags (a_conf a)) F_TREEFILES = true -> 0 <= size < 9223372036854775808 ->
  same_tree (a_name a) size fs fs2 ->
  same_end (tree_connection pid a s size st tls lg n inp turns fs w) (tree_connection pid a s size st tls lg n inp turns fs2 w).
Proof.
  intros pid a s size st tls lg n inp turns fs fs2 w Hk Ht Hs Hf.
  destruct (commit pid a s) as [[] s'| | |] eqn:Ec; try (unfold tree_connection; rewrite Ec; exact Logic.I).
  rewrite <- (name_kept _ _ _ _ Hk Ec) in Hf. exact (conn_sees _ _ _ _ _ _ _ _ _ _ _ Ec Ht Hs _ _ _ Hf).
Qed.
Print Assumptions C96_sees_only_its_directory.

(** Trees of one size in different directories have no block file in common, be
    one directory inside the other; so a connection leaves the other tree alone. *)
Theorem C96_trees_apart : forall d1 d2 size q, block_file d1 size q -> block_file d2 size q -> d1 = d2.
Proof. exact apart. Qed.
Print Assumptions C96_trees_apart.
Theorem C96_other_trees_untouched : forall pid a s size st tls lg n inp turns fs w fs' o l d q,
  keeps_name a -> flag (h_flags (a_conf a)) F_TREEFILES = true -> 0 <= size < 9223372036854775808 ->
  tree_connection pid a s size st tls lg n inp turns fs w = TEnd fs' o l ->
  d <> a_name a -> block_file d size q -> fs' q = fs q.
Proof.
  intros pid a s size st tls lg n inp turns fs w fs' o l d q Hk Ht Hs H Hd Hq.
  apply (C96_only_its_directory _ _ _ _ _ _ _ _ _ _ _ _ _ _ _ Hk Ht Hs H). intros Hq'. apply Hd. exact (apart _ _ _ _ Hq Hq').
Qed.
Print Assumptions C96_other_trees_untouched.

Lemma depth0 : is_depth 8192 0.
Proof. split; [reflexivity|congruence]. Qed.
Lemma tn_first : block_file tn_dir 8192 (text "/srv/tree/FILE0000").
Proof. exists 0%nat, 0. split; [exact depth0|reflexivity]. Qed.

(** a plain tree, and a copy-on-write one with a directory for the diff file: the
    client reads the sevens, what it wrote comes back, and lands in the block file
    of the plain tree only *)
Example C96_own_directory_demo :
  keeps_name (tn_att (tn_conf 0 None)) /\ keeps_name (tn_att (tn_conf F_COPYONWRITE (Some (text "/tmp")))) /\
  flag (h_flags (tn_conf F_COPYONWRITE None)) F_TREEFILES = true /\
  option_map snd (tn_show (tn_conn (tn_conf 0 None) tn_fs)) = Some [Some [7; 1; 2; 7]; None; None] /\
  option_map (fun r => slice (fun i => znth 0 (fst r) i) 16 4) (tn_show (tn_conn (tn_conf 0 None) tn_fs)) = Some [7; 7; 7; 7] /\
  option_map snd (tn_show (tn_conn (tn_conf F_COPYONWRITE (Some (text "/tmp"))) tn_fs)) = Some [Some [7; 7; 7; 7]; None; None] /\
  option_map fst (tn_show (tn_conn (tn_conf F_COPYONWRITE (Some (text "/tmp"))) tn_fs)) = option_map fst (tn_show (tn_conn (tn_conf 0 None) tn_fs)).
Proof.
  split; [left; vm_compute; auto|]. split; [right; split; [discriminate|vm_compute; discriminate]|]. vm_compute. repeat split.
Qed.
(** two machines, alike in /srv/tree only *)
Definition tn_fs2 : names := fun q =>
  if list_eq_dec Z.eq_dec q (text "/srv/tree/FILE0000") then Some sevens
  else if list_eq_dec Z.eq_dec q (text "/srv/FILE0000") then Some (mkFile 4096 (fun _ => 99)) else None.
Lemma tn_alike : same_tree tn_dir 8192 tn_fs tn_fs2.
Proof.
  intros q H. unfold tn_fs, tn_fs2. destruct (list_eq_dec Z.eq_dec q (text "/srv/tree/FILE0000")); [split; reflexivity|].
  destruct (list_eq_dec Z.eq_dec q (text "/srv/FILE0000")) as [->|_]; [|exact Logic.I].
  assert (E : block_file (text "/srv") 8192 (text "/srv/FILE0000")) by (exists 0%nat, 0; split; [exact depth0|reflexivity]).
  pose proof (apart _ _ _ _ E H) as X. discriminate X.
Qed.
Example C96_sees_demo : same_tree tn_dir 8192 tn_fs tn_fs2 /\
  option_map fsize (tn_fs (text "/srv/FILE0000")) <> option_map fsize (tn_fs2 (text "/srv/FILE0000")) /\
  option_map fst (tn_show (tn_conn (tn_conf 0 None) tn_fs)) = option_map fst (tn_show (tn_conn (tn_conf 0 None) tn_fs2)) /\
  option_map (fun r => zlen (fst r)) (tn_show (tn_conn (tn_conf 0 None) tn_fs)) = Some 56.
Proof. split; [exact tn_alike|]. split; [vm_compute; discriminate|]. vm_compute. split; reflexivity. Qed.
Example C96_other_trees_demo : text "/srv" <> a_name (tn_att (tn_conf 0 None)) /\ block_file (text "/srv") 8192 (text "/srv/FILE0000") /\
  option_map snd (tn_show (tn_conn (tn_conf 0 None) tn_fs2)) = Some [Some [7; 1; 2; 7]; Some [99; 99; 99; 99]; None].
Proof.
  split; [discriminate|]. split; [exists 0%nat, 0; split; [exact depth0|reflexivity]|]. vm_compute. reflexivity.
Qed.

(** ** What is false *)

(** Trees of different sizes can share block files: a big tree has a
    subdirectory in which a small one keeps its own. *)
Theorem C96_sizes_refuted : exists d1 d2 size1 size2 q, d1 <> d2 /\ block_file d1 size1 q /\ block_file d2 size2 q.
Proof.
  exists (text "/srv"), (text "/srv/TREE0000"), 4194304, 8192, (text "/srv/TREE0000/FILE0000").
  split; [discriminate|]. split; [|exists 0%nat, 0; split; [exact depth0|reflexivity]].
  exists 1%nat, 0. split; [|reflexivity]. split; [reflexivity|intros _; vm_compute; discriminate].
Qed.
Print Assumptions C96_sizes_refuted.

(** A copy-on-write (or waitfile) tree without a directory for diff files:
    dirname cuts client->exportname in place (nbd-server.c:2149), and every
    block file is looked for, and made, in the parent of the tree's directory.
    Whatever the tree holds, no connection's bytes depend on it. *)
Theorem C96_tree_ignored : forall pid a s d b size st tls lg n inp turns fs fs2 w,
  (flag (h_flags (a_conf a)) F_COPYONWRITE = true \/ flag (h_flags (a_conf a)) F_WAIT = true) -> h_cowdir (a_conf a) = None ->
  in_dir (a_name a) d b -> flag (h_flags (a_conf a)) F_TREEFILES = true -> 0 <= size < 9223372036854775808 ->
  same_but_tree (a_name a) size fs fs2 ->
  same_end (tree_connection pid a s size st tls lg n inp turns fs w) (tree_connection pid a s size st tls lg n inp turns fs2 w).
Proof.
  intros pid a s d b size st tls lg n inp turns fs fs2 w Hc Hd Hi Ht Hs Hf.
  destruct (commit pid a s) as [[] s'| | |] eqn:Ec; try (unfold tree_connection; rewrite Ec; exact Logic.I).
  apply (conn_sees _ _ _ _ _ _ _ _ _ _ _ Ec Ht Hs). intros q Hq. apply Hf.
  rewrite (name_cut _ _ _ _ _ _ Hc Hd Hi Ec) in Hq. exact (parent_other _ _ _ _ _ Hi Hq).
Qed.
Print Assumptions C96_tree_ignored.
(** and the files made are the parent's *)
Theorem C96_parent_changed : forall pid a s d b size st tls lg n inp turns fs w fs' o l,
  (flag (h_flags (a_conf a)) F_COPYONWRITE = true \/ flag (h_flags (a_conf a)) F_WAIT = true) -> h_cowdir (a_conf a) = None ->
  in_dir (a_name a) d b -> flag (h_flags (a_conf a)) F_TREEFILES = true -> 0 <= size < 9223372036854775808 ->
  tree_connection pid a s size st tls lg n inp turns fs w = TEnd fs' o l -> only_tree d size fs fs'.
Proof.
  intros pid a s d b size st tls lg n inp turns fs w fs' o l Hc Hd Hi Ht Hs H.
  destruct (commit pid a s) as [[] s'| | |] eqn:Ec; try (unfold tree_connection in H; rewrite Ec in H; discriminate).
  rewrite <- (name_cut _ _ _ _ _ _ Hc Hd Hi Ec). exact (conn_stays _ _ _ _ _ _ _ _ _ _ _ Ec Ht Hs _ _ _ _ _ H).
Qed.
Print Assumptions C96_parent_changed.
(** The tree holds sevens; the client is sent zeroes, and a block file appears in /srv. *)
Theorem C96_copy_on_write_refuted : exists c fs o,
  flag (h_flags c) F_TREEFILES = true /\ flag (h_flags c) F_COPYONWRITE = true /\
  option_map (fun f => slice (fdata f) 10 4) (fs (text "/srv/tree/FILE0000")) = Some [7; 7; 7; 7] /\
  option_map (fun f => slice (fdata f) 10 4) (fs (text "/srv/FILE0000")) = None /\
  tn_show (tn_conn c fs) = Some (o, [Some [7; 7; 7; 7]; Some [0; 0; 0; 0]; None]) /\
  slice (fun i => znth 0 o i) 4 16 = [0; 0; 0; 0; 1; 2; 3; 4; 5; 6; 7; 8; 0; 0; 0; 0].
Proof.
  exists (tn_conf F_COPYONWRITE None), tn_fs, (match tn_show (tn_conn (tn_conf F_COPYONWRITE None) tn_fs) with Some (o, _) => o | None => [] end).
  vm_compute. repeat split.
Qed.
Print Assumptions C96_copy_on_write_refuted.
Example C96_parent_demo : in_dir (a_name (tn_att (tn_conf F_COPYONWRITE None))) (text "/srv") (text "tree") /\
  same_but_tree tn_dir 8192 tn_fs tn_bare /\ tn_fs (text "/srv/tree/FILE0000") <> tn_bare (text "/srv/tree/FILE0000").
Proof.
  split; [vm_compute; repeat split; try discriminate; intros X; intuition discriminate|]. split; [|vm_compute; discriminate].
  intros q H. unfold tn_fs, tn_bare. destruct (list_eq_dec Z.eq_dec q (text "/srv/tree/FILE0000")) as [->|_]; [|exact Logic.I].
  exfalso. apply H, tn_first.
Qed.
