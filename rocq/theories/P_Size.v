(** C102: the size of what is exported. *)
From Coq Require Import String.
From Verif Require Import Base M_Const M_Disk M_Raw M_Size M_Setup S_Size.
Local Open Scope list_scope.

(** The size of regular files, empty ones too, of block devices that are not empty, and
    of other things that tell theirs, is found. *)
Theorem C102_found : forall t blk st e n, thing_ok t -> told t blk st e -> t <> Block 0 -> size_of t = Some n ->
  size_autodetect blk st e = n.
Proof.
  intros t blk st e n Ok T N S. destruct t as [m|m| |m]; cbn [thing_ok told size_of] in *; unfold off_max in *; try discriminate S; injection S as ->.
  - destruct T as (-> & -> & ->). cbn. unfold u64. rewrite Z.mod_small; lia.
  - destruct T as (-> & -> & ->). unfold size_autodetect. destruct (Z.eqb_spec n 0) as [->|H]; [contradiction|reflexivity].
  - destruct T as (-> & [->|(-> & ->)]); unfold size_autodetect; cbn [orb].
    + replace (0 <? n) with true by lia. unfold u64. rewrite Z.mod_small; lia.
    + change (0 <? 0) with false. replace (0 <? n) with true by lia. unfold u64. rewrite Z.mod_small; lia.
Qed.
Print Assumptions C102_found.
Example C102_found_demo : thing_ok (Regular 0) /\ told (Regular 0) None (Some (true, 0)) 0 /\
  thing_ok (Block 1099511627776) /\ told (Block 1099511627776) (Some 1099511627776) (Some (false, 0)) 1099511627776 /\
  size_autodetect (Some 1099511627776) (Some (false, 0)) 1099511627776 = 1099511627776.
Proof. repeat split; cbn; unfold off_max; lia. Qed.

(** Whatever the system calls say: a size other than 2^64-1 is returned only if one of
    them said it. *)
Theorem C102_no_invented_size : forall blk st e,
  size_autodetect blk st e = 18446744073709551615 \/
  blk = Some (size_autodetect blk st e) \/
  (exists reg sz, st = Some (reg, sz) /\ size_autodetect blk st e = u64 sz) \/
  size_autodetect blk st e = u64 e.
Proof.
  intros [b|] [[reg sz]|] e; unfold size_autodetect; try destruct (b =? 0); try destruct (reg || (0 <? sz)); try destruct (0 <? e); eauto 8.
Qed.
Print Assumptions C102_no_invented_size.
Theorem C102_unknown : forall t blk st e, told t blk st e -> t = Unseekable \/ t = Block 0 ->
  size_autodetect blk st e = 18446744073709551615.
Proof.
  intros t blk st e T [->| ->]; cbn [told] in T.
  - destruct T as (-> & -> & H). unfold size_autodetect. cbn. replace (0 <? e) with false by lia. reflexivity.
  - destruct T as (-> & -> & ->). reflexivity.
Qed.
Print Assumptions C102_unknown.
Example C102_unknown_demo : told Unseekable None (Some (false, 0)) (-1) /\ told (Block 0) (Some 0) (Some (false, 0)) 0.
Proof. repeat split; lia. Qed.

(** An export of one file, no size being configured: as large as its file. *)
Theorem C102_served_as_large : forall flags t blk st e n, thing_ok t -> told t blk st e -> t <> Block 0 -> size_of t = Some n ->
  flag flags F_TREEFILES = false -> flag flags F_WAIT = false -> flag flags F_MULTIFILE = false -> flag flags F_TEMPORARY = false ->
  exists s, setupexport flags 0 [mkMem true true (size_autodetect blk st e)] = SetupOk s /\ su_size s = n.
Proof.
  intros flags t blk st e n Ok T N S F1 F2 F3 F4. rewrite (C102_found t blk st e n Ok T N S).
  assert (B : 0 <= n <= off_max) by (destruct t; cbn [thing_ok size_of] in *; try discriminate S; injection S as ->; lia). unfold off_max in B.
  assert (E : exists f rw, open_member flags false (mkMem true true n) = Some (f, rw)) by (unfold open_member; cbn [mb_rdonly mb_rdwr]; destruct (flag flags F_READONLY); eauto).
  destruct E as (f & rw & E). unfold setupexport. rewrite F1, F2, F3. cbn [orb]. unfold open_single. rewrite F4. change (negb (0 =? 0)) with false. rewrite E. cbn [mb_size].
  rewrite andb_false_r. unfold setup_size. change (0 =? 0) with true. cbv iota zeta.
  eexists. split; [reflexivity|]. cbn [su_size]. unfold u64, i64. lia.
Qed.
Print Assumptions C102_served_as_large.
Example C102_served_as_large_demo :
  setupexport 0 0 [mkMem true true (size_autodetect None (Some (true, 1000000)) 1000000)] = SetupOk (mkSetup 0 (Some [mkFI (FExp 0) 0]) [true] 1000000 None).
Proof. reflexivity. Qed.

(** ** What is false *)

(** A file whose size is not found is not refused: it is served as 2^64-1 bytes; a
    block device without a medium, for one (a loop device that is not set up). *)
Theorem C102_unknown_is_served_refuted : exists t blk st e s, thing_ok t /\ told t blk st e /\ size_of t = Some 0 /\
  setupexport 0 0 [mkMem true true (size_autodetect blk st e)] = SetupOk s /\ su_size s = 18446744073709551615.
Proof.
  exists (Block 0), (Some 0), (Some (false, 0)), 0. eexists. split; [cbn; unfold off_max; lia|]. split; [cbn; auto|]. split; [reflexivity|]. split; vm_compute; reflexivity.
Qed.
Print Assumptions C102_unknown_is_served_refuted.
(** And with a size in the configuration, every such size passes the check that the
    file is at least as large. *)
Theorem C102_unknown_any_size : forall flags t blk st e expected, told t blk st e -> t = Unseekable \/ t = Block 0 ->
  flag flags F_TREEFILES = false -> flag flags F_WAIT = false -> flag flags F_MULTIFILE = false -> flag flags F_TEMPORARY = false ->
  0 < expected <= 18446744073709551615 ->
  exists s, setupexport flags expected [mkMem true true (size_autodetect blk st e)] = SetupOk s /\ su_size s = expected.
Proof.
  intros flags t blk st e x T K F1 F2 F3 F4 Hx. rewrite (C102_unknown t blk st e T K).
  assert (E : exists f rw, open_member flags true (mkMem true true 18446744073709551615) = Some (f, rw)) by (unfold open_member; cbn [mb_rdonly mb_rdwr]; destruct (flag flags F_READONLY); eauto).
  destruct E as (f & rw & E). unfold setupexport. rewrite F1, F2, F3. cbn [orb]. unfold open_single. rewrite F4. replace (x =? 0) with false by lia. cbn [negb]. rewrite E. cbn [mb_size].
  change (18446744073709551615 =? 0) with false. cbn [andb]. change (i64 18446744073709551615) with (-1). unfold setup_size. replace (x =? 0) with false by lia. change (u64 (-1)) with 18446744073709551615.
  replace (18446744073709551615 <? x) with false by lia. eexists. split; reflexivity.
Qed.
Print Assumptions C102_unknown_any_size.
Example C102_unknown_any_size_demo : told Unseekable None (Some (false, 0)) 0 /\
  match setupexport 0 4096 [mkMem true true (size_autodetect None (Some (false, 0)) 0)] with SetupOk s => su_size s = 4096 /\ su_trunc s = None | _ => False end.
Proof. repeat split; lia. Qed.
(** In a multi-file export the next file begins one byte before it. *)
Theorem C102_multi_refuted : exists s, setupexport F_MULTIFILE 0 (map (mkMem true true) [10; size_autodetect (Some 0) (Some (false, 0)) 0; 10]) = SetupOk s /\
  su_export s = Some [mkFI (FExp 0) 0; mkFI (FExp 1) 10; mkFI (FExp 2) 9] /\ su_size s = 19.
Proof. eexists. split; [vm_compute; reflexivity|]. split; reflexivity. Qed.
Print Assumptions C102_multi_refuted.
