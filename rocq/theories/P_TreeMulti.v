(** C84: several connections to one tree export. *)
From Verif Require Import Base M_Disk M_TreeMulti S_TreeMulti L_TreeMulti L_TreeAny.
Local Open Scope list_scope.

(** Every schedule of any number of connections: if each page is either worked on
    by one connection alone (writes, reads and discards), or has its block file
    already and is not discarded by anyone (any number of connections write and
    read it), then the answers are those of one disk that does the pieces one
    after the other, and once every connection has had four turns per piece, each
    has been answered all of its pieces in its own order and the block files hold
    what the writes and discards make of the contents. *)
Theorem C84_tree_shared_partial : forall b qs s0 l,
  sane b -> holds b s0 -> Forall (Forall in_page) qs -> (forall p, (exists k, only_by p k qs) \/ settled b p qs) ->
  let t := t_run l (t_init b qs) in
  explains s0 (t_log t) /\
  ((forall k q, nth_error qs k = Some q -> (4 * length q <= turns k l)%nat) ->
     (forall k q, nth_error qs k = Some q -> map fst (of_conn k (t_log t)) = q) /\ holds (t_blk t) (final s0 (t_log t))).
Proof. exact shared_tree. Qed.
Print Assumptions C84_tree_shared_partial.
(** page 0 is there and is used by both, page 1 is made and discarded by the first
    connection, page 2 made by the second *)
Definition demo_blocks : blocks := mkBlk (fun p => if p =? 0 then Some O else None) (fun _ => mkFile 4096 (fun i => i mod 251)) 1.
Definition demo_store : store := fun p i => if (p =? 0) && (0 <=? i) && (i <? 4096) then i mod 251 else 0.
Definition demo_conns : list (list top) :=
  [ [TWrite 0 10 [1; 2]; TWrite 1 4095 [9]; TRead 1 4094 2; TTrim 1; TRead 1 4095 1];
    [TRead 0 9 4; TWrite 2 0 [5]; TWrite 0 11 [7]; TRead 0 9 4] ].
Definition demo_turns : list nat := [1; 0; 0; 1; 1; 0; 1; 1; 0; 0; 1; 0; 0; 0; 1; 0; 1; 1; 0; 1; 1; 1; 0; 0; 1; 0; 1; 1; 0; 0; 1; 0; 0; 0; 0; 1; 1; 1]%nat.
Example C84_demo :
  sane demo_blocks /\ holds demo_blocks demo_store /\ Forall (Forall in_page) demo_conns /\
  (forall p, (exists k, only_by p k demo_conns) \/ settled demo_blocks p demo_conns) /\
  (forall k q, nth_error demo_conns k = Some q -> (4 * length q <= turns k (demo_turns ++ [0; 0]))%nat) /\
  t_log (t_run (demo_turns ++ [0; 0]%nat) (t_init demo_blocks demo_conns)) =
    [ (0%nat, TWrite 0 10 [1; 2], TDone); (1%nat, TRead 0 9 4, TData [9; 1; 2; 12]);
      (1%nat, TWrite 2 0 [5], TDone); (0%nat, TWrite 1 4095 [9], TDone); (0%nat, TRead 1 4094 2, TData [0; 9]);
      (0%nat, TTrim 1, TDone); (1%nat, TWrite 0 11 [7], TDone); (1%nat, TRead 0 9 4, TData [9; 1; 7; 12]); (0%nat, TRead 1 4095 1, TData [0]) ].
Proof.
  repeat apply conj.
  - intros p n. cbn. destruct (p =? 0); [intros [= <-]; lia|discriminate].
  - intros p q n. cbn. destruct (Z.eqb_spec p 0), (Z.eqb_spec q 0); try discriminate; congruence.
  - intros p. unfold holds_page, demo_store. cbn [demo_blocks d_dir d_ino]. destruct (p =? 0).
    + split; [cbn; lia|]. intros i Hi. unfold frd. cbn [fsize fdata]. destruct (0 <=? i), (i <? 4096); reflexivity.
    + reflexivity.
  - repeat first [apply Forall_nil | apply Forall_cons]; unfold in_page, zlen; cbn [length Z.of_nat]; lia.
  - intros p. destruct (Z.eq_dec p 0) as [->|N0].
    + right. split; [discriminate|]. intros q Hq Hin. cbn in Hq. destruct Hq as [<-|[<-|[]]]; cbn in Hin; intuition discriminate.
    + left. exists (if p =? 1 then 0%nat else 1%nat). intros j q o Hj Ho <-.
      destruct j as [|[|j]]; [| |destruct j; discriminate Hj]; injection Hj as <-; cbn in Ho;
        repeat (destruct Ho as [<-|Ho]; [cbn; first [reflexivity|exfalso; apply N0; reflexivity]|]); destruct Ho.
  - intros k q Hk. destruct k as [|[|k]]; [| |destruct k; discriminate Hk]; injection Hk as <-; vm_compute; lia.
  - vm_compute. reflexivity.
Qed.

(** Without the restriction it is false, because the mutex of open_treefile is one
    per connection and a READ makes the block file too.  Two connections and a page
    whose block file is missing: the first writes its last byte, is told that this
    is done, reads it and gets the old value, though the other connection does
    nothing but read one byte of that page.  No order of the pieces explains it. *)
Theorem C84_read_destroys_write_refuted : exists b s0 qs l,
  sane b /\ holds b s0 /\ Forall (Forall in_page) qs /\
  qs = [[TWrite 0 4095 [7]; TRead 0 4095 1]; [TRead 0 0 1]] /\
  t_log (t_run l (t_init b qs)) =
    [(0%nat, TWrite 0 4095 [7], TDone); (1%nat, TRead 0 0 1, TData [0]); (0%nat, TRead 0 4095 1, TData [0])] /\
  ~ explainable s0 (t_log (t_run l (t_init b qs))).
Proof.
  set (b := mkBlk (fun _ => None) (fun _ => mkFile 0 (fun _ => 0)) 0). exists b, (fun _ _ => 0), [[TWrite 0 4095 [7]; TRead 0 4095 1]; [TRead 0 0 1]], [1; 0; 0; 0; 0; 1; 1; 1; 0; 0]%nat.
  assert (E : t_log (t_run [1; 0; 0; 0; 0; 1; 1; 1; 0; 0]%nat (t_init b [[TWrite 0 4095 [7]; TRead 0 4095 1]; [TRead 0 0 1]])) =
    [(0%nat, TWrite 0 4095 [7], TDone); (1%nat, TRead 0 0 1, TData [0]); (0%nat, TRead 0 4095 1, TData [0])]) by (vm_compute; reflexivity).
  repeat apply conj.
  - intros p n H. discriminate H.
  - intros p q n H. discriminate H.
  - intros p i _. reflexivity.
  - repeat first [apply Forall_nil | apply Forall_cons]; unfold in_page, zlen; cbn [length Z.of_nat]; lia.
  - reflexivity.
  - exact E.
  - rewrite E. intros (l' & H1 & H2). apply (lost_first (fun _ _ => 0) l'); [|exact H2]. unfold lost_log. rewrite !H1.
    split; [reflexivity|]. split; [reflexivity|]. intros k Hk. rewrite H1. destruct k as [|[|k]]; [lia|lia|reflexivity].
Qed.
Print Assumptions C84_read_destroys_write_refuted.

(** The same hits a byte of another connection's WRITE to another part of the
    page: both WRITEs are acknowledged, and afterwards the files do not hold the
    first. *)
Theorem C84_write_destroys_write_refuted : exists b s0 l,
  sane b /\ holds b s0 /\
  let t := t_run l (t_init b [[TWrite 0 4095 [7]]; [TWrite 0 0 [8]]; [TRead 0 4095 1]]) in
  t_log t = [(0%nat, TWrite 0 4095 [7], TDone); (1%nat, TWrite 0 0 [8], TDone); (2%nat, TRead 0 4095 1, TData [0])] /\
  ~ holds (t_blk t) (final s0 (t_log t)).
Proof.
  set (b := mkBlk (fun _ => None) (fun _ => mkFile 0 (fun _ => 0)) 0). exists b, (fun _ _ => 0), [1; 0; 0; 0; 0; 1; 1; 1; 2; 2]%nat.
  split; [split; [intros p n H; discriminate H|intros p q n H; discriminate H]|]. split; [intros p i _; reflexivity|]. split; [vm_compute; reflexivity|].
  intros H. specialize (H 0). unfold holds_page in H. destruct (d_dir _ 0) as [n|] eqn:E; [|vm_compute in E; discriminate E].
  vm_compute in E. injection E as <-. destruct H as [_ H]. specialize (H 4095 ltac:(lia)). vm_compute in H. discriminate H.
Qed.
Print Assumptions C84_write_destroys_write_refuted.

(** A READ of a page that another connection is just making is answered with an
    error though no call fails: it finds the block file before its size is set. *)
Theorem C84_read_fails_refuted : exists b s0 qs l,
  sane b /\ holds b s0 /\ Forall (Forall in_page) qs /\
  qs = [[TWrite 0 0 [7]]; [TRead 0 0 1]] /\ In (1%nat, TRead 0 0 1, TFail) (t_log (t_run l (t_init b qs))).
Proof.
  exists (mkBlk (fun _ => None) (fun _ => mkFile 0 (fun _ => 0)) 0), (fun _ _ => 0), [[TWrite 0 0 [7]]; [TRead 0 0 1]], [0; 0; 1; 1]%nat.
  repeat apply conj.
  - intros p n H. discriminate H.
  - intros p q n H. discriminate H.
  - intros p i _. reflexivity.
  - repeat first [apply Forall_nil | apply Forall_cons]; unfold in_page, zlen; cbn [length Z.of_nat]; lia.
  - reflexivity.
  - vm_compute. now left.
Qed.
Print Assumptions C84_read_fails_refuted.

(** Whatever is shared and however the processes interleave: every byte that a READ
    is answered with is at its own place — it is what that byte of that page was at
    the start, or zero, or what some connection writes to that very byte —, there
    are as many as were asked for, and the same holds for the block files; WRITEs
    and discards are always acknowledged. *)
Theorem C84_never_invents : forall b qs s0 l,
  sane b -> holds b s0 -> Forall (Forall in_page) qs ->
  let t := t_run l (t_init b qs) in
  (forall k p off n d, In (k, TRead p off n, TData d) (t_log t) ->
     zlen d = n /\ forall j, 0 <= j < n -> could_be s0 qs p (off + j) (znth 0 d j)) /\
  (forall p i, d_dir (t_blk t) p = Some i -> forall j, 0 <= j < 4096 -> could_be s0 qs p j (frd (d_ino (t_blk t) i) j)) /\
  (forall k o r, In (k, o, r) (t_log t) -> match o with TRead _ _ _ => r <> TDone | _ => r = TDone end).
Proof. exact never_invents. Qed.
Print Assumptions C84_never_invents.
(** the first connection is just making the page; the second has written two bytes
    to it, which the third reads before the file has its size, and goes on reading
    after the second has written two more *)
Example C84_never_invents_demo :
  let b := mkBlk (fun _ => None) (fun _ => mkFile 0 (fun _ => 0)) 0 in
  let qs := [[TWrite 0 9 [1]]; [TWrite 0 0 [5; 6]; TWrite 0 2 [7; 8]]; [TRead 0 0 4]] in
  sane b /\ holds b (fun _ _ => 0) /\ Forall (Forall in_page) qs /\
  t_log (t_run [0; 0; 1; 1; 2; 2; 1; 1; 2; 2; 0; 0]%nat (t_init b qs)) =
    [(1%nat, TWrite 0 0 [5; 6], TDone); (1%nat, TWrite 0 2 [7; 8], TDone); (2%nat, TRead 0 0 4, TData [5; 6; 7; 8]); (0%nat, TWrite 0 9 [1], TDone)].
Proof.
  repeat apply conj.
  - intros p n H. discriminate H.
  - intros p q n H. discriminate H.
  - intros p i _. reflexivity.
  - repeat first [apply Forall_nil | apply Forall_cons]; unfold in_page, zlen; cbn [length Z.of_nat]; lia.
  - vm_compute. reflexivity.
Qed.
