(** C95: connections do not disturb each other. *)
From Verif Require Import Base M_Const M_Disk M_Tree M_Raw M_Par M_Conn M_Crowd L_Wp S_Wire S_Disk L_Wire L_Session L_Props X_Demo S_Leak S_Crowd L_Crowd P_Cow.

(** Any number of connections to any exports, each with any number of threads and
    any bytes sent by its client, on every schedule and up to any point of it: if
    nobody else changes what connection [b] uses, everything it sends and logs,
    how far it reads, and whether its process exits is what it would be if it
    were alone. *)
Theorem C95_as_if_alone :
  forall es D l b e k,
    (forall e, In e es -> proper (en_client e)) -> undisturbed es b -> nth_error es b = Some e ->
    c_run l (c_init es D) = KGo k ->
    exists o, got b k = Some o /\ same_traffic o (alone e (turns_of b l) D).
Proof.
  intros es D l b e k Hp Hu He Hr.
  destruct (sim_init es D) as [M0 S0]. pose proof (sim_run es D Hp l _ [] M0 S0) as Q. rewrite Hr in Q.
  destruct Q as [[Hl Hm] Q]. specialize (Q b Hu). unfold sim in Q. unfold got.
  assert (Hb : (b < length (cd_tasks k))%nat) by (rewrite Hl; apply nth_error_Some; congruence).
  destruct (nth_error (cd_tasks k) b) as [t|] eqn:Et; [|apply nth_error_None in Et; lia].
  destruct (Hm b t Et) as [He' _]. assert (E : tk_entry t = e) by congruence. rewrite E in Q. cbn [app] in Q.
  eexists. split; [reflexivity|]. destruct (alone e (turns_of b l) D) as [s| | |s]; try contradiction; destruct Q as [-> Q]; cbn.
  - destruct Q. cbn in *. auto.
  - exact Q.
Qed.
Print Assumptions C95_as_if_alone.

(** Undefined behaviour in the crowd is undefined behaviour of some connection on
    its own: nobody can be led into it by the others. *)
Theorem C95_no_harm_from_others :
  forall es D l,
    (forall e, In e es -> proper (en_client e)) -> (forall b, undisturbed es b) -> c_run l (c_init es D) = KUb ->
    exists b e, nth_error es b = Some e /\ alone e (turns_of b l) D = SUb.
Proof.
  intros es D l Hp Hu Hr.
  destruct (sim_init es D) as [M0 S0]. pose proof (sim_run es D Hp l _ [] M0 S0) as Q. rewrite Hr in Q.
  destruct Q as (a & e & He & Q). exists a, e. split; [exact He|]. apply Q, Hu.
Qed.
Print Assumptions C95_no_harm_from_others.

(** Whatever the connections do together, a file is as before unless it belongs
    to the export of one that may write, and so is a tree. *)
Theorem C95_only_writers_change :
  forall es D l k,
    (forall e, In e es -> proper (en_client e)) -> c_run l (c_init es D) = KGo k ->
    (forall g, (forall e, In e es -> ~ changes_file (en_client e) g) -> d_file (cd_disks k) g = d_file D g) /\
    (forall j, (forall e, In e es -> en_export e = j -> ~ changes_tree (en_client e)) ->
       (forall p, d_block (cd_disks k) j p = d_block D j p) /\ (forall p, d_there (cd_disks k) j p = d_there D j p)).
Proof.
  intros es D l k Hp Hr. destruct (sim_init es D) as [M0 _]. pose proof (run_disks es Hp l _ M0) as Q. rewrite Hr in Q. exact Q.
Qed.
Print Assumptions C95_only_writers_change.

(** The clients of a copy-on-write export (or of several) never see anything of
    each other. *)
Theorem C95_copy_on_write_clients_are_apart :
  forall es D l b e k,
    (forall e, In e es -> proper (en_client e) /\
       cflag (en_client e) F_COPYONWRITE = true /\ cflag (en_client e) F_SPLICE = false /\ cflag (en_client e) F_TREEFILES = false) ->
    nth_error es b = Some e -> c_run l (c_init es D) = KGo k ->
    (exists o, got b k = Some o /\ same_traffic o (alone e (turns_of b l) D)) /\
    forall g, d_file (cd_disks k) g = d_file D g.
Proof.
  intros es D l b e k H He Hr.
  assert (N : forall a ea, nth_error es a = Some ea -> (forall g, ~ changes_file (en_client ea) g) /\ ~ changes_tree (en_client ea)).
  { intros a ea Ha. destruct (H ea (nth_error_In _ _ Ha)) as (_ & C & S & T). split.
    - intros g (_ & _ & _ & [X|X]); congruence.
    - intros [X _]. congruence. }
  split.
  - apply (C95_as_if_alone es D l b e k); auto.
    + intros e0 H0. apply H, H0.
    + intros eb a ea Hb Ha Hn. destruct (N a ea Ha). auto.
  - destruct (C95_only_writers_change es D l k) as [F _]; auto; [intros e0 H0; apply H, H0|].
    intros g. apply F. intros e0 H0. apply In_nth_error in H0. destruct H0 as [a Ha]. apply (N a e0 Ha).
Qed.
Print Assumptions C95_copy_on_write_clients_are_apart.

(** ** Examples *)
Definition cw_disks : disks := mkDk (fun g => demo_file 8192 (10 * Z.of_nat g)) (fun _ _ => demo_empty) (fun _ _ => false).
Definition cw_own : world := demo_cow [] (fun _ => RFull) 2.
Definition cw_client (fl : Z) (g : nat) : client := mkC fl 8192 (Some [mkFI (FExp g) 0]) 4 false false.
Definition cw_entry (i : nat) (fl : Z) (g : nat) (qs : list wreq) : entry :=
  mkEn i (cw_client fl g) false 1 (stream qs) cw_own.
Definition cw_a : list wreq := [req_write 4094 [1; 2; 3; 4]; req_read 4096 3].
Definition cw_b : list wreq := [req_read 4093 6; req_write 4096 [7]; req_read 4093 6].
(** two connections to copy-on-write export 0, one to export 1, which is read-only
    and serves the same file, one that writes to export 2 *)
Definition cw_es : list entry :=
  [cw_entry 0 F_COPYONWRITE 0 cw_a; cw_entry 0 F_COPYONWRITE 0 cw_b; cw_entry 1 F_READONLY 0 [req_read 4093 6]; cw_entry 2 0 1 cw_a].
Definition cw_turns : list (nat * choice) :=
  concat (repeat [(0%nat, CReader); (0%nat, CWork 0 9); (3%nat, CReader); (3%nat, CWork 0 50)] 80) ++
  concat (repeat [(1%nat, CReader); (1%nat, CWork 0 9); (2%nat, CReader); (2%nat, CWork 0 7)] 80).
Definition cw_answers (qs : list wreq) (b : nat) (o : cout) :=
  match o with
  | KGo k => match nth_error (cd_tasks k) b with
             | Some t => option_map (fun r => map snd (fst r)) (answers qs (y_out (tk_sys t)))
             | None => None
             end
  | _ => None
  end.

Lemma cw_proper fl g : proper (cw_client fl g).
Proof. intros l fi E Hi. injection E as <-. destruct Hi as [<-|[]]. eexists; reflexivity. Qed.
Lemma cw_owned fl g h : own (cw_client fl g) (FExp h) -> h = g.
Proof. intros [(l & fi & E & Hi & Hf)|[]]. injection E as <-. destruct Hi as [<-|[]]. injection Hf as ->. reflexivity. Qed.

(** nobody disturbs anybody here, and every connection gets far: each sees the
    base or its own writes *)
Example C95_demo :
  (forall e, In e cw_es -> proper (en_client e)) /\ (forall b, undisturbed cw_es b) /\
  let o := c_run cw_turns (c_init cw_es cw_disks) in
  cw_answers cw_a 0 o = Some [Ok []; Ok [3; 4; 2]] /\
  cw_answers cw_b 1 o = Some [Ok [253; 254; 255; 0; 1; 2]; Ok []; Ok [253; 254; 255; 7; 1; 2]] /\
  cw_answers [req_read 4093 6] 2 o = Some [Ok [253; 254; 255; 0; 1; 2]] /\
  cw_answers cw_a 3 o = Some [Ok []; Ok [3; 4; 12]] /\
  match o with
  | KGo k => map (frd (d_file (cd_disks k) 0)) [4094; 4097] = [254; 1] /\ map (frd (d_file (cd_disks k) 1)) [4094; 4097] = [1; 4]
  | _ => False
  end.
Proof.
  split.
  { intros e H. repeat (destruct H as [<-|H]; [apply cw_proper|]). destruct H. }
  split; [|vm_compute; repeat split].
  intros b eb a ea Hb Ha Hn.
  assert (G : forall n e, nth_error cw_es n = Some e ->
    (exists fl g, en_client e = cw_client fl g /\ ((n < 3)%nat /\ g = 0%nat \/ n = 3%nat /\ g = 1%nat)) /\
    (forall g, changes_file (en_client e) g -> n = 3%nat /\ g = 1%nat) /\ ~ changes_tree (en_client e)).
  { intros n e E. destruct n as [|[|[|[|n]]]]; [..|destruct n; discriminate E]; injection E as <-.
    - split; [exists F_COPYONWRITE, 0%nat; split; [reflexivity|left; lia]|]. split; [intros g (_ & _ & _ & [X|X]); discriminate X|intros [X _]; discriminate X].
    - split; [exists F_COPYONWRITE, 0%nat; split; [reflexivity|left; lia]|]. split; [intros g (_ & _ & _ & [X|X]); discriminate X|intros [X _]; discriminate X].
    - split; [exists F_READONLY, 0%nat; split; [reflexivity|left; lia]|]. split; [intros g (_ & X & _); discriminate X|intros [X _]; discriminate X].
    - split; [exists 0, 1%nat; split; [reflexivity|right; lia]|]. split; [intros g (X & _); split; [reflexivity|apply (cw_owned 0 1 g X)]|intros [X _]; discriminate X]. }
  destruct (G b eb Hb) as ((fl & g0 & Eg & Hg) & _ & _). destruct (G a ea Ha) as (_ & Ga & Gt).
  split; [|intros _; exact Gt]. intros g Ho Hc. destruct (Ga g Hc) as [-> ->]. rewrite Eg in Ho. apply cw_owned in Ho. subst g0.
  destruct Hg as [[_ X]|[X _]]; [discriminate X|subst b; apply Hn; reflexivity].
Qed.

(** a connection sharing a writable file with another is not covered *)
Example C95_shared_demo :
  let es := [cw_entry 0 0 0 cw_a; cw_entry 0 0 0 [req_read 4093 6]] in
  ~ undisturbed es 1 /\
  cw_answers [req_read 4093 6] 1 (c_run cw_turns (c_init es cw_disks)) = Some [Ok [253; 1; 2; 3; 4; 2]].
Proof.
  cbv zeta. split; [|vm_compute; reflexivity].
  intros H. destruct (H _ 0%nat _ eq_refl eq_refl ltac:(lia)) as [H1 _]. apply (H1 0%nat).
  - left. eexists. eexists. split; [reflexivity|]. split; [left; reflexivity|reflexivity].
  - split; [left; eexists; eexists; split; [reflexivity|]; split; [left; reflexivity|reflexivity]|]. repeat split. left; reflexivity.
Qed.

(** With splice set, two clients of one copy-on-write export do see each other's
    writes: the second one reads bytes that it would not read alone. *)
Theorem C95_splice_refuted :
  exists es D l k e o,
    (forall e, In e es -> proper (en_client e) /\ cflag (en_client e) F_COPYONWRITE = true /\ cflag (en_client e) F_TREEFILES = false) /\
    nth_error es 1 = Some e /\ c_run l (c_init es D) = KGo k /\ got 1 k = Some o /\
    ~ same_traffic o (alone e (turns_of 1 l) D).
Proof.
  set (fl := Z.lor F_COPYONWRITE F_SPLICE).
  set (es := [cw_entry 0 fl 0 cw_a; cw_entry 0 fl 0 [req_read 4093 6]]).
  destruct (c_run cw_turns (c_init es cw_disks)) as [k| |] eqn:Ek.
  2:{ exfalso. assert (X : match c_run cw_turns (c_init es cw_disks) with KGo _ => True | _ => False end) by (vm_compute; exact I). rewrite Ek in X. exact X. }
  2:{ exfalso. assert (X : match c_run cw_turns (c_init es cw_disks) with KGo _ => True | _ => False end) by (vm_compute; exact I). rewrite Ek in X. exact X. }
  assert (A : cw_answers [req_read 4093 6] 1 (c_run cw_turns (c_init es cw_disks)) = Some [Ok [253; 1; 2; 3; 4; 2]]) by (vm_compute; reflexivity).
  assert (B : match alone (cw_entry 0 fl 0 [req_read 4093 6]) (turns_of 1 cw_turns) cw_disks with
              | SGo s | SExit s => option_map (fun r => map snd (fst r)) (answers [req_read 4093 6] (y_out s))
              | _ => None end = Some [Ok [253; 254; 255; 0; 1; 2]]) by (vm_compute; reflexivity).
  rewrite Ek in A. cbn [cw_answers] in A.
  destruct (nth_error (cd_tasks k) 1) as [t|] eqn:Et; [|discriminate A].
  exists es, cw_disks, cw_turns, k, (cw_entry 0 fl 0 [req_read 4093 6]), (if tk_gone t then SExit (tk_sys t) else SGo (tk_sys t)).
  split; [|split; [|split; [|split]]].
  - intros e H. repeat (destruct H as [<-|H]; [split; [apply cw_proper|split; reflexivity]|]). destruct H.
  - reflexivity.
  - exact Ek.
  - unfold got. rewrite Et. reflexivity.
  - intros H. destruct (alone (cw_entry 0 fl 0 [req_read 4093 6]) (turns_of 1 cw_turns) cw_disks) as [s| | |s]; try discriminate B;
      destruct (tk_gone t); try contradiction H; cbn in H; destruct H as [H _]; rewrite H in A; congruence.
Qed.
Print Assumptions C95_splice_refuted.
