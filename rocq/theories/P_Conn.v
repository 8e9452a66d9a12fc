(** C94: from the first byte of a connection to the last reply. *)
From Coq Require Import String.
From Verif Require Import Base M_Const M_Disk M_Tree M_Raw M_Setup M_Par M_Io M_Acl M_Nego S_Nego M_Conn S_Wire S_Leak S_Conn L_Nego L_NegoLoop L_Opens L_Conn X_Demo P_Cow P_Nego S_Disk L_Wire L_Session L_PlainS.
Open Scope list_scope.

(** Whatever bytes a client sends, in clear and within TLS, whatever the machine
    and the exports, and up to any point: a file is as it was unless it belongs to
    an export the client may use, and then either it was opened and is now all
    zeroes where it was empty (or temporary), or that export is the one being
    served and it is neither read-only nor copy-on-write.  The same for the block
    files of tree exports. *)
Theorem C94_changes_only_what_it_may :
  forall place E l glob lg n fs namelen plain secure turns D w tr served D' out log,
    Forall is_byte plain -> Forall is_byte secure -> private place l ->
    connection place E l glob lg n fs namelen plain secure turns D w = CEnd tr served D' out log ->
    (forall g, d_file D' g = d_file D g \/
       exists j k e, place j k = g /\ may_use E l glob tr j e /\
         (k = 0%nat /\ grown e (d_file D g) (d_file D' g) \/ served = Some j /\ writable e)) /\
    (forall j, kept D D' j \/
       exists e, may_use E l glob tr j e /\ served = Some j /\ writable e /\ flag (x_flags e) F_TREEFILES = true).
Proof. exact connection_changes. Qed.
Print Assumptions C94_changes_only_what_it_may.

(** a client that may use no export changes nothing at all *)
Theorem C94_stranger_changes_nothing :
  forall place E l glob lg n fs namelen plain secure turns D w tr served D' out log,
    Forall is_byte plain -> Forall is_byte secure -> private place l ->
    (forall e, In e l -> authorized_client (e_gai E) (x_auth e) (e_peer E) <> AYes) ->
    connection place E l glob lg n fs namelen plain secure turns D w = CEnd tr served D' out log ->
    served = None /\ out = [] /\ (forall g, d_file D' g = d_file D g) /\ forall j, kept D D' j.
Proof.
  intros place E l glob lg n fs namelen plain secure turns D w tr served D' out log Hp Hs Hpr Hno H.
  assert (No : forall tr0 j e, ~ may_use E l glob tr0 j e).
  { intros tr0 j e (N & A & _). exact (Hno e (nth_error_In _ _ N) A). }
  destruct (connection_changes place E l glob lg n fs namelen plain secure turns D w tr served D' out log Hp Hs Hpr H) as [H1 H2].
  assert (Sv : served = None /\ out = []).
  { unfold connection in H. destruct (negotiate E (fresh l glob plain secure)) as [[i|] s|s|s|] eqn:R; try discriminate;
      [|injection H as <- <- <- <- <-; auto|injection H as <- <- <- <- <-; auto].
    exfalso. destruct (served_export E l glob plain secure i s Hp Hs R) as (e & Ne & Op & _).
    destruct (negotiate_touches E l glob plain secure (n_tr s) _ i ltac:(rewrite R; reflexivity) Op eq_refl) as (e' & U).
    exact (No _ _ _ U). }
  split; [apply Sv|]. split; [apply Sv|]. split.
  - intros g. destruct (H1 g) as [G|(j & k & e & _ & U & _)]; [exact G|destruct (No _ _ _ U)].
  - intros j. destruct (H2 j) as [G|(e & U & _)]; [exact G|destruct (No _ _ _ U)].
Qed.
Print Assumptions C94_stranger_changes_nothing.

(** the export served is one the client may use and asked for by its name *)
Theorem C94_serves_what_was_asked_for :
  forall place E l glob lg n fs namelen plain secure turns D w tr i D' out log,
    Forall is_byte plain -> Forall is_byte secure ->
    connection place E l glob lg n fs namelen plain secure turns D w = CEnd tr (Some i) D' out log ->
    exists e name pre sel rest, may_use E l glob tr i e /\ x_name e = cstr name /\ selects name sel /\
      (plain = pre ++ be 8 OPTS_MAGIC ++ sel ++ rest \/ In NTls tr /\ secure = pre ++ be 8 OPTS_MAGIC ++ sel ++ rest).
Proof.
  intros place E l glob lg n fs namelen plain secure turns D w tr i D' out log Hp Hs H. unfold connection in H.
  destruct (negotiate E (fresh l glob plain secure)) as [[j|] s|s|s|] eqn:R; try discriminate.
  assert (tr = n_tr s /\ j = i) as [-> ->].
  { destruct (sys_run _ _ _ _); try discriminate; injection H as <- <- <- <- <-; auto. }
  destruct (negotiate_enters E l glob plain secure i s Hp Hs R) as
    (cf & rest0 & pre & name & sel & e0 & e & parent & before & seg & sends & su & Pl & _ & Ch & Sel & N & X & Nm & _).
  destruct (served_export E l glob plain secure i s Hp Hs R) as (e1 & Ne & Op & _). rewrite N in Ne. injection Ne as <-.
  destruct (negotiate_touches E l glob plain secure (n_tr s) _ i ltac:(rewrite R; reflexivity) Op eq_refl) as (e' & U).
  pose proof (proj1 U) as N'. rewrite N in N'. injection N' as <-.
  destruct (L_NegoTls.negotiate_serves E l glob plain secure i s R) as (_ & Sh & _).
  destruct (n_tls s) eqn:T.
  - exists e0, name, pre, sel, (n_in s). split; [exact U|]. split; [exact Nm|]. split; [exact Sel|]. right. split; [|exact Ch].
    destruct Sh as (t1 & t2 & -> & _). apply in_app_iff. right. left. reflexivity.
  - exists e0, name, (be 4 cf ++ pre), sel, (n_in s). split; [exact U|]. split; [exact Nm|]. split; [exact Sel|]. left.
    rewrite Pl, Ch, <- app_assoc. reflexivity.
Qed.
Print Assumptions C94_serves_what_was_asked_for.

(** every byte the client gets is decided by its own export: on a machine where
    all other files differ (and memory, unless the export is copy-on-write or
    waitfile) it sees the same *)
Theorem C94_sees_only_its_export :
  forall place E l glob lg n fs namelen plain secure turns D D' w w' tr i D1 out log e,
    Forall is_byte plain -> Forall is_byte secure ->
    connection place E l glob lg n fs namelen plain secure turns D w = CEnd tr (Some i) D1 out log ->
    nth_error l i = Some e ->
    same_export place i (fs i) D D' ->
    same_machine (flag (x_flags e) F_COPYONWRITE || flag (x_flags e) F_WAIT) w w' ->
    exists D2, connection place E l glob lg n fs namelen plain secure turns D' w' = CEnd tr (Some i) D2 out log.
Proof. exact connection_sees. Qed.
Print Assumptions C94_sees_only_its_export.

(** the growth in the model of a connection is the one of setupexport (C36) *)
Theorem C94_growth_is_of_setup :
  forall e0 e su, xrel e0 e -> setupexport (x_flags e) (x_expected e) (x_files e) = SetupOk su ->
    flag (x_flags e0) F_TEMPORARY = false -> su_trunc su = growth e0.
Proof. exact growth_exact. Qed.
Print Assumptions C94_growth_is_of_setup.

(** a copy-on-write connection starts with the page state copyonwrite_prepare leaves (C08) *)
Theorem C94_starts_as_prepared :
  forall c w0 w1 i D w, copyonwrite_prepare c w0 = Ret true w1 ->
    let v := conn_world i (c_size c) D w in
    w_dpos v = w_dpos w1 /\ w_dlen v = w_dlen w1 /\ w_mapsz v = w_mapsz w1 /\ (forall p, w_map v p = w_map w1 p) /\
    fsize (w_file v FDiff) = fsize (w_file w1 FDiff) /\ forall o, frd (w_file v FDiff) o = frd (w_file w1 FDiff) o.
Proof. exact conn_prepared. Qed.
Print Assumptions C94_starts_as_prepared.

(** ** Examples *)
Example C94_starts_as_prepared_ex :
  match copyonwrite_prepare (mkC F_COPYONWRITE 8192 None 4 false false) (demo_cow [demo_file 8192 100] all_full 2) with
  | Ret true w1 => w_mapsz w1 = 2 /\ w_map w1 1 = 4294967295 /\ fsize (w_file w1 FDiff) = 0
  | _ => False end.
Proof. vm_compute. repeat split. Qed.
Definition conn_place (i k : nat) : nat := (2 * i + k)%nat.
Definition conn_disks (b : Z) : disks := mkDk (fun g => if (g =? 8)%nat then demo_empty else demo_file 16 (b + 10 * Z.of_nat g)) (fun _ _ => demo_empty) (fun _ _ => false).
Definition xw : export := mkX [97] 0 None 0 false (file_of 16).
Definition xro : export := mkX [98] F_READONLY None 0 false (file_of 16).
Definition xno : export := mkX [99] 0 (Some (Some [])) 0 false (file_of 16).
Definition xtls : export := mkX [100] F_FORCEDTLS None 0 false (file_of 16).
Definition xcow : export := mkX [101] F_COPYONWRITE None 8192 false (file_of 0).
Definition conn_exports : list export := [xw; xro; xno; xtls; xcow].
Definition conn_fs (i : nat) : option (list (nat * Z)) := Some [(0%nat, 0)].
Definition conn_qs : list wreq := [req_write 4 [1; 2; 3]; req_read 2 6].
Definition conn_turns : list choice := concat (repeat [CReader; CWork 0 9] 60).
Definition conn (name : list Z) (b : Z) (w : world) : conn_end :=
  connection conn_place demo_env conn_exports 0 false 1 conn_fs 4 (start 1 ++ go OPT_GO name ++ stream conn_qs) [] conn_turns (conn_disks b) w.
Definition conn_show (r : conn_end) :=
  match r with
  | CEnd _ i D out _ => Some (i, map (fun g => slice (frd (d_file D g)) 2 6) [0%nat; 2%nat; 4%nat; 6%nat],
                              option_map (fun r => map snd (fst r)) (answers conn_qs out))
  | _ => None
  end.
Definition conn_m (h : Z) : world := mkW (fun _ => demo_empty) (fun _ => false) some_short 0 0 (fun _ => h) 0 (fun _ => NOPAGE) 0 0 [].

(** the writable export: the WRITE changes its file and no other; the read-only
    one: the WRITE is refused; the one not for this client, and the one for TLS
    only: nothing is served *)
Example C94_demo :
  private conn_place conn_exports /\
  Forall is_byte (start 1 ++ go OPT_GO [97] ++ stream conn_qs) /\
  conn_show (conn [97] 100 (conn_m 0)) =
    Some (Some 0%nat, [[102; 103; 1; 2; 3; 107]; [122; 123; 124; 125; 126; 127]; [142; 143; 144; 145; 146; 147]; [162; 163; 164; 165; 166; 167]],
          Some [Ok []; Ok [102; 103; 1; 2; 3; 107]]) /\
  conn_show (conn [98] 100 (conn_m 0)) =
    Some (Some 1%nat, [[102; 103; 104; 105; 106; 107]; [122; 123; 124; 125; 126; 127]; [142; 143; 144; 145; 146; 147]; [162; 163; 164; 165; 166; 167]],
          Some [Err 1; Ok [122; 123; 124; 125; 126; 127]]) /\
  option_map (fun r => fst (fst r)) (conn_show (conn [99] 100 (conn_m 0))) = Some None /\
  option_map (fun r => fst (fst r)) (conn_show (conn [100] 100 (conn_m 0))) = Some None.
Proof.
  split.
  { intros j e j' k N T. destruct j as [|[|[|[|[|j]]]]]; [..|destruct j; discriminate N]; injection N as <-; discriminate T. }
  split; [repeat constructor; unfold is_byte; lia|]. vm_compute. repeat split.
Qed.

Example C94_growth_demo :
  xrel xcow xcow /\ flag (x_flags xcow) F_TEMPORARY = false /\
  exists su, setupexport (x_flags xcow) (x_expected xcow) (x_files xcow) = SetupOk su /\ su_trunc su = Some 8192.
Proof. split; [apply xrel_refl|]. split; [reflexivity|]. eexists. split; reflexivity. Qed.

(** a machine on which every other file, and memory, is different *)
Example C94_sees_demo :
  let D2 := mkDk (fun g => if (g =? 0)%nat then demo_file 16 100 else demo_file 9 (Z.of_nat g)) (fun _ _ => demo_empty) (fun _ _ => false) in
  same_export conn_place 0 (conn_fs 0) (conn_disks 100) D2 /\ same_machine false (conn_m 0) (conn_m 77) /\
  frd (d_file D2 2) 0 <> frd (d_file (conn_disks 100) 2) 0 /\
  match connection conn_place demo_env conn_exports 0 false 1 conn_fs 4 (start 1 ++ go OPT_GO [97] ++ stream conn_qs) [] conn_turns D2 (conn_m 77),
        conn [97] 100 (conn_m 0) with
  | CEnd tr1 i1 _ out1 log1, CEnd tr2 i2 _ out2 log2 => out1 = out2 /\ zlen out1 = 38 /\ i1 = i2
  | _, _ => False
  end.
Proof.
  cbv zeta. split; [|split; [|split]].
  - split; [|intros p; repeat split]. intros a k o H. injection H as <-. intros [Hin|[]]. injection Hin as <- <-. split; reflexivity.
  - repeat split. discriminate.
  - vm_compute. discriminate.
  - vm_compute. repeat split.
Qed.

(** a client that no authorization file lists *)
Example C94_stranger_demo :
  let E := mkE (fun _ => None) (V4 [10;0;0;1]) false true (fun _ => true) (fun _ => 89) (fun _ => true) in
  (forall e, In e [xno] -> authorized_client (e_gai E) (x_auth e) (e_peer E) <> AYes) /\
  match connection conn_place E [xno] 0 false 1 conn_fs 4 (start 1 ++ go OPT_GO [99] ++ stream conn_qs) [] conn_turns (conn_disks 100) (conn_m 0) with
  | CEnd tr None D [] _ => frd (d_file D 0) 3 = 103 /\ In (NSend false (optreply OPT_GO REP_ERR_POLICY 37)) tr
  | _ => False
  end.
Proof.
  cbv zeta. split; [intros e [<-|[]]; vm_compute; discriminate|]. vm_compute. split; [reflexivity|]. tauto.
Qed.

(** Copy-on-write does not protect the file at opening: with a configured size and
    an empty file, a client that connects and goes has changed it. *)
Theorem C94_copyonwrite_base_refuted :
  exists place E l glob lg n fs namelen plain turns D w,
    Forall is_byte plain /\ private place l /\
    match connection place E l glob lg n fs namelen plain [] turns D w with
    | CEnd tr (Some j) D' out log =>
        exists e, nth_error l j = Some e /\ flag (x_flags e) F_COPYONWRITE = true /\ flag (x_flags e) F_SPLICE = false /\
          fsize (d_file D (place j 0%nat)) = 0 /\ fsize (d_file D' (place j 0%nat)) = 8192 /\ out = []
    | _ => False
    end.
Proof.
  exists conn_place, demo_env, conn_exports, 0, false, 1%nat, conn_fs, 4, (start 1 ++ go OPT_GO [101]), [], (conn_disks 100), (conn_m 0).
  split; [repeat constructor; unfold is_byte; lia|]. split; [apply C94_demo|].
  vm_compute. exists xcow. repeat split.
Qed.
Print Assumptions C94_copyonwrite_base_refuted.
