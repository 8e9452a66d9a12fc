(** Several connections to one export at the same time: C70, C71.  The server
    announces CAN_MULTI_CONN; the protocol then promises that what one
    connection was told to be done is seen by the others, and that a FLUSH on
    one of them covers the others. *)
From Verif Require Import Base M_Const M_Disk M_Tree M_Raw M_Setup M_Par M_Multi M_Nego L_Wp S_Wire S_Disk S_Crash L_Setup L_PlainS L_Props S_Par S_Run S_Byte S_Multi L_Multi L_FlushM L_Tab X_Demo P_Par.

(** ** C70: one connection sees what another has written *)

(** The flag is announced for every export that is not copy-on-write, and for
    no other. *)
Theorem C70_announced : forall xflags structured,
  Z.testbit (export_flags xflags structured) 8 = negb (flag xflags F_COPYONWRITE).
Proof.
  intros xflags structured. unfold export_flags.
  destruct (flag xflags F_READONLY), (flag xflags F_FLUSH), (flag xflags F_FUA), (flag xflags F_ROTATIONAL),
    (flag xflags F_TRIM), (flag xflags F_COPYONWRITE), structured; vm_compute; reflexivity.
Qed.
Print Assumptions C70_announced.

(** No schedule of any number of connections runs into undefined behaviour. *)
Theorem C70_no_undefined_behaviour :
  forall flags expected ms su w ts, opened flags expected ms su w ->
    flag flags F_TEMPORARY && negb (flag flags F_MULTIFILE) = false -> Forall (talk_ok su w) ts ->
    forall l, g_run l (g_init (map (conn_for su) ts) w) <> GUb.
Proof. exact group_no_ub. Qed.
Print Assumptions C70_no_undefined_behaviour.

(** From one moment to a later one: a byte that no connection is at work on
    stays as it is. *)
Theorem C70_idle_byte_stays :
  forall flags expected ms su w ts, opened flags expected ms su w ->
    flag flags F_TEMPORARY && negb (flag flags F_MULTIFILE) = false -> Forall (talk_ok su w) ts ->
    forall l1 g1, g_run l1 (g_init (map (conn_for su) ts) w) = GGo g1 ->
    forall l2 g2, g_run l2 g1 = GGo g2 ->
    forall j, others_idle ts g1 g2 None j -> disk_of su (g_w g2) j = disk_of su (g_w g1) j.
Proof. exact between_idle. Qed.
Print Assumptions C70_idle_byte_stays.

(** A request read after the first moment and wholly answered by the second,
    nobody else being at work on the byte: before, answer and after fit
    together. *)
Theorem C70_answer_fits :
  forall flags expected ms su w ts, opened flags expected ms su w ->
    flag flags F_TEMPORARY && negb (flag flags F_MULTIFILE) = false -> Forall (talk_ok su w) ts ->
    forall l1 g1, g_run l1 (g_init (map (conn_for su) ts) w) = GGo g1 ->
    forall l2 g2, g_run l2 g1 = GGo g2 ->
    forall j b t p i q vs, nth_error ts b = Some t -> nth_error (tk_qs t) i = Some q ->
      unread_by g1 b i -> others_idle ts g1 g2 (Some (b, i)) j ->
      nth_error (g_procs g2) b = Some p -> has_got (tk_qs t) (y_out (pr_sys p)) q vs -> whole_answer vs ->
      byte_outcome q j (disk_of su (g_w g1) j) vs (disk_of su (g_w g2) j).
Proof. exact between_answer. Qed.
Print Assumptions C70_answer_fits.

(** The promise itself: connection [bw] has been told that its WRITE succeeded
    ([g1]); a READ that connection [br] sends after that, answered without error
    ([g2]), returns what was written, if nobody else changes the byte.
    Partial: single files and concatenations of files, not tree exports; for
    temporary exports it is false, see below. *)
Theorem C70_read_after_write_partial :
  forall flags expected ms su w ts, opened flags expected ms su w ->
    flag flags F_TEMPORARY && negb (flag flags F_MULTIFILE) = false -> Forall (talk_ok su w) ts ->
    forall l0 g0, g_run l0 (g_init (map (conn_for su) ts) w) = GGo g0 ->
    forall l1 g1, g_run l1 g0 = GGo g1 ->
    forall l2 g2, g_run l2 g1 = GGo g2 ->
    forall j bw tw pw iw qw br tr pr ir qr vs,
      nth_error ts bw = Some tw -> nth_error (tk_qs tw) iw = Some qw -> q_cmd qw = 1 -> q_from qw <= j < q_from qw + q_len qw ->
      unread_by g0 bw iw -> others_idle ts g0 g1 (Some (bw, iw)) j ->
      nth_error (g_procs g1) bw = Some pw -> has_got (tk_qs tw) (y_out (pr_sys pw)) qw [VSimple 0 []] ->
      nth_error ts br = Some tr -> nth_error (tk_qs tr) ir = Some qr -> q_cmd qr = 0 -> q_from qr <= j < q_from qr + q_len qr ->
      unread_by g1 br ir -> others_idle ts g1 g2 None j ->
      nth_error (g_procs g2) br = Some pr -> has_got (tk_qs tr) (y_out (pr_sys pr)) qr vs -> whole_answer vs -> fine vs = true ->
      told qr j vs = [bytefn (q_data qw) (j - q_from qw)].
Proof.
  intros flags expected ms su w ts Hop Ht Hok l0 g0 E0 l1 g1 E1 l2 g2 E2 j bw tw pw iw qw br tr pr ir qr vs
    W1 W2 W3 W4 W5 W6 W7 W8 R1 R2 R3 R4 R5 R6 R7 R8 R9 R10.
  destruct (between_answer _ _ _ _ _ _ Hop Ht Hok l0 g0 E0 l1 g1 E1 j bw tw pw iw qw _ W1 W2 W5 W6 W7 W8 ltac:(left; eauto)) as (HW & _).
  destruct HW as (e & He & Hef); [unfold touches; rewrite W3; cbn [Z.eqb orb]; lia|]. injection He as <-.
  destruct (proj1 Hef W3) as [Hv _]. specialize (Hv eq_refl).
  assert (E01 : g_run (l0 ++ l1) (g_init (map (conn_for su) ts) w) = GGo g1) by (rewrite g_run_app, E0; exact E1).
  destruct (between_answer _ _ _ _ _ _ Hop Ht Hok _ g1 E01 l2 g2 E2 j br tr pr ir qr vs R1 R2 R5) as (_ & _ & HR); auto.
  { intros b t i q X1 X2 _ X3. apply (R6 b t i q X1 X2); [discriminate|exact X3]. }
  destruct (HR R3 R4) as [_ HF]. rewrite (HF R10), Hv. reflexivity.
Qed.
Print Assumptions C70_read_after_write_partial.

(** From the beginning: a request of any connection that is the only one of all
    asking to change the byte, once answered. *)
Theorem C70_only_request :
  forall flags expected ms su w ts, opened flags expected ms su w ->
    flag flags F_TEMPORARY && negb (flag flags F_MULTIFILE) = false -> Forall (talk_ok su w) ts ->
    forall l g, g_run l (g_init (map (conn_for su) ts) w) = GGo g ->
    forall j b t p i q vs, nth_error ts b = Some t -> nth_error (tk_qs t) i = Some q -> alone ts b i j ->
      nth_error (g_procs g) b = Some p -> has_got (tk_qs t) (y_out (pr_sys p)) q vs -> whole_answer vs ->
      byte_outcome q j (disk_of su w j) vs (disk_of su (g_w g) j).
Proof.
  intros flags expected ms su w ts Hop Ht Hok l g E j b t p i q vs E1 E2 Ha E3 Hg Hw.
  refine (between_answer _ _ _ _ _ _ Hop Ht Hok [] (g_init (map (conn_for su) ts) w) eq_refl l g E j b t p i q vs E1 E2 _ _ E3 Hg Hw).
  - eexists. split; [cbn [g_init g_procs]; rewrite map_map, nth_error_map, E1; reflexivity|]. cbn. lia.
  - intros b' t' i' q' X1 X2 Hne X3. assert (touches q' j = false); [|congruence]. apply (Ha b' t' i' q' X1 X2). congruence.
Qed.
Print Assumptions C70_only_request.

(** ** Concrete runs: two connections on one export *)
Definition talk_of (qs : list wreq) (own : world) : talk := mkTalk 4 false false false 1 qs [] StopCut own.
(** the first connection writes three bytes, the second reads four and flushes *)
Definition pair_ts (own1 own2 : world) : list talk :=
  [talk_of [mkWreq 1 cookie2 8 3 [91;92;93]] own1; talk_of [mkWreq 0 cookie1 7 4 []; mkWreq 3 cookie3 0 0 []] own2].
Definition turns (b : nat) (n : nat) : list (nat * choice) := concat (repeat [(b, CReader); (b, CWork 0 60)] n).
(** number of requests read and bytes sent, for every connection *)
Definition summary (g : group) : list (nat * list Z) := map (fun p => (y_next (pr_sys p), y_out (pr_sys p))) (g_procs g).

Definition wrote : list Z := enc_view cookie2 (VSimple 0 []).
Definition answers (d : list Z) : list Z := enc_view cookie1 (VSimple 0 d) ++ enc_view cookie3 (VSimple 0 []).

Lemma pair_ok su w own1 own2 :
  w_file own1 FDiff = w_file w FDiff -> w_file own1 FDummy = w_file w FDummy ->
  w_file own2 FDiff = w_file w FDiff -> w_file own2 FDummy = w_file w FDummy -> Forall (talk_ok su w) (pair_ts own1 own2).
Proof.
  intros A1 A2 B1 B2.
  assert (N : forall t, tk_tls t = false -> no_splice_tls (client_for su t)).
  { intros t Et. unfold no_splice_tls, client_for, client_of. cbn [c_tls]. rewrite Et. right. reflexivity. }
  unfold pair_ts, talk_of. repeat (apply Forall_cons; [unfold talk_ok; cbn [tk_qs tk_tail tk_end tk_own]; conj|]); auto.
  all: try (apply N; reflexivity).
  all: try (apply stop_short; reflexivity).
  all: try solve [constructor].
  all: try solve [repeat (apply Forall_cons; [ok_req|]); constructor].
  all: try solve [repeat (apply Forall_cons; [discriminate|]); constructor].
  all: try ok_req; try discriminate.
  all: repeat match goal with |- NoDup _ => constructor end; cbn; intuition discriminate.
Qed.

Lemma got_all qs out ls q vs : out = concat (map (fun x => enc_view (fst x) (snd x)) ls) ->
  Forall (fun x => length (fst x) = 8%nat /\ wf_view (data_len qs (fst x)) (snd x)) ls -> with_cookie (q_cookie q) ls = vs ->
  has_got qs out q vs.
Proof. intros H1 H2 H3. exists ls, []. rewrite app_nil_r. auto. Qed.
Ltac got ls := apply (got_all _ _ ls); [vm_compute; reflexivity|repeat (apply Forall_cons; [vm_compute; repeat split; congruence|]); constructor|vm_compute; reflexivity].

(** What both examples show: the WRITE is answered with success before the
    second connection's requests are read; [d] is what the READ returns. *)
Definition pair_story (su : setup) (w own1 own2 : world) (l1 l2 : list (nat * choice)) (d : list Z) (g1 g2 : group) : Prop :=
  let ts := pair_ts own1 own2 in
  let g0 := g_init (map (conn_for su) ts) w in
  g_run l1 g0 = GGo g1 /\ g_run l2 g1 = GGo g2 /\
  (exists p, nth_error (g_procs g1) 0 = Some p /\ has_got (tk_qs (nth 0 ts (talk_of [] w))) (y_out (pr_sys p)) (mkWreq 1 cookie2 8 3 [91;92;93]) [VSimple 0 []]) /\
  (exists p, nth_error (g_procs g2) 1 = Some p /\
     has_got (tk_qs (nth 1 ts (talk_of [] w))) (y_out (pr_sys p)) (mkWreq 0 cookie1 7 4 []) [VSimple 0 d] /\
     has_got (tk_qs (nth 1 ts (talk_of [] w))) (y_out (pr_sys p)) (mkWreq 3 cookie3 0 0 []) [VSimple 0 []]) /\
  unread_by g0 0 0 /\ unread_by g1 1 0 /\ unread_by g1 1 1 /\
  (forall j, others_idle ts g0 g1 (Some (0%nat, 0%nat)) j) /\ (forall j, others_idle ts g1 g2 None j).

Lemma pair_run su w own1 own2 l1 l2 d : length d = 4%nat ->
  match g_run l1 (g_init (map (conn_for su) (pair_ts own1 own2)) w) with
  | GGo g1 => summary g1 = [(1%nat, wrote); (0%nat, [])] /\
      match g_run l2 g1 with GGo g2 => summary g2 = [(1%nat, wrote); (2%nat, answers d)] | _ => False end
  | _ => False end ->
  exists g1 g2, pair_story su w own1 own2 l1 l2 d g1 g2.
Proof.
  intros Hd H. destruct (g_run l1 _) as [g1| |] eqn:E1; try contradiction. destruct H as [S1 H].
  destruct (g_run l2 g1) as [g2| |] eqn:E2; try contradiction. exists g1, g2.
  destruct (g_procs g1) as [|p1 [|p2 [|]]] eqn:P1; unfold summary in S1; rewrite P1 in S1; try discriminate.
  destruct (g_procs g2) as [|r1 [|r2 [|]]] eqn:P2; unfold summary in H; rewrite P2 in H; try discriminate.
  cbn [map] in S1, H. injection S1 as A1 A2 A3 A4. injection H as B1 B2 B3 B4.
  destruct d as [|d0 [|d1 [|d2 [|d3 [|]]]]]; try discriminate.
  assert (G1 : has_got [mkWreq 1 cookie2 8 3 [91;92;93]] (y_out (pr_sys p1)) (mkWreq 1 cookie2 8 3 [91;92;93]) [VSimple 0 []]).
  { rewrite A2. got [(cookie2, VSimple 0 [])]. }
  unfold pair_story. cbv zeta. rewrite P1, P2. conj.
  - exact E1.
  - exact E2.
  - exists p1. split; [reflexivity|exact G1].
  - exists r2. split; [reflexivity|]. cbn [nth pair_ts talk_of tk_qs]. rewrite B4. split; got [(cookie1, VSimple 0 [d0; d1; d2; d3]); (cookie3, VSimple 0 [])].
  - eexists. split; [reflexivity|]. cbn. lia.
  - exists p2. rewrite P1. split; [reflexivity|lia].
  - exists p2. rewrite P1. split; [reflexivity|lia].
  - intros j b t i q X1 X2 X3 X4. exfalso.
    destruct b as [|[|b]]; [| |destruct b; discriminate]; injection X1 as <-; cbn [talk_of tk_qs] in X2.
    + destruct i as [|[|i]]; [congruence|discriminate|discriminate].
    + destruct i as [|[|[|i]]]; try discriminate; injection X2 as <-; discriminate.
  - intros j b t i q X1 X2 _ X4. left.
    destruct b as [|[|b]]; [| |destruct b; discriminate]; injection X1 as <-; cbn [talk_of tk_qs] in X2.
    + destruct i as [|[|i]]; try discriminate. injection X2 as <-.
      exists (talk_of [mkWreq 1 cookie2 8 3 [91;92;93]] own1), p1, (mkWreq 1 cookie2 8 3 [91;92;93]), [VSimple 0 []].
      conj; try reflexivity; [rewrite P1; reflexivity|exact G1|left; eauto].
    + exfalso. destruct i as [|[|[|i]]]; try discriminate; injection X2 as <-; discriminate.
Qed.

(** transfers split by [some_short]; the second connection sees the bytes *)
Definition shared_w : world := two_world some_short.
Example C70_example :
  opened 2 0 two two_setup shared_w /\ Forall (talk_ok two_setup shared_w) (pair_ts shared_w shared_w) /\
  exists g1 g2, pair_story two_setup shared_w shared_w shared_w (turns 0 15) (turns 1 25) [107;91;92;93] g1 g2.
Proof.
  split; [apply two_opened|]. split; [apply pair_ok; reflexivity|]. apply pair_run; [reflexivity|]. vm_compute. repeat split; reflexivity.
Qed.

(** The diff files of two copy-on-write connections are different files, although
    each process calls its own by the same name: both write the same page, and the
    first still reads what it wrote. *)
Theorem C70_diffs_apart :
  let c := mkC F_COPYONWRITE 4096 (Some [mkFI (FExp 0) 0]) 4 false false in
  let w := demo_cow [demo_file 4096 0] all_full 1 in
  let cn qs := mkConn c false 1 (concat (map encode qs)) w in
  match g_run (turns 0 16 ++ turns 1 30 ++ turns 0 30)
      (g_init [cn [req_write 8 [91;92;93]; req_read 7 4]; cn [req_write 8 [94;95;96]]] w) with
  | GGo g => map (fun p => y_out (pr_sys p)) (g_procs g) = [wrote ++ enc_view cookie1 (VSimple 0 [7;91;92;93]); wrote]
  | _ => False
  end.
Proof. vm_compute. repeat split. Qed.
Print Assumptions C70_diffs_apart.

(** Undefined behaviour of one connection is an outcome of the group: WRITE over
    TLS on an export with splice. *)
Theorem C70_undefined_behaviour_is_seen :
  let c := mkC F_SPLICE 16 (Some [mkFI (FExp 0) 0]) 4 false true in
  g_run (turns 0 30) (g_init [mkConn c false 1 (encode (req_write 8 [91;92;93])) (demo_world [demo_file 16 0] all_full)]
                             (demo_world [demo_file 16 0] all_full)) = GUb.
Proof. vm_compute. reflexivity. Qed.
Print Assumptions C70_undefined_behaviour_is_seen.

(** A temporary export: every connection has a file of its own (mkstemp in
    setupexport), CAN_MULTI_CONN is announced all the same, and the second
    connection reads zeroes where the first was told its data is stored. *)
Definition temp_flags : Z := 1024.
Definition temp_setup : setup := mkSetup temp_flags (Some [mkFI (FExp 0) 0]) [true] 16 (Some 16).
Definition temp_world : world := demo_world [mkFile 16 (fun _ => 0)] all_full.
Theorem C70_temporary_refuted :
  exists flags expected ms su w ts, opened flags expected ms su w /\ Forall (talk_ok su w) ts /\
    (forall structured, Z.testbit (export_flags flags structured) 8 = true) /\
    exists l0 l1 l2 g0 g1 g2, g_run l0 (g_init (map (conn_for su) ts) w) = GGo g0 /\ g_run l1 g0 = GGo g1 /\ g_run l2 g1 = GGo g2 /\
    exists j bw tw pw iw qw br tr pr ir qr vs,
      nth_error ts bw = Some tw /\ nth_error (tk_qs tw) iw = Some qw /\ q_cmd qw = 1 /\ q_from qw <= j < q_from qw + q_len qw /\
      unread_by g0 bw iw /\ others_idle ts g0 g1 (Some (bw, iw)) j /\
      nth_error (g_procs g1) bw = Some pw /\ has_got (tk_qs tw) (y_out (pr_sys pw)) qw [VSimple 0 []] /\
      nth_error ts br = Some tr /\ nth_error (tk_qs tr) ir = Some qr /\ q_cmd qr = 0 /\ q_from qr <= j < q_from qr + q_len qr /\
      unread_by g1 br ir /\ others_idle ts g1 g2 None j /\
      nth_error (g_procs g2) br = Some pr /\ has_got (tk_qs tr) (y_out (pr_sys pr)) qr vs /\ whole_answer vs /\ fine vs = true /\
      told qr j vs <> [bytefn (q_data qw) (j - q_from qw)].
Proof.
  assert (Op : opened temp_flags 16 [mkMem true true 0] temp_setup temp_world).
  { split; [vm_compute; reflexivity|]. split; [lia|]. split; [repeat split|]. split; [discriminate|].
    split; [reflexivity|]. apply demo_sizes. intros f [<-|[]]; cbn; lia. }
  destruct (pair_run temp_setup temp_world temp_world temp_world (turns 0 15) (turns 1 25) [0;0;0;0] eq_refl) as (g1 & g2 & S).
  { vm_compute. repeat split; reflexivity. }
  destruct S as (E1 & E2 & (p1 & N1 & G1) & (p2 & N2 & G2 & _) & U0 & U1 & _ & I1 & I2).
  exists temp_flags, 16, [mkMem true true 0], temp_setup, temp_world, (pair_ts temp_world temp_world).
  split; [exact Op|]. split; [apply pair_ok; reflexivity|]. split; [intros []; reflexivity|].
  exists [], (turns 0 15), (turns 1 25), (g_init (map (conn_for temp_setup) (pair_ts temp_world temp_world)) temp_world), g1, g2.
  split; [reflexivity|]. split; [exact E1|]. split; [exact E2|].
  exists 8, 0%nat, (nth 0 (pair_ts temp_world temp_world) (talk_of [] temp_world)), p1, 0%nat, (mkWreq 1 cookie2 8 3 [91;92;93]),
    1%nat, (nth 1 (pair_ts temp_world temp_world) (talk_of [] temp_world)), p2, 0%nat, (mkWreq 0 cookie1 7 4 []), [VSimple 0 [0;0;0;0]].
  conj; try reflexivity; auto; try (cbn; lia).
  - left. eauto.
  - vm_compute. discriminate.
Qed.
Print Assumptions C70_temporary_refuted.

(** ** C71: a FLUSH on one connection covers the others *)

(** A FLUSH sent after moment [g1] and answered with success by [g2].  Whatever
    the machine holds for a byte after a crash at any later moment [g3] is what
    the disk held at [g1] or something written since.  If nobody is at work on
    the byte since [g1], the crash leaves it as it was at [g1]. *)
Theorem C71_flush_covers_every_connection :
  forall flags expected ms su w ts init, opened flags expected ms su w ->
    flag flags F_TEMPORARY && negb (flag flags F_MULTIFILE) = false -> Forall (talk_ok su w) ts -> traced init w ->
    forall l1 l2 l3 g1 g2 g3, g_run l1 (g_init (map (conn_for su) ts) w) = GGo g1 -> g_run l2 g1 = GGo g2 -> g_run l3 g2 = GGo g3 ->
    forall b i t p q, nth_error ts b = Some t -> nth_error (tk_qs t) i = Some q -> q_cmd q = 3 -> unread_by g1 b i ->
      nth_error (g_procs g2) b = Some p -> has_got (tk_qs t) (y_out (pr_sys p)) q [VSimple 0 []] ->
    forall j, 0 <= j < su_size su ->
    exists n o ext, place (sizes_of (nfiles su) w) j = Some (n, o) /\
      w_tr (g_w g3) = ext ++ w_tr (g_w g1) /\
      (forall x, In x (after_crash init (w_tr (g_w g3)) (FExp n) o) ->
         x = disk_of su (g_w g1) j \/ Exists (makes (FExp n) o x) ext) /\
      (others_idle ts g1 g3 None j -> durable init (w_tr (g_w g3)) (FExp n) o (disk_of su (g_w g1) j)).
Proof. exact flush_crash. Qed.
Print Assumptions C71_flush_covers_every_connection.

(** The promise: connection [bw] was told its WRITE succeeded ([g1]),
    connection [bf] flushes after that and is told so ([g2]): at any later
    moment [g3] the written byte survives a crash, if nobody else changed it.
    Partial: not for tree exports. *)
Theorem C71_write_here_flush_there_partial :
  forall flags expected ms su w ts init, opened flags expected ms su w ->
    flag flags F_TEMPORARY && negb (flag flags F_MULTIFILE) = false -> Forall (talk_ok su w) ts -> traced init w ->
    forall l0 l1 l2 l3 g0 g1 g2 g3, g_run l0 (g_init (map (conn_for su) ts) w) = GGo g0 ->
      g_run l1 g0 = GGo g1 -> g_run l2 g1 = GGo g2 -> g_run l3 g2 = GGo g3 ->
    forall j bw tw pw iw qw bf tf pf jf qf, 0 <= j < su_size su ->
      nth_error ts bw = Some tw -> nth_error (tk_qs tw) iw = Some qw -> q_cmd qw = 1 -> q_from qw <= j < q_from qw + q_len qw ->
      unread_by g0 bw iw -> others_idle ts g0 g1 (Some (bw, iw)) j ->
      nth_error (g_procs g1) bw = Some pw -> has_got (tk_qs tw) (y_out (pr_sys pw)) qw [VSimple 0 []] ->
      nth_error ts bf = Some tf -> nth_error (tk_qs tf) jf = Some qf -> q_cmd qf = 3 -> unread_by g1 bf jf ->
      nth_error (g_procs g2) bf = Some pf -> has_got (tk_qs tf) (y_out (pr_sys pf)) qf [VSimple 0 []] ->
      others_idle ts g1 g3 None j ->
      exists n o, place (sizes_of (nfiles su) w) j = Some (n, o) /\
        durable init (w_tr (g_w g3)) (FExp n) o (bytefn (q_data qw) (j - q_from qw)).
Proof.
  intros flags expected ms su w ts init Hop Ht Hok Htr l0 l1 l2 l3 g0 g1 g2 g3 E0 E1 E2 E3 j bw tw pw iw qw bf tf pf jf qf Hj
    W1 W2 W3 W4 W5 W6 W7 W8 F1 F2 F3 F4 F5 F6 HI.
  destruct (between_answer _ _ _ _ _ _ Hop Ht Hok l0 g0 E0 l1 g1 E1 j bw tw pw iw qw _ W1 W2 W5 W6 W7 W8 ltac:(left; eauto)) as (HW & _).
  destruct HW as (e & He & Hef); [unfold touches; rewrite W3; cbn [Z.eqb orb]; lia|]. injection He as <-.
  destruct (proj1 Hef W3) as [Hv _]. specialize (Hv eq_refl).
  assert (E01 : g_run (l0 ++ l1) (g_init (map (conn_for su) ts) w) = GGo g1) by (rewrite g_run_app, E0; exact E1).
  destruct (flush_crash _ _ _ _ _ _ _ Hop Ht Hok Htr _ _ _ _ _ _ E01 E2 E3 bf jf tf pf qf F1 F2 F3 F4 F5 F6 j Hj) as (n & o & ext & Hp & _ & _ & Hd).
  exists n, o. split; [exact Hp|]. rewrite <- Hv. apply Hd, HI.
Qed.
Print Assumptions C71_write_here_flush_there_partial.

(** the run of C70's example: before the second connection's FLUSH the bytes
    written by the first may be lost in a crash, after it not *)
Example C71_example :
  opened 2 0 two two_setup shared_w /\ traced (S_Crash.held shared_w) shared_w /\
  exists g1 g2, pair_story two_setup shared_w shared_w shared_w (turns 0 15) (turns 1 25) [107;91;92;93] g1 g2 /\
    map (fun a => after_crash (S_Crash.held shared_w) (w_tr (g_w g1)) (fst a) (snd a)) [(FExp 0, 8); (FExp 0, 9); (FExp 1, 0)] = [[91;108]; [92;109]; [93;200]] /\
    map (fun a => after_crash (S_Crash.held shared_w) (w_tr (g_w g2)) (fst a) (snd a)) [(FExp 0, 8); (FExp 0, 9); (FExp 1, 0)] = [[91]; [92]; [93]].
Proof.
  split; [apply two_opened|]. split; [intros h i _; reflexivity|].
  destruct (pair_run two_setup shared_w shared_w shared_w (turns 0 15) (turns 1 25) [107;91;92;93] eq_refl) as (g1 & g2 & S).
  { vm_compute. repeat split; reflexivity. }
  exists g1, g2. split; [exact S|]. destruct S as (E1 & E2 & _).
  assert (K : match g_run (turns 0 15) (g_init (map (conn_for two_setup) (pair_ts shared_w shared_w)) shared_w) with
    | GGo g1 => map (fun a => after_crash (S_Crash.held shared_w) (w_tr (g_w g1)) (fst a) (snd a)) [(FExp 0, 8); (FExp 0, 9); (FExp 1, 0)] = [[91;108]; [92;109]; [93;200]] /\
        match g_run (turns 1 25) g1 with
        | GGo g2 => map (fun a => after_crash (S_Crash.held shared_w) (w_tr (g_w g2)) (fst a) (snd a)) [(FExp 0, 8); (FExp 0, 9); (FExp 1, 0)] = [[91]; [92]; [93]]
        | _ => False end
    | _ => False end) by (vm_compute; repeat split; reflexivity).
  rewrite E1, E2 in K. exact K.
Qed.
