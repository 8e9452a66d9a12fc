(** C91: what a client receives depends only on the export it opened. *)
From Verif Require Import Base M_Const M_Disk M_Tree M_Raw M_Par M_Setup L_Wp S_Wire S_Disk L_Wire L_Session L_Setup L_PlainS L_Props X_Demo S_Leak L_Rel L_RelP P_Cow.

Lemma alike_R c hp w w' : alike (own c) hp w w' -> R (own c) hp w w'.
Proof. intros []. constructor; auto. Qed.

Lemma run_alike c hp inp w w' :
  (cflag c F_COPYONWRITE = true \/ waiting c = true -> hp = true) -> alike (own c) hp w w' ->
  same_session (run c inp w) (run c inp w').
Proof.
  intros Hh Ha.
  assert (H : outR (own c) hp eq (run c inp w) (run c inp w')).
  { apply (q_run c (own c) hp); [| | |apply alike_R, Ha].
    - intros _ l fi E1 E2. left. eauto.
    - intros E. split; [right; exact E|]. intros p. right. exact E.
    - intros E. split; [apply Hh, E|]. right. destruct E as [E|E]; [left; exact E|right].
      unfold waiting in E. destruct (cflag c F_WAIT); [reflexivity|discriminate]. }
  unfold outR, same_session in *. destruct (run c inp w), (run c inp w'); try contradiction; try exact H.
  - destruct H as [H1 H2]. split; [exact H1|]. apply (r_sent _ _ _ _ H2).
  - apply (r_sent _ _ _ _ H).
Qed.

(** Whatever bytes the client sends, on an export of files or a tree (any
    number of files, any flags but copy-on-write and waitfile): the session
    ends the same way and every byte sent is the same on two machines that
    agree on the files of that export, whatever is in all other files and in
    memory. *)
Theorem C91_only_its_export :
  forall c inp w w',
    cflag c F_COPYONWRITE = false -> cflag c F_WAIT = false ->
    alike (own c) false w w' -> same_session (run c inp w) (run c inp w').
Proof.
  intros c inp w w' H1 H2 H. apply (run_alike c false inp w w'); [|exact H].
  unfold waiting. rewrite H1, H2. intros [E|E]; discriminate.
Qed.
Print Assumptions C91_only_its_export.

(** The same for every export, copy-on-write and waitfile included, if memory
    holds the same: still no byte of any other file. *)
Theorem C91_no_other_file :
  forall c inp w w',
    alike (own c) true w w' -> same_session (run c inp w) (run c inp w').
Proof. intros c inp w w' H. apply (run_alike c true inp w w'); [reflexivity|exact H]. Qed.
Print Assumptions C91_no_other_file.

(** ** With worker threads *)

Lemma threads_alike lg c hp n inp l w w' :
  (cflag c F_COPYONWRITE = true \/ waiting c = true -> hp = true) -> alike (own c) hp w w' ->
  same_traffic (sys_run lg c l (sys_init n inp w)) (sys_run lg c l (sys_init n inp w')).
Proof.
  intros Hh Ha.
  assert (H : soutR (own c) hp (sys_run lg c l (sys_init n inp w)) (sys_run lg c l (sys_init n inp w'))).
  { apply (s_run c (own c) hp lg).
    - intros _ k fi E1 E2. left. eauto.
    - intros E. split; [right; exact E|]. intros p. right. exact E.
    - intros E. split; [apply Hh, E|]. right. destruct E as [E|E]; [left; exact E|right].
      unfold waiting in E. destruct (cflag c F_WAIT); [reflexivity|discriminate].
    - apply s_init, alike_R, Ha. }
  unfold soutR, same_traffic in *. destruct (sys_run lg c l (sys_init n inp w)), (sys_run lg c l (sys_init n inp w')); try contradiction; try exact H.
  - destruct H. auto.
  - destruct H. auto.
Qed.

(** Any number of worker threads, however they are scheduled, however much each
    write() takes, and whether they fail: the same bytes are sent and logged. *)
Theorem C91_threads :
  forall lg c n inp l w w',
    cflag c F_COPYONWRITE = false -> cflag c F_WAIT = false -> alike (own c) false w w' ->
    same_traffic (sys_run lg c l (sys_init n inp w)) (sys_run lg c l (sys_init n inp w')).
Proof.
  intros lg c n inp l w w' H1 H2 H. apply (threads_alike lg c false n inp l w w'); [|exact H].
  unfold waiting. rewrite H1, H2. intros [E|E]; discriminate.
Qed.
Print Assumptions C91_threads.
Theorem C91_threads_no_other_file :
  forall lg c n inp l w w', alike (own c) true w w' ->
    same_traffic (sys_run lg c l (sys_init n inp w)) (sys_run lg c l (sys_init n inp w')).
Proof. intros lg c n inp l w w' H. apply (threads_alike lg c true n inp l w w'); [reflexivity|exact H]. Qed.
Print Assumptions C91_threads_no_other_file.

(** ** Examples *)

(** two machines with the export of two files; a third file and memory differ *)
Definition leak_a : world := demo_world [demo_file 10 100; demo_file 6 200; demo_file 50 1] some_short.
Definition leak_b : world :=
  mkW (fun h => match h with FExp i => nth i [demo_file 10 100; demo_file 6 200; demo_file 7 77] demo_empty | _ => demo_empty end)
      (fun _ => false) some_short 0 0 (fun i => i) 0 (fun _ => NOPAGE) 0 0 [].
Definition leak_c (structured : bool) : client := client_of two_setup 4 structured false.
Definition leak_qs : list wreq :=
  [req_write 8 [1; 2; 3; 4]; req_read 5 11; req 3 0 0; req_read 0 17; req 4 11 4; req 6 0 4; req_read 0 16].

Example C91_alike_demo :
  alike (own (leak_c true)) false leak_a leak_b /\
  fsize (w_file leak_a (FExp 2)) <> fsize (w_file leak_b (FExp 2)) /\ w_heap leak_a 0 <> w_heap leak_b 0.
Proof.
  split; [|split; vm_compute; discriminate]. constructor; try reflexivity; [|discriminate].
  intros h [(l & fi & E & Hin & <-)|H].
  - injection E as <-. destruct Hin as [<-|[<-|[]]]; split; reflexivity.
  - destruct h; try contradiction; vm_compute in H; try discriminate. destruct H; discriminate.
Qed.

(** and what the client gets, with plain and with structured replies *)
Example C91_demo :
  forall w, In w [leak_a; leak_b] ->
    observe two_setup 16 (run (leak_c false) (stream leak_qs) w)
    = observe two_setup 16 (run (leak_c false) (stream leak_qs) leak_a) /\
    match run (leak_c false) (stream leak_qs) w with
    | Ret EndClosed w1 => option_map (fun r => map snd (fst r)) (answers leak_qs (concat (sent w1))) =
        Some [Ok []; Ok [105; 106; 107; 1; 2; 3; 4; 202; 203; 204; 205]; Ok []; Err 22; Ok []; Ok [];
              Ok [0; 0; 0; 0; 104; 105; 106; 107; 1; 2; 3; 4; 202; 203; 204; 205]]
    | _ => False
    end.
Proof. intros w [<-|[<-|[]]]; vm_compute; split; reflexivity. Qed.

(** two worker threads taking turns, a log kept, the socket taking a few bytes at
    a time *)
Definition leak_turns : list choice := concat (repeat [CReader; CWork 0 7; CWork 1 5] 200).
Example C91_threads_demo :
  alike (own (leak_c true)) false leak_a leak_b /\
  forall w, In w [leak_a; leak_b] ->
    match sys_run true (leak_c true) leak_turns (sys_init 2 (stream leak_qs) w) with
    | SGo s => zlen (y_out s) = 287 /\ zlen (y_log s) = 416 /\ y_in s = [] /\ y_rd s = RDone false
    | _ => False
    end.
Proof. split; [apply C91_alike_demo|]. intros w [<-|[<-|[]]]; vm_compute; repeat split. Qed.

(** ** What is false *)

Definition bytes_of (o : out ending) : list Z := match o with Ret _ w | Die w => concat (sent w) | _ => [] end.
Lemma same_bytes o o' : same_session o o' -> bytes_of o = bytes_of o'.
Proof. destruct o, o'; cbn; intros H; try contradiction; try reflexivity; [destruct H as [_ ->]|rewrite H]; reflexivity. Qed.

(** With copy-on-write the contents of memory reach the client: two machines
    that differ in nothing else, the same two requests, different answers. *)
Theorem C91_memory_refuted :
  exists c inp w w',
    c_export c <> None /\ cflag c F_COPYONWRITE = true /\
    alike (own c) false w w' /\ (forall h, w_file w h = w_file w' h) /\
    ~ same_session (run c inp w) (run c inp w').
Proof.
  exists (cow_client 4 8192 false), (stream [req_write 4094 [7]; req_read 4094 4]),
    (demo_cow [demo_file 8192 100] all_full 2),
    (mkW (fun h => match h with FExp i => nth i [demo_file 8192 100] demo_empty | _ => demo_empty end)
      (fun _ => false) all_full 0 0 (fun _ => 55) 0 (fun _ => NOPAGE) 2 0 []).
  split; [discriminate|]. split; [reflexivity|]. split; [|split; [reflexivity|]].
  - constructor; try reflexivity; [|discriminate]. intros h _. split; reflexivity.
  - intros H. apply same_bytes in H. revert H. vm_compute. discriminate.
Qed.
Print Assumptions C91_memory_refuted.
