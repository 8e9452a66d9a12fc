(** C82: the commands run around a connection, and its diff file. *)
From Coq Require Import String.
From Verif Require Import Base M_Const M_Acl M_Nego M_Conf M_Virt M_Hook S_Acl S_Virt S_Hook L_VirtP L_Hook.
Local Open Scope list_scope.

(** example: a copy-on-write export with both commands and a directory for diff
    files, one without the directory, and a plain one *)
Definition hk_cow : hconf := mkHconf F_COPYONWRITE (text "mount %s") (text "umount %s") (Some (text "/tmp")).
Definition hk_nodir : hconf := mkHconf F_COPYONWRITE (text "mount %s") (text "umount %s") None.
Definition hk_plain : hconf := mkHconf 0 (text "mount %s") (text "umount %s") None.
Definition hk_wait : hconf := mkHconf F_WAIT [] [] (Some (text "/tmp")).
Definition hk_file : list Z := text "/srv/disk.img".
Definition hk_go (c : hconf) : attempt := mkAtt c hk_file (text "10.0.0.1") true true true true true.
Definition hk_denied (c : hconf) : attempt := mkAtt c hk_file (text "10.0.0.1") true false false false false.
Definition hk_nofile (c : hconf) : attempt := mkAtt c (text "/srv/other.img") (text "10.0.0.1") true true true false false.
Definition hk_pid : list Z := text "77".

(** ** what a command becomes *)
Theorem C82_file_in_command : forall command file cmd, fills command file cmd -> do_run command file = CCmd cmd.
Proof. exact do_run_fills. Qed.
Print Assumptions C82_file_in_command.
Example C82_file_in_command_demo : fills (text "mount %s") hk_file (text "mount /srv/disk.img").
Proof.
  pose proof (fills_file (text "mount ") [] hk_file) as H. vm_compute in H. apply H; intros X; intuition discriminate.
Qed.
(** A client has no say in the text of a command but by its address, in digits,
    a to f, colons and full stops. *)
Theorem C82_client_text_is_harmless : forall pre post cidr a port, free_of 37 pre -> free_of 37 post -> good_addr a ->
  exists name, set_peername (pre ++ text "%s" ++ post) VirtIplit cidr (Some (a, port)) = PSet (Some (pre ++ name ++ post)) name /\
    Forall (fun c => harmless c = true) name.
Proof.
  intros pre post cidr a port H1 H2 Ha. exists (peername a). split; [exact (lit_path pre post cidr a port H1 H2)|exact (safe_name a Ha)].
Qed.
Print Assumptions C82_client_text_is_harmless.
Example C82_client_text_demo : good_addr (V4 [10; 0; 1; 1]) /\ free_of 37 (text "/srv/") /\
  set_peername (text "/srv/%s") VirtIplit 0 (Some (V4 [10; 0; 1; 1], [1; 2])) = PSet (Some (text "/srv/10.0.1.1")) (text "10.0.1.1") /\
  harmless 59 = false /\ harmless 96 = false /\ harmless 36 = false /\ harmless 32 = false.
Proof.
  split; [split; [reflexivity|repeat constructor; unfold is_byte; lia]|]. split; [intros H; vm_compute in H; intuition discriminate|].
  vm_compute. auto.
Qed.

(** ** every connection, however it goes *)
(** The postrun command is run at most once and the diff file is removed at most
    once; a file that is removed is one the same connection had made; and neither
    happens while the connection is being served. *)
Theorem C82_once : forall sigpipe pid l evs s,
  (connection sigpipe pid l evs = HGone s ->
     (length (posts (s_tr s)) <= 1)%nat /\ (length (removed (s_tr s)) <= 1)%nat /\
     forall f, In f (removed (s_tr s)) -> In f (made (s_tr s))) /\
  (forall ok, connection sigpipe pid l evs = HGo ok s -> posts (s_tr s) = [] /\ removed (s_tr s) = []).
Proof.
  intros sp pid l evs s. pose proof (connection_ok sp pid l evs) as H. split.
  - intros E. rewrite E in H. exact H.
  - intros ok E. rewrite E in H. destruct H as (H1 & H2 & _). auto.
Qed.
Print Assumptions C82_once.
Example C82_once_demo :
  match connection true hk_pid [NGo (hk_denied hk_plain); NGo (hk_go hk_cow)] [FEof; FWrite] with
  | HGone s => s_tr s = [HPre (text "mount /srv/disk.img") true; HMake (text "/tmp/disk.img-10.0.0.1-77.diff");
                         HPost (text "umount /srv/disk.img"); HRemove (text "/tmp/disk.img-10.0.0.1-77.diff")]
  | _ => False
  end.
Proof. vm_compute. reflexivity. Qed.
(** A client is served only after the prerun command of the export has ended with
    status 0. *)
Theorem C82_prerun_decides : forall pid a s s', commit pid a s = HGo true s' -> h_prerun (a_conf a) <> [] ->
  a_pre a = true /\ exists cmd, do_run (h_prerun (a_conf a)) (a_name a) = CCmd cmd /\ In cmd (pres (s_tr s')).
Proof. exact commit_pre. Qed.
Print Assumptions C82_prerun_decides.
Example C82_prerun_demo : exists s', commit hk_pid (hk_go hk_cow) hst0 = HGo true s' /\ pres (s_tr s') = [text "mount /srv/disk.img"].
Proof. eexists. split; [vm_compute; reflexivity|]. vm_compute. reflexivity. Qed.

(** ** a connection that is served *)
(** From the first attempt to the end: attempts that were turned away, the
    prerun, the diff file made, the postrun, the diff file removed.  The client
    keeps to the protocol, no signal ends the process, and the attempts before
    the one served were turned away no later than by their prerun. *)
Theorem C82_served_partial : forall sigpipe pid l x a evs pre post s,
  Forall (fun y => exists b, y = NGo b /\ turned_away b /\ well_formed (h_prerun (a_conf b))) l ->
  (x = NGo a \/ x = NName a) -> gets_in a ->
  flag (h_flags (a_conf a)) F_WAIT = false ->
  (flag (h_flags (a_conf a)) F_COPYONWRITE = true -> h_cowdir (a_conf a) <> None) -> last (a_name a) 0 <> 47 ->
  runs (h_prerun (a_conf a)) (a_name a) pre -> runs (h_postrun (a_conf a)) (a_name a) post ->
  fair sigpipe evs -> connection sigpipe pid (l ++ [x]) evs = HGone s ->
  exists d files, only_refusals d /\
    s_tr s = d ++ map (fun c => HPre c true) pre ++ map HMake files ++ map HPost post ++ map HRemove files.
Proof.
  intros sp pid l x a evs pre post s HF Hx Hg Hw Hd Hl Hpre Hpost Hfair H.
  assert (Hn : cow_like (a_conf a) = flag (h_flags (a_conf a)) F_COPYONWRITE) by (unfold cow_like; rewrite Hw; apply orb_false_r).
  destruct (served_ended sp pid l x a evs pre post s HF Hx Hg Hpre) as (d & P & T); [|exact Hfair|exact H|].
  - unfold diff_parts. rewrite Hn. destruct (flag (h_flags (a_conf a)) F_COPYONWRITE).
    + specialize (Hd eq_refl). destruct (h_cowdir (a_conf a)) as [c|]; [|congruence].
      pose proof (basename_keeps (a_name a) Hl) as K. destruct (basename (a_name a)) as [b n2]. cbn [snd] in K. rewrite K. exact Hpost.
    + destruct (match h_cowdir (a_conf a) with Some d0 => _ | None => _ end) as [c n1]. destruct (basename n1). exact Hpost.
  - rewrite Hn in T. destruct (diff_parts (a_conf a) (a_name a)) as [[dir base] n2]. cbv zeta in T.
    exists d, (if flag (h_flags (a_conf a)) F_COPYONWRITE then [diff_name dir base (a_client a) pid] else []).
    split; [exact P|]. rewrite T. destruct (flag (h_flags (a_conf a)) F_COPYONWRITE); reflexivity.
Qed.
Print Assumptions C82_served_partial.
Example C82_served_demo :
  turned_away (hk_denied hk_plain) /\ gets_in (hk_go hk_cow) /\ fair true [FWrite; FEof] /\ last hk_file 0 <> 47 /\
  runs (text "umount %s") hk_file [text "umount /srv/disk.img"] /\
  match connection true hk_pid ([NGo (hk_denied hk_plain)] ++ [NName (hk_go hk_cow)]) [FWrite; FEof] with HGone _ => True | _ => False end.
Proof.
  split; [left; reflexivity|]. split; [repeat split; right; reflexivity|]. split; [unfold fair; cbn; intuition discriminate|].
  split; [vm_compute; discriminate|]. split; [|vm_compute; exact I].
  apply runs_one. pose proof (fills_file (text "umount ") [] hk_file) as H. vm_compute in H. apply H; intros X; intuition discriminate.
Qed.
(** The end does come once the connection is closed or lost. *)
Theorem C82_end_comes : forall sigpipe pid l evs s, connection sigpipe pid l evs = HGo true s ->
  connection sigpipe pid l (evs ++ [FEof; FDone]) = finalize s /\
  connection sigpipe pid l (evs ++ [FDisc; FDone]) = finalize s.
Proof. exact lost_ends. Qed.
Print Assumptions C82_end_comes.
Example C82_end_demo : exists s, connection true hk_pid [NGo (hk_go hk_cow)] [FWrite] = HGo true s /\
  match finalize s with HGone s' => posts (s_tr s') = [text "umount /srv/disk.img"] | _ => False end.
Proof. eexists. split; [vm_compute; reflexivity|]. vm_compute. reflexivity. Qed.
(** With a directory for diff files, the file is in it and named after the
    export's file, the client and the process. *)
Theorem C82_diff_file : forall pid a s d b dir, gets_in a -> h_prerun (a_conf a) = [] -> flag (h_flags (a_conf a)) F_COPYONWRITE = true ->
  h_cowdir (a_conf a) = Some dir -> in_dir (a_name a) d b ->
  exists s', commit pid a s = HGo true s' /\ s_name s' = a_name a /\
    s_tr s' = s_tr s ++ [HMake (dir ++ text "/" ++ b ++ text "-" ++ a_client a ++ text "-" ++ pid ++ text ".diff")].
Proof.
  intros pid a s d b dir Hg Hp Hc Hd Hi.
  assert (Hr : runs (h_prerun (a_conf a)) (a_name a) []) by (rewrite Hp; constructor).
  pose proof (in_go pid a s [] Hg Hr) as H. unfold diff_parts in H. rewrite Hd, (basename_in _ _ _ Hi) in H. cbv zeta in H.
  unfold cow_like in H. rewrite Hc in H. cbn [orb map app] in H. eexists. split; [exact H|]. split; reflexivity.
Qed.
Print Assumptions C82_diff_file.
Example C82_diff_file_demo : in_dir hk_file (text "/srv") (text "disk.img").
Proof. split; [reflexivity|]. split; [discriminate|]. split; [vm_compute; discriminate|]. split; [discriminate|]. intros H; vm_compute in H; intuition discriminate. Qed.

(** ** where this fails *)
(** Without cowdir the file name kept for the connection is cut down to its
    directory: the diff file is named after the directory, the postrun command is
    given the directory instead of the file, for every export and client. *)
Theorem C82_cut_name_refuted : forall pid a s d b, gets_in a -> h_prerun (a_conf a) = [] -> flag (h_flags (a_conf a)) F_COPYONWRITE = true ->
  h_cowdir (a_conf a) = None -> in_dir (a_name a) d b ->
  exists s', commit pid a s = HGo true s' /\ s_name s' = fst (dirname (a_name a)) /\ s_name s' = snd (basename d) /\ s_name s' <> a_name a.
Proof.
  intros pid a s d b Hg Hp Hc Hd Hi.
  assert (Hr : runs (h_prerun (a_conf a)) (a_name a) []) by (rewrite Hp; constructor).
  pose proof (in_go pid a s [] Hg Hr) as H. unfold diff_parts in H. rewrite Hd, (dirname_in _ _ _ Hi) in H. cbv zeta in H.
  pose proof Hi as (Ep & Hdn & Hdl & _). pose proof (basename_keeps d Hdl) as K. destruct (basename d) as [bb n2]. cbn [snd] in K. subst n2.
  unfold cow_like in H. rewrite Hc in H. cbn [orb map app] in H. eexists. split; [exact H|]. cbn [s_name]. rewrite (dirname_in _ _ _ Hi).
  repeat split. rewrite Ep. intros E. apply (f_equal (@length Z)) in E. rewrite !app_length in E. cbn in E. lia.
Qed.
Print Assumptions C82_cut_name_refuted.
Example C82_cut_name_demo :
  match connection true hk_pid [NGo (hk_go hk_nodir)] [FDisc; FDone] with
  | HGone s => s_tr s = [HPre (text "mount /srv/disk.img") true; HMake (text "/srv/srv-10.0.0.1-77.diff");
                         HPost (text "umount /srv"); HRemove (text "/srv/srv-10.0.0.1-77.diff")]
  | _ => False
  end.
Proof. vm_compute. reflexivity. Qed.
(** A GO that fails after the prerun is not undone: the next GO runs a second
    prerun, and only the last export gets its postrun. *)
Theorem C82_second_go_refuted : exists l evs s, fair true evs /\ connection true hk_pid l evs = HGone s /\
  pres (s_tr s) = [text "mount /srv/other.img"; text "mount /srv/disk.img"] /\ posts (s_tr s) = [text "umount /srv/disk.img"].
Proof.
  exists [NGo (hk_nofile hk_plain); NGo (hk_go hk_plain)], [FDisc; FDone]. eexists.
  split; [unfold fair; cbn; intuition discriminate|]. split; [vm_compute; reflexivity|]. vm_compute. auto.
Qed.
Print Assumptions C82_second_go_refuted.
(** Giving up after it leaves the prerun without its postrun. *)
Theorem C82_abort_refuted : exists l s, connection true hk_pid l [] = HGone s /\
  pres (s_tr s) = [text "mount /srv/other.img"] /\ posts (s_tr s) = [].
Proof. exists [NGo (hk_nofile hk_plain); NQuit]. eexists. split; [vm_compute; reflexivity|]. vm_compute. auto. Qed.
Print Assumptions C82_abort_refuted.
(** Losing the connection after it runs the postrun of the export asked for last,
    even when access to that export was refused before its prerun. *)
Theorem C82_wrong_postrun_refuted : exists c l s, h_prerun c = text "mount %s" /\ h_postrun c = text "discard" /\
  l = [NGo (hk_nofile hk_plain); NGo (hk_denied c); NLost] /\ connection true hk_pid l [] = HGone s /\
  pres (s_tr s) = [text "mount /srv/other.img"] /\ posts (s_tr s) = [text "discard"].
Proof.
  exists (mkHconf 0 (text "mount %s") (text "discard") None). eexists. eexists. split; [reflexivity|]. split; [reflexivity|]. split; [reflexivity|].
  split; [vm_compute; reflexivity|]. vm_compute. auto.
Qed.
Print Assumptions C82_wrong_postrun_refuted.
(** A connection lost while a reply is being written ends the process by SIGPIPE,
    unless that was ignored from the start: no postrun, and the diff file stays. *)
Theorem C82_sigpipe_refuted : exists s, connection false hk_pid [NGo (hk_go hk_cow)] [FEof; FWrite; FDone] = HGone s /\
  posts (s_tr s) = [] /\ removed (s_tr s) = [] /\ made (s_tr s) = [text "/tmp/disk.img-10.0.0.1-77.diff"].
Proof. eexists. split; [vm_compute; reflexivity|]. vm_compute. auto. Qed.
Print Assumptions C82_sigpipe_refuted.
(** So does a request with a wrong magic number. *)
Theorem C82_magic_refuted : exists s, connection true hk_pid [NGo (hk_go hk_cow)] [FMagic] = HGone s /\
  posts (s_tr s) = [] /\ removed (s_tr s) = [] /\ made (s_tr s) = [text "/tmp/disk.img-10.0.0.1-77.diff"].
Proof. eexists. split; [vm_compute; reflexivity|]. vm_compute. auto. Qed.
Print Assumptions C82_magic_refuted.
(** So does stopping the server. *)
Theorem C82_sigterm_refuted : exists s, connection true hk_pid [NGo (hk_go hk_cow)] [FKill] = HGone s /\
  posts (s_tr s) = [] /\ removed (s_tr s) = [] /\ made (s_tr s) = [text "/tmp/disk.img-10.0.0.1-77.diff"].
Proof. eexists. split; [vm_compute; reflexivity|]. vm_compute. auto. Qed.
Print Assumptions C82_sigterm_refuted.
(** The diff file of an export with waitfile is never removed, whatever happens:
    for every connection to one. *)
Theorem C82_wait_refuted : forall sigpipe pid a evs s,
  gets_in a -> h_prerun (a_conf a) = [] -> h_postrun (a_conf a) = [] ->
  flag (h_flags (a_conf a)) F_WAIT = true -> flag (h_flags (a_conf a)) F_COPYONWRITE = false -> fair sigpipe evs ->
  connection sigpipe pid [NGo a] evs = HGone s ->
  exists f, made (s_tr s) = [f] /\ removed (s_tr s) = [].
Proof.
  intros sp pid a evs s Hg Hp Hq Hw Hc Hf H.
  assert (Hr : runs (h_prerun (a_conf a)) (a_name a) []) by (rewrite Hp; constructor).
  destruct (served_ended sp pid [] (NGo a) a evs [] [] s (Forall_nil _) (or_introl eq_refl) Hg Hr) as (d & P & T); [|exact Hf|exact H|].
  - destruct (diff_parts (a_conf a) (a_name a)) as [[? ?] ?]. rewrite Hq. constructor.
  - destruct (diff_parts (a_conf a) (a_name a)) as [[dir base] n2]. cbv zeta in T. unfold cow_like in T. rewrite Hw, Hc in T. cbn [orb map app] in T.
    destruct (refusals_none d P) as (_ & M & _ & R).
    exists (diff_name dir base (a_client a) pid). rewrite T, made_app, removed_app, M, R. auto.
Qed.
Print Assumptions C82_wait_refuted.
Example C82_wait_demo : gets_in (hk_go hk_wait) /\
  match connection true hk_pid [NGo (hk_go hk_wait)] [FDisc; FDone] with
  | HGone s => s_tr s = [HMake (text "/tmp/disk.img-10.0.0.1-77.diff")] | _ => False end.
Proof. split; [repeat split; left; reflexivity|]. vm_compute. reflexivity. Qed.
(** A diff file that cannot be made ends the process after the prerun. *)
Theorem C82_no_diff_refuted : exists a s, a_setup a = true /\ connection true hk_pid [NGo a] [] = HGone s /\
  pres (s_tr s) = [text "mount /srv/disk.img"] /\ posts (s_tr s) = [].
Proof.
  exists (mkAtt hk_cow hk_file (text "10.0.0.1") true true true true false). eexists. split; [reflexivity|]. split; [vm_compute; reflexivity|]. vm_compute. auto.
Qed.
Print Assumptions C82_no_diff_refuted.
(** A command naming the file twice takes an argument that was never passed. *)
Theorem C82_twice_refuted : exists a, h_prerun (a_conf a) = text "cp %s %s.bak" /\ connection true hk_pid [NGo a] [] = HUb.
Proof.
  exists (hk_go (mkHconf 0 (text "cp %s %s.bak") [] None)). split; [reflexivity|]. vm_compute. reflexivity.
Qed.
Print Assumptions C82_twice_refuted.
