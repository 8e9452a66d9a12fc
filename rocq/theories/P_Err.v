(** C97: reporting an error does no harm. *)
From Coq Require Import String.
From Verif Require Import Base M_Const M_Client M_Nego M_Setup M_Err S_Err L_Err.
Local Open Scope list_scope.

(** strerror(ENOENT), hstrerror(HOST_NOT_FOUND), an unused buffer *)
Definition no_file : list Z := text "No such file or directory".
Definition no_host : list Z := text "Unknown host".
Definition fresh : list Z := repeat 170 150.

(** ** the report *)

(** Every text asks for one report. *)
Theorem C97_asks_total : forall em eh s, exists full used, asks em eh s full used.
Proof. exact asks_total. Qed.
Print Assumptions C97_asks_total.
(** If what comes before the end of the inserted text is shorter than the buffer,
    the report is what was asked for, cut at 149 bytes; *)
Theorem C97_report : forall em eh s b full used,
  c_string em -> c_string eh -> c_string s -> length b = 150%nat ->
  asks em eh s full used -> used < 150 -> err_nonfatal em eh s b = Some (firstn 149 full).
Proof. exact report_ok. Qed.
Print Assumptions C97_report.
(** if not, memory outside of the buffer is written or read. *)
Theorem C97_overrun : forall em eh s b full used,
  c_string em -> c_string eh -> c_string s -> length b = 150%nat ->
  asks em eh s full used -> 150 <= used -> err_nonfatal em eh s b = None.
Proof. exact report_over. Qed.
Print Assumptions C97_overrun.

(** The rule the client's negotiation is judged by in C60 (M_Client.v) is this one. *)
Theorem C97_client_rule : forall E s b, c_string (M_Client.e_strerror E) -> c_string (M_Client.e_hstrerror E) -> c_string s -> length b = 150%nat ->
  M_Client.err_safe E s = match err_nonfatal (M_Client.e_strerror E) (M_Client.e_hstrerror E) s b with Some _ => true | None => false end.
Proof. exact err_safe_exact. Qed.
Print Assumptions C97_client_rule.

Lemma cs_dec s : forallb (fun c => negb (c =? 0)) s = true -> c_string s.
Proof. intros H X. rewrite forallb_forall in H. apply H in X. discriminate X. Qed.
Example C97_report_demo :
  c_string no_file /\ c_string no_host /\ length fresh = 150%nat /\
  asks no_file no_host (open_failed (text "/srv/disk")) (text "Could not open exported file /srv/disk: No such file or directory") 65 /\
  err_nonfatal no_file no_host (open_failed (text "/srv/disk")) fresh = Some (text "Could not open exported file /srv/disk: No such file or directory") /\
  err_nonfatal no_file no_host (text "Cannot find %h: %h") fresh = Some (text "Cannot find Unknown host: %h") /\
  option_map zlen (err_nonfatal no_file no_host (repeat 65 400) fresh) = Some 149.
Proof.
  split; [apply cs_dec; reflexivity|]. split; [apply cs_dec; reflexivity|]. split; [reflexivity|].
  split; [|vm_compute; auto]. apply (open_failed_asks no_file no_host (text "/srv/disk")). apply find_none. reflexivity.
Qed.

(** ** texts *)

(** Whatever is given to the reporting functions as a fixed text in the server and
    the client comes out whole, if the system's texts are of at most 80 bytes. *)
Definition fixed_texts : list (Z * list Z) := server_texts ++ cliserv_texts ++ tree_texts ++ client_texts ++ status_texts.
Definition fits (t : list Z) : bool :=
  forallb (fun c => negb (c =? 0)) t &&
  match find 109 t with
  | Some p => zlen t - 2 + 80 <? 150
  | None => match find 104 t with Some p => zlen t - 2 + 80 <? 150 | None => zlen t <? 150 end
  end.
Lemma all_fit : forallb (fun p => fits (snd p)) fixed_texts = true.
Proof. vm_compute. reflexivity. Qed.
Theorem C97_fixed_texts : forall line t em eh b, In (line, t) fixed_texts ->
  c_string em -> c_string eh -> zlen em <= 80 -> zlen eh <= 80 -> length b = 150%nat ->
  exists full used, asks em eh t full used /\ err_nonfatal em eh t b = Some full.
Proof.
  intros line t em eh b Hin Hm Hh Lm Lh Hb. pose proof all_fit as A. rewrite forallb_forall in A. apply A in Hin. cbn [snd] in Hin.
  unfold fits in Hin. apply andb_true_iff in Hin. destruct Hin as [Hc Hf]. apply cs_dec in Hc.
  destruct (asks_total em eh t) as (full & used & Ha). exists full, used. split; [exact Ha|].
  assert (K : zlen full < 150 /\ used < 150).
  { destruct Ha as [pre post H|pre post H1 H|H1 H2].
    - rewrite (find_splits _ _ _ _ H) in Hf. destruct H as [-> _]. rewrite !zlen_app in *. change (zlen [37; 109]) with 2 in Hf.
      pose proof (zlen_nonneg post). lia.
    - rewrite (find_lacks _ _ H1), (find_splits _ _ _ _ H) in Hf. destruct H as [-> _]. rewrite !zlen_app in *. change (zlen [37; 104]) with 2 in Hf.
      pose proof (zlen_nonneg post). lia.
    - rewrite (find_lacks _ _ H1), (find_lacks _ _ H2) in Hf. lia. }
  rewrite (report_ok em eh t b full used Hm Hh Hc Hb Ha) by lia. f_equal. apply firstn_all2. destruct K as [K _]. rewrite zlen_len in K. lia.
Qed.
Print Assumptions C97_fixed_texts.
Example C97_fixed_texts_demo : In (2106, text "Could not expand file: %m") fixed_texts /\ zlen no_file <= 80 /\
  err_nonfatal no_file no_host (text "Could not expand file: %m") fresh = Some (text "Could not expand file: No such file or directory").
Proof. split; [vm_compute; tauto|]. split; [vm_compute; discriminate|vm_compute; reflexivity]. Qed.

(** Names of users and groups and the texts of the TLS library come without a
    %-sequence of their own: they are cut, whatever their length. *)
Theorem C97_plain_names : forall s em eh b, c_string em -> c_string eh -> c_string s -> length b = 150%nat ->
  lacks 109 s -> lacks 104 s -> err_nonfatal em eh s b = Some (firstn 149 s).
Proof.
  intros s em eh b Hm Hh Hs Hb H1 H2. apply (report_ok em eh s b s 0); auto; [|lia]. apply Asks_none; assumption.
Qed.
Print Assumptions C97_plain_names.
Example C97_plain_names_demo : lacks 109 (bad_user (repeat 97 200)) /\ lacks 104 (bad_user (repeat 97 200)) /\
  lacks 109 (tls_said true true (text "Error in the pull function.")) /\ c_string (bad_group (text "staff")).
Proof. repeat split; try (apply find_none; reflexivity). apply cs_dec. reflexivity. Qed.

(** ** opening an export *)

(** A file that cannot be opened: with a short enough name the connection is
    refused and the report is complete. *)
Theorem C97_refusal_partial : forall em eh b flags expected ms name,
  c_string em -> c_string eh -> zlen em <= 80 -> c_string name -> lacks 109 name -> length b = 150%nat -> zlen name + zlen em < 117 ->
  setupexport flags expected ms = SetupFail ->
  exists said, begin_export em eh b flags expected ms name = StNo said /\
    (first_opened flags expected ms = false ->
     said = text "Could not open exported file " ++ first_name (flag flags F_MULTIFILE) name ++ text ": " ++ em).
Proof.
  intros em eh b flags expected ms name Hm Hh Lm Hn Hp Hb Hl Hs. unfold begin_export. rewrite Hs. unfold complaint.
  destruct (first_opened flags expected ms) eqn:Ef; cbn [negb].
  - destruct (extends flags expected ms).
    + assert (A : asks em eh (text "Could not expand file: %m") (text "Could not expand file: " ++ em ++ []) (23 + zlen em)).
      { refine (Asks_m em eh (text "Could not expand file: %m") (text "Could not expand file: ") [] _).
        assert (F : find 109 (text "Could not expand file: %m") = Some 23) by reflexivity.
        apply find_some in F. destruct F as (p & q & [F1 F2] & F3). split; [reflexivity|]. intros x y E. apply F2 in E.
        rewrite zlen_len in F3. change (length (text "Could not expand file: ")) with 23%nat. lia. }
      rewrite (report_ok em eh _ b _ _ Hm Hh (cs_dec (text "Could not expand file: %m") eq_refl) Hb A) by lia.
      eexists. split; [reflexivity|]. discriminate.
    + rewrite (C97_plain_names _ em eh b Hm Hh (cs_dec (text "Size of exported file is too big" ++ [10]) eq_refl) Hb) by (apply find_none; reflexivity).
      eexists. split; [reflexivity|]. discriminate.
  - set (n := first_name (flag flags F_MULTIFILE) name).
    assert (Ln : zlen n <= zlen name + 2).
    { unfold n, first_name. destruct (flag flags F_MULTIFILE); [rewrite zlen_app; change (zlen (text ".0")) with 2; lia|lia]. }
    assert (Cn : c_string n).
    { unfold n, first_name. destruct (flag flags F_MULTIFILE); [apply cs_app; split; [exact Hn|apply cs_dec; reflexivity]|exact Hn]. }
    assert (Pn : lacks 109 n).
    { unfold n, first_name. destruct (flag flags F_MULTIFILE); [|exact Hp]. change (text ".0") with ([46] ++ [48]). rewrite app_assoc.
      apply lacks_app; [apply lacks_app; [exact Hp|lia]|lia]. }
    rewrite (report_ok em eh _ b _ _ Hm Hh (open_failed_cs n Cn) Hb (open_failed_asks em eh n Pn)) by lia.
    eexists. split; [reflexivity|]. intros _. apply firstn_all2.
    assert (zlen (text "Could not open exported file " ++ n ++ text ": " ++ em) <= 149); [|rewrite zlen_len in *; lia].
    rewrite !zlen_app. change (zlen (text "Could not open exported file ")) with 29. change (zlen (text ": ")) with 2. lia.
Qed.
Print Assumptions C97_refusal_partial.
Example C97_refusal_demo : c_string (text "/srv/disk") /\ lacks 109 (text "/srv/disk") /\ setupexport F_MULTIFILE 0 [] = SetupFail /\
  begin_export no_file no_host fresh F_MULTIFILE 0 [] (text "/srv/disk") =
    StNo (text "Could not open exported file /srv/disk.0: No such file or directory") /\
  begin_export no_file no_host fresh 0 4096 [mkMem true true 512] (text "/srv/disk") = StNo (text "Size of exported file is too big" ++ [10]).
Proof.
  split; [apply cs_dec; reflexivity|]. split; [apply find_none; reflexivity|]. vm_compute. auto.
Qed.

(** What the start of an export ends in is what setupexport ends in; a refusal says
    the complaint, if that fits. *)
Theorem C97_start_follows_setup : forall em eh b flags expected ms name,
  (forall s, begin_export em eh b flags expected ms name = StOk s <-> setupexport flags expected ms = SetupOk s) /\
  (forall said, begin_export em eh b flags expected ms name = StNo said <->
     setupexport flags expected ms = SetupFail /\ err_nonfatal em eh (complaint flags expected ms name) b = Some said) /\
  (begin_export em eh b flags expected ms name = StUb <->
     setupexport flags expected ms = SetupUb \/
     (setupexport flags expected ms = SetupFail /\ err_nonfatal em eh (complaint flags expected ms name) b = None)).
Proof.
  intros. unfold begin_export. destruct (setupexport flags expected ms) as [| |s0].
  - destruct (err_nonfatal em eh (complaint flags expected ms name) b) as [t|]; repeat split; intros; try discriminate; try congruence; auto; intuition (try discriminate; congruence).
  - repeat split; intros; try discriminate; try congruence; auto; intuition discriminate.
  - repeat split; intros; try discriminate; try congruence; intuition (try discriminate; congruence).
Qed.
Print Assumptions C97_start_follows_setup.
(** A multi-file export of two files of 2^62 bytes overflows off_t. *)
Example C97_start_follows_setup_demo :
  let big := mkMem true true 4611686018427387904 in
  setupexport F_MULTIFILE 0 [big; big] = SetupUb /\ begin_export no_file no_host fresh F_MULTIFILE 0 [big; big] (text "/srv/d") = StUb /\
  begin_export no_file no_host fresh 0 0 [] (text "/srv/d") = StNo (text "Could not open exported file /srv/d: No such file or directory").
Proof. vm_compute. auto. Qed.

(** ** What is false *)

(** An export whose path has 119 bytes or more (31 of fixed text come before the
    system's): if its file cannot be opened, the report overruns the stack,
    whatever the system's text is. *)
Theorem C97_every_long_name : forall em eh b flags expected ms name,
  c_string em -> c_string eh -> c_string name -> lacks 109 (first_name (flag flags F_MULTIFILE) name) -> length b = 150%nat ->
  119 <= zlen name -> setupexport flags expected ms = SetupFail -> first_opened flags expected ms = false ->
  begin_export em eh b flags expected ms name = StUb.
Proof.
  intros em eh b flags expected ms name Hm Hh Hn Hp Hb Hl Hs Ho. unfold begin_export. rewrite Hs. unfold complaint. rewrite Ho. cbn [negb].
  set (n := first_name (flag flags F_MULTIFILE) name) in *.
  assert (Cn : c_string n).
  { unfold n, first_name. destruct (flag flags F_MULTIFILE); [apply cs_app; split; [exact Hn|apply cs_dec; reflexivity]|exact Hn]. }
  assert (Ln : zlen name <= zlen n).
  { unfold n, first_name. destruct (flag flags F_MULTIFILE); [rewrite zlen_app; change (zlen (text ".0")) with 2; lia|lia]. }
  rewrite (report_over em eh _ b _ _ Hm Hh (open_failed_cs n Cn) Hb (open_failed_asks em eh n Hp)); [reflexivity|].
  pose proof (zlen_nonneg em). lia.
Qed.
Print Assumptions C97_every_long_name.
Theorem C97_long_name_refuted : exists name, c_string name /\ zlen name < 4096 /\
  begin_export no_file no_host fresh 0 0 [] name = StUb.
Proof.
  exists (text "/srv/" ++ repeat 97 95 ++ text ".img"). split; [apply cs_dec; reflexivity|]. split; vm_compute; reflexivity.
Qed.
Print Assumptions C97_long_name_refuted.
Example C97_every_long_name_demo : c_string (repeat 97 119) /\ lacks 109 (first_name false (repeat 97 119)) /\
  setupexport 0 0 [] = SetupFail /\ first_opened 0 0 [] = false.
Proof. split; [apply cs_dec; reflexivity|]. split; [apply find_none; reflexivity|]. auto. Qed.
