(** Proofs about whole connections. *)
From Verif Require Import Base M_Const M_Disk M_Tree M_Raw M_Setup M_Par M_Io M_Acl M_Nego S_Nego M_Conn L_Wp S_Leak L_Props L_Own S_Conn L_Nego L_NegoTls L_NegoLoop L_Opens P_Own P_Leak.
Open Scope list_scope.

(** the growth of a file is what setupexport reports, whatever was demoted before *)
Lemma growth_exact e0 e su : xrel e0 e -> setupexport (x_flags e) (x_expected e) (x_files e) = SetupOk su ->
  flag (x_flags e0) F_TEMPORARY = false -> su_trunc su = growth e0.
Proof.
  intros (_ & _ & X3 & _ & X5 & X6) H T. rewrite X3, X5 in H. unfold setupexport, growth in *.
  assert (A1 : flag (x_flags e) F_TREEFILES = flag (x_flags e0) F_TREEFILES) by (apply (demoted_flag _ _ _ X6); try discriminate; pow 13).
  assert (A2 : flag (x_flags e) F_WAIT = flag (x_flags e0) F_WAIT) by (apply (demoted_flag _ _ _ X6); try discriminate; pow 16).
  assert (A3 : flag (x_flags e) F_MULTIFILE = flag (x_flags e0) F_MULTIFILE) by (apply (demoted_flag _ _ _ X6); try discriminate; pow 1).
  assert (A4 : flag (x_flags e) F_TEMPORARY = false) by (rewrite <- T; apply (demoted_flag _ _ _ X6); try discriminate; pow 10).
  rewrite A1, A2 in H. destruct (flag (x_flags e0) F_TREEFILES || flag (x_flags e0) F_WAIT) eqn:B.
  - injection H as <-. reflexivity.
  - rewrite A3 in H. rewrite T. cbn [orb]. destruct (flag (x_flags e0) F_MULTIFILE).
    + destruct (setup_multi _ _ _ _) as [[[[f a] b] c]|]; [|discriminate]. destruct a; [discriminate|].
      destruct (setup_size _ _); [|discriminate]. injection H as <-. reflexivity.
    + unfold open_single in H. rewrite A4 in H. destruct (x_files e0) as [|m ms]; [discriminate|].
      destruct (open_member _ _ m) as [[f rw]|]; [|discriminate].
      destruct ((mb_size m =? 0) && negb (x_expected e0 =? 0)).
      * destruct rw; [|discriminate]. injection H as <-. reflexivity.
      * destruct (setup_size _ _); [|discriminate]. injection H as <-. reflexivity.
Qed.

Section Conn.
Variable place : nat -> nat -> nat.

Lemma growth_expected e n : growth e = Some n -> n = x_expected e.
Proof.
  unfold growth. destruct (_ || _ || _); [discriminate|]. destruct (flag _ F_TEMPORARY); [intros H; injection H as <-; reflexivity|].
  destruct (x_files e); [discriminate|]. destruct (_ && _); [|discriminate]. intros H; injection H as <-; reflexivity.
Qed.
Lemma after_snoc l tr v D : after_nego place l (tr ++ [v]) D = after_event place l (after_nego place l tr D) v.
Proof. unfold after_nego. rewrite fold_left_app. reflexivity. Qed.

(** what an event does to one file *)
Lemma event_file l D v g :
  d_file (after_event place l D v) g = d_file D g \/
  exists j e, v = NOpen j true /\ nth_error l j = Some e /\ place j 0%nat = g /\ grown e (d_file D g) (d_file (after_event place l D v) g).
Proof.
  destruct v; cbn [after_event]; auto. destruct ok; auto. destruct (nth_error l i) as [e|] eqn:N; auto.
  destruct (growth e) as [n|] eqn:G; auto. destruct (_ || _) eqn:C; auto. cbn [set_dfile d_file].
  destruct (g =? place i 0)%nat eqn:P; auto. right. apply Nat.eqb_eq in P. subst g. exists i, e. repeat split; auto.
  - apply orb_prop in C. destruct C as [C|C]; [right; exact C|left; lia].
  - rewrite (growth_expected _ _ G). reflexivity.
Qed.
Lemma event_block l D v : d_block (after_event place l D v) = d_block D /\ d_there (after_event place l D v) = d_there D.
Proof.
  destruct v; cbn [after_event]; auto. destruct ok; auto. destruct (nth_error l i) as [e|]; auto.
  destruct (growth e); auto. destruct (_ || _); auto.
Qed.
Lemma nego_block l tr D : d_block (after_nego place l tr D) = d_block D /\ d_there (after_nego place l tr D) = d_there D.
Proof.
  induction tr as [|v tr IH] using rev_ind; [auto|]. rewrite after_snoc. destruct (event_block l (after_nego place l tr D) v) as [-> ->]. exact IH.
Qed.
Lemma nego_file l tr D g : private place l ->
  d_file (after_nego place l tr D) g = d_file D g \/
  exists j e, In (NOpen j true) tr /\ nth_error l j = Some e /\ place j 0%nat = g /\ grown e (d_file D g) (d_file (after_nego place l tr D) g).
Proof.
  intros Hp. induction tr as [|v tr IH] using rev_ind; [auto|]. rewrite after_snoc. set (D1 := after_nego place l tr D) in *.
  destruct (event_file l D1 v g) as [-> |(j & e & -> & N & P & (G1 & G2))].
  - destruct IH as [IH|(j & e & A & B)]; [auto|]. right. exists j, e. split; [apply in_app_iff; auto|exact B].
  - right. exists j, e. split; [apply in_app_iff; right; left; reflexivity|]. split; [exact N|]. split; [exact P|].
    split; [|exact G2]. destruct (flag (x_flags e) F_TEMPORARY) eqn:T; [auto|]. left.
    destruct G1 as [G1|G1]; [|discriminate]. destruct IH as [IH|(j' & e' & A & B & C & (K1 & K2))]; [rewrite <- IH; exact G1|].
    destruct K1 as [K1|K1]; [exact K1|]. pose proof (Hp j' e' j 0%nat B K1 ltac:(congruence)) as ->. congruence.
Qed.


Lemma demoted_readonly f0 f : demoted f0 f -> flag f0 F_READONLY = true -> flag f F_READONLY = true.
Proof.
  intros [-> | ->] H; [exact H|]. unfold flag. change F_READONLY with (2 ^ 0). 
  assert (K : Z.testbit (Z.land (Z.lor (Z.lor f0 F_AUTOREADONLY) (2 ^ 0)) (2 ^ 0)) 0 = true).
  { rewrite Z.land_spec, Z.lor_spec. cbn. rewrite orb_true_r. reflexivity. }
  destruct (Z.land _ _ =? 0) eqn:Z0; [|reflexivity]. apply Z.eqb_eq in Z0. rewrite Z0 in K. discriminate.
Qed.

(** the export served, its flags and what its opening left behind *)
Lemma served_export E l glob plain secure i s : Forall is_byte plain -> Forall is_byte secure ->
  negotiate E (fresh l glob plain secure) = NRet (Some i) s ->
  exists e, nth_error l i = Some e /\ In (NOpen i true) (n_tr s) /\ demoted (x_flags e) (x_flags (nth_export i s)).
Proof.
  intros Hp Hs H. destruct (negotiate_enters E l glob plain secure i s Hp Hs H) as
    (cf & rest0 & pre & name & sel & e0 & e & parent & before & seg & sends & su & _ & _ & _ & _ & N & X & _ & _ & T & G & _ & _ & _ & SU & _ & F & _).
  exists e0. split; [exact N|]. split.
  - destruct G as (p1 & cow & -> & _ & _). rewrite T. apply in_app_iff. right. apply in_app_iff. left.
    apply in_app_iff. right. apply in_app_iff. right. apply in_app_iff. right. left. reflexivity.
  - rewrite F, (setup_flags_ok _ _ _ _ SU). eapply demoted_trans; [apply X|apply setup_flags_demoted].
Qed.

Lemma connection_changes E l glob lg n fs namelen plain secure turns D w tr served D' out log :
  Forall is_byte plain -> Forall is_byte secure -> private place l ->
  connection place E l glob lg n fs namelen plain secure turns D w = CEnd tr served D' out log ->
  (forall g, d_file D' g = d_file D g \/
     exists j k e, place j k = g /\ may_use E l glob tr j e /\
       (k = 0%nat /\ grown e (d_file D g) (d_file D' g) \/ served = Some j /\ writable e)) /\
  (forall j, kept D D' j \/
     exists e, may_use E l glob tr j e /\ served = Some j /\ writable e /\ flag (x_flags e) F_TREEFILES = true).
Proof.
  intros Hp Hs Hpr H. unfold connection in H.
  pose proof (negotiate_touches E l glob plain secure) as Tch.
  assert (Neg : forall s, trace_of (negotiate E (fresh l glob plain secure)) = Some (n_tr s) ->
     (forall g, d_file (after_nego place l (n_tr s) D) g = d_file D g \/
        exists j k e, place j k = g /\ may_use E l glob (n_tr s) j e /\
          (k = 0%nat /\ grown e (d_file D g) (d_file (after_nego place l (n_tr s) D) g))) /\
     (forall j, kept D (after_nego place l (n_tr s) D) j)).
  { intros s Ht. split.
    - intros g. destruct (nego_file l (n_tr s) D g Hpr) as [G|(j & e & A & B & C & G)]; [auto|]. right. exists j, 0%nat, e.
      split; [exact C|]. split; [|auto]. destruct (Tch _ _ j Ht A eq_refl) as (e' & B' & U). rewrite B in B'. injection B' as <-.
      split; [exact B|exact U].
    - intros j. unfold kept. destruct (nego_block l (n_tr s) D) as [-> ->]. auto. }
  destruct (negotiate E (fresh l glob plain secure)) as [[i|] s|s|s|] eqn:R; try discriminate.
  2,3: injection H as <- <- <- <- <-; destruct (Neg s eq_refl) as [N1 N2]; split; [|auto];
       intros g; destruct (N1 g) as [N1'|(j & k & e & A & B & C)]; [auto|]; right; exists j, k, e; auto.
  set (D1 := after_nego place l (n_tr s) D) in *.
  set (c := mkC (x_flags (nth_export i s)) (n_size s) (array place i (fs i)) namelen (n_struct s) (n_tls s)) in *.
  set (w1 := conn_world i (n_size s) D1 w) in *.
  destruct (served_export E l glob plain secure i s Hp Hs R) as (e & Ne & Op & De).
  assert (U : may_use E l glob (n_tr s) i e).
  { destruct (Tch _ _ i eq_refl Op eq_refl) as (e' & B' & U'). rewrite Ne in B'. injection B' as <-. split; auto. }
  pose proof (C93_changes_only_its_export lg c n (n_in s) turns w1) as K1.
  pose proof (C05_threads_never_modify lg c n (n_in s) turns w1) as K2.
  pose proof (C06_threads_leave_the_base lg c n (n_in s) turns w1) as K3.
  assert (End : exists y, (forall P : world -> Prop, after (sys_run lg c turns (sys_init n (n_in s) w1)) P -> P (y_w y)) /\
     CEnd (n_tr s) (Some i) (disks_after i D1 (y_w y)) (y_out y) (y_log y) = CEnd tr served D' out log).
  { destruct (sys_run lg c turns (sys_init n (n_in s) w1)); try discriminate; eexists; (split; [intros P HP; exact HP|exact H]). }
  destruct End as (y & Step & H'). clear H. injection H' as <- <- <- <- <-.
  destruct (Neg s eq_refl) as [N1 N2].
  apply Step in K1. destruct K1 as (C1 & C2 & _).
  assert (Fl : forall b, b <> F_READONLY -> b <> F_AUTOREADONLY -> (exists k, 0 <= k /\ b = 2 ^ k) -> cflag c b = flag (x_flags e) b).
  { intros b B1 B2 B3. unfold cflag, c. cbn [c_flags]. apply demoted_flag; auto. }
  (** unless the export is writable nothing stored changes while serving *)
  assert (W : (forall h, h <> FDummy -> h <> FDiff -> w_file (y_w y) h = w_file w1 h) /\ (forall p, w_exists (y_w y) p = w_exists w1 p) \/ writable e).
  { destruct (flag (x_flags e) F_READONLY) eqn:Ro.
    - left. assert (Rc : cflag c F_READONLY = true) by (unfold cflag, c; cbn [c_flags]; eapply demoted_readonly; eauto).
      assert (K : untouched w1 (y_w y)) by (apply Step; apply K2; [unfold bad_write; rewrite Rc; reflexivity|auto]).
      destruct K as (K4 & K5 & _). auto.
    - destruct (flag (x_flags e) F_COPYONWRITE) eqn:Co; [|right; split; auto].
      destruct (flag (x_flags e) F_SPLICE) eqn:Sp; [right; split; auto|].
      destruct (flag (x_flags e) F_TREEFILES) eqn:Tr; [right; split; auto|]. left.
      assert (K : base_untouched w1 (y_w y)).
      { apply Step. apply K3; (rewrite Fl; [assumption|discriminate|discriminate|(pow 2 || pow 15 || pow 13)]). }
      destruct K as (K4 & K5 & _). auto. }
  split.
  - intros g. change (d_file (disks_after i D1 (y_w y)) g) with (w_file (y_w y) (FExp g)).
    assert (Same : w_file (y_w y) (FExp g) = d_file D1 g \/ (exists k, place i k = g) /\ writable e).
    { destruct W as [[W1 _]|W]; [left; apply (W1 (FExp g)); discriminate|].
      destruct (fs i) as [a|] eqn:Fs.
      - destruct (in_dec Nat.eq_dec g (map (fun p => place i (fst p)) a)) as [I|I].
        + right. apply in_map_iff in I. destruct I as ((k & o) & <- & _). split; [exists k; reflexivity|exact W].
        + left. apply (C1 (FExp g)). intros [(a' & fi & A1 & A2 & A3)|[]]. apply I. unfold c in A1. cbn [c_export] in A1.
          unfold array in A1. rewrite ?Fs in A1. cbn in A1. injection A1 as <-. apply in_map_iff in A2. destruct A2 as (p & <- & A2).
          cbn in A3. injection A3 as <-. apply in_map_iff. exists p. auto.
      - left. apply (C1 (FExp g)). intros [(a' & fi & A1 & A2 & A3)|[]]. unfold c in A1. cbn [c_export] in A1.
        unfold array in A1. rewrite ?Fs in A1. discriminate. }
    destruct Same as [-> |((k & <-) & We)].
    + destruct (N1 g) as [N1'|(j & k & e' & A & B & C)]; [auto|]. right. exists j, k, e'. auto.
    + right. exists i, k, e. auto.
  - intros j. destruct (Nat.eq_dec j i) as [-> |Nj].
    + unfold kept, disks_after. cbn [d_block d_there]. rewrite Nat.eqb_refl. destruct (N2 i) as [M1 M2].
      assert (Go : (forall p, w_file (y_w y) (FTree p) = w_file w1 (FTree p)) /\ (forall p, w_exists (y_w y) p = w_exists w1 p) \/
                   writable e /\ flag (x_flags e) F_TREEFILES = true).
      { destruct W as [[W1 W2]|W]; [left; split; [intros p; apply W1; discriminate|exact W2]|].
        assert (Tc : cflag c F_TREEFILES = flag (x_flags e) F_TREEFILES) by (apply Fl; [discriminate|discriminate|pow 13]).
        destruct (flag (x_flags e) F_TREEFILES) eqn:Tr; [right; auto|]. left. split; [|auto].
        intros p. apply C1. intros [(a' & fi & A1 & A2 & A3)|A]; [|cbn in A; congruence].
        unfold c in A1. cbn [c_export] in A1. unfold array in A1. destruct (fs i); [|discriminate]. cbn in A1. injection A1 as <-.
        apply in_map_iff in A2. destruct A2 as (q & <- & _). discriminate. }
      destruct Go as [[G1 G2]|G]; [left|right; exists e; tauto].
      split; intros p; [rewrite G1; apply M1|rewrite G2; apply M2].
    + left. unfold kept, disks_after. cbn [d_block d_there]. apply Nat.eqb_neq in Nj. rewrite Nj. apply N2.
Qed.

(** ** What the client sees *)
Lemma after_alike l tr D D' g : same_file (d_file D g) (d_file D' g) ->
  same_file (d_file (after_nego place l tr D) g) (d_file (after_nego place l tr D') g).
Proof.
  intros H. induction tr as [|v tr IH] using rev_ind; [exact H|]. rewrite !after_snoc.
  set (A := after_nego place l tr D) in *. set (B := after_nego place l tr D') in *.
  destruct v; cbn [after_event]; auto. destruct ok; auto. destruct (nth_error l i) as [e|]; auto. destruct (growth e); auto.
  destruct (Nat.eq_dec g (place i 0%nat)) as [-> |N].
  - destruct IH as [I1 I2]. rewrite I1. destruct (_ || _); [|split; auto]. cbn. rewrite Nat.eqb_refl. split; reflexivity.
  - apply Nat.eqb_neq in N. destruct (_ || (fsize (d_file A _) =? 0)), (_ || (fsize (d_file B _) =? 0)); cbn; rewrite ?N; auto.
Qed.

Lemma connection_sees E l glob lg n fs namelen plain secure turns D D' w w' tr i D1 out log e :
  Forall is_byte plain -> Forall is_byte secure ->
  connection place E l glob lg n fs namelen plain secure turns D w = CEnd tr (Some i) D1 out log ->
  nth_error l i = Some e ->
  same_export place i (fs i) D D' ->
  same_machine (flag (x_flags e) F_COPYONWRITE || flag (x_flags e) F_WAIT) w w' ->
  exists D2, connection place E l glob lg n fs namelen plain secure turns D' w' = CEnd tr (Some i) D2 out log.
Proof.
  intros Hp Hs H Ne (S1 & S2) (M1 & (M2 & M2b) & M3 & M4). unfold connection in *.
  destruct (negotiate E (fresh l glob plain secure)) as [[i'|] s|s|s|] eqn:R; try discriminate.
  set (X := after_nego place l (n_tr s) D) in *. set (X' := after_nego place l (n_tr s) D') in *.
  set (c := mkC (x_flags (nth_export i' s)) (n_size s) (array place i' (fs i')) namelen (n_struct s) (n_tls s)) in *.
  assert (i' = i) as ->.
  { destruct (sys_run lg c turns (sys_init n (n_in s) (conn_world i' (n_size s) X w))); try discriminate; congruence. }
  destruct (served_export E l glob plain secure i s Hp Hs R) as (e' & Ne' & Op & De). rewrite Ne in Ne'. injection Ne' as <-.
  assert (Fl : forall b, b <> F_READONLY -> b <> F_AUTOREADONLY -> (exists k, 0 <= k /\ b = 2 ^ k) -> cflag c b = flag (x_flags e) b).
  { intros b B1 B2 B3. unfold cflag, c. cbn [c_flags]. apply demoted_flag; auto. }
  assert (F1 : cflag c F_COPYONWRITE = flag (x_flags e) F_COPYONWRITE) by (apply Fl; [discriminate|discriminate|pow 2]).
  assert (F2 : cflag c F_WAIT = flag (x_flags e) F_WAIT) by (apply Fl; [discriminate|discriminate|pow 16]).
  assert (Al : alike (own c) (flag (x_flags e) F_COPYONWRITE || flag (x_flags e) F_WAIT)
                 (conn_world i (n_size s) X w) (conn_world i (n_size s) X' w')).
  { constructor; try reflexivity; try assumption.
    - intros h Ho. destruct h as [g|p| | |]; cbn [conn_world w_file].
      + destruct Ho as [(a & fi & A1 & A2 & A3)|[]]. unfold c in A1. cbn [c_export] in A1. unfold array in A1.
        destruct (fs i) as [b|]; [|discriminate]. cbn in A1. injection A1 as <-. apply in_map_iff in A2. destruct A2 as ((k & o) & <- & A2).
        cbn in A3. injection A3 as <-. apply after_alike. eapply S1; [reflexivity|exact A2].
      + destruct (nego_block l (n_tr s) D) as [B1 _], (nego_block l (n_tr s) D') as [B2 _].
        unfold X, X'. rewrite B1, B2. apply S2.
      + apply M4.
      + split; reflexivity.
      + destruct Ho as [(a & fi & A1 & A2 & A3)|[]]. unfold c in A1. cbn [c_export] in A1. unfold array in A1.
        destruct (fs i) as [b|]; [|discriminate]. cbn in A1. injection A1 as <-. apply in_map_iff in A2. destruct A2 as ((k & o) & <- & A2). discriminate.
    - intros p _. cbn [conn_world w_exists]. destruct (nego_block l (n_tr s) D) as [_ B1], (nego_block l (n_tr s) D') as [_ B2].
      unfold X, X'. rewrite B1, B2. apply S2. }
  pose proof (threads_alike lg c (flag (x_flags e) F_COPYONWRITE || flag (x_flags e) F_WAIT) n (n_in s) turns (conn_world i (n_size s) X w) (conn_world i (n_size s) X' w') ltac:(intros K; rewrite <- F1, <- F2; apply orb_true_iff; destruct K as [K|K]; [left; exact K|right; unfold waiting in K; destruct (cflag c F_WAIT); [reflexivity|discriminate K]]) Al) as T.
  unfold same_traffic in T.
  destruct (sys_run lg c turns (sys_init n (n_in s) (conn_world i (n_size s) X w))); try discriminate;
    destruct (sys_run lg c turns (sys_init n (n_in s) (conn_world i (n_size s) X' w'))); try contradiction;
    destruct T as (T1 & T2 & _); injection H as <- <- <- <-; eexists; rewrite T1, T2; reflexivity.
Qed.
End Conn.

Lemma conn_prepared c w0 w1 i D w : copyonwrite_prepare c w0 = Ret true w1 ->
  let v := conn_world i (c_size c) D w in
  w_dpos v = w_dpos w1 /\ w_dlen v = w_dlen w1 /\ w_mapsz v = w_mapsz w1 /\ (forall p, w_map v p = w_map w1 p) /\
  fsize (w_file v FDiff) = fsize (w_file w1 FDiff) /\ forall o, frd (w_file v FDiff) o = frd (w_file w1 FDiff) o.
Proof.
  unfold copyonwrite_prepare, bind, pull, modify, ret, die. destruct (w_orc w0 (w_tick w0)); try discriminate; cbn;
    match goal with |- context [match ?x with _ => _ end] => destruct x end; try discriminate; intros H; injection H as <-; repeat split.
Qed.
