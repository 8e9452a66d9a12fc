(** Lemmas for C82. *)
From Coq Require Import String.
From Verif Require Import Base M_Const M_Nego M_Conf M_Virt M_Hook S_Virt S_Hook L_VirtP.
Local Open Scope list_scope.

(** ** commands *)
Lemma do_run_fills command file cmd : fills command file cmd -> do_run command file = CCmd cmd.
Proof.
  intros H. destruct H as [command file Hn Hf | pre post file H1 H2].
  - unfold do_run. destruct command as [|c t]; [congruence|]. rewrite sprintf_plain by exact Hf. reflexivity.
  - unfold do_run. destruct (pre ++ [37; 115] ++ post) as [|c t] eqn:E; [destruct pre; discriminate|].
    rewrite <- E, sprintf_one by assumption. reflexivity.
Qed.
Lemma do_run_runs command file cmds : runs command file cmds ->
  do_run command file = match cmds with [] => CNone | c :: _ => CCmd c end.
Proof. intros [f|command' f cmd H]; [reflexivity|]. exact (do_run_fills _ _ _ H). Qed.
Lemma runs_len command file cmds : runs command file cmds -> (length cmds <= 1)%nat.
Proof. intros []; cbn; lia. Qed.

(** ** paths *)
Lemma drop_slashes_no c t : c <> 47 -> drop_slashes (c :: t) = c :: t.
Proof.
  intros H. cbn [drop_slashes]. repeat (match goal with |- context [match ?x with _ => _ end] => is_var x; destruct x end; try reflexivity); congruence.
Qed.
Lemma rev_last (l : list Z) : l <> [] -> List.rev l = last l 0 :: List.rev (removelast l).
Proof. intros H. rewrite (app_removelast_last 0 H) at 1. rewrite rev_app_distr. reflexivity. Qed.
Lemma drop_rev l : l <> [] -> last l 0 <> 47 -> drop_slashes (List.rev l) = List.rev l.
Proof. intros H1 H2. rewrite rev_last by exact H1. apply drop_slashes_no, H2. Qed.
Lemma drop_part_app b r : free_of 47 b -> drop_part (b ++ 47 :: r) = 47 :: r.
Proof.
  unfold free_of. induction b as [|c t IH]; intros H; [reflexivity|]. cbn [In] in H. cbn [app drop_part].
  destruct (Z.eqb_spec c 47); [tauto|]. apply IH. tauto.
Qed.
Lemma take_part_app b r : free_of 47 b -> take_part (b ++ 47 :: r) = b.
Proof.
  unfold free_of. induction b as [|c t IH]; intros H; [reflexivity|]. cbn [In] in H. cbn [app take_part].
  destruct (Z.eqb_spec c 47); [tauto|]. rewrite IH by tauto. reflexivity.
Qed.
Lemma free_rev c l : free_of c l -> free_of c (List.rev l).
Proof. unfold free_of. rewrite <- in_rev. auto. Qed.
Lemma last_in (b : list Z) : b <> [] -> In (last b 0) b.
Proof. intros H. rewrite (app_removelast_last 0 H) at 2. apply in_or_app. right. now left. Qed.
Lemma in_dir_rev p d b : in_dir p d b -> List.rev p = List.rev b ++ 47 :: List.rev d /\
  p <> [] /\ last p 0 <> 47.
Proof.
  intros (-> & _ & _ & Hb & Hf). split; [|split].
  - rewrite !rev_app_distr. cbn. rewrite <- app_assoc. reflexivity.
  - destruct d; discriminate.
  - rewrite (app_removelast_last 0 Hb). rewrite !app_assoc, last_last. intros E. apply Hf. rewrite <- E. now apply last_in.
Qed.
Lemma drop_split l : exists n, l = repeat 47 n ++ drop_slashes l.
Proof.
  induction l as [|c t IH]; [exists 0%nat; reflexivity|]. destruct (Z.eq_dec c 47) as [->|H].
  - destruct IH as [n IH]. exists (S n). cbn [drop_slashes repeat app]. now rewrite <- IH.
  - exists 0%nat. now rewrite drop_slashes_no.
Qed.
Lemma dirname_in p d b : in_dir p d b -> dirname p = (d, d).
Proof.
  intros H. destruct (in_dir_rev _ _ _ H) as (E & Hp & Hl). destruct H as (_ & Hd & Hld & Hb & Hf).
  unfold dirname. rewrite drop_rev by assumption. rewrite E.
  destruct (List.rev b ++ 47 :: List.rev d) as [|x r] eqn:Ex; [destruct (List.rev b); discriminate|]. rewrite <- Ex.
  rewrite drop_part_app by now apply free_rev.
  change (drop_slashes (47 :: List.rev d)) with (drop_slashes (List.rev d)).
  rewrite drop_rev by assumption. rewrite rev_last by exact Hd. rewrite <- rev_last by exact Hd. rewrite rev_involutive. reflexivity.
Qed.
Lemma basename_in p d b : in_dir p d b -> basename p = (b, p).
Proof.
  intros H. destruct (in_dir_rev _ _ _ H) as (E & Hp & Hl). destruct H as (_ & Hd & Hld & Hb & Hf).
  unfold basename. rewrite drop_rev by assumption.
  rewrite (rev_last p Hp). cbv beta iota. rewrite <- (rev_last p Hp). rewrite E at 1. rewrite take_part_app by now apply free_rev.
  rewrite !rev_involutive. reflexivity.
Qed.
(** basename leaves a path alone that does not end in a slash *)
Lemma basename_keeps p : last p 0 <> 47 -> snd (basename p) = p.
Proof.
  intros H. unfold basename. destruct p as [|c t] eqn:E; [reflexivity|]. rewrite <- E in *. assert (Hn : p <> []) by (rewrite E; discriminate).
  rewrite drop_rev by assumption. rewrite rev_last by exact Hn. cbn [snd]. rewrite <- rev_last by exact Hn. apply rev_involutive.
Qed.

(** ** counting *)
Lemma posts_app a b : posts (a ++ b) = posts a ++ posts b. Proof. apply flat_map_app. Qed.
Lemma pres_app a b : pres (a ++ b) = pres a ++ pres b. Proof. apply flat_map_app. Qed.
Lemma made_app a b : made (a ++ b) = made a ++ made b. Proof. apply flat_map_app. Qed.
Lemma removed_app a b : removed (a ++ b) = removed a ++ removed b. Proof. apply flat_map_app. Qed.

(** while the process goes on, nothing has been cleaned up, and the diff file
    noted is one that was made *)
Definition going (s : hst) : Prop :=
  posts (s_tr s) = [] /\ removed (s_tr s) = [] /\ forall f, s_diff s = Some f -> In f (made (s_tr s)).
(** when it has gone *)
Definition ended (s : hst) : Prop :=
  (length (posts (s_tr s)) <= 1)%nat /\ (length (removed (s_tr s)) <= 1)%nat /\
  (forall f, In f (removed (s_tr s)) -> In f (made (s_tr s))).
Definition out_ok (o : hout) : Prop :=
  match o with HGo _ s => going s | HGone s => ended s | _ => True end.
Lemma going_ended s : going s -> ended s.
Proof. intros (H1 & H2 & H3). unfold ended. rewrite H1, H2. cbn. repeat split; try lia; tauto. Qed.

Ltac brk := repeat match goal with
  | |- context [if ?x then _ else _] => destruct x eqn:?
  | |- context [match ?x with _ => _ end] => destruct x eqn:?
  end.

Lemma prepare_ok pid a s : going s -> out_ok (prepare_diff pid a s).
Proof.
  intros (H1 & H2 & H3). unfold prepare_diff.
  destruct (match h_cowdir (a_conf a) with Some d => (d, s_name s) | None => dirname (s_name s) end) as [dir n1].
  destruct (basename n1) as [base n2]. destruct (a_make a).
  - cbn [out_ok]. unfold going, hlog. cbn [s_tr s_diff]. rewrite posts_app, removed_app, made_app, H1, H2. cbn.
    repeat split. intros f [= <-]. apply in_or_app. right. now left.
  - cbn [out_ok]. unfold ended. cbn [s_tr]. rewrite H1, H2. cbn. repeat split; try lia; tauto.
Qed.
Lemma commit_ok pid a s : going s -> out_ok (commit pid a s).
Proof.
  intros (H1 & H2 & H3). unfold commit. destruct (negb (a_named a && a_allowed a)).
  { cbn [out_ok]. unfold going. cbn. auto. }
  assert (Ha : forall s2, going s2 -> out_ok (open_export pid a s2)).
  { intros s2 Hs. unfold open_export. assert (Hg : going (mkHst (s_conf s2) (s_name s2) (s_diff s2) true (s_tr s2))) by exact Hs.
    destruct (negb (a_setup a)); [exact Hg|]. destruct (_ || _); [now apply prepare_ok|exact Hg]. }
  destruct (do_run _ _) as [|cmd| |]; try exact I.
  - apply Ha. unfold going. cbn. auto.
  - assert (Hl : forall ok, going (hlog [HPre cmd ok] (mkHst (Some (a_conf a)) (if a_named a then a_name a else s_name s) (s_diff s) (s_closed s) (s_tr s)))).
    { intros ok. unfold going, hlog. cbn [s_tr s_diff]. rewrite posts_app, removed_app, made_app, H1, H2. cbn. repeat split.
      intros f Hf. apply in_or_app. left. auto. }
    destruct (a_pre a); [apply Ha, Hl|exact (Hl false)].
Qed.
Lemma finalize_ok s : going s -> out_ok (finalize s).
Proof.
  intros Hg. pose proof Hg as (H1 & H2 & H3). unfold finalize. destruct (s_conf s) as [c|]; [|exact I].
  assert (Ha : forall l, removed l = [] -> made l = [] -> (length (posts l) <= 1)%nat -> out_ok (remove_diff c (hlog l s))).
  { intros l L1 L2 L3. unfold remove_diff. cbn [out_ok]. unfold ended, hlog at 1. cbn [hlog s_diff]. destruct (flag _ _); [destruct (s_diff s) as [f|] eqn:Ed|].
    all: unfold hlog; cbn [s_tr]; rewrite ?posts_app, ?removed_app, ?made_app, H1, H2, ?L1, ?L2; cbn; repeat split; rewrite ?app_nil_r; try lia; try tauto.
    intros g [<-|[]]. apply H3. reflexivity. }
  destruct (do_run _ _) as [|cmd| |]; try exact I.
  - specialize (Ha []). unfold hlog in Ha. rewrite app_nil_r in Ha. destruct s. apply Ha; cbn; auto.
  - apply Ha; cbn; auto.
Qed.
Lemma nego_ok pid l : forall s, going s -> out_ok (negotiate_hooks pid l s).
Proof.
  induction l as [|x t IH]; intros s H; [exact H|]. cbn [negotiate_hooks]. destruct x as [a|a| |].
  - pose proof (commit_ok pid a s H) as Hc. destruct (commit pid a s) as [[] s'|s'| |]; try exact Hc. exact (going_ended _ Hc).
  - pose proof (commit_ok pid a s H) as Hc. destruct (commit pid a s) as [[] s'|s'| |]; try exact Hc. exact (IH _ Hc).
  - exact (going_ended _ H).
  - destruct (s_closed s); [now apply finalize_ok|exact (going_ended _ H)].
Qed.
Lemma end_step_ok sp e t s : going s -> out_ok (snd (end_step sp e t s)).
Proof.
  intros H. pose proof (finalize_ok s H) as Hf. pose proof (going_ended s H) as He.
  destruct e, t, sp; cbn; assumption.
Qed.
Lemma transmission_ok sp l : forall t s, going s -> out_ok (transmission sp l t s).
Proof.
  induction l as [|e t IH]; intros st s H; [exact H|]. cbn [transmission].
  pose proof (end_step_ok sp e st s H) as Ho. destruct (end_step sp e st s) as [st' o]. cbn [snd] in Ho.
  destruct o; try exact Ho. apply IH, Ho.
Qed.
Lemma connection_ok sp pid l evs : out_ok (connection sp pid l evs).
Proof.
  unfold connection. assert (H0 : going hst0) by (unfold going; cbn; repeat split; discriminate).
  pose proof (nego_ok pid l hst0 H0) as H. destruct (negotiate_hooks pid l hst0) as [[] s|s| |]; try exact H. now apply transmission_ok.
Qed.

(** ** the prerun decides *)
Lemma commit_pre pid a s s' : commit pid a s = HGo true s' -> h_prerun (a_conf a) <> [] ->
  a_pre a = true /\ exists cmd, do_run (h_prerun (a_conf a)) (a_name a) = CCmd cmd /\ In cmd (pres (s_tr s')).
Proof.
  unfold commit. intros H Hp. destruct (a_named a && a_allowed a) eqn:En; cbn [negb] in H; [|discriminate].
  apply andb_true_iff in En. destruct En as [En _]. rewrite En in *. cbn [s_name] in H.
  assert (Ha : forall s2, open_export pid a s2 = HGo true s' -> incl (pres (s_tr s2)) (pres (s_tr s'))).
  { intros s2. unfold open_export. destruct (negb (a_setup a)); [discriminate|]. destruct (_ || _).
    - unfold prepare_diff. destruct (match h_cowdir (a_conf a) with Some d => _ | None => _ end) as [dir n1]. destruct (basename n1) as [base n2].
      destruct (a_make a); [|discriminate]. intros [= <-]. unfold hlog. cbn [s_tr]. rewrite pres_app. cbn. rewrite app_nil_r. apply incl_refl.
    - intros [= <-]. apply incl_refl. }
  destruct (do_run (h_prerun (a_conf a)) (a_name a)) as [|cmd| |] eqn:Ed; try discriminate.
  { unfold do_run in Ed. destruct (h_prerun (a_conf a)); [congruence|]. destruct (sprintf _ _); discriminate. }
  destruct (a_pre a); [|discriminate]. split; [reflexivity|]. exists cmd. split; [reflexivity|].
  apply (Ha _ H). unfold hlog. cbn [s_tr]. rewrite pres_app. apply in_or_app. right. now left.
Qed.

(** ** a connection that is served *)
Definition cow_like (c : hconf) : bool := flag (h_flags c) F_COPYONWRITE || flag (h_flags c) F_WAIT.
Definition from_text (P : list Z -> hev) (l : list (list Z)) : list hev := map P l.

Lemma away_go pid a s o : turned_away a -> well_formed (h_prerun (a_conf a)) -> commit pid a s = o ->
  exists s', o = HGo false s' /\ s_closed s' = s_closed s /\ exists d, s_tr s' = s_tr s ++ d /\ only_refusals d.
Proof.
  intros Ha Hw <-. unfold commit. destruct (a_named a && a_allowed a) eqn:En; cbn [negb].
  2:{ eexists. split; [reflexivity|]. cbn [s_closed s_tr]. split; [reflexivity|]. exists []. rewrite app_nil_r. split; [reflexivity|constructor]. }
  destruct Ha as [Ha|[Hp Ha]]; [congruence|]. cbn [s_name].
  destruct (Hw (if a_named a then a_name a else s_name s)) as [cmds Hr]. rewrite (do_run_runs _ _ _ Hr).
  destruct Hr as [f|command f cmd Hf]; [congruence|]. rewrite Ha. eexists. split; [reflexivity|]. cbn. split; [reflexivity|].
  exists [HPre cmd false]. split; [reflexivity|]. repeat constructor. eauto.
Qed.
Lemma refusals_none d : only_refusals d -> pres d = [] /\ made d = [] /\ posts d = [] /\ removed d = [].
Proof. induction 1 as [|e d (c & ->) H IH]; [auto|]. exact IH. Qed.
(** the directory and base name the diff file is named after, and the export's
    name afterwards *)
Definition diff_parts (c : hconf) (name : list Z) : list Z * list Z * list Z :=
  let '(dir, n1) := match h_cowdir c with Some d => (d, name) | None => dirname name end in
  let '(base, n2) := basename n1 in (dir, base, n2).
Lemma in_go pid a s pre : gets_in a -> runs (h_prerun (a_conf a)) (a_name a) pre ->
  let '(dir, base, n2) := diff_parts (a_conf a) (a_name a) in
  let f := diff_name dir base (a_client a) pid in
  commit pid a s = HGo true (mkHst (Some (a_conf a)) (if cow_like (a_conf a) then n2 else a_name a)
     (if cow_like (a_conf a) then Some f else s_diff s) true
     (s_tr s ++ map (fun c => HPre c true) pre ++ (if cow_like (a_conf a) then [HMake f] else []))).
Proof.
  intros (Hn & Hp & Hs & Hm) Hr. unfold diff_parts.
  destruct (match h_cowdir (a_conf a) with Some d => (d, a_name a) | None => dirname (a_name a) end) as [dir n1] eqn:Ed.
  destruct (basename n1) as [base n2] eqn:Eb. cbv zeta.
  unfold commit, open_export. rewrite Hn. cbn [negb]. apply andb_true_iff in Hn. destruct Hn as [Hn _]. rewrite Hn. cbn [s_name].
  rewrite (do_run_runs _ _ _ Hr). rewrite Hs. cbn [negb]. change (flag (h_flags (a_conf a)) F_COPYONWRITE || flag (h_flags (a_conf a)) F_WAIT) with (cow_like (a_conf a)).
  destruct Hr as [f|command f cmd Hf].
  - destruct (cow_like (a_conf a)); [|cbn; now rewrite app_nil_r]. unfold prepare_diff. cbn [s_name]. rewrite Ed, Eb, Hm. reflexivity.
  - assert (a_pre a = true) as ->.
    { destruct Hp as [Hp|Hp]; [|exact Hp]. exfalso. rewrite Hp in Hf. inversion Hf as [? ? Hx|pre' post' ? ? ? Ex]; [congruence|].
      destruct pre'; discriminate. }
    destruct (cow_like (a_conf a)).
    + unfold prepare_diff, hlog. cbn [s_name s_conf s_diff s_tr s_closed]. rewrite Ed, Eb, Hm. cbn [map app]. rewrite <- app_assoc. reflexivity.
    + unfold hlog. cbn. reflexivity.
Qed.
Lemma finalize_go s c post : s_conf s = Some c -> runs (h_postrun c) (s_name s) post ->
  finalize s = HGone (hlog (map HPost post ++ (if flag (h_flags c) F_COPYONWRITE then match s_diff s with Some f => [HRemove f] | None => [] end else [])) s).
Proof.
  intros Hc Hr. unfold finalize, remove_diff. rewrite Hc, (do_run_runs _ _ _ Hr). destruct s as [conf nm df cl tr]. cbn [s_diff s_name] in *. unfold hlog. cbn [s_conf s_name s_diff s_closed s_tr].
  destruct Hr; destruct (flag _ _); try destruct df; cbn [map app s_conf s_name s_diff s_closed s_tr]; rewrite ?app_nil_r, <- ?app_assoc; reflexivity.
Qed.
Lemma transmission_fair sp l : forall t s, fair sp l -> transmission sp l t s = HGo true s \/ transmission sp l t s = finalize s.
Proof.
  induction l as [|e l IH]; intros t s (H1 & H2 & H3); [now left|]. cbn [transmission]. cbn [In] in *.
  assert (Hf : fair sp l) by (unfold fair; tauto).
  destruct e; try tauto; destruct t; cbn [end_step]; try (apply IH; exact Hf);
    try (right; destruct (finalize s) as [|?| |] eqn:E; try reflexivity; unfold finalize in E; destruct (s_conf s); [destruct (do_run _ _); discriminate|discriminate]).
  - destruct sp; [apply IH; exact Hf|]. destruct H3; [discriminate|tauto].
  - destruct sp; [|destruct H3; [discriminate|tauto]].
    right. destruct (finalize s) as [|?| |] eqn:E; try reflexivity; unfold finalize in E; destruct (s_conf s); [destruct (do_run _ _); discriminate|discriminate].
Qed.
Lemma nego_away pid a x l : forall s, (x = NGo a \/ x = NName a) ->
  Forall (fun y => exists b, y = NGo b /\ turned_away b /\ well_formed (h_prerun (a_conf b))) l ->
  exists s', negotiate_hooks pid (l ++ [x]) s = negotiate_hooks pid [x] s' /\
    exists d, s_tr s' = s_tr s ++ d /\ only_refusals d.
Proof.
  induction l as [|y l IH]; intros s Hx HF.
  { exists s. split; [reflexivity|]. exists []. rewrite app_nil_r. split; [reflexivity|constructor]. }
  inversion_clear HF as [|? ? (b & -> & Hb & Hw) HF']. cbn [app negotiate_hooks].
  destruct (away_go pid b s _ Hb Hw eq_refl) as (s1 & -> & _ & d1 & E1 & P1).
  destruct (IH s1 Hx HF') as (s2 & E2 & d2 & T2 & P2). exists s2. split; [exact E2|].
  exists (d1 ++ d2). rewrite T2, E1, app_assoc. split; [reflexivity|]. apply Forall_app. auto.
Qed.

(** the whole life of a connection that is served and ends *)
Lemma served_ended sp pid l x a evs pre post s :
  Forall (fun y => exists b, y = NGo b /\ turned_away b /\ well_formed (h_prerun (a_conf b))) l ->
  (x = NGo a \/ x = NName a) -> gets_in a -> runs (h_prerun (a_conf a)) (a_name a) pre ->
  (let '(_, _, n2) := diff_parts (a_conf a) (a_name a) in
   runs (h_postrun (a_conf a)) (if cow_like (a_conf a) then n2 else a_name a) post) ->
  fair sp evs -> connection sp pid (l ++ [x]) evs = HGone s ->
  exists d, only_refusals d /\
    s_tr s = d ++ map (fun c => HPre c true) pre ++
      (let '(dir, base, _) := diff_parts (a_conf a) (a_name a) in let f := diff_name dir base (a_client a) pid in
       (if cow_like (a_conf a) then [HMake f] else []) ++ map HPost post ++
       (if flag (h_flags (a_conf a)) F_COPYONWRITE then [HRemove f] else [])).
Proof.
  intros HF Hx Hg Hpre Hpost Hfair. unfold connection.
  destruct (nego_away pid a x l hst0 Hx HF) as (s1 & E1 & d & T1 & P1). rewrite E1. cbn [hst0 s_tr app] in T1.
  pose proof (in_go pid a s1 pre Hg Hpre) as Hc. destruct (diff_parts (a_conf a) (a_name a)) as [[dir base] n2]. cbv zeta in *.
  assert (En : negotiate_hooks pid [x] s1 = commit pid a s1) by (destruct Hx as [-> | ->]; cbn [negotiate_hooks]; rewrite Hc; reflexivity).
  rewrite En, Hc. intros H. exists d. split; [exact P1|].
  match type of H with transmission _ _ _ ?st = _ => destruct (transmission_fair sp evs TServe st Hfair) as [E|E] end; rewrite E in H; [discriminate|].
  erewrite finalize_go in H; [|reflexivity|exact Hpost]. injection H as <-.
  cbn [s_diff]. unfold hlog. cbn [s_tr]. rewrite T1, <- !app_assoc. do 3 f_equal.
  unfold cow_like. destruct (flag (h_flags (a_conf a)) F_COPYONWRITE); reflexivity.
Qed.

(** a connection that is lost, or closed in good order, comes to its end *)
Lemma transmission_app sp l1 l2 : forall t s s1, transmission sp l1 t s = HGo true s1 ->
  s1 = s /\ exists t', transmission sp (l1 ++ l2) t s = transmission sp l2 t' s.
Proof.
  induction l1 as [|e l1 IH]; intros t s s1 H.
  { injection H as <-. split; [reflexivity|]. exists t. reflexivity. }
  cbn [transmission app] in *.
  assert (Hn : forall t', transmission sp l1 t' s = HGo true s1 -> s1 = s /\ exists t'', transmission sp (l1 ++ l2) t' s = transmission sp l2 t'' s) by (intros t' Ht; exact (IH t' s s1 Ht)).
  assert (Hz : forall b s', finalize s <> HGo b s').
  { intros b s'. unfold finalize. destruct (s_conf s); [destruct (do_run _ _); discriminate|discriminate]. }
  destruct e, t, sp; cbn [end_step] in *; try (apply Hn; exact H); try discriminate H;
    (destruct (finalize s) as [|?| |] eqn:Ez; [exfalso; exact (Hz _ _ eq_refl)|..]; discriminate H).
Qed.
Lemma lost_ends sp pid l evs s : connection sp pid l evs = HGo true s ->
  connection sp pid l (evs ++ [FEof; FDone]) = finalize s /\ connection sp pid l (evs ++ [FDisc; FDone]) = finalize s.
Proof.
  unfold connection. destruct (negotiate_hooks pid l hst0) as [[] s0|s0| |]; try discriminate. intros H.
  assert (Hm : forall o, match o with HGo _ s' => HGo true s' | o => o end = o \/ exists s', o = HGo false s').
  { intros [[]| | |]; eauto. }
  assert (Hz : forall b s', finalize s <> HGo b s').
  { intros b s'. unfold finalize. destruct (s_conf s); [destruct (do_run _ _); discriminate|discriminate]. }
  split; [destruct (transmission_app sp evs [FEof; FDone] _ _ _ H) as (-> & t & ->)|destruct (transmission_app sp evs [FDisc; FDone] _ _ _ H) as (-> & t & ->)];
    destruct t; cbn [transmission end_step]; destruct (finalize s0) as [b s'|s'| |] eqn:Ez; try reflexivity; exfalso; exact (Hz _ _ eq_refl).
Qed.

(** ** the text of an address *)
From Verif Require Import M_Acl S_Acl L_Virt.
Definition safe (s : list Z) : bool := forallb harmless s.
Lemma safe_app a b : safe (a ++ b) = safe a && safe b. Proof. apply forallb_app. Qed.
Lemma hex_safe_all : all_below (Z.to_nat 65536) (fun w => safe (hex16 w)) = true.
Proof. vm_compute. reflexivity. Qed.
Lemma dec_safe_all : all_below (Z.to_nat 256) (fun w => safe (dec8 w)) = true.
Proof. vm_compute. reflexivity. Qed.
Lemma hex_safe w : 0 <= w < 65536 -> safe (hex16 w) = true.
Proof. intros H. exact (all_below_spec _ _ hex_safe_all w ltac:(lia)). Qed.
Lemma dec_safe w : is_byte w -> safe (dec8 w) = true.
Proof. intros H. unfold is_byte in H. exact (all_below_spec _ _ dec_safe_all w ltac:(lia)). Qed.
Lemma safe_ntop4 b : Forall is_byte b -> safe (ntop4 b) = true.
Proof.
  intros H. unfold ntop4. do 4 (destruct b as [|? b]; [reflexivity|]). destruct b; [|reflexivity].
  repeat match goal with H : Forall _ (_ :: _) |- _ => apply Forall_cons_iff in H as [? H] end.
  rewrite !safe_app, !dec_safe by assumption. reflexivity.
Qed.
Lemma safe_words tail dotted run : safe tail = true -> forall ws i, Forall (fun w => 0 <= w < 65536) ws -> safe (ntop_words i ws run dotted tail) = true.
Proof.
  intros Ht ws. destruct run as [base len]. induction ws as [|w ws IH]; intros i H; cbn [ntop_words].
  - destruct (_ && _); reflexivity.
  - apply Forall_cons_iff in H as [Hw H]. specialize (IH (i + 1) H). destruct (_ && _).
    + rewrite safe_app, IH. destruct (i =? base); reflexivity.
    + rewrite safe_app. destruct (i =? 0), ((i =? 6) && dotted); rewrite ?safe_app, ?(hex_safe w Hw), ?IH, ?Ht; reflexivity.
Qed.
Lemma safe_name a : good_addr a -> Forall (fun c => harmless c = true) (peername a).
Proof.
  intros Ha. assert (H : safe (ntop a) = true).
  { destruct a; cbn [good_addr ntop] in *; try contradiction; destruct Ha as [Hl Hb].
    - now apply safe_ntop4.
    - unfold ntop6. destruct (zero_run _ _ _ _) as [base len]. apply safe_words; [|now apply words_range].
      apply safe_ntop4. now apply forall_skip. }
  apply Forall_forall. intros x Hx. unfold safe in H. rewrite forallb_forall in H. apply H.
  unfold peername in Hx. destruct (starts _ _); [now apply in_skipn in Hx|exact Hx].
Qed.
