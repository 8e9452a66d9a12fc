(** Sessions on plain exports, from setupexport to the last reply. *)
From Verif Require Import Base M_Const M_Disk M_Tree M_Raw M_Setup L_Wp L_Raw S_Wire S_Disk L_Wire L_Req L_Plain L_Session L_Setup.

Definition no_splice_tls (c : client) : Prop := cflag c F_SPLICE = false \/ c_tls c = false.

(** flags of a plain export *)
Definition plain_flags (flags : Z) : Prop :=
  flag flags F_TREEFILES = false /\ flag flags F_WAIT = false /\ flag flags F_COPYONWRITE = false.

Lemma flag_lor_other a b f : flag b f = false -> flag (Z.lor a b) f = flag a f.
Proof.
  unfold flag. intros H. apply negb_false_iff, Z.eqb_eq in H.
  rewrite Z.land_lor_distr_l, H, Z.lor_0_r. reflexivity.
Qed.

Lemma open_member_flags flags cc m fl rw f :
  open_member flags cc m = Some (fl, rw) -> flag F_AUTOREADONLY f = false -> flag F_READONLY f = false ->
  flag fl f = flag flags f.
Proof.
  unfold open_member. intros E H1 H2.
  destruct (flag flags F_READONLY); [destruct (mb_rdonly m); congruence|].
  destruct (mb_rdwr m); [congruence|]. destruct cc; [discriminate|].
  destruct (mb_rdonly m); [|discriminate]. injection E as <- <-.
  destruct (flag flags F_COPYONWRITE); [reflexivity|].
  rewrite !flag_lor_other by assumption. reflexivity.
Qed.

Lemma setup_multi_flags ms : forall flags i start fl fis rws tot f,
  setup_multi flags ms i start = Some (fl, fis, rws, tot) ->
  flag F_AUTOREADONLY f = false -> flag F_READONLY f = false -> flag fl f = flag flags f.
Proof.
  induction ms as [|m ms IH]; intros flags i start fl fis rws tot f E H1 H2; cbn [setup_multi] in E.
  - congruence.
  - destruct (open_member flags false m) as [[fl1 rw]|] eqn:Eo; [|congruence].
    destruct (off_add start (i64 (mb_size m))) as [nx|]; [|discriminate].
    destruct (setup_multi fl1 ms (S i) nx) as [[[[f2 fis'] rws'] tot']|] eqn:Er; [|discriminate].
    injection E as <- <- <- <-. rewrite (IH _ _ _ _ _ _ _ f Er H1 H2). eapply open_member_flags; eauto.
Qed.

(** setupexport only ever adds the two read-only flags *)
Lemma setup_flags flags expected ms s f : setupexport flags expected ms = SetupOk s ->
  flag F_AUTOREADONLY f = false -> flag F_READONLY f = false -> flag (su_flags s) f = flag flags f.
Proof.
  unfold setupexport. intros E H1 H2.
  destruct (flag flags F_TREEFILES || flag flags F_WAIT); [injection E as <-; reflexivity|].
  destruct (flag flags F_MULTIFILE).
  - destruct (setup_multi flags ms 0 0) as [[[[fl fis] rws] tot]|] eqn:Es; [|discriminate].
    destruct fis; [discriminate|]. destruct (setup_size expected tot); [|discriminate].
    injection E as <-. cbn [su_flags]. eapply setup_multi_flags; eauto.
  - destruct (open_single flags expected ms) as [[[fl rw] sz]|] eqn:Eo; [|discriminate].
    assert (Hf : flag fl f = flag flags f).
    { unfold open_single in Eo. destruct (flag flags F_TEMPORARY); [congruence|].
      destruct ms as [|m ms]; [discriminate|].
      destruct (open_member flags (negb (expected =? 0)) m) as [[fl1 rw1]|] eqn:Em; [|discriminate].
      injection Eo as <- <- <-. eapply open_member_flags; eauto. }
    destruct ((sz =? 0) && negb (expected =? 0)).
    + destruct rw; [|discriminate]. injection E as <-. exact Hf.
    + destruct (setup_size expected (i64 sz)); [|discriminate]. injection E as <-. exact Hf.
Qed.

(** a descriptor that could only be opened read-only makes the export read-only *)
Lemma setup_multi_demoted ms : forall flags i start fl fis rws tot,
  setup_multi flags ms i start = Some (fl, fis, rws, tot) ->
  flag flags F_COPYONWRITE = false ->
  (flag flags F_READONLY = true -> flag fl F_READONLY = true) /\
  (In false rws -> flag fl F_READONLY = true).
Proof.
  induction ms as [|m ms IH]; intros flags i start fl fis rws tot E Hc; cbn [setup_multi] in E.
  - injection E as <- <- <- <-. split; [auto|intros []].
  - destruct (open_member flags false m) as [[fl1 rw]|] eqn:Eo.
    2:{ injection E as <- <- <- <-. split; [auto|intros []]. }
    destruct (off_add start (i64 (mb_size m))) as [nx|]; [|discriminate].
    destruct (setup_multi fl1 ms (S i) nx) as [[[[f2 fis'] rws'] tot']|] eqn:Er; [|discriminate].
    injection E as <- <- <- <-.
    assert (Hc1 : flag fl1 F_COPYONWRITE = false)
      by (rewrite (open_member_flags _ _ _ _ _ _ Eo); auto).
    destruct (IH _ _ _ _ _ _ _ Er Hc1) as [I1 I2].
    assert (Hro : (flag flags F_READONLY = true -> flag fl1 F_READONLY = true) /\
                  (rw = false -> flag fl1 F_READONLY = true)).
    { unfold open_member in Eo. destruct (flag flags F_READONLY) eqn:Er0.
      - destruct (mb_rdonly m); [|discriminate]. injection Eo as <- <-. auto.
      - destruct (mb_rdwr m); [injection Eo as <- <-; split; [congruence|discriminate]|].
        destruct (mb_rdonly m); [|discriminate]. rewrite Hc in Eo. injection Eo as <- <-.
        split; [discriminate|]. intros _. unfold flag. rewrite Z.land_lor_distr_l.
        apply negb_true_iff, Z.eqb_neq. intros Hz. apply Z.lor_eq_0_iff in Hz. destruct Hz as [_ Hz].
        discriminate. }
    destruct Hro as [R1 R2]. split; [auto|]. intros [->|Hin]; auto.
Qed.

Lemma setup_demoted flags expected ms s : setupexport flags expected ms = SetupOk s ->
  flag flags F_COPYONWRITE = false -> In false (su_rw s) -> flag (su_flags s) F_READONLY = true.
Proof.
  unfold setupexport. intros E Hc.
  destruct (flag flags F_TREEFILES || flag flags F_WAIT); [injection E as <-; intros []|].
  destruct (flag flags F_MULTIFILE).
  - destruct (setup_multi flags ms 0 0) as [[[[fl fis] rws] tot]|] eqn:Es; [|discriminate].
    destruct fis; [discriminate|]. destruct (setup_size expected tot); [|discriminate].
    injection E as <-. cbn [su_flags su_rw]. apply (setup_multi_demoted _ _ _ _ _ _ _ _ Es Hc).
  - destruct (open_single flags expected ms) as [[[fl rw] sz]|] eqn:Eo; [|discriminate].
    assert (Hf : rw = false -> flag fl F_READONLY = true).
    { unfold open_single in Eo. destruct (flag flags F_TEMPORARY); [congruence|].
      destruct ms as [|m ms]; [discriminate|].
      destruct (open_member flags (negb (expected =? 0)) m) as [[fl1 rw1]|] eqn:Em; [|discriminate].
      injection Eo as <- <- <-. unfold open_member in Em. destruct (flag flags F_READONLY) eqn:Er0.
      - destruct (mb_rdonly m); [|discriminate]. injection Em as <- <-. auto.
      - destruct (mb_rdwr m); [injection Em as <- <-; discriminate|].
        destruct (negb (expected =? 0)); [discriminate|].
        destruct (mb_rdonly m); [|discriminate]. rewrite Hc in Em. injection Em as <- <-.
        intros _. unfold flag. rewrite Z.land_lor_distr_l.
        apply negb_true_iff, Z.eqb_neq. intros Hz. apply Z.lor_eq_0_iff in Hz. destruct Hz as [_ Hz].
        discriminate. }
    destruct ((sz =? 0) && negb (expected =? 0)).
    + destruct rw; [|discriminate]. injection E as <-. cbn. intros [|[]]; discriminate.
    + destruct (setup_size expected (i64 sz)); [|discriminate]. injection E as <-. cbn [su_rw su_flags].
      intros [->|[]]. auto.
Qed.

Lemma history_ext size ro d h d' : history size ro d h d' ->
  forall e e', (forall i, d i = e i) -> (forall i, d' i = e' i) -> history size ro e h e'.
Proof.
  induction 1 as [d d' Hu|d q a d1 h d2 Hs Hh IH]; intros e e' He He'.
  - constructor. intros i. rewrite <- He', Hu. apply He.
  - econstructor; [eapply flat_step_left; eauto|]. apply IH; auto.
Qed.

(** how many files an export has, and the disk they form when laid end to end *)
Definition nfiles (s : setup) : nat := match su_export s with Some l => length l | None => O end.
Definition disk_of (s : setup) (w : world) : Z -> Z := joined (files_of (nfiles s) w).

(** ** Sessions *)
Section S.
  Variables (flags expected : Z) (ms : list member) (s : setup) (w : world).
  Variables (namelen : Z) (structured tls : bool).
  Hypothesis Hsetup : setupexport flags expected ms = SetupOk s.
  Hypothesis Hexp : 0 <= expected.
  Hypothesis Hfl : plain_flags flags.
  Hypothesis Hne : no_empty_member flags ms.
  Hypothesis Hb : backed flags ms s w.
  Hypothesis Hok : sizes_ok w.
  Let c := client_of s namelen structured tls.
  Hypothesis Hst : no_splice_tls c.

  Lemma setup_is_plain : exists fis, starts_as s fis w /\ plain c fis /\ fits c fis w.
  Proof.
    destruct Hfl as (Ht & Hw & Hc).
    destruct (setup_plain flags expected ms s w Hsetup Hexp Ht Hw Hne Hb Hok) as (fis & Hs & _ & _).
    exists fis. split; [exact Hs|]. destruct Hs as (He & Hn & Hwf & Hmap & Hft & Hsz & Htot & Hst' & Hrest).
    split; [|apply Hft; reflexivity].
    unfold plain, cflag, c, client_of. cbn [c_flags c_export c_size].
    rewrite !(setup_flags flags expected ms s) by (auto; reflexivity).
    repeat split; auto; try lia; try apply Hwf.
  Qed.

  Lemma place_offset a : 0 <= a < su_size s ->
    exists n o mb,
      get_filepos c a w = Ret (Some (FExp n, o, mb)) w /\
      place (sizes_of (nfiles s) w) a = Some (n, o) /\ (n < nfiles s)%nat /\
      su_size s <= total (files_of (nfiles s) w) /\
      (forall len, 0 < len -> a + len <= su_size s ->
         0 < clamp mb len <= len /\ o + clamp mb len <= fsize (w_file w (FExp n))).
  Proof.
    intros Ha. destruct setup_is_plain as (fis & Hs & Hpl & Hft).
    destruct Hs as (He & Hn & Hwf & Hmap & _ & Hsz & Htot & Hst' & Hjo & Hld).
    destruct Hpl as (Ht & _ & _ & He' & _ & Hsz' & Hst2).
    pose proof (wp_get_filepos_plain c fis a w) as Hg.
    assert (Hg' : wp (get_filepos c a) (fun r w1 => w1 = w /\ exists n fi, slot_at fis a n fi /\
        r = Some (fi_h fi, a - fi_start fi,
             match nth_error fis (S n) with Some nx => fi_start nx - a | None => 0 end)) (fun _ => False) w)
      by (apply Hg; auto; lia).
    unfold wp in Hg'. destruct (get_filepos c a w) as [r w1| |w1|]; try contradiction.
    destruct Hg' as (-> & n & fi & Hsl & ->).
    destruct (Hld ltac:(lia)) as (e & Hl). pose proof (laid_total _ _ _ _ _ Hl) as Hte.
    destruct (laid_place _ _ _ _ _ Hl a n fi Hsl ltac:(lia)) as (P1 & P2 & P3 & P4 & P5 & P6).
    cbn [Nat.add] in P1. rewrite P1 in *. rewrite Z.sub_0_r in P3.
    replace (nfiles s) with (length fis) by (unfold nfiles; rewrite He; reflexivity).
    eexists n, _, _. split; [reflexivity|]. split; [exact P3|]. split; [exact P2|].
    split; [lia|]. intros len Hl0 Hlen. destruct Hsl as (En & Hle & Hnx).
    unfold clamp. destruct (nth_error fis (S n)) as [fj|] eqn:Ej.
    - specialize (P5 fj eq_refl). specialize (Hnx fj eq_refl).
      replace (fi_start fj - a =? 0) with false by lia. cbn [negb andb].
      destruct (fi_start fj - a <? len) eqn:E; lia.
    - specialize (P6 eq_refl). change (0 =? 0) with true. cbn [negb andb]. lia.
  Qed.

  (** The whole session: what the server sends, and what becomes of the disk. *)
  Lemma plain_session qs tail e :
    Forall wreq_ok qs -> Forall (fun q => q_type q <> 2) qs -> stops tail e ->
    exists w1 msgs h,
      (0 < nfiles s)%nat /\ su_size s <= total (files_of (nfiles s) w) /\
      (expected = 0 -> su_size s = total (files_of (nfiles s) w)) /\
      (expected <> 0 -> su_size s = expected) /\
      run c (concat (map encode qs) ++ tail) w = Ret (model_end e) w1 /\
      sent w1 = sent w ++ msgs /\
      (forall z, answers qs (concat msgs ++ z) = Some (h, z)) /\
      history (su_size s) (bad_write c) (disk_of s w) h (disk_of s w1) /\
      (forall n, fsize (w_file w1 (FExp n)) = fsize (w_file w (FExp n))) /\
      (forall f, (forall n, (n < nfiles s)%nat -> f <> FExp n) -> w_file w1 f = w_file w f) /\
      (forall p, w_exists w1 p = w_exists w p).
  Proof.
    intros Hq Hnd Hstop.
    destruct (setup_plain flags expected ms s w Hsetup Hexp (proj1 Hfl) (proj1 (proj2 Hfl)) Hne Hb Hok)
      as (fis & Hs & Hz0 & Hz1).
    destruct Hs as (He & Hn & Hwf & Hmap & Hft & Hsz & Htot & Hst' & Hjo & Hld).
    assert (Hpl : plain c fis).
    { destruct Hfl as (Ht & Hw & Hc). unfold plain, cflag, c, client_of. cbn [c_flags c_export c_size].
      rewrite !(setup_flags flags expected ms s) by (auto; reflexivity).
      repeat split; auto; try lia; try apply Hwf. }
    assert (Hft' : fits c fis w) by (apply Hft; reflexivity).
    assert (Hk0 : kept fis w w) by (unfold kept; auto).
    pose proof (wp_run c (kept fis w) (flat fis) False (plain_stable fis w)
      (fun q p w' a b d => wp_mono _ _ _ _ (died c (kept fis w) (flat fis) False q w') w'
         (plain_request c fis w Hpl Hft' q p w' a b d) (fun _ _ H => H) (fun _ H => False_ind _ H))
      Hst qs tail e w Hq Hnd Hstop Hk0) as Hrun.
    unfold wp in Hrun. destruct (run c (concat (map encode qs) ++ tail) w) as [r w1| |w1|] eqn:Er;
      [|destruct Hrun|destruct Hrun as [[] _]|destruct Hrun].
    destruct Hrun as [-> ((K1 & K2 & K3) & msgs & h & M1 & A1 & H1)].
    unfold disk_of. replace (nfiles s) with (length fis) by (unfold nfiles; rewrite He; reflexivity).
    exists w1, msgs, h.
    split; [destruct fis; [contradiction|cbn; lia]|]. split; [apply Hsz|]. split; [exact Hz0|]. split; [exact Hz1|].
    split; [reflexivity|]. split; [exact M1|]. split; [exact A1|].
    split.
    { eapply history_ext; [exact H1| |]; intros i; apply Hjo; auto. }
    split; [auto|]. split; [|exact K3].
    intros f Hf. apply K2. intros Hin. apply in_map_iff in Hin. destruct Hin as (fi & E & Hin).
    apply In_nth_error in Hin. destruct Hin as (n & En).
    assert (Hnk : (n < length fis)%nat) by (apply nth_error_Some; rewrite En; discriminate).
    apply (Hf n Hnk). rewrite <- E.
    assert (E1 : nth_error (map fi_h fis) n = Some (fi_h fi)) by (apply map_nth_error; exact En).
    rewrite Hmap in E1.
    rewrite (map_nth_error FExp n (seq 0 (length fis)) (d := n)) in E1; [congruence|].
    rewrite (nth_error_nth' _ 0%nat) by (rewrite seq_length; exact Hnk).
    rewrite seq_nth by exact Hnk. reflexivity.
  Qed.
End S.
