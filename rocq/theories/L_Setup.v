From Coq Require Import FinFun.
(** From setupexport to a flat disk made of the files laid end to end. *)
From Verif Require Import Base M_Const M_Disk M_Tree M_Raw M_Setup L_Wp L_Raw S_Wire S_Disk L_Wire L_Req L_Plain L_Session.

(** the first [k] backing files *)
Definition files_from (n k : nat) (w : world) : list (Z * (Z -> Z)) :=
  map (fun i => let f := w_file w (FExp i) in (fsize f, frd f)) (seq n k).
Notation files_of := (files_from 0).

(** the size the operating system reports for the [n]th file *)
Definition detected (flags : Z) (ms : list member) (n : nat) : option Z :=
  if flag flags F_TEMPORARY && negb (flag flags F_MULTIFILE) then
    match n with O => Some 0 | _ => None end
  else option_map mb_size (nth_error ms n).

(** the files of [w] are the ones that were opened *)
Definition backed (flags : Z) (ms : list member) (s : setup) (w : world) : Prop :=
  match su_trunc s with
  | Some e => fsize (w_file w (FExp 0)) = e
  | None => forall n z, detected flags ms n = Some z -> fsize (w_file w (FExp n)) = z
  end.

Definition no_empty_member (flags : Z) (ms : list member) : Prop :=
  flag flags F_MULTIFILE = true -> forall n z, detected flags ms n = Some z -> 0 < z.
Definition sizes_ok (w : world) : Prop :=
  forall n, 0 <= fsize (w_file w (FExp n)) < 9223372036854775808.

(** the client structure after setupexport *)
Definition client_of (s : setup) (namelen : Z) (structured tls : bool) : client :=
  mkC (su_flags s) (su_size s) (su_export s) namelen structured tls.

(** consecutive files from index [n] and offset [s] *)
Inductive laid (w : world) : nat -> Z -> list finfo -> Z -> Prop :=
| laid_nil n s : laid w n s [] s
| laid_cons n s l e :
    0 < fsize (w_file w (FExp n)) ->
    laid w (S n) (s + fsize (w_file w (FExp n))) l e ->
    laid w n s (mkFI (FExp n) s :: l) e.

Lemma laid_end w n s l e : laid w n s l e -> s <= e.
Proof. induction 1; lia. Qed.

Lemma laid_increasing w n s l e prev : laid w n s l e -> prev < s -> increasing prev l.
Proof.
  intros H. revert prev. induction H as [|n s l e Hp H IH]; intros prev Hlt; cbn [increasing]; [exact I|].
  split; [exact Hlt|]. apply IH. cbn [fi_start]. lia.
Qed.

Lemma laid_handles w n s l e : laid w n s l e -> map fi_h l = map FExp (seq n (length l)).
Proof. induction 1 as [|n s l e Hp H IH]; cbn [map length seq fi_h]; [reflexivity|]. f_equal. exact IH. Qed.

Lemma laid_nodup w n s l e : laid w n s l e -> NoDup (map fi_h l).
Proof.
  intros H. rewrite (laid_handles _ _ _ _ _ H). apply Injective_map_NoDup; [|apply seq_NoDup].
  intros x y E. injection E. auto.
Qed.

Lemma laid_exp w n s l e : laid w n s l e -> forallb (fun fi => is_exp (fi_h fi)) l = true.
Proof. induction 1 as [|n s l e Hp H IH]; cbn [forallb fi_h is_exp]; auto. Qed.

Lemma laid_start_le w n s l e : laid w n s l e -> forall fi, In fi l -> s <= fi_start fi < e.
Proof.
  induction 1 as [|n s l e Hp H IH]; intros fi Hin; cbn [In] in Hin; [contradiction|].
  pose proof (laid_end _ _ _ _ _ H). destruct Hin as [<-|Hin].
  - cbn [fi_start]. lia.
  - specialize (IH fi Hin). lia.
Qed.

Lemma laid_total w n s l e : laid w n s l e -> e = s + total (files_from n (length l) w).
Proof.
  unfold files_from. induction 1 as [|n s l e Hp H IH]; cbn [length seq map total]; [lia|]. rewrite IH. lia.
Qed.

Lemma locate_skip fi t i r : locate t i = Some r -> locate (fi :: t) i = Some r.
Proof. intros H. cbn [locate]. rewrite H. reflexivity. Qed.

Lemma laid_locate_none w n s l e i : laid w n s l e -> i < s -> locate l i = None.
Proof.
  induction 1 as [|n s l e Hp H IH]; intros Hi; [reflexivity|].
  cbn [locate fi_start]. rewrite IH by lia. replace (s <=? i) with false by lia. reflexivity.
Qed.

Lemma laid_flat w n s l e : laid w n s l e -> forall i, s <= i ->
  flat l w i = joined (files_from n (length l) w) (i - s).
Proof.
  induction 1 as [n s|n s l e Hp H IH]; intros i Hi.
  - reflexivity.
  - unfold files_from. cbn [length seq map joined].
    destruct (i - s <? fsize (w_file w (FExp n))) eqn:E.
    + unfold flat. cbn [locate fi_start fi_h].
      rewrite (laid_locate_none w (S n) _ l e i H) by lia.
      replace (s <=? i) with true by lia. reflexivity.
    + replace (i - s - fsize (w_file w (FExp n))) with (i - (s + fsize (w_file w (FExp n)))) by lia.
      fold (files_from (S n) (length l) w). rewrite <- IH by lia.
      unfold flat. destruct (locate l i) as [r|] eqn:El.
      * rewrite (locate_skip _ _ _ _ El). reflexivity.
      * cbn [locate]. rewrite El. cbn [fi_start fi_h]. replace (s <=? i) with true by lia.
        unfold frd. replace (i - s <? fsize (w_file w (FExp n))) with false by lia.
        rewrite andb_false_r. reflexivity.
Qed.

Lemma joined_neg fs i : (forall n f, In (n, f) fs -> 0 <= n /\ forall j, j < 0 -> f j = 0) -> i < 0 -> joined fs i = 0.
Proof.
  intros H Hi. destruct fs as [|[n f] t]; cbn [joined]; [reflexivity|].
  destruct (H n f (or_introl eq_refl)) as [Hn Hf]. replace (i <? n) with true by lia. auto.
Qed.

Lemma files_from_neg n k w i : sizes_ok w -> i < 0 -> joined (files_from n k w) i = 0.
Proof.
  intros Hs. apply joined_neg. intros m f Hin. unfold files_from in Hin. apply in_map_iff in Hin.
  destruct Hin as (x & E & _). injection E as <- <-. split; [apply Hs|].
  intros j Hj. unfold frd. replace (0 <=? j) with false by lia. reflexivity.
Qed.

Lemma laid_fits w n s l e c : laid w n s l e -> c_size c <= e ->
  forall k fi, nth_error l k = Some fi ->
    match nth_error l (S k) with Some fj => fi_start fj | None => c_size c end
    <= fi_start fi + fsize (w_file w (fi_h fi)).
Proof.
  intros H Hc. induction H as [|n s l e Hp H IH]; intros k fi E.
  - destruct k; discriminate.
  - destruct k as [|k]; cbn [nth_error] in E.
    + injection E as <-. cbn [nth_error fi_start fi_h].
      inversion H; subst; cbn [nth_error fi_start]; lia.
    + specialize (IH Hc k fi E). exact IH.
Qed.

(** ** setupexport *)
Lemma setup_multi_laid ms : forall flags i start flags1 fis rws tot w,
  setup_multi flags ms i start = Some (flags1, fis, rws, tot) ->
  (forall n m, nth_error ms n = Some m -> fsize (w_file w (FExp (i + n))) = mb_size m /\ 0 < mb_size m) ->
  sizes_ok w ->
  laid w i start fis tot /\ (- 9223372036854775808 <= start < 9223372036854775808 -> tot < 9223372036854775808).
Proof.
  induction ms as [|m ms IH]; intros flags i start flags1 fis rws tot w E Hsz Hok; cbn [setup_multi] in E.
  - injection E as <- <- <- <-. split; [constructor|lia].
  - destruct (open_member flags false m) as [[fl rw]|].
    2:{ injection E as <- <- <- <-. split; [constructor|lia]. }
    destruct (Hsz 0%nat m eq_refl) as [Hf Hp]. rewrite Nat.add_0_r in Hf.
    pose proof (Hok i) as Hi. rewrite Hf in Hi.
    unfold off_add in E. rewrite i64_small in E by lia.
    destruct ((-9223372036854775808 <=? start + mb_size m) && (start + mb_size m <? 9223372036854775808)) eqn:Eo; [|discriminate].
    destruct (setup_multi fl ms (S i) (start + mb_size m)) as [[[[f2 fis'] rws'] tot']|] eqn:Er; [|discriminate].
    injection E as <- <- <- <-.
    destruct (IH fl (S i) (start + mb_size m) f2 fis' rws' tot' w Er) as [Hl Ht]; [|exact Hok|].
    { intros n m' En. specialize (Hsz (S n) m' En). rewrite <- plus_n_Sm in Hsz. exact Hsz. }
    split; [|intros; apply Ht; lia].
    constructor; rewrite Hf; [exact Hp|exact Hl].
Qed.

(** the disk a plain export starts as *)
Definition starts_as (s : setup) (fis : list finfo) (w : world) : Prop :=
  su_export s = Some fis /\ fis <> [] /\ wf_export fis /\
  map fi_h fis = map FExp (seq 0 (length fis)) /\
  (forall c, c_size c = su_size s -> fits c fis w) /\
  0 <= su_size s <= total (files_of (length fis) w) /\
  total (files_of (length fis) w) < 9223372036854775808 /\
  (forall fi, In fi fis -> fi_start fi < 9223372036854775808) /\
  (forall w', (forall n, fsize (w_file w' (FExp n)) = fsize (w_file w (FExp n))) ->
     forall i, flat fis w' i = joined (files_of (length fis) w') i) /\
  (0 < su_size s -> exists e, laid w 0 0 fis e).

Lemma laid_same w w' n s l e : (forall n, fsize (w_file w' (FExp n)) = fsize (w_file w (FExp n))) ->
  laid w n s l e -> laid w' n s l e.
Proof. intros Hs. induction 1 as [|n s l e Hp H IH]; constructor; rewrite Hs; auto. Qed.

Lemma laid_flat_all w n l e i : laid w n 0 l e -> sizes_ok w ->
  flat l w i = joined (files_from n (length l) w) i.
Proof.
  intros H Hok. destruct (Z_lt_dec i 0) as [Hi|Hi].
  - rewrite files_from_neg by assumption. unfold flat.
    rewrite (laid_locate_none _ _ _ _ _ i H Hi). reflexivity.
  - rewrite (laid_flat _ _ _ _ _ H i) by lia. rewrite Z.sub_0_r. reflexivity.
Qed.

Lemma sizes_ok_same w w' : (forall n, fsize (w_file w' (FExp n)) = fsize (w_file w (FExp n))) ->
  sizes_ok w -> sizes_ok w'.
Proof. intros H Hok n. rewrite H. apply Hok. Qed.

Lemma single_starts s rw fl sz w t : 0 <= sz <= fsize (w_file w (FExp 0)) -> sizes_ok w ->
  s = mkSetup fl (Some [mkFI (FExp 0) 0]) rw sz t -> starts_as s [mkFI (FExp 0) 0] w.
Proof.
  intros Hsz Hok ->. pose proof (Hok 0%nat) as H0.
  unfold starts_as. cbn [su_export su_size].
  split; [reflexivity|]. split; [discriminate|]. split.
  { split; [split; [reflexivity|exact I]|]. split; [repeat constructor; auto|reflexivity]. }
  split; [reflexivity|]. split.
  { intros c Hc [|n] fi E; cbn [nth_error] in E; [|destruct n; discriminate].
    injection E as <-. cbn [nth_error fi_start fi_h]. lia. }
  unfold files_from. cbn [length seq map total].
  split; [lia|]. split; [lia|]. split; [intros fi [<-|[]]; cbn [fi_start]; lia|].
  split. 2:{ intros Hp. eexists. constructor; [lia|]. constructor. }
  intros w' Hw' i. cbn [joined]. unfold flat. cbn [locate fi_start fi_h].
  destruct (0 <=? i) eqn:Ei.
  - rewrite Z.sub_0_r. destruct (i <? fsize (w_file w' (FExp 0))) eqn:Ej; [reflexivity|].
    unfold frd. rewrite Ej, andb_false_r. reflexivity.
  - destruct (i <? fsize (w_file w' (FExp 0))) eqn:Ej; [|reflexivity].
    unfold frd. rewrite Ei. reflexivity.
Qed.

Lemma setup_plain flags expected ms s w :
  setupexport flags expected ms = SetupOk s -> 0 <= expected ->
  flag flags F_TREEFILES = false -> flag flags F_WAIT = false ->
  no_empty_member flags ms -> backed flags ms s w -> sizes_ok w ->
  exists fis, starts_as s fis w /\ (expected = 0 -> su_size s = total (files_of (length fis) w)) /\
    (expected <> 0 -> su_size s = expected).
Proof.
  intros E He Ht Hw Hne Hb Hok. unfold setupexport in E. rewrite Ht, Hw in E. cbn [orb] in E.
  destruct (flag flags F_MULTIFILE) eqn:Em.
  - destruct (setup_multi flags ms 0 0) as [[[[fl fis] rws] tot]|] eqn:Es; [|discriminate].
    destruct fis as [|fi0 fis']; [discriminate|]. set (fis := fi0 :: fis') in *.
    destruct (setup_size expected tot) as [size|] eqn:Esz; [|discriminate]. injection E as <-.
    unfold backed in Hb. cbn [su_trunc] in Hb.
    assert (Hdd : forall n m, nth_error ms n = Some m -> detected flags ms n = Some (mb_size m)).
    { intros n m En. unfold detected. rewrite Em, En. cbn [negb]. rewrite andb_false_r. reflexivity. }
    assert (Hdet : forall n m, nth_error ms n = Some m -> fsize (w_file w (FExp (0 + n))) = mb_size m /\ 0 < mb_size m).
    { intros n m En. split; [apply Hb, Hdd, En|]. apply (Hne Em n), Hdd, En. }
    destruct (setup_multi_laid ms flags 0 0 fl fis rws tot w Es Hdet Hok) as [Hl Htot].
    specialize (Htot ltac:(lia)). pose proof (laid_end _ _ _ _ _ Hl) as Hge.
    pose proof (laid_total _ _ _ _ _ Hl) as Hte.
    unfold setup_size in Esz. rewrite u64_small in Esz by (unfold is_u64; lia).
    assert (Hsz : 0 <= size <= tot /\ (expected = 0 -> size = tot) /\ (expected <> 0 -> size = expected)).
    { destruct (expected =? 0) eqn:E0.
      - injection Esz as <-. lia.
      - destruct (tot <? expected) eqn:E1; [discriminate|]. injection Esz as <-. lia. }
    exists fis. split; [|cbn [su_size]; split; intros; lia].
    unfold starts_as. cbn [su_export su_size]. split; [reflexivity|]. split; [discriminate|].
    split.
    { split; [|split; [eapply laid_nodup; eauto|eapply laid_exp; eauto]].
      inversion Hl as [|? ? ? ? Hp Hl']; subst. split; [reflexivity|].
      eapply laid_increasing; [exact Hl'|lia]. }
    split; [eapply laid_handles; eauto|]. split.
    { intros c Hc k fi Ek. eapply laid_fits; [exact Hl|lia|exact Ek]. }
    split; [lia|]. split; [lia|].
    split; [intros fi Hin; pose proof (laid_start_le _ _ _ _ _ Hl fi Hin); lia|].
    split; [|eauto].
    intros w' Hw' i. eapply laid_flat_all; [eapply laid_same; eauto|eapply sizes_ok_same; eauto].
  - destruct (open_single flags expected ms) as [[[fl rw] sz]|] eqn:Eo; [|discriminate].
    exists [mkFI (FExp 0) 0].
    assert (Hdet : detected flags ms 0 = Some sz).
    { unfold detected, open_single in *. rewrite Em. destruct (flag flags F_TEMPORARY).
      - cbn [andb negb]. congruence.
      - cbn [andb]. destruct ms as [|m ms]; [discriminate|]. cbn [nth_error option_map].
        destruct (open_member flags (negb (expected =? 0)) m) as [[]|]; congruence. }
    pose proof (Hok 0%nat) as H0.
    destruct ((sz =? 0) && negb (expected =? 0)) eqn:Etr.
    + destruct rw; [|discriminate]. injection E as <-. unfold backed in Hb. cbn [su_trunc] in Hb.
      split; [eapply single_starts; [|exact Hok|reflexivity]; lia|].
      cbn [su_size]. split; intros; lia.
    + destruct (setup_size expected (i64 sz)) as [size|] eqn:Esz; [|discriminate]. injection E as <-.
      unfold backed in Hb. cbn [su_trunc] in Hb. specialize (Hb 0%nat sz Hdet). rewrite Hb in H0.
      unfold setup_size in Esz. rewrite i64_small in Esz by lia. rewrite u64_small in Esz by (unfold is_u64; lia).
      unfold files_from. cbn [length seq map total su_size].
      split; [eapply single_starts; [|exact Hok|reflexivity]|].
      * destruct (expected =? 0) eqn:E0; [injection Esz as <-; lia|].
        destruct (sz <? expected) eqn:E1; [discriminate|]. injection Esz as <-. lia.
      * destruct (expected =? 0) eqn:E0; [injection Esz as <-; lia|].
        destruct (sz <? expected) eqn:E1; [discriminate|]. injection Esz as <-. lia.
Qed.

(** ** Which file holds an offset *)
Definition sizes_from (n k : nat) (w : world) : list Z := map (fun i => fsize (w_file w (FExp i))) (seq n k).
Notation sizes_of := (sizes_from 0).

Lemma laid_place w n0 s l e : laid w n0 s l e -> forall a n fi,
  slot_at l a n fi -> s <= a < e ->
  fi_h fi = FExp (n0 + n) /\ (n < length l)%nat /\
  place (sizes_from n0 (length l) w) (a - s) = Some (n, a - fi_start fi) /\
  a < fi_start fi + fsize (w_file w (fi_h fi)) /\
  (forall fj, nth_error l (S n) = Some fj -> fi_start fj = fi_start fi + fsize (w_file w (fi_h fi))) /\
  (nth_error l (S n) = None -> e = fi_start fi + fsize (w_file w (fi_h fi))).
Proof.
  induction 1 as [n0 s|n0 s l e Hp H IH]; intros a n fi (En & Hle & Hnx) Ha.
  - destruct n; discriminate.
  - unfold sizes_from. cbn [length seq map place].
    destruct n as [|n]; cbn [nth_error] in En.
    + injection En as <-. cbn [fi_start fi_h] in *. rewrite Nat.add_0_r.
      inversion H as [n1 s1|n1 s1 l1 e1 Hp1 H1]; subst.
      * replace (a - s <? fsize (w_file w (FExp n0))) with true by lia.
        repeat split; try lia. intros fj Ej. discriminate.
      * cbn [nth_error] in Hnx. specialize (Hnx _ eq_refl). cbn [fi_start] in Hnx.
        replace (a - s <? fsize (w_file w (FExp n0))) with true by lia.
        split; [reflexivity|]. split; [lia|]. split; [reflexivity|]. split; [lia|].
        split; [|cbn [nth_error]; discriminate].
        cbn [nth_error]. intros fj Ej. injection Ej as <-. reflexivity.
    + assert (Hs1 : s + fsize (w_file w (FExp n0)) <= fi_start fi).
      { apply (laid_start_le _ _ _ _ _ H). eapply nth_error_In; eauto. }
      destruct (IH a n fi) as (I1 & I2 & I3 & I4 & I5 & I6); [split; [exact En|split; [exact Hle|exact Hnx]]|lia|].
      replace (a - s <? fsize (w_file w (FExp n0))) with false by lia.
      replace (a - s - fsize (w_file w (FExp n0))) with (a - (s + fsize (w_file w (FExp n0)))) by lia.
      unfold sizes_from in I3. rewrite I3.
      rewrite I1. replace (n0 + S n)%nat with (S n0 + n)%nat by lia. rewrite I1 in I4.
      repeat split; auto; try lia.
      * intros fj Ej. rewrite (I5 fj Ej), I1. reflexivity.
      * intros Ej. rewrite (I6 Ej), I1. reflexivity.
Qed.

Lemma place_inj sizes : forall a b r, place sizes a = Some r -> place sizes b = Some r -> a = b.
Proof.
  induction sizes as [|n t IH]; cbn [place]; intros a b r Ha Hb; [discriminate|].
  destruct (a <? n) eqn:E1, (b <? n) eqn:E2.
  - congruence.
  - destruct (place t (b - n)) as [[]|]; congruence.
  - destruct (place t (a - n)) as [[]|]; congruence.
  - destruct (place t (a - n)) as [[k o]|] eqn:P1; [|discriminate].
    destruct (place t (b - n)) as [[k' o']|] eqn:P2; [|discriminate].
    assert (a - n = b - n); [|lia]. apply (IH _ _ (k, o)); congruence.
Qed.
