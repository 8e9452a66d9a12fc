(** Plain (single- or multi-file) exports: where each byte lives. *)
From Verif Require Import Base M_Const M_Disk M_Tree M_Raw L_Wp L_Raw S_Wire S_Disk L_Wire L_Req.

(** the last file that starts at or before [i] *)
Fixpoint locate (fis : list finfo) (i : Z) : option (fref * Z) :=
  match fis with
  | [] => None
  | fi :: t =>
      match locate t i with
      | Some r => Some r
      | None => if fi_start fi <=? i then Some (fi_h fi, i - fi_start fi) else None
      end
  end.

Definition flat (fis : list finfo) (w : world) (i : Z) : Z :=
  match locate fis i with Some (h, o) => frd (w_file w h) o | None => 0 end.

Fixpoint increasing (prev : Z) (l : list finfo) : Prop :=
  match l with
  | [] => True
  | fi :: t => prev < fi_start fi /\ increasing (fi_start fi) t
  end.

Definition is_exp (h : fref) : bool := match h with FExp _ => true | _ => false end.

(** layout of an export without empty members *)
Definition wf_export (fis : list finfo) : Prop :=
  match fis with
  | [] => False
  | fi :: t => fi_start fi = 0 /\ increasing 0 t
  end /\ NoDup (map fi_h fis) /\ forallb (fun fi => is_exp (fi_h fi)) fis = true.

Lemma increasing_gt prev l : increasing prev l -> forall n fi, nth_error l n = Some fi -> prev < fi_start fi.
Proof.
  revert prev. induction l as [|x l IH]; cbn [increasing]; intros prev H [|n] fi E; cbn in E; try discriminate.
  - injection E as ->. tauto.
  - destruct H as [H1 H2]. specialize (IH _ H2 _ _ E). lia.
Qed.

Lemma increasing_nth l : forall prev n m fi fj, increasing prev l ->
  nth_error l n = Some fi -> nth_error l m = Some fj -> (n < m)%nat -> fi_start fi < fi_start fj.
Proof.
  induction l as [|x l IH]; intros prev [|n] [|m] fi fj H E1 E2 Hlt; cbn in E1, E2; try discriminate; try lia.
  - injection E1 as ->. eapply increasing_gt; [apply H|eauto].
  - eapply IH; eauto; [apply H|lia].
Qed.

Lemma wf_nth fis n m fi fj : wf_export fis ->
  nth_error fis n = Some fi -> nth_error fis m = Some fj -> (n < m)%nat -> fi_start fi < fi_start fj.
Proof.
  intros [H _] E1 E2 Hlt. destruct fis as [|x t]; [tauto|].
  assert (Hi : increasing (-1) (x :: t)) by (cbn [increasing]; destruct H as [-> ?]; split; [lia|assumption]).
  eapply increasing_nth; eauto.
Qed.

Lemma locate_none_gt l i prev : i < prev -> increasing prev l -> locate l i = None.
Proof.
  revert prev. induction l as [|x l IH]; cbn [locate increasing]; intros prev Hi H; [reflexivity|].
  rewrite IH with (prev := fi_start x); [|lia|tauto].
  replace (fi_start x <=? i) with false by lia. reflexivity.
Qed.

Lemma locate_at l : forall prev n fi i, increasing prev l ->
  nth_error l n = Some fi -> fi_start fi <= i ->
  (forall fj, nth_error l (S n) = Some fj -> i < fi_start fj) ->
  locate l i = Some (fi_h fi, i - fi_start fi).
Proof.
  induction l as [|x l IH]; intros prev [|n] fi i H E Hle Hn; cbn [nth_error] in E; try discriminate.
  - injection E as ->. cbn [locate]. destruct H as [H1 H2].
    replace (locate l i) with (@None (fref * Z)).
    + replace (fi_start fi <=? i) with true by lia. reflexivity.
    + symmetry. destruct l as [|y l]; [reflexivity|].
      specialize (Hn y eq_refl). cbn [increasing] in H2. cbn [locate].
      rewrite (locate_none_gt l i (fi_start y)); [|lia|tauto].
      replace (fi_start y <=? i) with false by lia. reflexivity.
  - cbn [locate]. destruct H as [H1 H2]. rewrite (IH (fi_start x) n fi i); auto.
Qed.

Lemma wf_locate fis n fi i : wf_export fis ->
  nth_error fis n = Some fi -> fi_start fi <= i ->
  (forall fj, nth_error fis (S n) = Some fj -> i < fi_start fj) ->
  locate fis i = Some (fi_h fi, i - fi_start fi).
Proof.
  intros [H _] E1 Hle Hn. destruct fis as [|x t]; [tauto|].
  assert (Hi : increasing (-1) (x :: t)) by (cbn [increasing]; destruct H as [-> ?]; split; [lia|assumption]).
  eapply locate_at; eauto.
Qed.

(** every non-negative offset is in exactly one slot *)
Lemma locate_inv fis i h o : locate fis i = Some (h, o) ->
  exists n fi, nth_error fis n = Some fi /\ fi_h fi = h /\ o = i - fi_start fi /\ fi_start fi <= i.
Proof.
  induction fis as [|x fis IH]; cbn [locate]; [discriminate|].
  destruct (locate fis i) as [[h' o']|].
  - intros E. injection E as -> ->. destruct (IH eq_refl) as (n & fi & E & H). exists (S n), fi. auto.
  - destruct (fi_start x <=? i) eqn:E; [|discriminate]. intros E1. injection E1 as <- <-.
    exists 0%nat, x. cbn [nth_error]. repeat split; lia.
Qed.

(** ** The binary search *)
Definition slot_at (fis : list finfo) (a : Z) (n : nat) (fi : finfo) : Prop :=
  nth_error fis n = Some fi /\ fi_start fi <= a /\
  (forall fj, nth_error fis (S n) = Some fj -> a < fi_start fj).

Lemma wp_search fis a w : wf_export fis -> 0 <= a ->
  wp (mloop (zlen fis + 1) (search_body fis a) (0, zlen fis - 1))
     (fun e w1 => w1 = w /\ exists n fi, e = Z.of_nat n /\ slot_at fis a n fi) (fun _ => False) w.
Proof.
  intros Hwf Ha.
  apply wp_mloop with
    (I := fun se w1 => w1 = w /\ 0 <= fst se <= snd se + 1 /\ snd se < zlen fis /\
       (forall n fi, Z.of_nat n < fst se -> nth_error fis n = Some fi -> fi_start fi < a) /\
       (forall n fi, snd se < Z.of_nat n -> nth_error fis n = Some fi -> a < fi_start fi))
    (m := fun se => snd se - fst se + 1).
  - intros [s e] w1 (_ & H & _). cbn [fst snd] in *. lia.
  - intros [s e] w1 (-> & H1 & H2 & Hlo & Hhi). cbn [fst snd] in *. unfold search_body.
    destruct (s <=? e) eqn:E.
    + set (mid := (s + e) / 2). assert (Hm : s <= mid <= e) by (unfold mid; lia).
      destruct (nth_error fis (Z.to_nat mid)) as [fi|] eqn:En.
      2:{ apply nth_error_None in En. unfold zlen in *. lia. }
      destruct (fi_start fi <? a) eqn:E1.
      * apply wp_ret. cbn [fst snd]. split; [|lia]. split; [reflexivity|]. split; [lia|]. split; [lia|].
        split; [|exact Hhi]. intros n fj Hn Enn.
        destruct (Z_lt_dec (Z.of_nat n) mid).
        -- assert (Hlt : (n < Z.to_nat mid)%nat) by lia.
           pose proof (wf_nth _ _ _ _ _ Hwf Enn En Hlt). lia.
        -- replace n with (Z.to_nat mid) in Enn by lia. rewrite En in Enn. injection Enn as <-. lia.
      * destruct (a <? fi_start fi) eqn:E2.
        -- apply wp_ret. cbn [fst snd]. split; [|lia]. split; [reflexivity|]. split; [lia|]. split; [lia|].
           split; [exact Hlo|]. intros n fj Hn Enn.
           destruct (Z_lt_dec mid (Z.of_nat n)).
           ++ assert (Hlt : (Z.to_nat mid < n)%nat) by lia.
              pose proof (wf_nth _ _ _ _ _ Hwf En Enn Hlt). lia.
           ++ replace n with (Z.to_nat mid) in Enn by lia. rewrite En in Enn. injection Enn as <-. lia.
        -- apply wp_ret. split; [reflexivity|]. exists (Z.to_nat mid), fi. split; [lia|].
           split; [exact En|]. split; [lia|]. intros fj Ej.
           assert (Hlt : (Z.to_nat mid < S (Z.to_nat mid))%nat) by lia.
           pose proof (wf_nth _ _ _ _ _ Hwf En Ej Hlt). lia.
    + apply wp_ret. split; [reflexivity|].
      assert (He : 0 <= e).
      { destruct (Z_lt_dec e 0); [|lia]. destruct Hwf as [H0 _]. destruct fis as [|x t]; [tauto|].
        specialize (Hhi 0%nat x ltac:(lia) eq_refl). lia. }
      destruct (nth_error fis (Z.to_nat e)) as [fi|] eqn:En.
      2:{ apply nth_error_None in En. unfold zlen in *. lia. }
      exists (Z.to_nat e), fi. split; [lia|]. split; [exact En|]. split.
      * specialize (Hlo (Z.to_nat e) fi ltac:(lia) En). lia.
      * intros fj Ej. apply (Hhi (S (Z.to_nat e))); [lia|exact Ej].
  - cbn [fst snd]. pose proof (zlen_nonneg fis). split; [reflexivity|]. split; [lia|]. split; [lia|].
    split; intros n fi Hn En; [lia|].
    assert (n < length fis)%nat by (apply nth_error_Some; congruence). unfold zlen in *. lia.
  - cbn [fst snd]. lia.
Qed.

(** Where a transfer at [a] goes: the slot holding [a], and never beyond its
    end. *)
Lemma wp_get_filepos_plain c fis a w :
  cflag c F_TREEFILES = false -> c_export c = Some fis -> wf_export fis ->
  0 <= a < 9223372036854775808 ->
  (forall fi, In fi fis -> fi_start fi < 9223372036854775808) ->
  wp (get_filepos c a)
     (fun r w1 => w1 = w /\ exists n fi, slot_at fis a n fi /\
        r = Some (fi_h fi, a - fi_start fi,
                  match nth_error fis (S n) with Some fj => fi_start fj - a | None => 0 end))
     (fun _ => False) w.
Proof.
  intros Ht He Hwf Ha Hst. unfold get_filepos. replace (a <? 0) with false by lia.
  rewrite Ht, He. apply wp_bind. eapply wp_mono; [apply wp_search; [exact Hwf|lia]| |auto].
  intros e w1 (-> & n & fi & -> & Hs). apply wp_bind, wp_assert; [|lia]. intros _.
  rewrite Nat2Z.id. replace (Z.to_nat (Z.of_nat n + 1)) with (S n) by lia.
  destruct Hs as (E & Hle & Hn). rewrite E. apply wp_ret. split; [reflexivity|].
  exists n, fi. split; [repeat split; assumption|]. f_equal. f_equal.
  destruct (nth_error fis (S n)) as [fj|] eqn:Ej; [|reflexivity].
  apply u64_small. unfold is_u64. specialize (Hn fj eq_refl).
  specialize (Hst fj (nth_error_In _ _ Ej)). lia.
Qed.

Lemma frd_fwrite f o k d i : 0 <= o -> 0 < k ->
  frd (fwrite f o k d) i = if (o <=? i) && (i <? o + k) then d (i - o) else frd f i.
Proof.
  intros Ho Hk. unfold fwrite, frd at 1. cbn [fsize fdata].
  destruct ((o <=? i) && (i <? o + k)) eqn:E.
  - replace ((0 <=? i) && (i <? Z.max (fsize f) (o + k))) with true by lia. reflexivity.
  - destruct ((0 <=? i) && (i <? Z.max (fsize f) (o + k))) eqn:E2; [reflexivity|].
    unfold frd. replace ((0 <=? i) && (i <? fsize f)) with false by lia. reflexivity.
Qed.

(** Distinct slots have distinct handles. *)
Lemma slot_handle_inj fis n m fi fj : wf_export fis ->
  nth_error fis n = Some fi -> nth_error fis m = Some fj -> fi_h fi = fi_h fj -> n = m.
Proof.
  intros (_ & Hnd & _) E1 E2 Hh.
  rewrite NoDup_nth_error in Hnd. apply Hnd.
  - rewrite map_length. apply nth_error_Some. congruence.
  - rewrite !nth_error_map, E1, E2. cbn. congruence.
Qed.

Lemma wf_handle fis n fi : wf_export fis -> nth_error fis n = Some fi ->
  fi_h fi <> FDiff /\ fi_h fi <> FBad /\ fi_h fi <> FDummy /\ (forall p, fi_h fi <> FTree p).
Proof.
  intros (_ & _ & Hf) E. rewrite forallb_forall in Hf. specialize (Hf fi (nth_error_In _ _ E)).
  destruct (fi_h fi); cbn in Hf; try discriminate; repeat split; discriminate.
Qed.

(** A change of one file at [o..o+k) is a change of the flat disk at the
    corresponding export offsets and nowhere else. *)
Lemma flat_change fis a n fi w f' (P : Z -> Z -> Prop) :
  wf_export fis -> slot_at fis a n fi ->
  (forall o, frd f' o = frd (w_file w (fi_h fi)) o \/ (a - fi_start fi <= o /\ P (o + fi_start fi) (frd f' o))) ->
  forall i, flat fis (set_file (fi_h fi) f' w) i = flat fis w i \/
            (a <= i /\ P i (flat fis (set_file (fi_h fi) f' w) i)).
Proof.
  intros Hwf (E & _) Hf i. unfold flat.
  destruct (locate fis i) as [[h o]|] eqn:El; [|auto].
  destruct (locate_inv _ _ _ _ El) as (m & fj & Em & Hh & Ho & Hle). subst h.
  cbn [set_file w_file]. unfold upd_file.
  destruct (fref_eq_dec (fi_h fj) (fi_h fi)) as [Hq|Hq]; [|auto].
  assert (m = n) by (eapply slot_handle_inj; eauto). subst m.
  assert (fj = fi) by congruence. subst fj.
  destruct (Hf o) as [Hf1|[Hf1 Hf2]]; [left; exact Hf1|right].
  split; [lia|]. replace i with (o + fi_start fi) by lia. exact Hf2.
Qed.

Lemma flat_write fis a n fi k d w :
  wf_export fis -> slot_at fis a n fi -> 0 < k ->
  (forall fj, nth_error fis (S n) = Some fj -> a + k <= fi_start fj) ->
  forall i, flat fis (set_file (fi_h fi) (fwrite (w_file w (fi_h fi)) (a - fi_start fi) k d) w) i
            = if (a <=? i) && (i <? a + k) then d (i - a) else flat fis w i.
Proof.
  intros Hwf (E & Hle & Hn) Hk Hend i. unfold flat.
  destruct ((a <=? i) && (i <? a + k)) eqn:Er.
  - rewrite (wf_locate fis n fi i Hwf E); [|lia|].
    + cbn [set_file w_file]. unfold upd_file.
      destruct (fref_eq_dec (fi_h fi) (fi_h fi)) as [_|]; [|congruence].
      rewrite frd_fwrite by lia.
      replace ((a - fi_start fi <=? i - fi_start fi) && (i - fi_start fi <? a - fi_start fi + k)) with true by lia.
      f_equal; lia.
    + intros fj Ej. specialize (Hend fj Ej). lia.
  - destruct (locate fis i) as [[h o]|] eqn:El; [|reflexivity].
    destruct (locate_inv _ _ _ _ El) as (m & fj & Em & Hh & Ho & Hlej). subst h.
    cbn [set_file w_file]. unfold upd_file.
    destruct (fref_eq_dec (fi_h fj) (fi_h fi)) as [Hq|Hq]; [|reflexivity].
    assert (m = n) by (eapply slot_handle_inj; eauto). subst m.
    assert (fj = fi) by congruence. subst fj.
    rewrite frd_fwrite by lia.
    replace ((a - fi_start fi <=? o) && (o <? a - fi_start fi + k)) with false by lia. reflexivity.
Qed.

Lemma flat_read fis a n fi w j :
  wf_export fis -> slot_at fis a n fi -> 0 <= j ->
  (forall fj, nth_error fis (S n) = Some fj -> a + j < fi_start fj) ->
  flat fis w (a + j) = frd (w_file w (fi_h fi)) (a - fi_start fi + j).
Proof.
  intros Hwf (E & Hle & Hn) Hj Hend. unfold flat.
  rewrite (wf_locate fis n fi (a + j) Hwf E); [|lia|exact Hend]. f_equal. lia.
Qed.

(** ** Instance of the backend interface *)
Definition plain (c : client) (fis : list finfo) : Prop :=
  cflag c F_TREEFILES = false /\ cflag c F_COPYONWRITE = false /\ cflag c F_WAIT = false /\
  c_export c = Some fis /\ wf_export fis /\
  0 <= c_size c <= 9223372036854775807 /\
  (forall fi, In fi fis -> fi_start fi < 9223372036854775808).

(** each file reaches up to where the next one starts, the last one to the
    end of the export *)
Definition fits (c : client) (fis : list finfo) (w : world) : Prop :=
  forall n fi, nth_error fis n = Some fi ->
    match nth_error fis (S n) with
    | Some fj => fi_start fj | None => c_size c
    end <= fi_start fi + fsize (w_file w (fi_h fi)).

(** what a session on a plain export never changes: file sizes, any other
    file, which block files exist *)
Definition kept (fis : list finfo) (w0 w : world) : Prop :=
  (forall h, fsize (w_file w h) = fsize (w_file w0 h)) /\
  (forall h, ~ In h (map fi_h fis) -> w_file w h = w_file w0 h) /\
  (forall p, w_exists w p = w_exists w0 p).

Section Plain.
  Variable c : client.
  Variable fis : list finfo.
  Variable w0 : world.
  Hypothesis Hplain : plain c fis.
  Hypothesis Hfits : fits c fis w0.
  Notation kp := (kept fis w0).

  Lemma plain_stable w w' : w_file w' = w_file w -> w_exists w' = w_exists w ->
    kp w -> same kp (flat fis) w w'.
  Proof. 
    intros H H' (K1 & K2 & K3). split.
    - unfold kept. rewrite H, H'. auto.
    - intros i. unfold flat. rewrite H. reflexivity.
  Qed.

  Lemma plain_pos a w : 0 <= a < c_size c -> kp w ->
    wp (get_filepos c a)
       (fun r w1 => same kp (flat fis) w w1 /\ quiet w w1 /\
          exists h o mb, r = Some (h, o, mb) /\ 0 <= o /\ 0 <= mb /\
            (h <> FBad ->
               (forall j, 0 <= j -> (mb = 0 \/ j < mb) ->
                  flat fis w1 (a + j) = frd (w_file w1 h) (o + j)) /\
               (negb (bad_write c) = true -> h <> FDiff /\
                  forall k d w2, w_file w2 = w_file w1 -> w_exists w2 = w_exists w1 ->
                    0 < k -> (mb = 0 \/ k <= mb) -> a + k <= c_size c ->
                    let w3 := set_file h (fwrite (w_file w2 h) o k d) w2 in
                    kp w3 /\
                    forall i, flat fis w3 i = if (a <=? i) && (i <? a + k) then d (i - a) else flat fis w1 i)))
       (fun w1 => False /\ same kp (flat fis) w w1 /\ quiet w w1) w.
  Proof.
    intros Ha HI. destruct Hplain as (Ht & _ & _ & He & Hwf & Hsz & Hst).
    eapply wp_mono; [apply wp_get_filepos_plain; try eassumption; lia| |tauto].
    intros r w1 (-> & n & fi & Hs & ->). pose proof Hs as (E & Hle & Hn).
    split; [apply same_refl; exact HI|]. split; [apply quiet_refl|].
    eexists _, _, _. split; [reflexivity|]. split; [lia|].
    assert (Hmb : forall fj, nth_error fis (S n) = Some fj -> a < fi_start fj) by exact Hn.
    split. { destruct (nth_error fis (S n)) as [fj|] eqn:Ej; [specialize (Hmb fj eq_refl); lia|lia]. }
    intros _. split.
    - intros j Hj Hjm. eapply flat_read; eauto. intros fj Ej. rewrite Ej in Hjm.
      specialize (Hmb fj Ej). lia.
    - intros _. split; [eapply wf_handle; eauto|].
      intros k d w2 Hf2 He2 Hk Hkm Hkl. cbv zeta.
      assert (Hend : forall fj, nth_error fis (S n) = Some fj -> a + k <= fi_start fj).
      { intros fj Ej. rewrite Ej in Hkm. specialize (Hmb fj Ej). lia. }
      split.
      { destruct HI as (K1 & K2 & K3). unfold kept. cbn [set_file w_file w_exists]. unfold upd_file.
        split; [|split].
        - intros h. destruct (fref_eq_dec h (fi_h fi)) as [->|_]; [|rewrite Hf2; apply K1].
          cbn [fwrite fsize]. rewrite Hf2, K1. specialize (Hfits n fi E).
          destruct (nth_error fis (S n)) as [fj|] eqn:Ej; [specialize (Hend fj eq_refl)|]; lia.
        - intros h Hh. destruct (fref_eq_dec h (fi_h fi)) as [->|_]; [|rewrite Hf2; auto].
          contradiction Hh. apply in_map. eapply nth_error_In; eauto.
        - rewrite He2. exact K3. }
      intros i.
      rewrite (flat_write fis a n fi k d w2 Hwf Hs Hk).
      + destruct ((a <=? i) && (i <? a + k)); [reflexivity|]. unfold flat. rewrite Hf2. reflexivity.
      + exact Hend.
  Qed.

  Lemma wp_fsync_all l w : kp w ->
    wp (fsync_all l) (fun _ w1 => same kp (flat fis) w w1 /\ quiet w w1) (fun _ => False) w.
  Proof.
    revert w. induction l as [|fi l IH]; intros w HI; cbn [fsync_all].
    - apply wp_ret. split; [apply same_refl; exact HI|apply quiet_refl].
    - apply wp_bind. unfold sys_fsync. apply wp_bind, wp_pull.
      assert (Hgo : forall r w1, same kp (flat fis) w w1 -> quiet w w1 ->
        wp (if r <? 0 then ret true else fsync_all l)
           (fun _ w1 => same kp (flat fis) w w1 /\ quiet w w1) (fun _ => False) w1).
      { intros r w1 Hs1 Hq1. destruct (r <? 0).
        - apply wp_ret. auto.
        - eapply wp_mono; [apply IH; apply Hs1| |tauto]. intros _ w2 [Hs2 Hq2].
          split; [eapply same_trans; eauto|eapply quiet_trans; eauto]. }
      assert (H1 : forall e, wp (modify (set_errno e);;; ret (-1))
         (fun r w' => wp (if r <? 0 then ret true else fsync_all l)
           (fun _ w1 => same kp (flat fis) w w1 /\ quiet w w1) (fun _ => False) w')
         (fun _ => False) (tick w)).
      { intros e. apply wp_bind, wp_modify, wp_ret. apply Hgo.
        - apply plain_stable; auto.
        - eapply quiet_trans; [apply quiet_tick|apply quiet_errno]. }
      assert (H2 : wp (modify (emit (ESync (fi_h fi)));;; ret 0)
         (fun r w' => wp (if r <? 0 then ret true else fsync_all l)
           (fun _ w1 => same kp (flat fis) w w1 /\ quiet w w1) (fun _ => False) w')
         (fun _ => False) (tick w)).
      { apply wp_bind, wp_modify, wp_ret. apply Hgo.
        - apply plain_stable; auto.
        - eapply quiet_trans; [apply quiet_tick|apply quiet_sync]. }
      destruct (fi_h fi), (w_orc w (w_tick w)); auto.
  Qed.

  Lemma plain_flush w : kp w ->
    wp (expflush c) (fun _ w1 => same kp (flat fis) w w1 /\ quiet w w1) (fun _ => False) w.
  Proof.
    intros HI. destruct Hplain as (Ht & Hc & Hw & He & _).
    unfold expflush. rewrite Hc, Hw, Ht, He. apply wp_fsync_all. exact HI.
  Qed.

  Lemma quiet_punch h f w : h <> FDiff -> forall off n, quiet w (emit (EPunch h off n) (set_file h f w)).
  Proof. intros Hh off n. apply quiet_write; [exact Hh|congruence]. Qed.

  Lemma wp_punch n fi off len w :
    wf_export fis -> nth_error fis n = Some fi -> kp w ->
    wp (punch_hole (fi_h fi) off len)
       (fun _ w1 => kp w1 /\ quiet w w1 /\
          forall j, flat fis w1 j = flat fis w j \/
             (fi_start fi + off <= j < fi_start fi + off + len /\ flat fis w1 j = 0))
       (fun _ => False) w.
  Proof.
    intros Hwf En HI. unfold punch_hole. apply wp_bind, wp_pull.
    assert (Hpt : forall e, wp (modify (set_errno e))
       (fun _ w1 => kp w1 /\ quiet w w1 /\
          forall j, flat fis w1 j = flat fis w j \/
             (fi_start fi + off <= j < fi_start fi + off + len /\ flat fis w1 j = 0))
       (fun _ => False) (tick w)).
    { intros e. apply wp_modify. split; [exact HI|]. split; [eapply quiet_trans; [apply quiet_tick|apply quiet_errno]|].
      intros j. left. reflexivity. }
    set (f := w_file (tick w) (fi_h fi)).
    set (f' := mkFile (fsize f) (fun i => if (off <=? i) && (i <? off + len) then 0 else fdata f i)).
    assert (Hch : forall j, flat fis (set_file (fi_h fi) f' (tick w)) j = flat fis w j \/
        (fi_start fi + off <= j < fi_start fi + off + len /\ flat fis (set_file (fi_h fi) f' (tick w)) j = 0)).
    { intros j. unfold flat. destruct (locate fis j) as [[h' o']|] eqn:El; [|auto].
      destruct (locate_inv _ _ _ _ El) as (m & fj & Em & Hh & Ho & Hle). subst h'.
      cbn [set_file w_file]. unfold upd_file.
      destruct (fref_eq_dec (fi_h fj) (fi_h fi)) as [Hqq|Hqq]; [|auto].
      assert (m = n) by (eapply slot_handle_inj; eauto). subst m.
      assert (fj = fi) by congruence. subst fj.
      unfold frd, f', f. cbn [fsize fdata tick w_file].
      destruct ((0 <=? o') && (o' <? fsize (w_file w (fi_h fi)))) eqn:Ein; [|left; reflexivity].
      destruct ((off <=? o') && (o' <? off + len)) eqn:Ein2; [right|left; reflexivity].
      split; [lia|reflexivity]. }
    assert (Hk : kp (emit (EPunch (fi_h fi) off len) (set_file (fi_h fi) f' (tick w)))).
    { destruct HI as (K1 & K2 & K3). unfold kept. cbn [emit set_file w_file w_exists]. unfold upd_file.
      split; [|split; [|exact K3]].
      - intros h. destruct (fref_eq_dec h (fi_h fi)) as [->|_]; [|apply K1].
        unfold f', f. cbn [fsize tick w_file]. apply K1.
      - intros h Hh. destruct (fref_eq_dec h (fi_h fi)) as [->|_]; [|apply K2; exact Hh].
        contradiction Hh. apply in_map. eapply nth_error_In; eauto. }
    destruct (w_orc w (w_tick w)); try apply Hpt;
      (destruct ((off <? 0) || (len <=? 0)); [apply Hpt|]);
      (apply wp_bind, wp_get, wp_bind, wp_modify, wp_modify; split; [exact Hk|]; split;
       [eapply quiet_trans; [apply quiet_tick|]; apply quiet_punch; eapply wf_handle; eauto
       |exact Hch]).
  Qed.

  Lemma plain_trim q w : wreq_ok q -> inside (c_size c) q -> bad_write c = false -> kp w ->
    wp (exptrim c (mreq q))
       (fun _ w1 => kp w1 /\ quiet w w1 /\ touched (flat fis w) (flat fis w1) (q_from q) (q_len q) zeroes)
       (fun w1 => False /\ kp w1 /\ quiet w w1 /\ touched (flat fis w) (flat fis w1) (q_from q) (q_len q) zeroes) w.
  Proof.
    intros Hq Hin Hbw HI. pose proof Hq as (Hty & Hck & Hf & Hl & _).
    unfold is_u64, is_u32, inside in *.
    destruct Hplain as (Ht & Hc & Hw & He & Hwf & Hsz & Hst).
    unfold exptrim. cbn [mreq rq_from rq_len].
    unfold bad_write in Hbw. apply orb_false_iff in Hbw. destruct Hbw as [Hro _].
    apply wp_bind, wp_assert; [|rewrite Hro; discriminate]. intros _.
    rewrite u64_small by (unfold is_u64; lia).
    apply wp_bind, wp_assert; [|lia]. intros _.
    rewrite Hc, Ht, He.
    destruct fis as [|x t] eqn:Efis; [destruct Hwf as [[] _]|]. rewrite <- Efis in *.
    replace (nth_error fis 0) with (Some x) by (rewrite Efis; reflexivity).
    apply wp_mloop with
      (I := fun s w1 => let '(h, start, i) := s in
         (exists n fi, nth_error fis n = Some fi /\ fi_h fi = h /\ fi_start fi = start /\ i = Z.of_nat (S n)) /\
         0 <= start /\ 1 <= i <= zlen fis /\ kp w1 /\ quiet w w1 /\
         touched (flat fis w) (flat fis w1) (q_from q) (q_len q) zeroes)
      (m := fun s => let '(_, _, i) := s in zlen fis - i).
    - intros [[h s] i] w1 (_ & _ & H & _). lia.
    - intros [[h start] i] w1 ((n & fi & En & Eh & Es & Ei) & Hs0 & Hi & Hk1 & Hq1 & T1).
      unfold trim_body. cbn [rq_from rq_len mreq]. apply wp_bind.
      set (next := match nth_error fis (Z.to_nat i) with
                   | Some nx => (fi_h nx, fi_start nx)
                   | None => (FBad, i64 (c_size c))
                   end).
      assert (Hcont : forall w2, kp w2 -> quiet w w2 ->
         touched (flat fis w) (flat fis w2) (q_from q) (q_len q) zeroes ->
         wp (let i' := i + 1 in
             if (i' <? zlen fis) && (snd next <? u64 (q_from q + q_len q))
             then ret (inl (fst next, snd next, i')) else ret (inr tt))
            (fun r w' => match r with
               | inl s' => (let '(h, start, i) := s' in
                  (exists n fi, nth_error fis n = Some fi /\ fi_h fi = h /\ fi_start fi = start /\ i = Z.of_nat (S n)) /\
                  0 <= start /\ 1 <= i <= zlen fis /\ kp w' /\ quiet w w' /\
                  touched (flat fis w) (flat fis w') (q_from q) (q_len q) zeroes) /\
                  (let '(_, _, i0) := s' in zlen fis - i0) < zlen fis - i
               | inr _ => kp w' /\ quiet w w' /\ touched (flat fis w) (flat fis w') (q_from q) (q_len q) zeroes
               end)
            (fun w' => False /\ kp w' /\ quiet w w' /\ touched (flat fis w) (flat fis w') (q_from q) (q_len q) zeroes) w2).
      { intros w2 Hk2 Hq2 T2. cbv zeta.
        destruct ((i + 1 <? zlen fis) && (snd next <? u64 (q_from q + q_len q))) eqn:Eg.
        - apply wp_ret. split; [|lia].
          destruct (nth_error fis (Z.to_nat i)) as [nx|] eqn:Enx.
          2:{ apply nth_error_None in Enx. unfold zlen in *. lia. }
          subst next. cbn [fst snd].
          split; [exists (Z.to_nat i), nx; repeat split; auto; lia|].
          split. { assert (Hlt : (n < Z.to_nat i)%nat) by lia.
                   pose proof (wf_nth _ _ _ _ _ Hwf En Enx Hlt). lia. }
          split; [lia|]. auto.
        - apply wp_ret. auto. }
      destruct ((start <=? q_from q) && (q_len q <=? snd next - start)) eqn:Eg.
      + cbv zeta.
        set (reqoff := i64 (q_from q - start)).
        assert (Hro' : reqoff = q_from q - start) by (apply i64_small; lia).
        set (reqlen := if q_len q <? snd next - reqoff - reqoff then q_len q else snd next - reqoff - reqoff).
        assert (Hrl : reqlen <= q_len q) by (unfold reqlen; destruct (q_len q <? snd next - reqoff - reqoff) eqn:?; lia).
        subst h. eapply wp_mono; [apply (wp_punch n fi); [exact Hwf|exact En|exact Hk1]| |tauto].
        intros _ w2 (Hk2 & Hq2 & Hch). apply Hcont; [exact Hk2|eapply quiet_trans; eauto|].
        intros j. destruct (T1 j) as [Ta Tb]. destruct (Hch j) as [Hj|[Hj1 Hj2]].
        * rewrite Hj. auto.
        * split; [intros _; right; exact Hj2|intros Hx; lia].
      + apply wp_ret. apply Hcont; assumption.
    - assert (Hx : fi_start x = 0) by (destruct Hwf as [Hwf0 _]; rewrite Efis in Hwf0; tauto).
      split; [exists 0%nat, x; rewrite Efis; repeat split|].
      split; [lia|].
      split. { rewrite Efis, zlen_cons. pose proof (zlen_nonneg t). lia. }
      split; [exact HI|]. split; [apply quiet_refl|]. intros i; split; auto.
    - lia.
  Qed.

  Theorem plain_request q p w :
    wreq_ok q -> payload_ok q p -> kp w ->
    wp (handle_request c (mreq q) p) (fun _ w1 => answered c kp (flat fis) q w w1) (fun _ => False) w.
  Proof.
    intros Hq Hp HI. pose proof Hplain as (Ht & Hc & Hw & He & Hwf & Hsz & Hst).
    eapply wp_mono.
    - apply (wp_handle_request c kp (flat fis) False plain_stable plain_pos Hsz Hc Hw plain_trim plain_flush q p w Hq Hp HI).
    - auto.
    - intros w1 [H _]. exact H.
  Qed.
End Plain.
