(** Tree exports: layout of the block files, and the backend interface of
    L_Req.v / L_Session.v. *)
From Verif Require Import Base M_Const M_Disk M_Tree M_Raw L_Wp L_Raw S_Wire S_Disk S_Tree L_Wire L_Req L_Plain L_Session.

Lemma forall_below (P : Z -> bool) (n : nat) :
  forallb (fun k => P (Z.of_nat k)) (seq 0 n) = true -> forall x, 0 <= x < Z.of_nat n -> P x = true.
Proof.
  intros H x Hx. rewrite forallb_forall in H. specialize (H (Z.to_nat x)).
  rewrite Z2Nat.id in H by lia. apply H. apply in_seq. lia.
Qed.

Lemma hex4_name n : hex4 n = hex_name n.
Proof.
  unfold hex4, hex_name. cbn [map].
  assert (H : forall x, 0 <= x < 16 -> hexdig x = nth (Z.to_nat x) hex_chars 0).
  { intros x Hx.
    pose proof (forall_below (fun x => hexdig x =? nth (Z.to_nat x) hex_chars 0) 16 eq_refl x Hx). lia. }
  change (16 ^ 3) with 4096. change (16 ^ 2) with 256. change (16 ^ 1) with 16. change (16 ^ 0) with 1.
  rewrite Z.div_1_r.
  rewrite !H by (apply Z.mod_pos_bound; lia). reflexivity.
Qed.

Lemma hex_name_length n : length (hex_name n) = 4%nat.
Proof. reflexivity. Qed.

Lemma hex_char_inj x y : 0 <= x < 16 -> 0 <= y < 16 ->
  nth (Z.to_nat x) hex_chars 0 = nth (Z.to_nat y) hex_chars 0 -> x = y.
Proof.
  intros Hx Hy E.
  assert (H : NoDup hex_chars) by (repeat constructor; cbn; intuition discriminate).
  assert (Hl : length hex_chars = 16%nat) by reflexivity.
  pose proof (proj1 (NoDup_nth hex_chars 0) H (Z.to_nat x) (Z.to_nat y)) as HH.
  rewrite Hl in HH. assert (Z.to_nat x = Z.to_nat y) by (apply HH; [lia|lia|exact E]). lia.
Qed.

Lemma hex_name_inj n m : 0 <= n < 65536 -> 0 <= m < 65536 -> hex_name n = hex_name m -> n = m.
Proof.
  intros Hn Hm E. unfold hex_name in E. cbn [map] in E.
  change (16 ^ 3) with 4096 in E. change (16 ^ 2) with 256 in E. change (16 ^ 1) with 16 in E. change (16 ^ 0) with 1 in E.
  injection E as E1 E2 E3 E4.
  apply hex_char_inj in E1; [|apply Z.mod_pos_bound; lia|apply Z.mod_pos_bound; lia].
  apply hex_char_inj in E2; [|apply Z.mod_pos_bound; lia|apply Z.mod_pos_bound; lia].
  apply hex_char_inj in E3; [|apply Z.mod_pos_bound; lia|apply Z.mod_pos_bound; lia].
  apply hex_char_inj in E4; [|apply Z.mod_pos_bound; lia|apply Z.mod_pos_bound; lia].
  rewrite !Z.div_1_r in *. lia.
Qed.

(** ** construct_path computes the layout *)
Lemma pow1024_pos k : 0 < 1024 ^ Z.of_nat k.
Proof. apply Z.pow_pos_nonneg; lia. Qed.
Lemma pow1024_S k : 1024 ^ Z.of_nat (S k) = 1024 * 1024 ^ Z.of_nat k.
Proof. replace (Z.of_nat (S k)) with (Z.succ (Z.of_nat k)) by lia. apply Z.pow_succ_r. lia. Qed.

Lemma construct_path_ok d : forall fuel lenmax size pos,
  0 <= pos -> 0 <= size -> is_depth size d -> (d < fuel)%nat -> 10 + 9 * Z.of_nat d <= lenmax ->
  construct_path fuel lenmax size pos =
    PathOk (block_path d (pos / 4096)) (pos / 4096 / 1024 ^ (Z.of_nat d + 1)).
Proof.
  induction d as [|d IH]; intros fuel lenmax size pos Hp Hs [Hd1 Hd2] Hf Hl;
    (destruct fuel as [|fuel]; [lia|]); cbn [construct_path].
  - replace (lenmax <? 10) with false by lia.
    unfold TREEDIRSIZE, TREEPAGESIZE. change (1024 ^ (Z.of_nat 0 + 1)) with 1024 in *.
    replace (size <? 1024 * 4096) with true by lia.
    unfold block_path, block_dirs, digit. cbn [app]. change (1024 ^ Z.of_nat 0) with 1. rewrite Z.div_1_r.
    unfold file_comp. rewrite hex4_name. rewrite <- Zdiv_Zdiv by lia. reflexivity.
  - replace (lenmax <? 10) with false by lia.
    unfold TREEDIRSIZE, TREEPAGESIZE in *. specialize (Hd2 ltac:(lia)).
    replace (Z.of_nat (S d) + 1) with (Z.of_nat (S (S d))) in * by lia.
    rewrite !pow1024_S in *. pose proof (pow1024_pos d) as Hk.
    replace (size <? 1024 * 4096) with false by nia.
    rewrite IH; [|lia|apply Z.div_pos; lia| |lia|lia].
    2:{ split.
        - replace (Z.of_nat d + 1) with (Z.of_nat (S d)) by lia. rewrite pow1024_S.
          apply Z.div_lt_upper_bound; lia.
        - intros Hd. apply Z.div_le_lower_bound; lia. }
    replace (Z.of_nat d + 1) with (Z.of_nat (S d)) by lia. rewrite pow1024_S.
    unfold tree_comp. rewrite hex4_name. f_equal.
    + unfold block_path. cbn [block_dirs]. unfold digit at 2. rewrite pow1024_S. rewrite <- !app_assoc. reflexivity.
    + rewrite Z.div_div by nia. f_equal. lia.
Qed.

Lemma construct_path_long d : forall fuel lenmax size pos,
  0 <= size -> is_depth size d -> (d < fuel)%nat -> lenmax < 10 + 9 * Z.of_nat d ->
  construct_path fuel lenmax size pos = PathDie.
Proof.
  induction d as [|d IH]; intros fuel lenmax size pos Hs [Hd1 Hd2] Hf Hl;
    (destruct fuel as [|fuel]; [lia|]); cbn [construct_path].
  - replace (lenmax <? 10) with true by lia. reflexivity.
  - destruct (lenmax <? 10); [reflexivity|].
    unfold TREEDIRSIZE, TREEPAGESIZE in *. specialize (Hd2 ltac:(lia)).
    replace (Z.of_nat (S d) + 1) with (Z.of_nat (S (S d))) in * by lia.
    rewrite !pow1024_S in *. pose proof (pow1024_pos d) as Hk.
    replace (size <? 1024 * 4096) with false by nia.
    rewrite IH; [reflexivity|apply Z.div_pos; lia| |lia|lia].
    split.
    + replace (Z.of_nat d + 1) with (Z.of_nat (S d)) by lia. rewrite pow1024_S.
      apply Z.div_lt_upper_bound; lia.
    + intros Hd. apply Z.div_le_lower_bound; lia.
Qed.

Lemma depth_exists size : 0 <= size < 9223372036854775808 -> exists d, is_depth size d /\ (d <= 5)%nat.
Proof.
  intros H.
  assert (Hd : forall d, (d <= 5)%nat -> (is_depth size d \/ 4096 * 1024 ^ (Z.of_nat d + 1) <= size) \/
     size < 4096 * 1024 ^ Z.of_nat d).
  { intros d Hd. unfold is_depth. destruct (Z_lt_le_dec size (4096 * 1024 ^ Z.of_nat d)); [auto|left].
    destruct (Z_lt_le_dec size (4096 * 1024 ^ (Z.of_nat d + 1))); auto. }
  destruct (Z_lt_le_dec size (4096 * 1024)); [exists 0%nat; split; [split; cbn; [lia|lia]|lia]|].
  destruct (Z_lt_le_dec size (4096 * 1024 ^ 2)); [exists 1%nat; split; [split; cbn; [lia|intros; lia]|lia]|].
  destruct (Z_lt_le_dec size (4096 * 1024 ^ 3)); [exists 2%nat; split; [split; cbn; [lia|intros; lia]|lia]|].
  destruct (Z_lt_le_dec size (4096 * 1024 ^ 4)); [exists 3%nat; split; [split; cbn; [lia|intros; lia]|lia]|].
  destruct (Z_lt_le_dec size (4096 * 1024 ^ 5)); [exists 4%nat; split; [split; cbn; [lia|intros; lia]|lia]|].
  exists 5%nat; split; [split; cbn; [lia|intros; lia]|lia].
Qed.

Lemma is_depth_unique size d d' : is_depth size d -> is_depth size d' -> d = d'.
Proof.
  assert (Hw : forall d d', (d < d')%nat -> is_depth size d -> is_depth size d' -> False).
  { intros a b Hlt [H1 _] [_ H2]. specialize (H2 ltac:(lia)).
    assert (1024 ^ (Z.of_nat a + 1) <= 1024 ^ Z.of_nat b) by (apply Z.pow_le_mono_r; lia). lia. }
  intros H1 H2. destruct (Nat.lt_trichotomy d d') as [H|[H|H]]; auto; exfalso; eauto.
Qed.

(** ** injectivity *)
Lemma block_dirs_length d b : length (block_dirs d b) = (9 * d)%nat.
Proof. induction d as [|d IH]; [reflexivity|]. cbn [block_dirs]. rewrite !app_length, IH, hex_name_length. cbn. lia. Qed.

Lemma digit_range b k : 0 <= digit b k < 1024.
Proof. apply Z.mod_pos_bound; lia. Qed.

Lemma hex_digit_inj b b' k : hex_name (digit b k) = hex_name (digit b' k) -> digit b k = digit b' k.
Proof. pose proof (digit_range b k). pose proof (digit_range b' k). apply hex_name_inj; lia. Qed.

Lemma block_dirs_digits d b b' : block_dirs d b = block_dirs d b' ->
  forall k, (1 <= k <= d)%nat -> digit b k = digit b' k.
Proof.
  induction d as [|d IH]; intros E k Hk; [lia|]. cbn [block_dirs] in E.
  apply app_eq_len in E; [|reflexivity]. destruct E as [_ E].
  apply app_eq_len in E; [|reflexivity]. destruct E as [E1 E2].
  destruct (Nat.eq_dec k (S d)) as [->|Hn]; [apply hex_digit_inj; exact E1|apply IH; [exact E2|lia]].
Qed.

Lemma digits_inj d : forall b b', 0 <= b < 1024 ^ (Z.of_nat d + 1) -> 0 <= b' < 1024 ^ (Z.of_nat d + 1) ->
  (forall k, (k <= d)%nat -> digit b k = digit b' k) -> b = b'.
Proof.
  induction d as [|d IH]; intros b b' Hb Hb' H.
  - specialize (H 0%nat ltac:(lia)). unfold digit in H. change (1024 ^ Z.of_nat 0) with 1 in H.
    change (1024 ^ (Z.of_nat 0 + 1)) with 1024 in *. rewrite !Z.div_1_r in H. lia.
  - assert (E : b / 1024 = b' / 1024).
    { replace (Z.of_nat (S d) + 1) with (Z.of_nat (S (S d))) in * by lia. rewrite pow1024_S in *.
      apply IH.
      - replace (Z.of_nat d + 1) with (Z.of_nat (S d)) by lia. split; [apply Z.div_pos; lia|apply Z.div_lt_upper_bound; lia].
      - replace (Z.of_nat d + 1) with (Z.of_nat (S d)) by lia. split; [apply Z.div_pos; lia|apply Z.div_lt_upper_bound; lia].
      - intros k Hk. specialize (H (S k) ltac:(lia)). unfold digit in *. rewrite pow1024_S in H.
        pose proof (pow1024_pos k). rewrite !Zdiv_Zdiv by lia. exact H. }
    specialize (H 0%nat ltac:(lia)). unfold digit in H. change (1024 ^ Z.of_nat 0) with 1 in H.
    rewrite !Z.div_1_r in H. lia.
Qed.

Lemma block_path_inj d b b' : 0 <= b < 1024 ^ (Z.of_nat d + 1) -> 0 <= b' < 1024 ^ (Z.of_nat d + 1) ->
  block_path d b = block_path d b' -> b = b'.
Proof.
  intros Hb Hb' E. unfold block_path in E.
  apply app_eq_len in E; [|rewrite !block_dirs_length; reflexivity]. destruct E as [E1 E2].
  apply app_inv_head in E2. apply hex_digit_inj in E2.
  apply (digits_inj d); auto. intros k Hk. destruct k as [|k]; [exact E2|].
  apply (block_dirs_digits d); auto. lia.
Qed.

(** ** The backend *)
(** conditions under which every offset has a path *)
Definition tree_ok (namelen size : Z) (d : nat) : Prop :=
  0 <= namelen /\ 0 <= size <= 9223372036854771712 /\ is_depth size d /\ namelen + 11 + 9 * Z.of_nat d <= 4096.

Lemma tree_depth_le namelen size d : tree_ok namelen size d -> (d <= 5)%nat.
Proof.
  intros (_ & Hs & Hd & _). destruct (depth_exists size ltac:(lia)) as (d' & Hd' & Hle).
  rewrite (is_depth_unique _ _ _ Hd Hd'). exact Hle.
Qed.

Lemma tree_path_ok namelen size d pos : tree_ok namelen size d -> 0 <= pos ->
  tree_path namelen size pos = PathOk (block_path d (pos / 4096)) (pos / 4096 / 1024 ^ (Z.of_nat d + 1)).
Proof.
  intros H Hp. pose proof (tree_depth_le _ _ _ H) as Hd. destruct H as (Hn & Hs & Hdp & Hl).
  unfold tree_path. apply construct_path_ok; auto; try lia; unfold tree_fuel, PATH_MAX; lia.
Qed.

Lemma get_path_ok namelen size d pos : tree_ok namelen size d -> 0 <= pos ->
  get_path namelen size pos = ret (block_path d (pos / 4096)).
Proof. intros H Hp. unfold get_path. rewrite (tree_path_ok _ _ d) by auto. reflexivity. Qed.

Lemma block_in_range size d i : is_depth size d -> 0 <= i -> i / 4096 * 4096 <= size ->
  0 <= i / 4096 < 1024 ^ (Z.of_nat d + 1).
Proof. intros [H _] Hi Hle. lia. Qed.

(** what block [b] reads as *)
Definition block (d : nat) (w : world) (b : Z) (o : Z) : Z :=
  if w_exists w (block_path d b) then frd (w_file w (FTree (block_path d b))) o else 0.
(** the disk of a tree export: missing blocks are zero *)
Definition tview (size : Z) (d : nat) (w : world) (i : Z) : Z :=
  if (0 <=? i) && (i / 4096 * 4096 <? size) then block d w (i / 4096) (i mod 4096) else 0.

(** what never changes: all other files *)
Definition tkept (w0 w : world) : Prop :=
  forall h, (forall p, h <> FTree p) -> h <> FDummy -> w_file w h = w_file w0 h.

Section Tree.
  Variable c : client.
  Variable d : nat.
  Variable w0 : world.
  Hypothesis Ht : cflag c F_TREEFILES = true.
  Hypothesis Hcow : cflag c F_COPYONWRITE = false.
  Hypothesis Hwait : cflag c F_WAIT = false.
  Hypothesis Hok : tree_ok (c_namelen c) (c_size c) d.
  Notation tk := (tkept w0).
  Notation view := (tview (c_size c) d).
  Notation same := (same tk view).

  Lemma tree_stable w w' : w_file w' = w_file w -> w_exists w' = w_exists w -> tk w -> same w w'.
  Proof.
    intros H H' K. split.
    - unfold tkept. rewrite H. exact K.
    - intros i. unfold tview, block. rewrite H, H'. reflexivity.
  Qed.

  Lemma view_other w w' p :
    (forall q, q <> p -> w_exists w' q = w_exists w q /\ w_file w' (FTree q) = w_file w (FTree q)) ->
    (forall i, 0 <= i -> i / 4096 * 4096 < c_size c -> block_path d (i / 4096) = p ->
       view w' i = view w i) -> forall i, view w' i = view w i.
  Proof.
    intros Ho Hp i. destruct ((0 <=? i) && (i / 4096 * 4096 <? c_size c)) eqn:E.
    - destruct (list_eq_dec Z.eq_dec (block_path d (i / 4096)) p) as [Hq|Hq]; [apply Hp; auto; lia|].
      unfold tview. rewrite E. unfold block. destruct (Ho _ Hq) as [-> ->]. reflexivity.
    - unfold tview. rewrite E. reflexivity.
  Qed.

  (** a block file that does not exist may be created full of zeroes *)
  Lemma same_create w w' p f : tk w -> w_exists w p = false ->
    (forall o, frd f o = 0) ->
    (forall h, h <> FTree p -> h <> FDummy -> w_file w' h = w_file w h) -> w_file w' (FTree p) = f ->
    (forall q, q <> p -> w_exists w' q = w_exists w q) -> same w w'.
  Proof.
    intros K Hx Hz Hf Hfp He. split.
    - intros h H1 H2. rewrite Hf by auto. apply K; auto.
    - apply (view_other w w' p).
      + intros q Hq. split; [apply He; exact Hq|apply Hf; congruence].
      + intros i Hi Hlt Hp. unfold tview. replace ((0 <=? i) && (i / 4096 * 4096 <? c_size c)) with true by lia.
        unfold block. rewrite Hp, Hx, Hfp, Hz. destruct (w_exists w' p); reflexivity.
  Qed.

  Lemma zero_block_zero o : frd zero_block o = 0.
  Proof. unfold frd. destruct ((0 <=? o) && (o <? fsize zero_block)); reflexivity. Qed.

  Lemma quiet_set_file h f w : h <> FDiff -> quiet w (set_file h f w).
  Proof.
    intros Hh. split; [|reflexivity]. unfold quiet0. cbn. unfold upd_file.
    destruct (fref_eq_dec FDiff h); [congruence|]. auto 10.
  Qed.
  Lemma quiet_set_exists p b w : quiet w (set_exists p b w).
  Proof. split; [unfold quiet0; cbn; auto 10|reflexivity]. Qed.
  Lemma quiet_create p w : quiet w (emit (ECreate p) w).
  Proof. split; [unfold quiet0; cbn; auto 10|reflexivity]. Qed.
  Lemma quiet_unlink p w : quiet w (emit (EUnlink p) w).
  Proof. split; [unfold quiet0; cbn; auto 10|reflexivity]. Qed.

  Definition opened_as (a : Z) (w1 : world) (h : fref) : Prop :=
    h = FBad \/
    (let p := block_path d (a / 4096) in
     (h = FTree p /\ w_exists w1 p = true) \/
     (h = FDummy /\ cflag c F_READONLY = true /\ w_exists w1 p = false /\ w_file w1 FDummy = zero_block)).

  Lemma wp_open a w : 0 <= a -> tk w ->
    wp (open_treefile (c_namelen c) (negb (cflag c F_READONLY)) (i64 (c_size c)) a)
       (fun h w1 => same w w1 /\ quiet w w1 /\ opened_as a w1 h)
       (fun w1 => True /\ same w w1 /\ quiet w w1) w.
  Proof.
    intros Ha HI. unfold open_treefile.
    rewrite i64_small by (destruct Hok as (_ & ? & _); lia).
    rewrite (get_path_ok _ _ d) by auto. apply wp_bind, wp_ret, wp_bind, wp_pull, wp_bind, wp_get.
    cbn [tick w_exists]. set (p := block_path d (a / 4096)).
    assert (St : same w (tick w)) by (apply tree_stable; auto).
    destruct (w_exists w p) eqn:Ee.
    - assert (Hgo : wp (ret (FTree p)) (fun h w1 => same w w1 /\ quiet w w1 /\ opened_as a w1 h)
         (fun w1 => True /\ same w w1 /\ quiet w w1) (tick w)).
      { apply wp_ret. split; [exact St|]. split; [apply quiet_tick|]. right. left. auto. }
      destruct (w_orc w (w_tick w)) as [|k|er]; [exact Hgo|exact Hgo|].
      destruct (er =? ENOENT); [exact Hgo|]. apply wp_bind, wp_modify, wp_ret.
      split; [apply tree_stable; auto|]. split; [|left; reflexivity].
      eapply quiet_trans; [apply quiet_tick|apply quiet_errno].
    - destruct (match w_orc w (w_tick w) with RErr er => negb (er =? ENOENT) | _ => false end).
      { apply wp_bind, wp_modify, wp_ret. split; [apply tree_stable; auto|]. split; [|left; reflexivity].
        eapply quiet_trans; [apply quiet_tick|apply quiet_errno]. }
      destruct (negb (cflag c F_READONLY)) eqn:Er.
      + assert (Hq1 : quiet w (tick (tick w))) by (eapply quiet_trans; apply quiet_tick).
        apply wp_bind, wp_pull. destruct (w_orc (tick w) (w_tick (tick w))) as [|k|er];
          [| |apply wp_die; split; [exact I|]; split; [apply tree_stable; auto|exact Hq1]].
        all: assert (Hq2 : quiet w (tick (tick (tick w)))) by (eapply quiet_trans; [exact Hq1|apply quiet_tick]).
        all: apply wp_bind, wp_pull; destruct (w_orc (tick (tick w)) (w_tick (tick (tick w)))) as [|k2|er2];
          [| |apply wp_die; split; [exact I|]; split; [apply tree_stable; auto|exact Hq2]].
        all: apply wp_bind, wp_modify, wp_bind, wp_modify, wp_bind, wp_modify, wp_bind, wp_pull.
        all: set (w3 := tick (tick (tick w))) in *.
        all: set (w4 := tick (set_file (FTree p) (mkFile 0 (fun _ => 0)) (emit (ECreate p) (set_exists p true w3)))).
        all: assert (Hq4 : quiet w w4) by (eapply quiet_trans; [exact Hq2|]; eapply quiet_trans; [apply quiet_set_exists|];
          eapply quiet_trans; [apply quiet_create|]; eapply quiet_trans; [apply quiet_set_file|apply quiet_tick]; discriminate).
        all: assert (Hc4 : forall f, (forall o, frd f o = 0) -> same w (set_file (FTree p) f w4)) by
          (intros f Hf; apply (same_create w _ p f); auto;
           [intros h H1 _; cbn; unfold upd_file; destruct (fref_eq_dec h (FTree p)); [contradiction|reflexivity]
           |cbn; unfold upd_file; destruct (fref_eq_dec (FTree p) (FTree p)); [reflexivity|contradiction]
           |intros q Hq; cbn; destruct (list_eq_dec Z.eq_dec q p); [contradiction|reflexivity]]).
        all: assert (Hd4 : same w w4) by
          (apply (same_create w _ p (mkFile 0 (fun _ => 0))); auto;
           [intros o; unfold frd; cbn; destruct ((0 <=? o) && (o <? 0)); reflexivity
           |intros h H1 _; cbn; unfold upd_file; destruct (fref_eq_dec h (FTree p)); [contradiction|reflexivity]
           |cbn; unfold upd_file; destruct (fref_eq_dec (FTree p) (FTree p)); [reflexivity|contradiction]
           |intros q Hq; cbn; destruct (list_eq_dec Z.eq_dec q p); [contradiction|reflexivity]]).
        all: assert (Hgo : wp (modify (set_file (FTree p) zero_block);;; ret (FTree p))
          (fun h w1 => same w w1 /\ quiet w w1 /\ opened_as a w1 h)
          (fun w1 => True /\ same w w1 /\ quiet w w1) w4) by
          (apply wp_bind, wp_modify, wp_ret; split; [apply Hc4; apply zero_block_zero|];
           split; [eapply quiet_trans; [exact Hq4|apply quiet_set_file; discriminate]|];
           right; left; split; [reflexivity|]; fold p; cbn; destruct (list_eq_dec Z.eq_dec p p); [reflexivity|contradiction]).
        all: destruct (w_orc _ _) as [|k3|er3];
          [exact Hgo|destruct (k3 <=? 0); [apply wp_die; auto|exact Hgo]|apply wp_die; auto].
      + apply negb_false_iff in Er.
        apply wp_bind, wp_pull.
        assert (Hq1 : quiet w (tick (tick w))) by (eapply quiet_trans; apply quiet_tick).
        destruct (w_orc (tick w) (w_tick (tick w))) as [|k|er];
          [| |apply wp_die; split; [exact I|]; split; [apply tree_stable; auto|exact Hq1]].
        all: apply wp_bind, wp_pull; set (w3 := tick (tick (tick w))).
        all: assert (Hq2 : quiet w w3) by (eapply quiet_trans; [exact Hq1|apply quiet_tick]).
        all: assert (Hd3 : same w w3) by (apply tree_stable; auto).
        all: assert (Hgo : wp (modify (set_file FDummy zero_block);;; ret FDummy)
          (fun h w1 => same w w1 /\ quiet w w1 /\ opened_as a w1 h)
          (fun w1 => True /\ same w w1 /\ quiet w w1) w3) by
          (apply wp_bind, wp_modify, wp_ret; split;
            [split;
              [intros h H1 H2; cbn; unfold upd_file; destruct (fref_eq_dec h FDummy); [contradiction|apply HI; auto]
              |intros i; unfold tview, block; cbn; unfold upd_file; destruct (fref_eq_dec (FTree (block_path d (i / 4096))) FDummy) as [E|_]; [discriminate|reflexivity]]
            |split; [eapply quiet_trans; [exact Hq2|apply quiet_set_file; discriminate]|];
             right; right; split; [reflexivity|]; split; [exact Er|]; split; [exact Ee|];
             cbn; unfold upd_file; destruct (fref_eq_dec FDummy FDummy); [reflexivity|contradiction]]).
        all: destruct (w_orc _ _) as [|k3|er3];
          [exact Hgo|destruct (k3 <=? 0); [apply wp_die; auto|exact Hgo]|apply wp_die; auto].
  Qed.

  Lemma tree_pos a w : 0 <= a < c_size c -> tk w ->
    wp (get_filepos c a)
       (fun r w1 => same w w1 /\ quiet w w1 /\
          exists h o mb, r = Some (h, o, mb) /\ 0 <= o /\ 0 <= mb /\
            (h <> FBad ->
               (forall j, 0 <= j -> (mb = 0 \/ j < mb) ->
                  view w1 (a + j) = frd (w_file w1 h) (o + j)) /\
               (negb (bad_write c) = true -> h <> FDiff /\
                  forall k dt w2, w_file w2 = w_file w1 -> w_exists w2 = w_exists w1 ->
                    0 < k -> (mb = 0 \/ k <= mb) -> a + k <= c_size c ->
                    let w3 := set_file h (fwrite (w_file w2 h) o k dt) w2 in
                    tk w3 /\
                    forall i, view w3 i = if (a <=? i) && (i <? a + k) then dt (i - a) else view w1 i)))
       (fun w1 => True /\ same w w1 /\ quiet w w1) w.
  Proof.
    intros Ha HI. unfold get_filepos. replace (a <? 0) with false by lia. rewrite Ht.
    apply wp_bind. eapply wp_mono; [apply wp_open; [lia|exact HI]| |auto].
    intros h w1 (HS & HQ & Ho). apply wp_ret. split; [exact HS|]. split; [exact HQ|].
    unfold TREEPAGESIZE. eexists h, _, _. split; [reflexivity|].
    split; [lia|]. split; [lia|]. intros Hb.
    unfold opened_as in Ho. cbv zeta in Ho. set (b := a / 4096) in *.
    assert (Hj : forall j, 0 <= j -> ((1 + b) * 4096 - a = 0 \/ j < (1 + b) * 4096 - a) ->
               (a + j) / 4096 = b /\ (a + j) mod 4096 = a mod 4096 + j) by (unfold b; lia).
    destruct Ho as [Ho|[(-> & Hx)|(-> & Hro & Hx & Hz)]]; [contradiction| |].
    - split.
      + intros j Hj0 Hj1. destruct (Hj j Hj0 Hj1) as [E1 E2]. unfold tview. rewrite E1, E2.
        replace ((0 <=? a + j) && (b * 4096 <? c_size c)) with true by (unfold b; lia).
        unfold block. rewrite Hx. reflexivity.
      + intros Hrw. split; [discriminate|]. intros k dt w2 Hf2 He2 Hk Hkm Hkl. cbv zeta.
        set (p := block_path d b) in *. split.
        { intros h H1 H2. cbn. unfold upd_file. destruct (fref_eq_dec h (FTree p)) as [->|_]; [destruct (H1 p); reflexivity|].
          rewrite Hf2. destruct HS as [K _]. apply K; auto. }
        intros i.
        assert (Hbr : forall x, 0 <= x -> x / 4096 * 4096 < c_size c -> 0 <= x / 4096 < 1024 ^ (Z.of_nat d + 1)).
        { intros x H1 H2. apply (block_in_range (c_size c)); [apply Hok|lia|lia]. }
        destruct ((a <=? i) && (i <? a + k)) eqn:Ei.
        * destruct (Hj (i - a) ltac:(lia) ltac:(lia)) as [E1 E2].
          replace (a + (i - a)) with i in E1, E2 by lia.
          unfold tview. rewrite E1. replace ((0 <=? i) && (b * 4096 <? c_size c)) with true by (unfold b; lia).
          unfold block. fold p. cbn [set_file w_exists w_file]. rewrite He2, Hx. unfold upd_file.
          destruct (fref_eq_dec (FTree p) (FTree p)); [|contradiction].
          rewrite frd_fwrite by lia. rewrite E2.
          replace ((a mod 4096 <=? a mod 4096 + (i - a)) && (a mod 4096 + (i - a) <? a mod 4096 + k)) with true by lia.
          f_equal. lia.
        * unfold tview. destruct ((0 <=? i) && (i / 4096 * 4096 <? c_size c)) eqn:Er; [|reflexivity].
          unfold block. cbn [set_file w_exists w_file]. rewrite He2, Hf2.
          destruct (w_exists w1 (block_path d (i / 4096))); [|reflexivity]. unfold upd_file.
          destruct (fref_eq_dec (FTree (block_path d (i / 4096))) (FTree p)) as [E|_]; [|reflexivity].
          injection E as E. assert (E' : i / 4096 = b).
          { apply (block_path_inj d); [apply Hbr; lia|apply Hbr; lia|exact E]. }
          rewrite frd_fwrite by lia. rewrite E.
          replace ((a mod 4096 <=? i mod 4096) && (i mod 4096 <? a mod 4096 + k)) with false; [reflexivity|].
          unfold b in *. lia.
    - split.
      + intros j Hj0 Hj1. destruct (Hj j Hj0 Hj1) as [E1 E2]. unfold tview. rewrite E1, E2.
        replace ((0 <=? a + j) && (b * 4096 <? c_size c)) with true by (unfold b; lia).
        unfold block. rewrite Hx, Hz. symmetry. apply zero_block_zero.
      + unfold bad_write. rewrite Hro. discriminate.
  Qed.

  Lemma tree_flush w : tk w ->
    wp (expflush c) (fun _ w1 => same w w1 /\ quiet w w1) (fun _ => False) w.
  Proof.
    intros HI. unfold expflush. rewrite Hcow, Hwait, Ht.
    destruct (cflag c F_READONLY).
    - apply wp_ret. split; [apply same_refl; exact HI|apply quiet_refl].
    - apply wp_bind. unfold sys_sync. apply wp_modify, wp_ret.
      split; [apply tree_stable; auto|]. split; [unfold quiet0; cbn; auto 10|reflexivity].
  Qed.

  (** deleting blocks: in whole blocks inside the range bytes become zero *)
  Lemma tree_trim q w : wreq_ok q -> inside (c_size c) q -> bad_write c = false -> tk w ->
    wp (exptrim c (mreq q))
       (fun _ w1 => tk w1 /\ quiet w w1 /\
          forall i, view w1 i = view w i \/
            (q_from q <= i / 4096 * 4096 /\ i / 4096 * 4096 + 4096 <= q_from q + q_len q /\ view w1 i = 0))
       (fun w1 => False) w.
  Proof.
    intros Hq Hin Hw HI. pose proof Hq as (_ & _ & Hf & Hl & _). unfold is_u64, is_u32, inside in *.
    pose proof Hok as (_ & Hsz & _).
    unfold exptrim. cbn [mreq rq_from rq_len].
    unfold bad_write in Hw. apply orb_false_iff in Hw. destruct Hw as [Hro _]. rewrite Hro.
    apply wp_bind, wp_assert; [intros _|discriminate].
    rewrite !u64_small by (unfold is_u64, TREEPAGESIZE; lia).
    apply wp_bind, wp_assert; [intros _|lia]. rewrite Hcow, Ht. cbv zeta. unfold TREEPAGESIZE.
    set (mx := (q_from q + q_len q) / 4096 * 4096). set (mn := (q_from q + 4096 - 1) / 4096 * 4096).
    rewrite !i64_small by (unfold mn, mx; lia).
    apply wp_mloop with
      (I := fun m w1 => q_from q <= m /\ m mod 4096 = 0 /\ m <= Z.max mn mx /\ tk w1 /\ quiet w w1 /\
          forall i, view w1 i = view w i \/
            (q_from q <= i / 4096 * 4096 /\ i / 4096 * 4096 + 4096 <= q_from q + q_len q /\ view w1 i = 0))
      (m := fun m => (Z.max mn mx - m) / 4096).
    - intros m w1 (? & ? & ? & _). lia.
    - intros m w1 (Hm1 & Hm2 & Hm3 & K1 & Q1 & V1). unfold trim_tree_body.
      destruct (m <? mx) eqn:E.
      2:{ apply wp_ret. auto. }
      apply wp_bind. unfold delete_treefile. rewrite i64_small by lia.
      rewrite (get_path_ok _ _ d) by (auto; lia).
      apply wp_bind, wp_ret, wp_bind, wp_pull, wp_bind, wp_get. cbn [tick w_exists].
      set (p := block_path d (m / 4096)).
      assert (Hmx : mx mod 4096 = 0) by (unfold mx; apply Z.mod_mul; lia).
      assert (Hme : m + 4096 <= mx) by lia.
      assert (Hnext : forall w2, tk w2 -> quiet w w2 ->
        (forall i, view w2 i = view w i \/
            (q_from q <= i / 4096 * 4096 /\ i / 4096 * 4096 + 4096 <= q_from q + q_len q /\ view w2 i = 0)) ->
        wp (ret (inl (m + TREEPAGESIZE)))
          (fun (r : Z + unit) w' => match r with
             | inl s' => (q_from q <= s' /\ s' mod 4096 = 0 /\ s' <= Z.max mn mx /\ tk w' /\ quiet w w' /\
                forall i, view w' i = view w i \/
                (q_from q <= i / 4096 * 4096 /\ i / 4096 * 4096 + 4096 <= q_from q + q_len q /\ view w' i = 0)) /\
                (Z.max mn mx - s') / 4096 < (Z.max mn mx - m) / 4096
             | inr _ => tk w' /\ quiet w w' /\ forall i, view w' i = view w i \/
                (q_from q <= i / 4096 * 4096 /\ i / 4096 * 4096 + 4096 <= q_from q + q_len q /\ view w' i = 0)
             end) (fun _ => False) w2).
      { intros w2 K2 Q2 V2. apply wp_ret. unfold TREEPAGESIZE. split; [|lia]. repeat (split; [lia|]). auto. }
      assert (Hsame : forall w2, same w1 w2 -> forall i, view w2 i = view w i \/
            (q_from q <= i / 4096 * 4096 /\ i / 4096 * 4096 + 4096 <= q_from q + q_len q /\ view w2 i = 0)).
      { intros w2 [_ V2] i. rewrite V2. apply V1. }
      destruct (w_exists w1 p) eqn:Ex.
      + assert (Hdel : tk (emit (EUnlink p) (set_exists p false (tick w1))) /\
            quiet w (emit (EUnlink p) (set_exists p false (tick w1))) /\
            forall i, view (emit (EUnlink p) (set_exists p false (tick w1))) i = view w i \/
            (q_from q <= i / 4096 * 4096 /\ i / 4096 * 4096 + 4096 <= q_from q + q_len q /\
             view (emit (EUnlink p) (set_exists p false (tick w1))) i = 0)).
        { split; [exact K1|]. split.
          { eapply quiet_trans; [exact Q1|]. eapply quiet_trans; [apply quiet_tick|].
            eapply quiet_trans; [apply quiet_set_exists|apply quiet_unlink]. }
          intros i. unfold tview. destruct ((0 <=? i) && (i / 4096 * 4096 <? c_size c)) eqn:Er; [|left; reflexivity].
          unfold block. cbn [emit set_exists tick w_exists w_file].
          destruct (list_eq_dec Z.eq_dec (block_path d (i / 4096)) p) as [Hp|Hp].
          - right. assert (Hb : i / 4096 = m / 4096).
            { apply (block_path_inj d); [| |exact Hp]; apply (block_in_range (c_size c)); try apply Hok; lia. }
            unfold mx in Hme. lia.
          - specialize (V1 i). unfold tview in V1. rewrite Er in V1. unfold block in V1. exact V1. }
        destruct Hdel as (D1 & D2 & D3).
        destruct (w_orc w1 (w_tick w1)) as [|k|er].
        * apply wp_bind, wp_modify, wp_modify. apply Hnext; auto.
        * apply wp_bind, wp_modify, wp_modify. apply Hnext; auto.
        * apply wp_modify. apply Hnext; [exact K1| |apply Hsame, tree_stable; auto].
          eapply quiet_trans; [exact Q1|]. eapply quiet_trans; [apply quiet_tick|apply quiet_errno].
      + apply wp_modify. apply Hnext; [exact K1| |apply Hsame, tree_stable; auto].
        eapply quiet_trans; [exact Q1|]. eapply quiet_trans; [apply quiet_tick|apply quiet_errno].
    - assert (mn mod 4096 = 0) by (unfold mn; apply Z.mod_mul; lia).
      split; [unfold mn; lia|]. split; [assumption|]. split; [lia|]. split; [exact HI|]. split; [apply quiet_refl|]. auto.
    - unfold mn, mx. lia.
  Qed.

  Lemma tree_trim_touched q w : wreq_ok q -> inside (c_size c) q -> bad_write c = false -> tk w ->
    wp (exptrim c (mreq q))
       (fun _ w1 => tk w1 /\ quiet w w1 /\ touched (view w) (view w1) (q_from q) (q_len q) zeroes)
       (fun w1 => True /\ tk w1 /\ quiet w w1 /\ touched (view w) (view w1) (q_from q) (q_len q) zeroes) w.
  Proof.
    intros Hq Hin Hw HI. eapply wp_mono; [apply tree_trim; auto| |intros w1 []].
    intros u w1 (K & Q & V). split; [exact K|]. split; [exact Q|]. intros i. specialize (V i). unfold zeroes. lia.
  Qed.
End Tree.

Section TreeSession.
  Variable c : client.
  Variable d : nat.
  Variable w : world.
  Hypothesis Ht : cflag c F_TREEFILES = true.
  Hypothesis Hcow : cflag c F_COPYONWRITE = false.
  Hypothesis Hwait : cflag c F_WAIT = false.
  Hypothesis Hok : tree_ok (c_namelen c) (c_size c) d.
  Hypothesis Hst : cflag c F_SPLICE = false \/ c_tls c = false.
  Notation disk := (tview (c_size c) d).

  Lemma tree_request w0 q p w1 : wreq_ok q -> payload_ok q p -> tkept w0 w1 ->
    wp (handle_request c (mreq q) p) (fun _ w2 => answered c (tkept w0) disk q w1 w2)
       (died c (tkept w0) disk True q w1) w1.
  Proof.
    intros Hq Hp HI. pose proof Hok as (_ & Hsz & _).
    apply (wp_handle_request c (tkept w0) disk True (tree_stable c d w0)).
    - intros a w2. apply tree_pos; assumption.
    - lia.
    - exact Hcow.
    - exact Hwait.
    - intros q' w2. apply tree_trim_touched; assumption.
    - intros w2. apply tree_flush; assumption.
    - exact Hq.
    - exact Hp.
    - exact HI.
  Qed.

  Lemma tree_session qs tail e :
    Forall wreq_ok qs -> Forall (fun q => q_type q <> 2) qs -> stops tail e ->
    (exists w1 msgs h, run c (concat (map encode qs) ++ tail) w = Ret (model_end e) w1 /\
      sent w1 = sent w ++ msgs /\
      (forall z, answers qs (concat msgs ++ z) = Some (h, z)) /\
      history (c_size c) (bad_write c) (disk w) h (disk w1) /\
      (forall h, (forall p, h <> FTree p) -> h <> FDummy -> w_file w1 h = w_file w h)) \/
    (exists w1 qs1 q qs2 msgs msgs' h dk, run c (concat (map encode qs) ++ tail) w = Die w1 /\
      qs = qs1 ++ q :: qs2 /\ sent w1 = sent w ++ msgs ++ msgs' /\
      (forall z, answers qs1 (concat msgs ++ z) = Some (h, z)) /\
      history (c_size c) (bad_write c) (disk w) h dk /\
      died_step (c_size c) (bad_write c) dk q (disk w1)).
  Proof.
    intros Hq Hnd Hstop.
    pose proof (wp_run c (tkept w) disk True (tree_stable c d w)
      (tree_request w) Hst qs tail e w Hq Hnd Hstop ltac:(intros h _ _; reflexivity)) as Hrun.
    unfold wp in Hrun. destruct (run c (concat (map encode qs) ++ tail) w) as [r w1| |w1|] eqn:Er; try contradiction.
    - left. destruct Hrun as [-> (K & msgs & h & M1 & A1 & H1)]. exists w1, msgs, h. auto.
    - right. destruct Hrun as (_ & _ & qs1 & q & qs2 & msgs & msgs' & h & dk & H1 & H2 & H3 & H4 & H5).
      exists w1, qs1, q, qs2, msgs, msgs', h, dk. auto 10.
  Qed.

  Lemma tree_trim_request q : wreq_ok q -> known_flags q -> q_cmd q = 4 -> inside (c_size c) q -> bad_write c = false ->
    exists w1, handle_request c (mreq q) PNone w = Ret tt w1 /\
      sent w1 = sent w ++ [simple_reply (q_cookie q) 0 []] /\
      forall i, disk w1 i = disk w i \/
        (q_from q <= i / 4096 * 4096 /\ i / 4096 * 4096 + 4096 <= q_from q + q_len q /\ disk w1 i = 0).
  Proof.
    intros Hq Hk Hcmd Hin Hw. pose proof Hok as (_ & Hsz & _).
    pose proof Hq as (Hty & _ & Hf & Hl & _).
    pose proof (tree_trim c d w Ht Hcow Hok q w Hq Hin Hw ltac:(intros h _ _; reflexivity)) as H.
    unfold handle_request. change (cmd_of (mreq q)) with (q_cmd q). rewrite Hcmd.
    pose proof (bad_flags_spec q Hty) as Hbf. destruct (bad_flags (mreq q)); [destruct Hbf as [_ Hbf]; discriminate (Hbf Hk)|].
    pose proof (bad_range_spec c q Hf Hl ltac:(lia)) as Hbr.
    change (4 =? NBD_CMD_READ) with false. change (4 =? NBD_CMD_WRITE) with false.
    change (4 =? NBD_CMD_FLUSH) with false. change (4 =? NBD_CMD_TRIM) with true. cbv iota. rewrite Hw.
    destruct (bad_range c (mreq q)); [destruct Hbr as [_ Hbr]; discriminate (Hbr Hin)|].
    unfold handle_trim, bind. unfold wp in H.
    destruct (exptrim c (mreq q) w) as [[] w1| |w1|]; try contradiction.
    destruct H as (_ & [_ Hs] & V). eexists. split; [reflexivity|].
    split; [rewrite sent_emit_send, Hs; reflexivity|]. exact V.
  Qed.
End TreeSession.

Lemma tree_layout namelen size pos : 0 <= namelen -> 0 <= pos < size -> size < 9223372036854775808 ->
  exists d, is_depth size d /\ (d <= 5)%nat /\
    (namelen + 11 + 9 * Z.of_nat d <= 4096 ->
       exists r, tree_path namelen size pos = PathOk (block_path d (pos / 4096)) r) /\
    (4096 < namelen + 11 + 9 * Z.of_nat d -> tree_path namelen size pos = PathDie).
Proof.
  intros Hn Hp Hs. destruct (depth_exists size ltac:(lia)) as (d & Hd & Hle). exists d.
  split; [exact Hd|]. split; [exact Hle|]. unfold tree_path, tree_fuel, PATH_MAX. split; intros H.
  - eexists. apply construct_path_ok; try exact Hd; lia.
  - apply construct_path_long with (d := d); try exact Hd; lia.
Qed.

Lemma tree_same_file size d a b : is_depth size d -> 0 <= a < size -> 0 <= b < size ->
  block_path d (a / 4096) = block_path d (b / 4096) <-> a / 4096 = b / 4096.
Proof.
  intros Hd Ha Hb. split; [|congruence].
  apply block_path_inj; apply (block_in_range size); try exact Hd; lia.
Qed.
