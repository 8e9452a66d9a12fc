(** Lemmas for the text of nbd-trplay. *)
From Coq Require Import String.
From Verif Require Import Base M_Nego M_Virt M_Const M_Log M_Play M_DumpText M_PlayText S_Wire S_Par S_Log S_DumpText S_PlayText L_Log L_Play L_DumpText.
Local Open Scope list_scope.

(** ** what is done does not depend on the verbosity *)
Lemma block_text_snd v bs max pw data fuel : forall off len s,
  snd (block_text fuel v bs max pw data off len s) = block_loop fuel bs max pw data off len s.
Proof.
  induction fuel as [|fuel IH]; intros off len s; cbn [block_text block_loop]; destruct (len <=? 0); try reflexivity.
  destruct (if data then doread bs (t_log s) else _) as [[b rest]|]; [|reflexivity].
  destruct (dowriteimage _ _ _ _ _) as [s1|c s1|]; try reflexivity. cbv zeta. destruct (_ =? max); [reflexivity|].
  rewrite <- IH. destruct (block_text fuel v bs max pw data _ _ _). reflexivity.
Qed.
Lemma process_text_snd v bs max pw cmd off len s : snd (process_text v bs max pw cmd off len s) = process_command bs max pw cmd off len s.
Proof.
  unfold process_text, process_command. destruct (negb _); [reflexivity|]. destruct (negb (len mod bs =? 0)); [reflexivity|]. cbv zeta.
  destruct (_ || _); [reflexivity|]. destruct (_ =? NBD_CMD_WRITE).
  - destruct (negb (t_dl s)); [reflexivity|]. apply block_text_snd.
  - destruct (_ || _); [|reflexivity]. apply block_text_snd.
Qed.
Lemma round_text_snd v bs max pw s : snd (round_text v bs max pw s) = play_round bs max pw s.
Proof.
  unfold round_text, play_round. destruct (doread 4 (t_log s)) as [[m r]|]; [|reflexivity]. cbv zeta.
  destruct (unbe m =? NBD_REQUEST_MAGIC).
  - destruct (doread 24 r) as [[h r']|]; [|reflexivity]. rewrite <- (process_text_snd v). destruct (process_text _ _ _ _ _ _ _ _). reflexivity.
  - destruct (unbe m =? NBD_REPLY_MAGIC).
    + destruct (doread 12 r) as [[h r']|]; reflexivity.
    + destruct (unbe m =? NBD_TRACELOG_MAGIC); [|reflexivity]. destruct (doread 24 r) as [[h r']|]; [|reflexivity].
      destruct (_ =? NBD_TRACELOG_FROM_MAGIC); [|reflexivity]. destruct (_ =? 1); reflexivity.
Qed.
Lemma loop_text_snd v bs max pw fuel : forall s, snd (loop_text fuel v bs max pw s) = play_loop fuel bs max pw s.
Proof.
  induction fuel as [|fuel IH]; intros s; [reflexivity|]. cbn [loop_text play_loop]. rewrite <- (round_text_snd v).
  destruct (round_text v bs max pw s) as [ls o]. cbn [snd]. destruct o; try reflexivity. rewrite <- IH.
  destruct (loop_text _ _ _ _ _ _). reflexivity.
Qed.

(** ** a lower verbosity leaves lines out *)
Definition kept (v : Z) (ls : list pline) : list pline := filter (fun l => level l <=? v) ls.
Lemma kept_app v a b : kept v (a ++ b) = kept v a ++ kept v b.
Proof. apply filter_app. Qed.
Lemma say_kept v n l : level l = n -> 0 <= n <= 2 -> say v n l = kept v (say 2 n l).
Proof.
  intros <- H. unfold say. replace (level l <=? 2) with true by lia. cbn [kept filter]. destruct (level l <=? v); reflexivity.
Qed.
Lemma kept_0 v l : 0 <= v -> level l = 0 -> kept v [l] = [l].
Proof. intros H E. cbn [kept filter]. rewrite E. replace (0 <=? v) with true by lia. reflexivity. Qed.
Lemma block_text_fst v bs max pw data fuel : 0 <= v -> forall off len s,
  fst (block_text fuel v bs max pw data off len s) = kept v (fst (block_text fuel 2 bs max pw data off len s)).
Proof.
  intros Hv. induction fuel as [|fuel IH]; intros off len s; cbn [block_text]; destruct (len <=? 0); try reflexivity.
  destruct (if data then doread bs (t_log s) else _) as [[b rest]|]; [|symmetry; apply kept_0; auto].
  destruct (dowriteimage _ _ _ _ _) as [s1|c s1|]; try (apply say_kept; [reflexivity|lia]). cbv zeta.
  destruct (_ =? max).
  - cbn [fst]. rewrite kept_app, <- (say_kept v 2) by (auto; lia). f_equal. symmetry. apply kept_0; auto.
  - specialize (IH (u64 (off + bs)) (u32 (len - bs)) (mkT (t_log s1) (t_img s1) (t_dl s1) (u64 (t_blocks s1 + 1)) (t_calls s1))).
    destruct (block_text fuel v bs max pw data _ _ _). destruct (block_text fuel 2 bs max pw data _ _ _). cbn [fst] in *.
    rewrite kept_app, <- (say_kept v 2), IH by (auto; lia). reflexivity.
Qed.
Lemma process_text_fst v bs max pw cmd off len s : 0 <= v ->
  fst (process_text v bs max pw cmd off len s) = kept v (fst (process_text 2 bs max pw cmd off len s)).
Proof.
  intros Hv. unfold process_text. destruct (negb _); [symmetry; now apply kept_0|]. destruct (negb (len mod bs =? 0)); [symmetry; now apply kept_0|].
  cbv zeta. destruct (_ || _); [reflexivity|]. destruct (_ =? NBD_CMD_WRITE).
  - destruct (negb (t_dl s)); [symmetry; now apply kept_0|]. now apply block_text_fst.
  - destruct (_ || _); [now apply block_text_fst|symmetry; now apply kept_0].
Qed.
Lemma round_text_fst v bs max pw s : 0 <= v -> fst (round_text v bs max pw s) = kept v (fst (round_text 2 bs max pw s)).
Proof.
  intros Hv. unfold round_text. destruct (doread 4 (t_log s)) as [[m r]|]; [|symmetry; now apply kept_0]. cbv zeta.
  destruct (unbe m =? NBD_REQUEST_MAGIC).
  - destruct (doread 24 r) as [[h r']|]; [|symmetry; now apply kept_0].
    pose proof (process_text_fst v bs max pw (unbe (firstn 4 h)) (unbe (firstn 8 (skipn 12 h))) (unbe (skipn 20 h)) (t_rest r' s) Hv) as P.
    destruct (process_text v _ _ _ _ _ _ _). destruct (process_text 2 _ _ _ _ _ _ _). cbn [fst] in *.
    rewrite kept_app, P, <- (say_kept v 1) by (auto; lia). reflexivity.
  - destruct (unbe m =? NBD_REPLY_MAGIC).
    + destruct (doread 12 r) as [[h r']|]; [|symmetry; now apply kept_0]. apply say_kept; [reflexivity|lia].
    + destruct (unbe m =? NBD_TRACELOG_MAGIC); [|symmetry; now apply kept_0]. destruct (doread 24 r) as [[h r']|]; [|symmetry; now apply kept_0].
      destruct (_ =? NBD_TRACELOG_FROM_MAGIC).
      * destruct (_ =? 1); cbn [fst]; rewrite kept_app, <- (say_kept v 1) by (auto; lia); f_equal; symmetry; now apply kept_0.
      * cbn [fst]. rewrite kept_app, <- (say_kept v 1) by (auto; lia). f_equal. symmetry. now apply kept_0.
Qed.
Lemma loop_text_fst v bs max pw fuel : 0 <= v -> forall s,
  fst (loop_text fuel v bs max pw s) = kept v (fst (loop_text fuel 2 bs max pw s)).
Proof.
  intros Hv. induction fuel as [|fuel IH]; intros s; [reflexivity|]. cbn [loop_text].
  pose proof (round_text_fst v bs max pw s Hv) as R. pose proof (round_text_snd v bs max pw s) as S1. pose proof (round_text_snd 2 bs max pw s) as S2.
  destruct (round_text v bs max pw s) as [ls o]. destruct (round_text 2 bs max pw s) as [ls2 o2]. cbn [fst snd] in *.
  rewrite <- S1 in S2. subst o2. destruct o as [s'|c s'|]; try exact R. specialize (IH s').
  destruct (loop_text fuel v _ _ _ _). destruct (loop_text fuel 2 _ _ _ _). cbn [fst] in *. rewrite kept_app, R, IH. reflexivity.
Qed.

(** ** the report *)
Lemma shown_app a b : blocks_shown (a ++ b) = blocks_shown a ++ blocks_shown b.
Proof. apply flat_map_app. Qed.
Lemma numbered_app n a : forall b, numbered_from n a -> numbered_from (n + zlen a) b -> numbered_from n (a ++ b).
Proof.
  revert n. induction a as [|[[c o] k] a IH]; intros n b Ha Hb.
  - change (zlen (@nil (Z * Z * Z))) with 0 in Hb. rewrite Z.add_0_r in Hb. exact Hb.
  - destruct Ha as [-> Ha]. split; [reflexivity|]. apply IH; [exact Ha|]. replace (n + 1 + zlen a) with (n + zlen ((n, o, k) :: a)); [exact Hb|].
    unfold zlen. cbn [length]. lia.
Qed.
Lemma covered_refl img l : covered img img l.
Proof. intros i H. contradiction. Qed.
Lemma covered_trans a b c l l' : covered a b l -> covered b c l' -> covered a c (l ++ l').
Proof.
  intros H1 H2 i Hi. destruct (Z.eq_dec (b i) (a i)) as [E|E].
  - destruct (H2 i ltac:(congruence)) as (x & o & n & I & R). exists x, o, n. split; [apply in_or_app; auto|exact R].
  - destruct (H1 i E) as (x & o & n & I & R). exists x, o, n. split; [apply in_or_app; auto|exact R].
Qed.

(** the end of a run: a closing line, or the block whose write failed *)
Definition last_words (bs max : Z) (pw : nat -> Z) (n c : Z) (s' : tstate) (ls : list pline) : Prop :=
  (exists i l, ls = i ++ [l] /\ closing max c (t_blocks s') l /\ n + zlen (blocks_shown ls) = t_blocks s') \/
  (exists i off, ls = i ++ [QBlock (t_blocks s') off bs] /\ n + zlen (blocks_shown ls) = t_blocks s' + 1 /\
     (off < 0 /\ c = 1 \/ exists k, pw k <= 0 /\ c = (if pw k =? 0 then 0 else 1))).
Definition rep (bs max : Z) (pw : nat -> Z) (img : Z -> Z) (n : Z) (x : list pline * tout) : Prop :=
  numbered_from n (blocks_shown (fst x)) /\
  match snd x with
  | TGo s' => covered img (t_img s') (blocks_shown (fst x)) /\ n + zlen (blocks_shown (fst x)) = t_blocks s' /\ t_blocks s' < max
  | TExit c s' => covered img (t_img s') (blocks_shown (fst x)) /\ last_words bs max pw n c s' (fst x)
  | TStuck => False
  end.
(** one part of a run after another *)
Lemma rep_app bs max pw img n ls s' y : rep bs max pw img n (ls, TGo s') -> rep bs max pw (t_img s') (t_blocks s') y ->
  rep bs max pw img n (ls ++ fst y, snd y).
Proof.
  destruct y as [ls' o]. intros (N & C & E & _) (N' & O). cbn [fst snd] in *. split; cbn [fst snd].
  { rewrite shown_app. apply numbered_app; [exact N|]. rewrite E. exact N'. }
  assert (Z1 : zlen (blocks_shown (ls ++ ls')) = zlen (blocks_shown ls) + zlen (blocks_shown ls')) by (rewrite shown_app; unfold zlen; rewrite app_length; lia).
  destruct o as [s2|c s2|]; [| |exact O].
  - destruct O as (O1 & O2 & O3). split; [rewrite shown_app; exact (covered_trans _ _ _ _ _ C O1)|]. split; [lia|exact O3].
  - destruct O as (O1 & O2). split; [rewrite shown_app; exact (covered_trans _ _ _ _ _ C O1)|].
    destruct O2 as [(i & l & -> & K & Q)|(i & off & -> & Q & K)].
    + left. exists (ls ++ i), l. split; [rewrite app_assoc; reflexivity|]. split; [exact K|lia].
    + right. exists (ls ++ i), off. split; [rewrite app_assoc; reflexivity|]. split; [lia|exact K].
Qed.
Lemma rep_quiet bs max pw img n ls o : blocks_shown ls = [] -> forall ls', rep bs max pw img n (ls', o) -> rep bs max pw img n (ls ++ ls', o).
Proof.
  intros E ls' (N & O). cbn [fst snd] in *. split; cbn [fst snd]; [rewrite shown_app, E; exact N|].
  destruct o as [s2|c s2|]; [| |exact O]; rewrite shown_app, E; cbn [app].
  - exact O.
  - destruct O as (O1 & O2). split; [exact O1|]. unfold last_words in *. rewrite shown_app, E. cbn [app].
    destruct O2 as [(i & l & -> & K & Q)|(i & off & -> & Q & K)].
    + left. exists (ls ++ i), l. split; [rewrite app_assoc; reflexivity|]. split; [exact K|lia].
    + right. exists (ls ++ i), off. split; [rewrite app_assoc; reflexivity|]. split; [lia|exact K].
Qed.
Lemma rep_end bs max pw s c l : closing max c (t_blocks s) l -> rep bs max pw (t_img s) (t_blocks s) ([l], TExit c s).
Proof.
  intros H. assert (E : blocks_shown [l] = []) by (destruct l; try reflexivity; contradiction).
  split; cbn [fst snd]; rewrite E; [exact I|]. split; [apply covered_refl|]. left. exists [], l. split; [reflexivity|]. split; [exact H|].
  rewrite E. unfold zlen. cbn [length]. lia.
Qed.

(** why a write fails *)
Lemma dowrite_fails pw fuel : forall buf off s c s', dowriteimage fuel pw buf off s = TExit c s' ->
  off < 0 /\ c = 1 \/ exists k, pw k <= 0 /\ c = (if pw k =? 0 then 0 else 1).
Proof.
  induction fuel as [|fuel IH]; intros buf off s c s'; cbn [dowriteimage]; destruct (Z.leb_spec (zlen buf) 0); try discriminate. cbv zeta.
  destruct (Z.ltb_spec off 0) as [L|L].
  - change (-1 <=? 0) with true. cbn iota. intros [= <- <-]. left. auto.
  - destruct (Z.leb_spec (Z.min (pw (t_calls s)) (zlen buf)) 0) as [R|R].
    + intros [= <- <-]. right. exists (t_calls s). split; [lia|]. rewrite Z.min_l by lia. reflexivity.
    + intros E. destruct (IH _ _ _ _ _ E) as [[H1 H2]|K]; [lia|]. right. exact K.
Qed.
Lemma block_text_rep bs max pw data k : forall off len s,
  0 < bs -> len = Z.of_nat k * bs -> 0 <= len < 4294967296 -> max <= 18446744073709551615 -> 0 <= t_blocks s < max ->
  rep bs max pw (t_img s) (t_blocks s) (block_text k 2 bs max pw data off len s).
Proof.
  induction k as [|k IH]; intros off len s Hb Hl Hlen Hm Hbl.
  - cbn [block_text]. replace (len <=? 0) with true by lia.
    split; [exact I|]. cbn [fst snd]. split; [apply covered_refl|]. cbn [blocks_shown flat_map]. unfold zlen. cbn [length]. lia.
  - cbn [block_text]. assert (Hpos : bs <= len) by nia. replace (len <=? 0) with false by lia.
    assert (Hd : match (if data then doread bs (t_log s) else Some (repeat 0 (Z.to_nat bs), t_log s)) with None => True | Some (b, _) => zlen b = bs end).
    { destruct data; [unfold doread; destruct (Z.ltb_spec (zlen (t_log s)) bs); [exact I|apply zlen_first; lia]|unfold zlen; rewrite repeat_length; lia]. }
    destruct (if data then doread bs (t_log s) else Some (repeat 0 (Z.to_nat bs), t_log s)) as [[b rest]|].
    2:{ apply rep_end. split; reflexivity. }
    cbv zeta. change (say 2 2 (QBlock (t_blocks s) (i64 off) bs)) with [QBlock (t_blocks s) (i64 off) bs].
    pose proof (dowrite_any pw (length b) b (i64 off) (mkT rest (t_img s) (t_dl s) (t_blocks s) (t_calls s)) ltac:(lia)) as D.
    pose proof (dowrite_fails pw (length b) b (i64 off) (mkT rest (t_img s) (t_dl s) (t_blocks s) (t_calls s))) as F.
    assert (Cov : forall s1 c, (forall i, t_img s1 i <> t_img s i -> i64 off <= i < i64 off + zlen b) -> covered (t_img s) (t_img s1) [(c, i64 off, bs)]).
    { intros s1 c H i Hi. exists c, (i64 off), bs. split; [left; reflexivity|]. rewrite Hd in H. exact (H i Hi). }
    destruct (dowriteimage (length b) pw b (i64 off) _) as [s1|c s1|]; [| |contradiction]; cbn [t_log t_blocks t_img] in D.
    + destruct D as (D1 & D2 & D3). rewrite D2, (u64_small (t_blocks s + 1)) by (unfold is_u64; lia). cbn [t_blocks].
      destruct (Z.eqb_spec (t_blocks s + 1) max) as [Em|Em].
      * split; cbn [fst snd app blocks_shown flat_map]; [split; [reflexivity|exact I]|]. split; [apply Cov; exact D3|].
        left. exists [QBlock (t_blocks s) (i64 off) bs], (QMax max). split; [reflexivity|]. cbn [t_blocks]. split; [repeat split; exact Em|].
        unfold zlen. cbn [app blocks_shown flat_map length]. lia.
      * replace (u32 (len - bs)) with (len - bs) by (unfold u32; rewrite Z.mod_small; lia).
        set (s2 := mkT (t_log s1) (t_img s1) (t_dl s1) (t_blocks s + 1) (t_calls s1)).
        specialize (IH (u64 (off + bs)) (len - bs) s2 Hb ltac:(lia) ltac:(lia) Hm ltac:(cbn; lia)).
        destruct (block_text k 2 bs max pw data (u64 (off + bs)) (len - bs) s2) as [ls o].
        apply (rep_app bs max pw (t_img s) (t_blocks s) [QBlock (t_blocks s) (i64 off) bs] s2 (ls, o)); [|exact IH].
        split; cbn [fst snd blocks_shown flat_map app]; [split; [reflexivity|exact I]|]. split; [apply Cov; exact D3|].
        unfold zlen. cbn [length t_blocks s2]. unfold s2. cbn [t_blocks]. lia.
    + destruct D as (D1 & D2 & D3). split; cbn [fst snd blocks_shown flat_map app]; [split; [reflexivity|exact I]|].
      split; [apply Cov; exact D3|]. right. exists [], (i64 off). rewrite D2. split; [reflexivity|].
      split; [unfold zlen; cbn [app blocks_shown flat_map length]; lia|]. exact (F _ _ eq_refl).
Qed.
Lemma process_text_rep bs max pw cmd off len s :
  0 < bs -> 0 <= len < 4294967296 -> max <= 18446744073709551615 -> 0 <= t_blocks s < max ->
  rep bs max pw (t_img s) (t_blocks s) (process_text 2 bs max pw cmd off len s).
Proof.
  intros Hb Hl Hm Hbl. unfold process_text.
  destruct (negb (off mod bs =? 0)); [apply rep_end; reflexivity|].
  destruct (Z.eqb_spec (len mod bs) 0) as [M|M]; cbn [negb]; [|apply rep_end; reflexivity].
  pose proof (Z.div_mod len bs ltac:(lia)) as Hdm. assert (Hq0 : 0 <= len / bs) by (apply Z.div_pos; lia).
  assert (Hn : len = Z.of_nat (Z.to_nat (len / bs)) * bs) by nia. cbv zeta.
  destruct (_ || _).
  { split; cbn [fst snd]; [exact I|]. split; [apply covered_refl|]. cbn [blocks_shown flat_map]. unfold zlen. cbn [length]. lia. }
  destruct (_ =? NBD_CMD_WRITE).
  - destruct (negb (t_dl s)); [apply rep_end; reflexivity|]. apply block_text_rep; assumption.
  - destruct (_ || _); [apply block_text_rep; assumption|apply rep_end; reflexivity].
Qed.
Lemma rep_step bs max pw s s' ls : blocks_shown ls = [] -> t_img s' = t_img s -> t_blocks s' = t_blocks s -> t_blocks s < max ->
  rep bs max pw (t_img s) (t_blocks s) (ls, TGo s').
Proof.
  intros E Ei Eb Hb. split; cbn [fst snd]; rewrite E; [exact I|]. rewrite Ei, Eb. split; [apply covered_refl|].
  unfold zlen. cbn [length]. lia.
Qed.
Lemma round_text_rep bs max pw s :
  0 < bs -> max <= 18446744073709551615 -> 0 <= t_blocks s < max -> Forall is_byte (t_log s) ->
  rep bs max pw (t_img s) (t_blocks s) (round_text 2 bs max pw s).
Proof.
  intros Hb Hm Hbl By. unfold round_text.
  destruct (doread 4 (t_log s)) as [[m r]|] eqn:E; [|apply rep_end; split; reflexivity].
  destruct (doread_any 4 _ _ _ ltac:(lia) By E) as (_ & _ & Rb & Rl). cbv zeta.
  destruct (unbe m =? NBD_REQUEST_MAGIC).
  - destruct (doread 24 r) as [[h r']|] eqn:E2; [|apply rep_end; split; reflexivity].
    destruct (doread_any 24 _ _ _ ltac:(lia) Rb E2) as (Lh & Bh & _ & _).
    assert (Hlen : 0 <= unbe (skipn 20 h) < 4294967296).
    { pose proof (unbe_range (skipn 20 h) (skipn_bytes 20 h Bh)) as U. rewrite skipn_length in U.
      replace (length h - 20)%nat with 4%nat in U by (unfold zlen in Lh; lia). exact U. }
    pose proof (process_text_rep bs max pw (unbe (firstn 4 h)) (unbe (firstn 8 (skipn 12 h))) (unbe (skipn 20 h)) (t_rest r' s) Hb Hlen Hm Hbl) as P.
    destruct (process_text 2 _ _ _ _ _ _ _) as [ls o]. apply rep_quiet; [reflexivity|exact P].
  - destruct (unbe m =? NBD_REPLY_MAGIC).
    + destruct (doread 12 r) as [[h r']|]; [|apply rep_end; split; reflexivity]. apply rep_step; try reflexivity. lia.
    + destruct (unbe m =? NBD_TRACELOG_MAGIC); [|apply rep_end; reflexivity].
      destruct (doread 24 r) as [[h r']|]; [|apply rep_end; split; reflexivity].
      destruct (_ =? NBD_TRACELOG_FROM_MAGIC); [destruct (_ =? 1)|]; apply rep_step; try reflexivity; lia.
Qed.
Lemma loop_text_rep bs max pw img0 fuel : forall s,
  0 < bs -> 1 <= max <= 18446744073709551615 -> held bs max img0 s -> (length (t_log s) < fuel)%nat ->
  rep bs max pw (t_img s) (t_blocks s) (loop_text fuel 2 bs max pw s).
Proof.
  induction fuel as [|fuel IH]; intros s Hb Hm Hh Hf; [lia|]. cbn [loop_text]. pose proof Hh as (By & Hbl & _).
  pose proof (round_text_rep bs max pw s Hb ltac:(lia) Hbl By) as R. pose proof (round_any bs max pw img0 s Hb Hm Hh) as A.
  rewrite <- (round_text_snd 2) in A. destruct (round_text 2 bs max pw s) as [ls o]. cbn [snd] in A.
  destruct o as [s'|c s'|]; [|exact R|contradiction]. destruct A as [A1 A2].
  specialize (IH s' Hb Hm A1 ltac:(lia)). destruct (loop_text fuel 2 bs max pw s') as [ls' o'] eqn:E.
  exact (rep_app bs max pw (t_img s) (t_blocks s) ls s' (ls', o') R IH).
Qed.
Lemma play_report bs max pw log img :
  0 < bs -> 1 <= max <= 18446744073709551615 -> Forall is_byte log ->
  exists ls c s', play_text 2 bs max pw log img = (ls, TExit c s') /\ numbered_from 0 (blocks_shown ls) /\
    covered img (t_img s') (blocks_shown ls) /\ last_words bs max pw 0 c s' ls.
Proof.
  intros Hb Hm By. set (s := mkT log img false 0 0%nat).
  assert (Hh : held bs max img s) by (split; [exact By|]; cbn [t_blocks t_img s]; unfold s; cbn [t_blocks t_img]; split; [lia|apply at_most_refl]).
  pose proof (loop_text_rep bs max pw img (S (length log)) s Hb Hm Hh ltac:(cbn; lia)) as R.
  destruct (loop_any bs max pw img (S (length log)) s Hb Hm Hh ltac:(cbn; lia)) as (c & s' & E & _).
  rewrite <- (loop_text_snd 2) in E. unfold play_text. fold s. destruct (loop_text (S (length log)) 2 bs max pw s) as [ls o].
  cbn [snd] in E. subst o. exists ls, c, s'. destruct R as (R1 & R2 & R3). auto.
Qed.

(** ** a log of a whole session *)
Lemma block_text_good bs max pw data n : forall off len s,
  0 < bs -> (forall k, 0 < pw k) -> 0 <= off -> len = Z.of_nat n * bs -> len < 4294967296 ->
  off + len <= 9223372036854775807 -> (data = true -> len <= zlen (t_log s)) ->
  0 <= t_blocks s -> t_blocks s + Z.of_nat n < max -> max <= 18446744073709551615 ->
  fst (block_text n 2 bs max pw data off len s) = map (fun k => QBlock (t_blocks s + Z.of_nat k) (off + Z.of_nat k * bs) bs) (seq 0 n).
Proof.
  induction n as [|n IH]; intros off len s Hb Hp Ho Hl Hl2 Hend Hd Hb0 Hbm Hmx.
  - cbn [block_text]. replace (len <=? 0) with true by lia. reflexivity.
  - cbn [block_text]. assert (Hpos : bs <= len) by nia. replace (len <=? 0) with false by lia.
    set (b := stuff data bs (t_log s)). set (rest := if data then skipn (Z.to_nat bs) (t_log s) else t_log s).
    assert (E : (if data then doread bs (t_log s) else Some (repeat 0 (Z.to_nat bs), t_log s)) = Some (b, rest)).
    { unfold b, rest. destruct data; [|reflexivity]. unfold doread, stuff. specialize (Hd eq_refl).
      replace (zlen (t_log s) <? bs) with false by lia. reflexivity. }
    rewrite E. rewrite (i64_small off) by lia. cbv zeta.
    destruct (dowriteimage_ok pw (length b) b off (mkT rest (t_img s) (t_dl s) (t_blocks s) (t_calls s)) Hp Ho ltac:(lia))
      as [s1 [E1 [E2 [E3 [E4 E5]]]]]. rewrite E1. cbn [t_log t_img t_dl t_blocks] in *.
    rewrite E4. rewrite (u64_small (t_blocks s + 1)) by (unfold is_u64; lia).
    replace (t_blocks s + 1 =? max) with false by lia.
    rewrite (u64_small (off + bs)) by (unfold is_u64; lia).
    replace (u32 (len - bs)) with (len - bs) by (unfold u32; rewrite Z.mod_small; lia).
    set (s2 := mkT (t_log s1) (t_img s1) (t_dl s1) (t_blocks s + 1) (t_calls s1)).
    assert (F : fst (block_text n 2 bs max pw data (off + bs) (len - bs) s2) = map (fun k => QBlock (t_blocks s2 + Z.of_nat k) (off + bs + Z.of_nat k * bs) bs) (seq 0 n)).
    { apply IH; try assumption; unfold s2; cbn [t_log t_blocks]; try lia.
      intros Hx. rewrite E2. unfold rest. rewrite Hx. specialize (Hd Hx). rewrite zlen_skip; lia. }
    destruct (block_text n 2 bs max pw data (off + bs) (len - bs) s2) as [ls o]. cbn [fst] in *. rewrite F.
    cbn [seq map]. rewrite <- seq_shift, map_map. unfold say. change (2 <=? 2) with true. cbn [app].
    f_equal; [f_equal; lia|]. apply map_ext. intros k. unfold s2. cbn [t_blocks]. f_equal; lia.
Qed.
Lemma process_text_good bs max pw q s rest :
  0 < bs -> (forall k, 0 < pw k) -> replayable bs q -> t_dl s = true ->
  t_log s = (if q_cmd q =? 1 then q_data q ++ rest else rest) ->
  (q_cmd q = 1 -> zlen (q_data q) = q_len q) ->
  0 <= t_blocks s -> t_blocks s + block_count bs q < max -> max <= 18446744073709551615 ->
  fst (process_text 2 bs max pw (q_type q) (q_from q) (q_len q) s) = request_blocks bs (t_blocks s) q.
Proof.
  intros Hb Hp [Hc [Hf [Hl [Hm1 [Hm2 He]]]]] Hdl Hlog Hdata Hb0 Hbm Hmx. unfold process_text.
  rewrite Hm1, Hm2. cbn [Z.eqb negb]. rewrite land_mask.
  change (q_type q mod 65536) with (q_cmd q).
  pose proof (Z.div_mod (q_len q) bs ltac:(lia)) as Hdm.
  assert (Hq0 : 0 <= q_len q / bs) by (apply Z.div_pos; lia).
  assert (Hn : q_len q = Z.of_nat (Z.to_nat (q_len q / bs)) * bs) by nia.
  unfold request_blocks, block_count in *. cbv zeta.
  change NBD_CMD_READ with 0. change NBD_CMD_DISC with 2. change NBD_CMD_FLUSH with 3. change NBD_CMD_WRITE with 1.
  change NBD_CMD_TRIM with 4. change NBD_CMD_WRITE_ZEROES with 6.
  destruct Hc as [Hc|[Hc|[Hc|[Hc|[Hc|Hc]]]]]; rewrite Hc in *; cbn [Z.eqb orb Pos.eqb] in Hlog, Hdata, Hbm |- *; try reflexivity.
  - rewrite Hdl. cbn [negb]. assert (Hbm' : t_blocks s + q_len q / bs < max) by exact Hbm; apply block_text_good; try assumption; try lia.
    intros _. assert (Hlog' : t_log s = q_data q ++ rest) by exact Hlog. rewrite Hlog'. assert (Hd : zlen (q_data q) = q_len q) by exact (Hdata eq_refl). unfold zlen in *. rewrite app_length. lia.
  - assert (Hbm' : t_blocks s + q_len q / bs < max) by exact Hbm; apply block_text_good; try assumption; try lia; discriminate.
  - assert (Hbm' : t_blocks s + q_len q / bs < max) by exact Hbm; apply block_text_good; try assumption; try lia; discriminate.
Qed.
Lemma round_text_good bs max pw s b e rest :
  0 < bs -> (forall k, 0 < pw k) -> t_dl s = true -> entry_bytes true b e -> t_log s = b ++ rest ->
  0 <= t_blocks s -> max <= 18446744073709551615 ->
  match e with
  | GReq q => replayable bs q -> t_blocks s + block_count bs q < max ->
      fst (round_text 2 bs max pw s) = QReq (unbe (q_cookie q)) (q_type q) (q_from q) (q_len q) :: request_blocks bs (t_blocks s) q
  | GRep ck (HSimple x) => fst (round_text 2 bs max pw s) = [QLine (LRep (unbe ck) x)]
  | GRep _ (HChunk _ _ _) => True
  end.
Proof.
  intros Hb Hp Hdl He Hlog Hb0 Hmx. unfold round_text. rewrite Hlog.
  destruct He as [t ck f n data bt bf bn L1 U1 L2 L3 U3 L4 U4 L5 bm L6 U6|e ck be L1 U1 L2 bm L3 U3|fl ty ck n bf bt bn L1 U1 L2 U2 L3 L4 U4 bm L5 U5].
  - intros Hq Hbm. rewrite <- !app_assoc, (doread_app 4 bm _ L6), U6. cbv zeta.
    change (0x25609513 =? NBD_REQUEST_MAGIC) with true. cbn iota.
    destruct (hdr_fields bt ck bf bn L1 L2 L3 L4) as [H0 [H1 [H2 [H3 H4]]]].
    replace (bt ++ ck ++ bf ++ bn ++ data ++ rest) with ((bt ++ ck ++ bf ++ bn) ++ data ++ rest) by (rewrite <- !app_assoc; reflexivity).
    rewrite (doread_app 24 _ _ H0), H1, H2, H3, H4, U1, U3, U4.
    set (q := mkWreq t ck f n data) in *.
    assert (Qc : q_cmd q = t mod 65536) by reflexivity.
    assert (P : fst (process_text 2 bs max pw (q_type q) (q_from q) (q_len q) (t_rest (data ++ rest) s)) = request_blocks bs (t_blocks s) q).
    { apply (process_text_good bs max pw q (t_rest (data ++ rest) s) rest Hb Hp Hq Hdl); [ | |exact Hb0|exact Hbm|exact Hmx].
      - cbn [t_rest t_log]. rewrite <- Qc in L5. destruct (q_cmd q =? 1); [reflexivity|].
        cbn [andb] in L5. destruct data; [reflexivity|]. unfold zlen in L5. cbn [length] in L5. lia.
      - intros Hq1. rewrite <- Qc, Hq1 in L5. cbn [andb Z.eqb Pos.eqb] in L5. exact L5. }
    change (q_type q) with t in P |- *. change (q_from q) with f in P |- *. change (q_len q) with n in P |- *. change (q_cookie q) with ck.
    destruct (process_text 2 bs max pw t f n (t_rest (data ++ rest) s)) as [ls o]. cbn [fst] in *. rewrite P. reflexivity.
  - rewrite <- !app_assoc, (doread_app 4 bm _ L3), U3. cbv zeta.
    change (0x67446698 =? NBD_REQUEST_MAGIC) with false. change (0x67446698 =? NBD_REPLY_MAGIC) with true. cbn iota.
    rewrite app_assoc, (doread_app 12 (be ++ ck)) by (unfold zlen in *; rewrite app_length; lia).
    cbn [fst]. unfold say. change (1 <=? 2) with true. cbn iota. rewrite app_skip, app_first by (unfold zlen in *; lia). rewrite U1. reflexivity.
  - exact I.
Qed.
Lemma loop_text_good bs max pw fuel : forall lf s ents,
  0 < bs -> (forall k, 0 < pw k) -> t_dl s = true -> parse_log lf true (t_log s) = Some ents ->
  Forall (replayable bs) (log_requests ents) -> simple_only ents ->
  0 <= t_blocks s -> t_blocks s + blocks_in bs (log_requests ents) < max -> max <= 18446744073709551615 ->
  (length (t_log s) < fuel)%nat ->
  fst (loop_text fuel 2 bs max pw s) = told bs (t_blocks s) ents.
Proof.
  induction fuel as [|fuel IH]; intros lf s ents Hb Hp Hdl Hlog Hq Hs Hb0 Hbm Hmx Hf; [lia|].
  destruct (parse_log_cons _ _ _ _ Hlog) as [[E1 ->]|[f' [b [e [r [ents' [_ [Es [He [Hr ->]]]]]]]]]].
  - cbn [loop_text]. unfold round_text. rewrite E1. reflexivity.
  - pose proof (play_entry bs max pw s b e r Hb Hp Hdl He Es Hb0 Hmx) as P.
    pose proof (round_text_good bs max pw s b e r Hb Hp Hdl He Es Hb0 Hmx) as G.
    pose proof (round_text_snd 2 bs max pw s) as Sn.
    assert (Lb : (0 < length b)%nat).
    { destruct He; rewrite app_length; unfold zlen in *; lia. }
    assert (Lr : (length r < fuel)%nat) by (rewrite Es, app_length in Hf; lia).
    assert (Hs' : simple_only ents') by (intros ck h Hin; apply (Hs ck h); right; exact Hin).
    cbn [loop_text]. destruct (round_text 2 bs max pw s) as [ls o]. cbn [fst snd] in *.
    destruct e as [q|ck [x|fl ty n]]; cbn [log_requests blocks_in told] in *.
    + inversion Hq as [|q' l' Hq1 Hq2]; subst q' l'.
      pose proof (block_count_pos bs q Hb Hq1). pose proof (blocks_in_pos bs _ Hb Hq2).
      destruct (P Hq1 ltac:(lia)) as [s1 [E1 [E2 [E3 [E4 E5]]]]]. specialize (G Hq1 ltac:(lia)).
      rewrite <- E2 in Hr, Lr. rewrite E1 in Sn. subst o.
      pose proof (IH f' s1 ents' Hb Hp E3 Hr Hq2 Hs' ltac:(lia) ltac:(lia) Hmx Lr) as F. rewrite E4 in F.
      destruct (loop_text fuel 2 bs max pw s1) as [ls' o']. cbn [fst] in *. rewrite F, G. reflexivity.
    + destruct P as [s1 [E1 [E2 [E3 [E4 E5]]]]]. rewrite <- E2 in Hr, Lr. rewrite E1 in Sn. subst o.
      pose proof (IH f' s1 ents' Hb Hp E3 Hr Hq Hs' ltac:(lia) ltac:(lia) Hmx Lr) as F. rewrite E4 in F.
      destruct (loop_text fuel 2 bs max pw s1) as [ls' o']. cbn [fst] in *. rewrite F, G. reflexivity.
    + destruct (Hs ck (HChunk fl ty n) (or_introl eq_refl)) as [y Hy]. discriminate.
Qed.
Lemma mark_text bs max pw log img :
  fst (round_text 2 bs max pw (mkT (datalog_mark ++ log) img false 0 0%nat)) = [QLine (LOpt 1 NBD_TRACELOG_FROM_MAGIC 1); QLine (LData true)].
Proof.
  unfold round_text. cbn [t_log]. unfold datalog_mark. rewrite <- !app_assoc.
  rewrite (doread_app 4 (be 4 NBD_TRACELOG_MAGIC)) by reflexivity. cbv zeta.
  change (unbe (be 4 NBD_TRACELOG_MAGIC) =? NBD_REQUEST_MAGIC) with false.
  change (unbe (be 4 NBD_TRACELOG_MAGIC) =? NBD_REPLY_MAGIC) with false.
  change (unbe (be 4 NBD_TRACELOG_MAGIC) =? NBD_TRACELOG_MAGIC) with true. cbn iota.
  replace (be 4 1 ++ be 8 0 ++ be 8 NBD_TRACELOG_FROM_MAGIC ++ be 4 1 ++ log)
    with ((be 4 1 ++ be 8 0 ++ be 8 NBD_TRACELOG_FROM_MAGIC ++ be 4 1) ++ log) by (rewrite <- !app_assoc; reflexivity).
  rewrite (doread_app 24) by reflexivity. reflexivity.
Qed.
Lemma play_good bs max pw log ents img lf :
  0 < bs -> (forall k, 0 < pw k) -> parse_log lf true log = Some ents ->
  Forall (replayable bs) (log_requests ents) -> simple_only ents ->
  blocks_in bs (log_requests ents) < max -> max <= 18446744073709551615 ->
  fst (play_text 2 bs max pw (datalog_mark ++ log) img) =
  QLine (LOpt 1 NBD_TRACELOG_FROM_MAGIC 1) :: QLine (LData true) :: told bs 0 ents.
Proof.
  intros Hb Hp Hlog Hq Hs Hbm Hmx. unfold play_text. cbn [loop_text].
  pose proof (mark_text bs max pw log img) as M. pose proof (round_text_snd 2 bs max pw (mkT (datalog_mark ++ log) img false 0 0%nat)) as Sn.
  rewrite mark_round in Sn. destruct (round_text _ _ _ _ _) as [ls o]. cbn [fst snd] in *. subst ls o.
  pose proof (loop_text_good bs max pw (length (datalog_mark ++ log)) lf (mkT log img true 0 0%nat) ents Hb Hp eq_refl Hlog Hq Hs ltac:(cbn; lia) ltac:(cbn [t_blocks]; lia) Hmx) as F.
  destruct (loop_text _ _ _ _ _ _) as [ls o]. cbn [fst] in *. rewrite F; [reflexivity|].
  rewrite app_length. change (length datalog_mark) with 28%nat. cbn [t_log]. lia.
Qed.

(** ** main *)
Lemma popts_text_ok a0 ver eno fs os : forall v p, 0 <= v ->
  match popts_text a0 ver eno fs os v p with
  | OGo _ v' p' => popts fs os p = inl p' /\ v <= v'
  | OEnd _ c => popts fs os p = inr c
  | OUb => 3 < v + zlen (filter no_argument os)
  end.
Proof.
  induction os as [|o t IH]; intros v p Hv; cbn [popts_text popts].
  - split; [reflexivity|lia].
  - assert (Z0 : forall l : list popt, 0 <= zlen l) by (intros l; unfold zlen; lia).
    assert (Z1 : forall (x : popt) l, zlen (x :: l) = 1 + zlen l) by (intros x l; unfold zlen; cbn [length]; lia).
    assert (P : forall d w q, v <= w -> match printed d (popts_text a0 ver eno fs t w q) with OGo _ v' p' => popts fs t q = inl p' /\ v <= v' | OEnd _ c => popts fs t q = inr c | OUb => 3 < w + zlen (filter no_argument t) end).
    { intros d w q Hw. specialize (IH w q ltac:(lia)). destruct (popts_text a0 ver eno fs t w q) as [out v' p'|out c|]; cbn [printed]; [split; [tauto|lia]|exact IH|exact IH]. }
    assert (D : forall c, 3 <= v \/ opt_debug v c None = Some []) by (intros c; unfold opt_debug; destruct (Z.leb_spec 3 v); auto).
    assert (D' : forall c s, exists d, opt_debug v c (Some s) = Some d) by (intros c s; unfold opt_debug; destruct (3 <=? v); eexists; reflexivity).
    destruct o as [| |s|s|f|f]; cbn [filter no_argument]; rewrite ?Z1.
    + destruct (D 118) as [G|G]; [|rewrite G].
      * unfold opt_debug. replace (3 <=? v) with true by lia. pose proof (Z0 (filter no_argument t)). lia.
      * specialize (P [] (v + 1) p ltac:(lia)). destruct (printed _ _); [exact P|exact P|lia].
    + destruct (D 104) as [G|G]; [|rewrite G].
      * unfold opt_debug. replace (3 <=? v) with true by lia. pose proof (Z0 (filter no_argument t)). lia.
      * reflexivity.
    + destruct (D' 109 s) as [d ->]. cbv zeta. destruct (strtoull0 s =? 0); [reflexivity|]. apply P. lia.
    + destruct (D' 98 s) as [d ->]. cbv zeta. destruct (strtoull0 s =? 0); [reflexivity|]. destruct (TRBUFSIZE <? strtoull0 s); [reflexivity|]. apply P. lia.
    + destruct (D' 105 f) as [d ->]. destruct (pf_img fs f); [|reflexivity]. apply P. lia.
    + destruct (D' 108 f) as [d ->]. destruct (pf_log fs f); [|reflexivity]. apply P. lia.
Qed.
Lemma main_text_ok a0 ver eno fs pw os :
  match trplay_main_text a0 ver eno fs pw os with
  | PText _ r => r = trplay_main fs pw os
  | PtUb => 3 < zlen (filter no_argument os)
  end.
Proof.
  unfold trplay_main_text, trplay_main. pose proof (popts_text_ok a0 ver eno fs os 0 pset0 ltac:(lia)) as P.
  destruct (popts_text a0 ver eno fs os 0 pset0) as [out v p|out c|]; [| |exact P].
  - destruct P as [-> _]. destruct (p_log p) as [l|]; [|reflexivity]. destruct (p_img p) as [i|]; [|reflexivity].
    destruct (pf_log fs l) as [log|]; [|reflexivity]. destruct (pf_img fs i) as [img|]; [|reflexivity]. cbv zeta.
    pose proof (loop_text_snd v (p_bs p) (p_max p) pw (S (length log)) (mkT log img false 0 0%nat)) as Sn. unfold play_text, trplay.
    destruct (loop_text _ _ _ _ _ _) as [ls o]. cbn [snd] in Sn. rewrite <- Sn. destruct o; reflexivity.
  - rewrite P. reflexivity.
Qed.

(** ** the text can be read back *)
Definition digitb (c : Z) : bool := (48 <=? c) && (c <=? 57).
Definition digits (l : list Z) : Prop := Forall (fun c => digitb c = true) l.
Lemma ddigits_acc f : forall x acc, ddigits f x acc = ddigits f x [] ++ acc.
Proof.
  induction f as [|f IH]; intros x acc; [reflexivity|]. cbn [ddigits]. cbv zeta. destruct (x / 10 =? 0); [reflexivity|].
  rewrite (IH _ ((48 + x mod 10) :: acc)), (IH _ [48 + x mod 10]), <- app_assoc. reflexivity.
Qed.
Lemma ddigits_ok f : forall x, 0 <= x < 10 ^ Z.of_nat f -> digits (ddigits f x []) /\ dec_value (ddigits f x []) = x.
Proof.
  induction f as [|f IH]; intros x Hx; [cbn in Hx; cbn; split; [constructor|lia]|]. cbn [ddigits]. cbv zeta.
  pose proof (Z.mod_pos_bound x 10 ltac:(lia)) as M. pose proof (Z.div_mod x 10 ltac:(lia)) as D.
  assert (Dg : digitb (48 + x mod 10) = true) by (unfold digitb; lia).
  destruct (Z.eqb_spec (x / 10) 0) as [E|E].
  - split; [repeat constructor; exact Dg|]. unfold dec_value. cbn [fold_left]. lia.
  - rewrite ddigits_acc. destruct (IH (x / 10)) as [I1 I2].
    { rewrite Nat2Z.inj_succ, Z.pow_succ_r in Hx by lia. split; [apply Z.div_pos; lia|apply Z.div_lt_upper_bound; lia]. }
    split; [apply Forall_app; split; [exact I1|repeat constructor; exact Dg]|].
    unfold dec_value in *. rewrite fold_left_app, I2. cbn [fold_left]. lia.
Qed.
Lemma pr_u_ok x : 0 <= x < 18446744073709551616 -> digits (pr_u x) /\ dec_value (pr_u x) = x.
Proof. intros H. apply ddigits_ok. change (10 ^ Z.of_nat 20) with 100000000000000000000. lia. Qed.
Lemma ddigits_some f x : ddigits (S f) x [] <> [].
Proof. cbn [ddigits]. cbv zeta. destruct (x / 10 =? 0); [discriminate|]. rewrite ddigits_acc. intros E. apply app_eq_nil in E. destruct E. discriminate. Qed.
Lemma pr_u_some x : pr_u x <> [].
Proof. apply ddigits_some. Qed.
Lemma digits_split a : forall b c d r r', digits a -> digits b -> digitb c = false -> digitb d = false -> a ++ c :: r = b ++ d :: r' -> a = b /\ c :: r = d :: r'.
Proof.
  induction a as [|x a IH]; intros [|y b] c d r r' Ha Hb Hc Hd E; cbn [app] in E.
  - auto.
  - inversion Hb; subst. injection E as -> _. congruence.
  - inversion Ha; subst. injection E as -> _. congruence.
  - inversion Ha; inversion Hb; subst. injection E as -> E. destruct (IH b c d r r') as [-> E2]; auto.
Qed.
Lemma pr_u_inj x y c d r r' : 0 <= x < 18446744073709551616 -> 0 <= y < 18446744073709551616 -> digitb c = false -> digitb d = false ->
  pr_u x ++ c :: r = pr_u y ++ d :: r' -> x = y /\ c :: r = d :: r'.
Proof.
  intros Hx Hy Hc Hd E. destruct (pr_u_ok x Hx) as [D1 V1], (pr_u_ok y Hy) as [D2 V2].
  destruct (digits_split _ _ _ _ _ _ D1 D2 Hc Hd E) as [A B]. split; [congruence|exact B].
Qed.
Lemma pr_d_inj x y c d r r' : -9223372036854775808 <= x < 18446744073709551616 -> -9223372036854775808 <= y < 18446744073709551616 -> digitb c = false -> digitb d = false ->
  pr_d x ++ c :: r = pr_d y ++ d :: r' -> x = y /\ c :: r = d :: r'.
Proof.
  intros Hx Hy Hc Hd. unfold pr_d.
  assert (H45 : forall z s s', 0 <= z < 18446744073709551616 -> 45 :: s = pr_u z ++ s' -> False).
  { intros z s s' Hz E. destruct (pr_u_ok z Hz) as [D _]. pose proof (pr_u_some z) as N. destruct (pr_u z) as [|w u]; [contradiction|].
    injection E as <- _. inversion D; subst. discriminate. }
  destruct (Z.ltb_spec x 0), (Z.ltb_spec y 0); intros E.
  - injection E as E. apply pr_u_inj in E; try assumption; try lia. destruct E as [E ->]. split; [lia|reflexivity].
  - exfalso. eapply (H45 y); [lia|exact E].
  - exfalso. symmetry in E. eapply (H45 x); [lia|exact E].
  - apply pr_u_inj in E; try assumption; try lia; exact E.
Qed.
Lemma text_cons a s : text (String a s) = Z.of_N (Ascii.N_of_ascii a) :: text s.
Proof. reflexivity. Qed.
Lemma pr_d_inj_t x y a b s s' r r' :
  -9223372036854775808 <= x < 18446744073709551616 -> -9223372036854775808 <= y < 18446744073709551616 ->
  digitb (Z.of_N (Ascii.N_of_ascii a)) = false -> digitb (Z.of_N (Ascii.N_of_ascii b)) = false ->
  pr_d x ++ text (String a s) ++ r = pr_d y ++ text (String b s') ++ r' -> x = y /\ text (String a s) ++ r = text (String b s') ++ r'.
Proof. intros Hx Hy Ha Hb. rewrite !text_cons. cbn [app]. apply pr_d_inj; assumption. Qed.
Lemma pr_u_inj_t x y a b s s' r r' :
  0 <= x < 18446744073709551616 -> 0 <= y < 18446744073709551616 ->
  digitb (Z.of_N (Ascii.N_of_ascii a)) = false -> digitb (Z.of_N (Ascii.N_of_ascii b)) = false ->
  pr_u x ++ text (String a s) ++ r = pr_u y ++ text (String b s') ++ r' -> x = y /\ text (String a s) ++ r = text (String b s') ++ r'.
Proof. intros Hx Hy Ha Hb. rewrite !text_cons. cbn [app]. apply pr_u_inj; assumption. Qed.
Lemma i32_inj x y : 0 <= x < 4294967296 -> 0 <= y < 4294967296 -> i32 x = i32 y -> x = y.
Proof.
  intros Hx Hy. unfold i32.
  assert (S : forall z, 0 <= z < 4294967296 -> (z + 2147483648) mod 4294967296 = if z <? 2147483648 then z + 2147483648 else z - 2147483648).
  { intros z Hz. destruct (Z.ltb_spec z 2147483648); [apply Z.mod_small; lia|].
    rewrite <- (Z.mod_add (z + 2147483648) (-1) 4294967296) by lia. rewrite Z.mod_small; lia. }
  rewrite !S by assumption. destruct (Z.ltb_spec x 2147483648), (Z.ltb_spec y 2147483648); lia.
Qed.
Lemma i32_range x : -2147483648 <= i32 x < 2147483648.
Proof. unfold i32. pose proof (Z.mod_pos_bound (x + 2147483648) 4294967296). lia. Qed.
Ltac strip2 := repeat first
  [ match goal with H : ?a ++ _ = ?a ++ _ |- _ => apply head_inj in H end
  | match goal with H : pr_x _ _ ++ _ = pr_x _ _ ++ _ |- _ => apply pr_x_inj in H; [destruct H as [? H]; subst|lia|cbn; lia|cbn; lia] end
  | match goal with H : pr_u _ ++ _ = pr_u _ ++ _ |- _ => apply pr_u_inj_t in H; [destruct H as [? H]; subst|lia|lia|reflexivity|reflexivity] end
  | match goal with H : pr_d (i32 ?a) ++ _ = pr_d (i32 ?b) ++ _ |- _ =>
      apply pr_d_inj_t in H; [destruct H as [? H]; assert (a = b) by (apply i32_inj; assumption); subst|pose proof (i32_range a); lia|pose proof (i32_range b); lia|reflexivity|reflexivity] end
  | match goal with H : pr_d _ ++ _ = pr_d _ ++ _ |- _ => apply pr_d_inj_t in H; [destruct H as [? H]; subst|lia|lia|reflexivity|reflexivity] end ].
Lemma pline_prefix a b r r' : p_range a -> p_range b -> pline_text a ++ r = pline_text b ++ r' -> a = b /\ r = r'.
Proof.
  intros Ha Hb.
  destruct a as [l|ck cmd off len|cur off len|n|n|off bs|len bs| |cmd|m], b as [l'|ck' cmd' off' len'|cur' off' len'|n'|n'|off' bs'|len' bs'| |cmd'|m'];
    try (destruct l as [? ? ? ?|? ?|? ? ?|on| | |? ? ? ?|?]; try contradiction); try (destruct l' as [? ? ? ?|? ?|? ? ?|on'| | |? ? ? ?|?]; try contradiction);
    cbn [pline_text line_text p_range in_range] in *; unfold pr_h; rewrite <- ?app_assoc.
  all: try (intros E; exfalso; revert E; repeat match goal with |- context [pr_x ?n ?x] => generalize (pr_x n x); intro end;
            repeat match goal with |- context [pr_s ?n ?x] => generalize (pr_s n x); intro end;
            repeat match goal with |- context [pr_u ?x] => generalize (pr_u x); intro end;
            repeat match goal with |- context [pr_d ?x] => generalize (pr_d x); intro end; cbv; discriminate).
  - intros E. destruct Ha as (?&?), Hb as (?&?). strip2. auto.
  - intros E. destruct Ha as (?&?&?), Hb as (?&?&?). strip2. auto.
  - intros E. strip2. destruct on, on'; try discriminate E; injection E as E; auto.
  - intros E. strip2. auto.
  - intros E. strip2. auto.
  - intros E. destruct Ha as (?&?&?&?), Hb as (?&?&?&?). strip2. auto.
  - intros E. destruct Ha as (?&?&?), Hb as (?&?&?). strip2. auto.
  - intros E. strip2. auto.
  - intros E. strip2. auto.
  - intros E. destruct Ha as (?&?), Hb as (?&?). strip2. auto.
  - intros E. destruct Ha as (?&?), Hb as (?&?). strip2. auto.
  - intros E. strip2. auto.
  - intros E. strip2. auto.
  - intros E. strip2. auto.
Qed.
Lemma pline_text_some a : pline_text a <> [].
Proof. destruct a as [l|? ? ? ?|? ? ?|?|?|? ?|? ?| |?|?]; try discriminate. apply line_text_some. Qed.
Lemma plines_inj a : forall b, Forall p_range a -> Forall p_range b -> concat (map pline_text a) = concat (map pline_text b) -> a = b.
Proof.
  induction a as [|x a IH]; intros [|y b] Ha Hb E; cbn [map concat] in E.
  - reflexivity.
  - symmetry in E. apply app_eq_nil in E. destruct (pline_text_some y (proj1 E)).
  - apply app_eq_nil in E. destruct (pline_text_some x (proj1 E)).
  - inversion Ha; inversion Hb; subst. destruct (pline_prefix x y _ _ ltac:(assumption) ltac:(assumption) E) as [-> E2]. f_equal. apply IH; assumption.
Qed.

(** ** every value shown fits its field *)
Definition u64r (x : Z) : Prop := 0 <= x < 18446744073709551616.
Lemma u64_r x : u64r (u64 x).
Proof. unfold u64r, u64. apply Z.mod_pos_bound. lia. Qed.
Lemma i64_r x : -9223372036854775808 <= i64 x < 9223372036854775808.
Proof. unfold i64. pose proof (Z.mod_pos_bound (x + 9223372036854775808) 18446744073709551616). lia. Qed.
Lemma say_range v n l : p_range l -> Forall p_range (say v n l).
Proof. intros H. unfold say. destruct (n <=? v); repeat constructor. exact H. Qed.
Definition go_ok (o : tout) : Prop := match o with TGo s => Forall is_byte (t_log s) /\ u64r (t_blocks s) | _ => True end.
Lemma dowrite_keep pw fuel : forall buf off s s', dowriteimage fuel pw buf off s = TGo s' -> t_log s' = t_log s /\ t_blocks s' = t_blocks s.
Proof.
  induction fuel as [|fuel IH]; intros buf off s s'; cbn [dowriteimage]; destruct (zlen buf <=? 0); try discriminate; try (intros [= <-]; auto).
  cbv zeta. destruct (_ <=? 0); [discriminate|]. intros E. exact (IH _ _ _ _ E).
Qed.
Lemma block_text_range v bs max pw data fuel : u64r bs -> u64r max -> forall off len s, Forall is_byte (t_log s) -> u64r (t_blocks s) ->
  Forall p_range (fst (block_text fuel v bs max pw data off len s)) /\ go_ok (snd (block_text fuel v bs max pw data off len s)).
Proof.
  intros Hb Hm. induction fuel as [|fuel IH]; intros off len s Hs Hn; cbn [block_text]; destruct (len <=? 0).
  1,3: (split; [constructor|split; assumption]).
  { split; [constructor|exact I]. }
  assert (Hr : forall b rest, (if data then doread bs (t_log s) else Some (repeat 0 (Z.to_nat bs), t_log s)) = Some (b, rest) -> Forall is_byte rest).
  { intros b rest. destruct data; [|intros [= _ <-]; exact Hs]. intros E. unfold u64r in Hb. destruct (doread_bytes bs _ _ _ ltac:(lia) Hs E) as (_ & X & _). exact X. }
  destruct (if data then doread bs (t_log s) else _) as [[b rest]|].
  2:{ split; [repeat constructor; apply Hn|exact I]. }
  specialize (Hr b rest eq_refl). cbv zeta.
  assert (Q : Forall p_range (say v 2 (QBlock (t_blocks s) (i64 off) bs))) by (apply say_range; cbn [p_range]; split; [exact Hn|split; [apply i64_r|exact Hb]]).
  pose proof (dowrite_keep pw (length b) b (i64 off) (mkT rest (t_img s) (t_dl s) (t_blocks s) (t_calls s))) as K.
  destruct (dowriteimage _ _ _ _ _) as [s1|c s1|]; [| |]; [|split; [exact Q|exact I]..].
  destruct (K s1 eq_refl) as [K1 K2]. cbn [t_log t_blocks] in K1, K2. destruct (_ =? max).
  - split; [apply Forall_app; split; [exact Q|repeat constructor; apply Hm]|exact I].
  - destruct (IH (u64 (off + bs)) (u32 (len - bs)) (mkT (t_log s1) (t_img s1) (t_dl s1) (u64 (t_blocks s1 + 1)) (t_calls s1))) as [I1 I2].
    { cbn [t_log]. rewrite K1. exact Hr. } { apply u64_r. }
    destruct (block_text fuel v bs max pw data _ _ _) as [ls o]. split; [apply Forall_app; split; [exact Q|exact I1]|exact I2].
Qed.
Lemma one_range l : p_range l -> Forall p_range [l].
Proof. intros H. constructor; [exact H|constructor]. Qed.
Lemma process_text_range v bs max pw cmd off len s : u64r bs -> u64r max -> Forall is_byte (t_log s) -> u64r (t_blocks s) ->
  0 <= cmd < 4294967296 -> u64r off -> 0 <= len < 4294967296 ->
  Forall p_range (fst (process_text v bs max pw cmd off len s)) /\ go_ok (snd (process_text v bs max pw cmd off len s)).
Proof.
  intros Hb Hm Hs Hn Hc Ho Hl. unfold process_text.
  destruct (negb (off mod bs =? 0)); [split; [apply one_range; split; assumption|exact I]|].
  destruct (negb (len mod bs =? 0)); [split; [apply one_range; split; assumption|exact I]|]. cbv zeta.
  destruct (_ || _); [split; [constructor|split; assumption]|]. destruct (_ =? NBD_CMD_WRITE).
  - destruct (negb (t_dl s)); [split; [apply one_range; exact I|exact I]|]. now apply block_text_range.
  - destruct (_ || _); [now apply block_text_range|]. split; [apply one_range; exact Hc|exact I].
Qed.
Lemma round_text_range v bs max pw s : u64r bs -> u64r max -> Forall is_byte (t_log s) -> u64r (t_blocks s) ->
  Forall p_range (fst (round_text v bs max pw s)) /\ go_ok (snd (round_text v bs max pw s)).
Proof.
  intros Hb Hm Hs Hn. assert (QE : Forall p_range (fst ([QEnd (t_blocks s)], TExit 0 s)) /\ go_ok (snd ([QEnd (t_blocks s)], TExit 0 s))) by (split; [apply one_range; exact Hn|exact I]).
  unfold round_text. destruct (doread 4 (t_log s)) as [[m r]|] eqn:E; [|exact QE].
  destruct (doread_bytes 4 _ _ _ ltac:(lia) Hs E) as (B1 & B2 & L1). cbv zeta. assert (L4 : length m = 4%nat) by (rewrite L1; reflexivity).
  destruct (unbe m =? NBD_REQUEST_MAGIC).
  { destruct (doread 24 r) as [[h r2]|] eqn:E2; [|exact QE]. destruct (doread_bytes 24 _ _ _ ltac:(lia) B2 E2) as (B3 & B4 & L2).
    assert (L24 : length h = 24%nat) by (rewrite L2; reflexivity).
    assert (R1 : 0 <= unbe (firstn 4 h) < 4294967296) by unb. assert (R2 : 0 <= unbe (firstn 8 (skipn 12 h)) < 18446744073709551616) by unb.
    assert (R3 : 0 <= unbe (skipn 20 h) < 4294967296) by unb. assert (R4 : 0 <= unbe (firstn 8 (skipn 4 h)) < 18446744073709551616) by unb.
    destruct (process_text_range v bs max pw (unbe (firstn 4 h)) (unbe (firstn 8 (skipn 12 h))) (unbe (skipn 20 h)) (t_rest r2 s) Hb Hm B4 Hn R1 R2 R3) as [P1 P2].
    destruct (process_text _ _ _ _ _ _ _ _) as [ls o]. split; [apply Forall_app; split; [apply say_range; cbn [p_range]; auto|exact P1]|exact P2]. }
  destruct (unbe m =? NBD_REPLY_MAGIC).
  { destruct (doread 12 r) as [[h r2]|] eqn:E2; [|exact QE]. destruct (doread_bytes 12 _ _ _ ltac:(lia) B2 E2) as (B3 & B4 & L2).
    assert (L24 : length h = 12%nat) by (rewrite L2; reflexivity).
    split; [apply say_range; cbn [p_range in_range]; split; unb|split; [exact B4|exact Hn]]. }
  destruct (unbe m =? NBD_TRACELOG_MAGIC).
  { destruct (doread 24 r) as [[h r2]|] eqn:E2; [|exact QE]. destruct (doread_bytes 24 _ _ _ ltac:(lia) B2 E2) as (B3 & B4 & L2).
    assert (L24 : length h = 24%nat) by (rewrite L2; reflexivity).
    assert (R : p_range (QLine (LOpt (unbe (firstn 4 h)) (unbe (firstn 8 (skipn 12 h))) (unbe (skipn 20 h))))).
    { cbn [p_range in_range]. split; [unb|split; unb]. }
    destruct (_ =? NBD_TRACELOG_FROM_MAGIC); [destruct (_ =? 1)|]; (split; [apply Forall_app; split; [apply say_range; exact R|first [apply say_range; exact I|apply one_range; exact I]]|split; [exact B4|exact Hn]]). }
  split; [|exact I]. apply one_range. cbn [p_range]. unb.
Qed.
Lemma loop_text_range v bs max pw fuel : u64r bs -> u64r max -> forall s, Forall is_byte (t_log s) -> u64r (t_blocks s) ->
  Forall p_range (fst (loop_text fuel v bs max pw s)).
Proof.
  intros Hb Hm. induction fuel as [|fuel IH]; intros s Hs Hn; [constructor|]. cbn [loop_text].
  destruct (round_text_range v bs max pw s Hb Hm Hs Hn) as [R1 R2]. destruct (round_text v bs max pw s) as [ls o]. cbn [fst snd] in *.
  destruct o as [s'|c s'|]; [|exact R1..]. destruct R2 as [R2 R3]. specialize (IH s' R2 R3). destruct (loop_text fuel v bs max pw s') as [ls' o'].
  apply Forall_app. auto.
Qed.
Lemma play_text_range v bs max pw log img : 0 < bs < 18446744073709551616 -> 1 <= max <= 18446744073709551615 -> Forall is_byte log ->
  Forall p_range (fst (play_text v bs max pw log img)).
Proof. intros Hb Hm Hl. apply loop_text_range; [unfold u64r; lia|unfold u64r; lia|exact Hl|unfold u64r; cbn; lia]. Qed.

(** ** numbers in the text *)
Lemma digits_lead l : digits l -> forall c r, numeral c = false -> lead (l ++ c :: r) = l.
Proof.
  induction 1 as [|x l Hx Hl IH]; intros c r Hc; cbn [app lead]; [rewrite Hc; reflexivity|].
  assert (N : numeral x = true) by (unfold numeral, digitb in *; rewrite Hx; reflexivity). rewrite N, IH by exact Hc. reflexivity.
Qed.
Lemma sdec_digits l : digits l -> sdec_value l = dec_value l.
Proof.
  intros H. unfold sdec_value. destruct H as [|x l Hx Hl]; [reflexivity|]. unfold digitb in Hx.
  destruct x as [|p|p]; try reflexivity. do 6 (destruct p; try reflexivity). discriminate Hx.
Qed.
Lemma lead_u x c r : 0 <= x < 18446744073709551616 -> numeral c = false -> sdec_value (lead (pr_u x ++ c :: r)) = x.
Proof. intros Hx Hc. destruct (pr_u_ok x Hx) as [D V]. rewrite digits_lead, sdec_digits by assumption. exact V. Qed.
Lemma lead_d x c r : -9223372036854775808 <= x < 18446744073709551616 -> numeral c = false -> sdec_value (lead (pr_d x ++ c :: r)) = x.
Proof.
  intros Hx Hc. unfold pr_d. destruct (Z.ltb_spec x 0); [|apply lead_u; [lia|exact Hc]].
  destruct (pr_u_ok (- x) ltac:(lia)) as [D V]. cbn [app lead]. change (numeral 45) with true. cbn iota. rewrite digits_lead by assumption.
  cbn [sdec_value]. rewrite V. lia.
Qed.
Lemma after_skip x w a : Forall (fun c => c <> x) a -> forall r, after (x :: w) (a ++ r) = after (x :: w) r.
Proof.
  induction 1 as [|c a Hc Ha IH]; intros r; [reflexivity|]. cbn [app after starts]. replace (x =? c) with false by lia. apply IH.
Qed.
Lemma digits_not x a : digits a -> (x < 48 \/ 57 < x) -> Forall (fun c => c <> x) a.
Proof. intros H Hx. eapply Forall_impl; [|exact H]. unfold digitb. cbn. intros c Hc. lia. Qed.
Lemma xdigits_chars f : forall x acc, Forall (fun c => 48 <= c <= 102) acc -> Forall (fun c => 48 <= c <= 102) (xdigits f x acc).
Proof.
  induction f as [|f IH]; intros x acc H; [exact H|]. cbn [xdigits].
  assert (D : Forall (fun c => 48 <= c <= 102) (digit (x mod 16) :: acc)).
  { constructor; [|exact H]. unfold digit. pose proof (Z.mod_pos_bound x 16 ltac:(lia)). destruct (Z.ltb_spec (x mod 16) 10); lia. }
  destruct (x / 16 =? 0); [exact D|]. apply IH. exact D.
Qed.
Lemma pr_h_not c x : 120 < c \/ 102 < c < 120 -> Forall (fun d => d <> c) (pr_h x).
Proof.
  intros Hc. unfold pr_h. apply Forall_app. split; [change (text "0x") with [48; 120]; repeat constructor; lia|].
  unfold pr_x. rewrite Forall_app. split; [apply Forall_forall; intros d Hd; apply repeat_spec in Hd; lia|].
  eapply Forall_impl; [|apply xdigits_chars; constructor]. cbn. intros d Hd. lia.
Qed.
Lemma pr_u_not c x : 0 <= x < 18446744073709551616 -> 57 < c -> Forall (fun d => d <> c) (pr_u x).
Proof. intros Hx Hc. apply digits_not; [apply pr_u_ok; exact Hx|right; exact Hc]. Qed.
Lemma pr_d_not c x : -9223372036854775808 <= x < 18446744073709551616 -> 57 < c -> Forall (fun d => d <> c) (pr_d x).
Proof. intros Hx Hc. unfold pr_d. destruct (Z.ltb_spec x 0); [constructor; [lia|]|]; apply pr_u_not; lia. Qed.
Lemma block_numbers cur off len : p_range (QBlock cur off len) ->
  let t := pline_text (QBlock cur off len) in
  number_after "block " t = cur /\ number_after "offset " t = off /\ number_after "len " t = len.
Proof.
  cbn [p_range]. intros (H1 & H2 & H3). cbv zeta. unfold number_after. cbn [pline_text].
  change (text "block ") with [98; 108; 111; 99; 107; 32]. change (text " (") with [32; 40].
  change (text "): writing to offset ") with [41; 58; 32; 119; 114; 105; 116; 105; 110; 103; 32; 116; 111; 32; 111; 102; 102; 115; 101; 116; 32].
  change (text "), len ") with [41; 44; 32; 108; 101; 110; 32].
  change (text "offset ") with [111; 102; 102; 115; 101; 116; 32]. change (text "len ") with [108; 101; 110; 32].
  change (text ").") with [41; 46].
  split; [|split]; cbn [app after starts Z.eqb Pos.eqb].
  - apply lead_u; [exact H1|reflexivity].
  - rewrite (after_skip 111) by (apply pr_u_not; lia). cbn [app after starts Z.eqb Pos.eqb].
    rewrite (after_skip 111) by (apply pr_h_not; lia). cbn [app after starts Z.eqb Pos.eqb]. apply lead_d; [lia|reflexivity].
  - rewrite (after_skip 108) by (apply pr_u_not; lia). cbn [app after starts Z.eqb Pos.eqb].
    rewrite (after_skip 108) by (apply pr_h_not; lia). cbn [app after starts Z.eqb Pos.eqb].
    rewrite (after_skip 108) by (apply pr_d_not; lia). cbn [app after starts Z.eqb Pos.eqb].
    rewrite (after_skip 108) by (apply pr_h_not; lia). cbn [app after starts Z.eqb Pos.eqb]. apply lead_d; [lia|reflexivity].
Qed.
Lemma end_number n : 0 <= n < 18446744073709551616 -> number_after "total " (pline_text (QEnd n)) = n.
Proof.
  intros H. unfold number_after. cbn [pline_text]. change (text " blocks written.") with (32 :: text "blocks written.").
  change (text "End of transaction log, total ") with (text "End of " ++ text "transaction log, " ++ text "total "). rewrite <- !app_assoc.
  transitivity (sdec_value (lead (pr_u n ++ 32 :: text "blocks written." ++ [10]))); [|apply lead_u; [exact H|reflexivity]]. reflexivity.
Qed.
Lemma max_number n : 0 <= n < 18446744073709551616 -> number_after "g_max_blocks (" (pline_text (QMax n)) = n.
Proof.
  intros H. unfold number_after. cbn [pline_text]. change (text ", ") with [44; 32].
  transitivity (sdec_value (lead (pr_u n ++ 44 :: 32 :: pr_h n ++ text ") reached!." ++ [10]))); [|apply lead_u; [exact H|reflexivity]]. reflexivity.
Qed.
Lemma prequest_columns ck cmd off len : p_range (QReq ck cmd off len) ->
  let t := pline_text (QReq ck cmd off len) in
  hex_value (cols 4 16 t) = ck /\ hex_value (cols 25 8 t) = cmd /\ hex_value (cols_end 28 16 t) = off /\ hex_value (cols_end 9 8 t) = len /\
  unpad (between 35 37 t) = name_of (cmd mod 65536) command_names /\ (unpad (cols_end 36 4 t) = text "FUA" <-> Z.testbit cmd 16 = true).
Proof.
  intros H. pose proof H as H'. change (in_range (LReq ck cmd off len)) in H'. destruct (request_columns _ _ _ _ H') as (_ & _ & _ & _ & _ & _ & Q7).
  cbn [p_range] in H. destruct H as (H1 & H2 & H3 & H4). cbv zeta. cbn [pline_text].
  destruct (x16 _ H1) as [L1 V1], (x8 _ H2) as [L2 V2], (x16 _ H3) as [L3 V3], (x8 _ H4) as [L4 V4].
  set (fua := pr_s 4 (if flag cmd NBD_CMD_FLAG_FUA then text "FUA" else text "NONE")).
  assert (L6 : length fua = 4%nat) by (subst fua; destruct (flag cmd NBD_CMD_FLAG_FUA); reflexivity).
  assert (S1 : length (text "> H=") = 4%nat) by reflexivity. assert (S2 : length (text " C=0x") = 5%nat) by reflexivity.
  assert (S3 : length (text " (") = 2%nat) by reflexivity. assert (S4 : length (text "+") = 1%nat) by reflexivity.
  assert (S5 : length (text ") O=") = 4%nat) by reflexivity. assert (S6 : length (text " L=") = 3%nat) by reflexivity.
  split; [rewrite (cols_at (text "> H=") (pr_x 16 ck)); assumption|].
  split. { rewrite (app_assoc (text "> H=")), (app_assoc (text "> H=" ++ pr_x 16 ck)). rewrite (cols_at _ (pr_x 8 cmd)); [assumption| |assumption]. rewrite !app_length. lia. }
  split. { rewrite !app_assoc. rewrite <- 3 app_assoc. rewrite (cols_end_at _ (pr_x 16 off)); [assumption| |assumption]. rewrite !app_length. cbn [length]. lia. }
  split. { rewrite !app_assoc. rewrite <- 1 app_assoc. rewrite (cols_end_at _ (pr_x 8 len)); [assumption| |assumption]. rewrite !app_length. cbn [length]. lia. }
  split.
  { rewrite !app_assoc. rewrite <- 7 app_assoc. rewrite (between_at _ (pr_s 13 _)); [|rewrite !app_length; lia|rewrite !app_length; cbn [length]; lia].
    rewrite land_mask, <- command_name_ok. destruct (command_name_start (cmd mod 65536)) as (x & t & E & N). rewrite E. unfold pr_s. now apply unpad_repeat. }
  rewrite !app_assoc. rewrite <- 5 app_assoc. rewrite (cols_end_at _ fua); [|rewrite !app_length; cbn [length]; lia|assumption].
  rewrite <- Q7. cbn [line_text]. fold fua.
  pose proof (pr_s_len 20 _ (command_name_len (Z.land cmd NBD_CMD_MASK_COMMAND))) as L5.
  rewrite !app_assoc. rewrite <- 5 app_assoc. rewrite (cols_at _ fua); [reflexivity| |assumption]. rewrite !app_length. lia.
Qed.
(** ** the last line, at any verbosity *)
Lemma last_line v bs max pw log img : 0 <= v -> 0 < bs -> 1 <= max <= 18446744073709551615 -> Forall is_byte log ->
  exists ls c s', play_text v bs max pw log img = (ls, TExit c s') /\
    ((exists i l, ls = i ++ [l] /\ closing max c (t_blocks s') l) \/
     (exists off i, off < 0 /\ c = 1 /\ fst (play_text 2 bs max pw log img) = i ++ [QBlock (t_blocks s') off bs]) \/
     (exists k, pw k <= 0 /\ c = (if pw k =? 0 then 0 else 1))).
Proof.
  intros Hv Hb Hm Hl. destruct (play_report bs max pw log img Hb Hm Hl) as (ls & c & s' & E & _ & _ & L).
  pose proof (loop_text_fst v bs max pw (S (length log)) Hv (mkT log img false 0 0%nat)) as F. fold (play_text v bs max pw log img) in F. fold (play_text 2 bs max pw log img) in F.
  pose proof (loop_text_snd v bs max pw (S (length log)) (mkT log img false 0 0%nat)) as S1. pose proof (loop_text_snd 2 bs max pw (S (length log)) (mkT log img false 0 0%nat)) as S2.
  rewrite <- S1 in S2. fold (play_text v bs max pw log img) in S2. fold (play_text 2 bs max pw log img) in S2. rewrite E in F, S2. cbn [fst snd] in F, S2.
  destruct (play_text v bs max pw log img) as [lv o]. cbn [fst snd] in F, S2. subst lv o. rewrite E. cbn [fst].
  exists (kept v ls), c, s'. split; [reflexivity|]. destruct L as [(i & l & -> & K & _)|(i & off & -> & _ & [[K1 K2]|K])].
  - left. exists (kept v i), l. split; [|exact K]. rewrite kept_app, (kept_0 v l Hv); [reflexivity|]. destruct l; try reflexivity; contradiction.
  - right. left. exists off, i. auto.
  - right. right. exact K.
Qed.
