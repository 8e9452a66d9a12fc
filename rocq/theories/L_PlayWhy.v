(** Lemmas for where the lines of nbd-trplay come from. *)
From Coq Require Import String.
From Verif Require Import Base M_Nego M_Virt M_Const M_Log M_Play M_DumpText M_PlayText S_Wire S_Par S_Log S_Play S_DumpText S_PlayText S_PlayWhy L_Log L_Play L_DumpText L_PlayText.
Local Open Scope list_scope.

(** ** each line has its reason in the one before it *)
Lemma explained_app bs max a : forall p b, explained bs max p a -> (forall q, explained bs max q b) -> explained bs max p (a ++ b).
Proof. induction a as [|x a IH]; intros p b Ha Hb; [apply Hb|]. destruct Ha as [H1 H2]. split; [exact H1|]. now apply IH. Qed.
Lemma block_explained bs max pw data fuel : 1 <= max -> forall off len s p, u64r (t_blocks s) ->
  explained bs max p (fst (block_text fuel 2 bs max pw data off len s)).
Proof.
  intros Hm. induction fuel as [|fuel IH]; intros off len s p Hn; cbn [block_text]; destruct (len <=? 0); try exact I.
  destruct (if data then doread bs (t_log s) else _) as [[b rest]|]; [|cbn; auto]. cbv zeta.
  pose proof (dowrite_keep pw (length b) b (i64 off) (mkT rest (t_img s) (t_dl s) (t_blocks s) (t_calls s))) as K.
  destruct (dowriteimage _ _ _ _ _) as [s1|c s1|]; [|split; exact I..].
  destruct (K s1 eq_refl) as [_ K2]. cbn [t_blocks] in K2. cbn [t_blocks].
  destruct (u64 (t_blocks s1 + 1) =? max) eqn:E.
  - cbn. split; [exact I|]. split; [|exact I]. split; [reflexivity|]. exists (i64 off). do 2 f_equal.
    rewrite K2 in E. unfold u64r, u64 in *. apply Z.eqb_eq in E.
    destruct (Z.eq_dec (t_blocks s) 18446744073709551615) as [E1|E1]; [rewrite E1 in E; cbn in E; lia|]. rewrite Z.mod_small in E by lia. lia.
  - specialize (IH (u64 (off + bs)) (u32 (len - bs)) (mkT (t_log s1) (t_img s1) (t_dl s1) (u64 (t_blocks s1 + 1)) (t_calls s1)) (Some (QBlock (t_blocks s) (i64 off) bs)) (u64_r _)).
    destruct (block_text fuel 2 bs max pw data _ _ _) as [ls o]. cbn. split; [exact I|exact IH].
Qed.
Lemma process_explained bs max pw ck cmd off len s : 1 <= max -> u64r (t_blocks s) ->
  explained bs max (Some (QReq ck cmd off len)) (fst (process_text 2 bs max pw cmd off len s)).
Proof.
  intros Hm Hn. unfold process_text. destruct (off mod bs =? 0) eqn:E1; cbn [negb].
  2:{ cbn. repeat split; [lia|eauto]. }
  destruct (len mod bs =? 0) eqn:E2; cbn [negb].
  2:{ cbn. repeat split; [lia|]. exists ck, cmd, off. split; [reflexivity|lia]. }
  cbv zeta. rewrite land_mask. unfold NBD_CMD_READ, NBD_CMD_DISC, NBD_CMD_FLUSH, NBD_CMD_WRITE, NBD_CMD_TRIM, NBD_CMD_WRITE_ZEROES.
  destruct ((cmd mod 65536 =? 0) || (cmd mod 65536 =? 2) || (cmd mod 65536 =? 3)) eqn:E3; [exact I|]. destruct (cmd mod 65536 =? 1) eqn:E4.
  - destruct (negb (t_dl s)); [|now apply block_explained]. cbn. split; [|exact I]. exists ck, cmd, off, len. split; [reflexivity|lia].
  - destruct ((cmd mod 65536 =? 4) || (cmd mod 65536 =? 6)) eqn:E5; [now apply block_explained|].
    cbn [fst explained because In]. split; [|exact I]. split; [|eauto]. lia.
Qed.
Lemma round_explained bs max pw s p : 1 <= max -> u64r (t_blocks s) -> explained bs max p (fst (round_text 2 bs max pw s)).
Proof.
  intros Hm Hn. unfold round_text. destruct (doread 4 (t_log s)) as [[m r]|]; [|cbn; auto]. cbv zeta.
  destruct (unbe m =? NBD_REQUEST_MAGIC).
  { destruct (doread 24 r) as [[h r2]|]; [|cbn; auto].
    pose proof (process_explained bs max pw (unbe (firstn 8 (skipn 4 h))) (unbe (firstn 4 h)) (unbe (firstn 8 (skipn 12 h))) (unbe (skipn 20 h)) (t_rest r2 s) Hm Hn) as P.
    destruct (process_text _ _ _ _ _ _ _ _) as [ls o]. split; [exact I|exact P]. }
  destruct (unbe m =? NBD_REPLY_MAGIC). { destruct (doread 12 r) as [[h r2]|]; split; exact I. }
  destruct (unbe m =? NBD_TRACELOG_MAGIC); [|cbn; auto].
  destruct (doread 24 r) as [[h r2]|]; [|cbn; auto].
  change (say 2 1 (QLine (LOpt (unbe (firstn 4 h)) (unbe (firstn 8 (skipn 12 h))) (unbe (skipn 20 h))))) with [QLine (LOpt (unbe (firstn 4 h)) (unbe (firstn 8 (skipn 12 h))) (unbe (skipn 20 h)))].
  generalize (unbe (firstn 4 h)) (unbe (firstn 8 (skipn 12 h))) (unbe (skipn 20 h)). intros c o l.
  destruct (o =? NBD_TRACELOG_FROM_MAGIC) eqn:E1; unfold NBD_TRACELOG_FROM_MAGIC in E1.
  - apply Z.eqb_eq in E1. rewrite E1. destruct (c =? 1) eqn:E2.
    + apply Z.eqb_eq in E2. rewrite E2. cbn. split; [exact I|]. split; [|exact I]. exists l. auto.
    + cbn. split; [exact I|]. split; [|exact I]. exists c, l. split; [reflexivity|lia].
  - cbn. split; [exact I|]. split; [|exact I]. exists c, o, l. split; [reflexivity|lia].
Qed.
Lemma loop_explained bs max pw fuel : 1 <= max -> u64r bs -> u64r max -> forall s p, Forall is_byte (t_log s) -> u64r (t_blocks s) ->
  explained bs max p (fst (loop_text fuel 2 bs max pw s)).
Proof.
  intros Hm Hb Hm2. induction fuel as [|fuel IH]; intros s p Hs Hn; [exact I|]. cbn [loop_text].
  pose proof (round_explained bs max pw s p Hm Hn) as R. pose proof (round_text_range 2 bs max pw s Hb Hm2 Hs Hn) as [_ G].
  destruct (round_text 2 bs max pw s) as [ls o]. cbn [fst snd] in R, G. destruct o as [s'|c s'|]; [|exact R..]. destruct G as [G1 G2].
  pose proof (fun q => IH s' q G1 G2) as IH'. destruct (loop_text fuel 2 bs max pw s') as [ls' o']. apply explained_app; [exact R|exact IH'].
Qed.
Lemma play_explained bs max pw log img : 0 < bs < 18446744073709551616 -> 1 <= max <= 18446744073709551615 -> Forall is_byte log ->
  explained bs max None (fst (play_text 2 bs max pw log img)).
Proof. intros Hb Hm Hl. apply loop_explained; unfold u64r; cbn [t_log t_blocks]; try lia. exact Hl. Qed.

(** ** the values of a line stand in the log *)
Definition part_of (log l : list Z) : Prop := exists a, log = a ++ l.
Lemma doread_split n l b r : doread n l = Some (b, r) -> l = b ++ r.
Proof. unfold doread. destruct (_ <? _); [discriminate|]. intros [= <- <-]. symmetry. apply firstn_skipn. Qed.
Lemma part_rest log a l r : part_of log l -> l = a ++ r -> part_of log r.
Proof. intros [x ->] ->. exists (x ++ a). apply app_assoc. Qed.
Definition go_part (log : list Z) (o : tout) : Prop := match o with TGo s => part_of log (t_log s) | _ => True end.
Lemma say_in log v n l : shown_in log l -> Forall (shown_in log) (say v n l).
Proof. intros H. unfold say. destruct (n <=? v); [constructor; [exact H|]|]; constructor. Qed.
Lemma one_in log l : shown_in log l -> Forall (shown_in log) [l].
Proof. intros H. constructor; [exact H|constructor]. Qed.
Lemma block_in log v bs max pw data fuel : forall off len s, part_of log (t_log s) ->
  Forall (shown_in log) (fst (block_text fuel v bs max pw data off len s)) /\ go_part log (snd (block_text fuel v bs max pw data off len s)).
Proof.
  induction fuel as [|fuel IH]; intros off len s Hs; cbn [block_text]; destruct (len <=? 0).
  1,3: (split; [constructor|exact Hs]).
  { split; [constructor|exact I]. }
  assert (Hr : forall b rest, (if data then doread bs (t_log s) else Some (repeat 0 (Z.to_nat bs), t_log s)) = Some (b, rest) -> part_of log rest).
  { intros b rest. destruct data; [|intros [= _ <-]; exact Hs]. intros E. apply doread_split in E. exact (part_rest _ _ _ _ Hs E). }
  destruct (if data then doread bs (t_log s) else _) as [[b rest]|].
  2:{ split; [apply one_in|]; exact I. }
  specialize (Hr b rest eq_refl). cbv zeta.
  assert (Q : Forall (shown_in log) (say v 2 (QBlock (t_blocks s) (i64 off) bs))) by (apply say_in; exact I).
  pose proof (dowrite_keep pw (length b) b (i64 off) (mkT rest (t_img s) (t_dl s) (t_blocks s) (t_calls s))) as K.
  destruct (dowriteimage _ _ _ _ _) as [s1|c s1|]; [|split; [exact Q|exact I]..].
  destruct (K s1 eq_refl) as [K1 _]. cbn [t_log] in K1. destruct (_ =? max).
  - split; [apply Forall_app; split; [exact Q|apply one_in; exact I]|exact I].
  - destruct (IH (u64 (off + bs)) (u32 (len - bs)) (mkT (t_log s1) (t_img s1) (t_dl s1) (u64 (t_blocks s1 + 1)) (t_calls s1))) as [I1 I2].
    { cbn [t_log]. rewrite K1. exact Hr. }
    destruct (block_text fuel v bs max pw data _ _ _) as [ls o]. split; [apply Forall_app; split; [exact Q|exact I1]|exact I2].
Qed.
Lemma process_in log v bs max pw cmd off len s : part_of log (t_log s) ->
  Forall (shown_in log) (fst (process_text v bs max pw cmd off len s)) /\ go_part log (snd (process_text v bs max pw cmd off len s)).
Proof.
  intros Hs. unfold process_text. destruct (negb _); [split; [apply one_in|]; exact I|]. destruct (negb (len mod bs =? 0)); [split; [apply one_in|]; exact I|]. cbv zeta.
  destruct (_ || _); [split; [constructor|exact Hs]|]. destruct (_ =? NBD_CMD_WRITE).
  - destruct (negb (t_dl s)); [split; [apply one_in|]; exact I|]. now apply block_in.
  - destruct (_ || _); [now apply block_in|]. split; [apply one_in|]; exact I.
Qed.
Lemma split24 h : Forall is_byte h -> length h = 24%nat ->
  h = be 4 (unbe (firstn 4 h)) ++ firstn 8 (skipn 4 h) ++ be 8 (unbe (firstn 8 (skipn 12 h))) ++ be 4 (unbe (skipn 20 h)) /\
  be 8 (unbe (firstn 8 (skipn 4 h))) = firstn 8 (skipn 4 h) /\ length (firstn 8 (skipn 4 h)) = 8%nat.
Proof.
  intros B L. do 24 (destruct h as [|? h]; [discriminate L|]). destruct h; [|discriminate L]. cbn [firstn skipn].
  rewrite !(be_unbe [_; _; _; _]), !(be_unbe [_; _; _; _; _; _; _; _])
    by (repeat match goal with H : Forall is_byte (_ :: _) |- _ => inversion H; clear H; subst end; repeat (constructor; [assumption|]); constructor).
  split; [reflexivity|]. split; reflexivity.
Qed.
Lemma split12 h : Forall is_byte h -> length h = 12%nat -> h = be 4 (unbe (firstn 4 h)) ++ be 8 (unbe (skipn 4 h)).
Proof.
  intros B L. do 12 (destruct h as [|? h]; [discriminate L|]). destruct h; [|discriminate L]. cbn [firstn skipn].
  rewrite !(be_unbe [_; _; _; _]), !(be_unbe [_; _; _; _; _; _; _; _])
    by (repeat match goal with H : Forall is_byte (_ :: _) |- _ => inversion H; clear H; subst end; repeat (constructor; [assumption|]); constructor).
  reflexivity.
Qed.
Lemma be4 m : Forall is_byte m -> length m = 4%nat -> be 4 (unbe m) = m.
Proof. intros B L. rewrite <- L. now apply be_unbe. Qed.
Lemma round_in log v bs max pw s : Forall is_byte (t_log s) -> part_of log (t_log s) ->
  Forall (shown_in log) (fst (round_text v bs max pw s)) /\ go_part log (snd (round_text v bs max pw s)).
Proof.
  intros Hs Hp. assert (QE : Forall (shown_in log) (fst ([QEnd (t_blocks s)], TExit 0 s)) /\ go_part log (snd ([QEnd (t_blocks s)], TExit 0 s))) by (split; [apply one_in|]; exact I).
  unfold round_text. destruct (doread 4 (t_log s)) as [[m r]|] eqn:E; [|exact QE].
  destruct (doread_bytes 4 _ _ _ ltac:(lia) Hs E) as (B1 & B2 & L1). cbv zeta. assert (L4 : length m = 4%nat) by (rewrite L1; reflexivity).
  apply doread_split in E. pose proof (be4 m B1 L4) as M4. pose proof (part_rest _ _ _ _ Hp E) as Hp2.
  destruct (unbe m =? NBD_REQUEST_MAGIC) eqn:Q1.
  { apply Z.eqb_eq in Q1. destruct (doread 24 r) as [[h r2]|] eqn:E2; [|exact QE]. destruct (doread_bytes 24 _ _ _ ltac:(lia) B2 E2) as (B3 & B4 & L2).
    assert (L24 : length h = 24%nat) by (rewrite L2; reflexivity). apply doread_split in E2.
    destruct (split24 h B3 L24) as (S1 & S2 & _). pose proof (part_rest _ _ _ _ Hp2 E2) as Hp3.
    destruct (process_in log v bs max pw (unbe (firstn 4 h)) (unbe (firstn 8 (skipn 12 h))) (unbe (skipn 20 h)) (t_rest r2 s) Hp3) as [P1 P2].
    destruct (process_text _ _ _ _ _ _ _ _) as [ls o]. split; [|exact P2]. apply Forall_app. split; [|exact P1]. apply say_in. cbn [shown_in].
    destruct Hp as [a Ha]. exists a, r2. rewrite S2. change 0x25609513 with NBD_REQUEST_MAGIC. rewrite <- Q1, M4, Ha, E, E2. rewrite S1 at 1. rewrite <- !app_assoc. reflexivity. }
  destruct (unbe m =? NBD_REPLY_MAGIC) eqn:Q2.
  { apply Z.eqb_eq in Q2. destruct (doread 12 r) as [[h r2]|] eqn:E2; [|exact QE]. destruct (doread_bytes 12 _ _ _ ltac:(lia) B2 E2) as (B3 & B4 & L2).
    assert (L12 : length h = 12%nat) by (rewrite L2; reflexivity). apply doread_split in E2. pose proof (part_rest _ _ _ _ Hp2 E2) as Hp3.
    split; [|exact Hp3]. apply say_in. cbn [shown_in]. destruct Hp as [a Ha]. exists a, r2. change 0x67446698 with NBD_REPLY_MAGIC.
    rewrite <- Q2, M4, Ha, E, E2. rewrite (split12 h B3 L12) at 1. rewrite <- !app_assoc. reflexivity. }
  destruct (unbe m =? NBD_TRACELOG_MAGIC) eqn:Q3.
  { apply Z.eqb_eq in Q3. destruct (doread 24 r) as [[h r2]|] eqn:E2; [|exact QE]. destruct (doread_bytes 24 _ _ _ ltac:(lia) B2 E2) as (B3 & B4 & L2).
    assert (L24 : length h = 24%nat) by (rewrite L2; reflexivity). apply doread_split in E2.
    destruct (split24 h B3 L24) as (S1 & S2 & S3). pose proof (part_rest _ _ _ _ Hp2 E2) as Hp3.
    assert (R : Forall (shown_in log) (say v 1 (QLine (LOpt (unbe (firstn 4 h)) (unbe (firstn 8 (skipn 12 h))) (unbe (skipn 20 h)))))).
    { apply say_in. cbn [shown_in]. destruct Hp as [a Ha]. exists a, (firstn 8 (skipn 4 h)), r2. split; [unfold zlen; rewrite S3; reflexivity|].
      change 0x25609514 with NBD_TRACELOG_MAGIC. rewrite <- Q3, M4, Ha, E, E2. rewrite S1 at 1. rewrite <- !app_assoc. reflexivity. }
    destruct (_ =? NBD_TRACELOG_FROM_MAGIC); [destruct (_ =? 1)|]; (split; [apply Forall_app; split; [exact R|first [apply say_in; exact I|apply one_in; exact I]]|exact Hp3]). }
  split; [|exact I]. apply one_in. cbn [shown_in]. unfold NBD_REQUEST_MAGIC, NBD_REPLY_MAGIC, NBD_TRACELOG_MAGIC in *. split; [cbn [In]; lia|].
  destruct Hp as [a Ha]. exists a, r. rewrite M4, Ha, E. reflexivity.
Qed.
Lemma loop_in log v bs max pw fuel : u64r bs -> u64r max -> forall s, Forall is_byte (t_log s) -> u64r (t_blocks s) -> part_of log (t_log s) ->
  Forall (shown_in log) (fst (loop_text fuel v bs max pw s)).
Proof.
  intros Hb Hm. induction fuel as [|fuel IH]; intros s Hs Hn Hp; [constructor|]. cbn [loop_text].
  pose proof (round_in log v bs max pw s Hs Hp) as [R P]. pose proof (round_text_range v bs max pw s Hb Hm Hs Hn) as [_ G].
  destruct (round_text v bs max pw s) as [ls o]. cbn [fst snd] in R, P, G. destruct o as [s'|c s'|]; [|exact R..]. destruct G as [G1 G2].
  specialize (IH s' G1 G2 P). destruct (loop_text fuel v bs max pw s') as [ls' o']. apply Forall_app. split; assumption.
Qed.
Lemma play_in v bs max pw log img : 0 < bs < 18446744073709551616 -> 1 <= max <= 18446744073709551615 -> Forall is_byte log ->
  Forall (shown_in log) (fst (play_text v bs max pw log img)).
Proof. intros Hb Hm Hl. apply loop_in; unfold u64r; cbn [t_log t_blocks]; try lia; [exact Hl|]. exists []. reflexivity. Qed.

(** ** the options *)
Lemma verbosity_pos l : 0 <= verbosity l.
Proof. induction l as [|[| | | |] l IH]; cbn [verbosity]; lia. Qed.
Lemma printed_nil o : printed [] o = o.
Proof. destruct o; reflexivity. Qed.
Lemma popts_text_good a0 version eno fs l : forall rest v p, Forall (fun a => can fs a = true) l -> 0 <= v -> v + verbosity l <= 3 ->
  (3 <= v + verbosity l -> exists t, l = t ++ [AVerbose]) ->
  popts_text a0 version eno fs (map spell l ++ rest) v p = popts_text a0 version eno fs rest (v + verbosity l) (asked l p).
Proof.
  induction l as [|a t IH]; intros rest v p H Hv Hl Hlast; [cbn [verbosity]; rewrite Z.add_0_r; destruct p; reflexivity|].
  inversion H as [|x y Ha Ht]; subst. pose proof (verbosity_pos t) as Vp.
  assert (Hlt : v < 3).
  { destruct (Z_lt_ge_dec v 3) as [L|L]; [exact L|]. assert (Z0 : verbosity (a :: t) = 0) by (pose proof (verbosity_pos (a :: t)); lia).
    destruct (Hlast ltac:(lia)) as [u Hu]. exfalso. rewrite Hu in Z0. clear - Z0. induction u as [|[| | | |] u IH]; cbn [verbosity app] in Z0; try lia.
    pose proof (verbosity_pos (u ++ [AVerbose])). lia. }
  assert (D : forall c arg, opt_debug v c arg = Some []) by (intros c arg; unfold opt_debug; replace (3 <=? v) with false by lia; reflexivity).
  assert (NX : forall v', v' + verbosity t = v + verbosity (a :: t) -> 3 <= v' + verbosity t -> t = [] \/ exists u, t = u ++ [AVerbose]).
  { intros v' E L. destruct (Hlast ltac:(lia)) as [[|b u] Hu]; injection Hu as -> ->; [now left|right; eauto]. }
  cbn [map app]. destruct a as [|b|n|f|f]; cbn [spell popts_text]; rewrite D, printed_nil; unfold can in Ha; cbn [ask_ok verbosity] in *.
  - destruct t as [|a' t'].
    + cbn [map app verbosity]. rewrite Z.add_0_r. destruct p; reflexivity.
    + rewrite IH; [f_equal; lia|exact Ht|lia|lia|]. intros L. destruct (NX (v + 1) ltac:(lia) L) as [K|K]; [discriminate K|exact K].
  - apply andb_true_iff in Ha. rewrite !Z.leb_le in Ha. rewrite strtoull0_dec by lia. rewrite Z.min_l by lia. cbv zeta.
    unfold TRBUFSIZE. replace (b =? 0) with false by lia. replace (131072 <? b) with false by lia.
    rewrite IH; [reflexivity|exact Ht|lia|lia|]. intros L. destruct (NX v eq_refl L) as [->|K]; [cbn [verbosity] in *; lia|exact K].
  - apply andb_true_iff in Ha. rewrite !Z.leb_le in Ha. rewrite strtoull0_dec by lia. rewrite Z.min_l by lia. cbv zeta.
    replace (n =? 0) with false by lia. rewrite IH; [reflexivity|exact Ht|lia|lia|]. intros L. destruct (NX v eq_refl L) as [->|K]; [cbn [verbosity] in *; lia|exact K].
  - destruct (pf_img fs f); [|discriminate Ha]. rewrite IH; [reflexivity|exact Ht|lia|lia|]. intros L. destruct (NX v eq_refl L) as [->|K]; [cbn [verbosity] in *; lia|exact K].
  - destruct (pf_log fs f); [|discriminate Ha]. rewrite IH; [reflexivity|exact Ht|lia|lia|]. intros L. destruct (NX v eq_refl L) as [->|K]; [cbn [verbosity] in *; lia|exact K].
Qed.
Lemma latest_range (P : Z -> Prop) f l : Forall (fun a : ask => forall x, f a = Some x -> P x) l -> forall d, P d -> P (latest f l d).
Proof.
  induction 1 as [|a t Ha Ht IH]; intros d Hd; cbn [latest]; [exact Hd|]. apply IH. destruct (f a) as [x|] eqn:E; [apply Ha; reflexivity|exact Hd].
Qed.
Lemma settings_range fs l : Forall (fun a => can fs a = true) l -> 1 <= latest block_of l 512 <= 131072 /\ 1 <= latest max_of l 18446744073709551615 <= 18446744073709551615.
Proof.
  intros H. split; [apply (latest_range (fun x => 1 <= x <= 131072))|apply (latest_range (fun x => 1 <= x <= 18446744073709551615))]; try lia;
    (eapply Forall_impl; [|exact H]); intros [| | | |] Ha x E; try discriminate E; injection E as <-; unfold can in Ha; cbn [ask_ok] in Ha; lia.
Qed.
Definition settings (bs max : Z) : list Z :=
  text " block size: " ++ pr_d bs ++ text " bytes (" ++ pr_h bs ++ text " bytes)." ++ [10] ++ text " max blocks to apply: " ++ pr_u max ++ text " (" ++ pr_h max ++ text ")." ++ [10].
Lemma settings_numbers bs max : 0 <= bs < 9223372036854775808 -> 0 <= max < 18446744073709551616 ->
  number_after "block size: " (settings bs max) = bs /\ number_after "to apply: " (settings bs max) = max.
Proof.
  intros H1 H2. unfold number_after, settings. split.
  - change (text " block size: ") with [32; 98; 108; 111; 99; 107; 32; 115; 105; 122; 101; 58; 32]. change (text "block size: ") with [98; 108; 111; 99; 107; 32; 115; 105; 122; 101; 58; 32].
    change (text " bytes (") with (32 :: text "bytes ("). cbn [app after starts Z.eqb Pos.eqb]. apply lead_d; [lia|reflexivity].
  - change (text "to apply: ") with [116; 111; 32; 97; 112; 112; 108; 121; 58; 32].
    change (text " block size: ") with [32; 98; 108; 111; 99; 107; 32; 115; 105; 122; 101; 58; 32].
    change (text " bytes (") with [32; 98; 121; 116; 101; 115; 32; 40]. change (text " bytes).") with [32; 98; 121; 116; 101; 115; 41; 46].
    change (text " max blocks to apply: ") with [32; 109; 97; 120; 32; 98; 108; 111; 99; 107; 115; 32; 116; 111; 32; 97; 112; 112; 108; 121; 58; 32].
    change (text " (") with [32; 40].
    cbn [app after starts Z.eqb Pos.eqb]. rewrite (after_skip 116) by (apply pr_d_not; lia). cbn [app after starts Z.eqb Pos.eqb].
    rewrite (after_skip 116) by (apply pr_h_not; lia). cbn [app after starts Z.eqb Pos.eqb]. apply lead_u; [lia|reflexivity].
Qed.
Lemma options_go a0 version eno fs l rest : Forall (fun a => can fs a = true) l -> verbosity l <= 2 ->
  popts_text a0 version eno fs (map spell l ++ rest) 0 pset0 = popts_text a0 version eno fs rest (verbosity l) (asked l pset0).
Proof. intros H Hv. rewrite popts_text_good; [reflexivity|exact H|lia|lia|lia]. Qed.
Lemma options_text a0 version eno fs pw l i g img log :
  Forall (fun a => can fs a = true) l -> verbosity l <= 2 ->
  latest image_of l None = Some i -> latest log_of l None = Some g -> pf_img fs i = Some img -> pf_log fs g = Some log ->
  let bs := latest block_of l 512 in let max := latest max_of l 18446744073709551615 in
  exists set r, trplay_main_text a0 version eno fs pw (map spell l) =
      PText (a0 ++ text " -i <image> -l <log> [-m <max blocks>] [-b <block size]" ++ [10] ++ set ++
             concat (map pline_text (fst (play_text (verbosity l) bs max pw log img)))) r /\
    (verbosity l = 0 -> set = []) /\
    (1 <= verbosity l -> number_after "block size: " set = bs /\ number_after "to apply: " set = max).
Proof.
  intros H Hv Hi Hg Fi Fg bs max. exists (if 1 <=? verbosity l then settings bs max else []).
  unfold trplay_main_text. rewrite <- (app_nil_r (map spell l)), options_go by assumption. cbn [popts_text]. unfold asked.
  cbn [p_log p_img p_bs p_max pset0]. rewrite Hi, Hg, Fi, Fg. cbv zeta. fold bs max. destruct (play_text (verbosity l) bs max pw log img) as [ls o].
  eexists. split; [|split].
  - f_equal. rewrite <- !app_assoc. reflexivity.
  - intros ->. reflexivity.
  - intros L. replace (1 <=? verbosity l) with true by lia. pose proof (settings_range fs l H). apply settings_numbers; lia.
Qed.
Lemma complaints_text a0 version eno fs pw l :
  Forall (fun a => can fs a = true) l -> verbosity l <= 2 ->
  let first := a0 ++ text " -i <image> -l <log> [-m <max blocks>] [-b <block size]" ++ [10] in
  (latest log_of l None = None ->
     trplay_main_text a0 version eno fs pw (map spell l) = PText (first ++ text "  Log file not specified, this is mandatory." ++ [10]) (PEnd 1 None)) /\
  (latest log_of l None <> None -> latest image_of l None = None ->
     trplay_main_text a0 version eno fs pw (map spell l) = PText (first ++ text "  Disk image not specified, this is mandatory." ++ [10]) (PEnd 1 None)) /\
  (forall a rest, ask_num a -> can fs a = false ->
     trplay_main_text a0 version eno fs pw (map spell l ++ spell a :: rest) =
     PText (first ++ match a with
                     | ABlock 0 => text "  Invalid block size." ++ [10]
                     | ABlock _ => text " block size is larger than 131072, not supported." ++ [10]
                     | AMax _ => text "  Invalid block count." ++ [10]
                     | AImage f | ALog f => text "  Opening disk image failed, errno " ++ pr_d (eno f) ++ text "."
                     | AVerbose => []
                     end) (PEnd 1 None)).
Proof.
  intros H Hv first. unfold trplay_main_text. cbv zeta. fold first. split; [|split].
  - intros E. rewrite <- (app_nil_r (map spell l)), options_go by assumption. cbn [popts_text]. unfold asked. cbn [p_log p_img p_bs p_max pset0]. rewrite E. reflexivity.
  - intros E1 E2. rewrite <- (app_nil_r (map spell l)), options_go by assumption. cbn [popts_text]. unfold asked. cbn [p_log p_img p_bs p_max pset0].
    rewrite E2. destruct (latest log_of l None) as [g|]; [reflexivity|]. contradiction.
  - intros a rest Hn Ha. rewrite options_go by assumption.
    assert (D : forall c arg, opt_debug (verbosity l) c arg = Some []) by (intros c arg; unfold opt_debug; replace (3 <=? verbosity l) with false by lia; reflexivity).
    unfold can in Ha. destruct a as [|b|n|f|f]; cbn [spell popts_text ask_ok ask_num] in *; [discriminate Ha| | | |]; rewrite D, printed_nil; cbv zeta.
    + destruct (Z.eq_dec b 0) as [->|N]; [reflexivity|]. rewrite strtoull0_dec by lia. unfold TRBUFSIZE.
      replace (Z.min b 18446744073709551615 =? 0) with false by lia. replace (131072 <? Z.min b 18446744073709551615) with true by lia.
      change (text " block size is larger than " ++ pr_d 131072 ++ text ", not supported." ++ [10]) with (text " block size is larger than 131072, not supported." ++ [10]).
      destruct b as [|b|b]; [contradiction|reflexivity|lia].
    + assert (n = 0) by lia. subst n. reflexivity.
    + destruct (pf_img fs f); [discriminate Ha|reflexivity].
    + destruct (pf_log fs f); [discriminate Ha|reflexivity].
Qed.
