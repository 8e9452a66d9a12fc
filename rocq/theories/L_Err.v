(** Lemmas on error reports. *)
From Coq Require Import String.
From Verif Require Import Base M_Const M_Client M_Nego M_Setup M_Err S_Err.
Local Open Scope list_scope.

Lemma zlen_len {A} (l : list A) : zlen l = Z.of_nat (length l).
Proof. reflexivity. Qed.
Lemma find_some x s p : find x s = Some p -> exists pre post, splits x s pre post /\ p = zlen pre.
Proof.
  revert p. induction s as [|a s IH]; [discriminate|]. intros p. cbn [find]. destruct s as [|b t]; [discriminate|].
  destruct ((a =? 37) && (b =? x)) eqn:E.
  - intros [= <-]. apply andb_true_iff in E. destruct E as [E1 E2]. apply Z.eqb_eq in E1, E2. subst.
    exists [], t. split; [|reflexivity]. split; [reflexivity|]. intros. cbn. lia.
  - destruct (find x (b :: t)) as [q|]; [|discriminate]. intros [= <-]. destruct (IH q eq_refl) as (pre & post & [H1 H2] & ->).
    exists (a :: pre), post. split; [|rewrite !zlen_len; cbn [length]; lia]. split; [cbn; rewrite H1; reflexivity|].
    intros [|a' l] r Hr.
    + injection Hr as -> -> ->. rewrite !Z.eqb_refl in E. discriminate.
    + injection Hr as -> Hr. apply H2 in Hr. cbn. lia.
Qed.
Lemma find_none x s : find x s = None -> lacks x s.
Proof.
  induction s as [|a s IH]; intros H l r E; [destruct l; discriminate|]. cbn [find] in H. destruct s as [|b t].
  - destruct l as [|? [|]]; discriminate.
  - destruct ((a =? 37) && (b =? x)) eqn:E1; [discriminate|]. destruct (find x (b :: t)) eqn:E2; [discriminate|].
    destruct l as [|a' l].
    + injection E as -> -> ->. rewrite !Z.eqb_refl in E1. discriminate.
    + injection E as -> E. exact (IH eq_refl l r E).
Qed.
Lemma splits_unique x s p1 q1 p2 q2 : splits x s p1 q1 -> splits x s p2 q2 -> p1 = p2 /\ q1 = q2.
Proof.
  intros [E1 H1] [E2 H2]. pose proof (H1 _ _ E2) as A. pose proof (H2 _ _ E1) as B.
  assert (L : length p1 = length p2) by lia. rewrite E1 in E2.
  assert (P : p1 = p2).
  { apply (f_equal (firstn (length p1))) in E2. rewrite firstn_app, firstn_all, Nat.sub_diag in E2. cbn [firstn] in E2.
    rewrite app_nil_r, L, firstn_app, firstn_all, Nat.sub_diag in E2. cbn [firstn] in E2. rewrite app_nil_r in E2. exact E2. }
  split; [exact P|]. subst p2. apply app_inv_head in E2. injection E2 as E2. exact E2.
Qed.
Lemma splits_lacks x s p q : splits x s p q -> ~ lacks x s.
Proof. intros [E _] H. exact (H _ _ E). Qed.
Lemma find_splits x s pre post : splits x s pre post -> find x s = Some (zlen pre).
Proof.
  intros H. destruct (find x s) eqn:E.
  - apply find_some in E. destruct E as (p & q & E & ->). destruct (splits_unique _ _ _ _ _ _ H E) as [-> _]. reflexivity.
  - apply find_none in E. destruct (splits_lacks _ _ _ _ H E).
Qed.
Lemma find_lacks x s : lacks x s -> find x s = None.
Proof.
  intros H. destruct (find x s) eqn:E; [|reflexivity]. apply find_some in E. destruct E as (p & q & E & _). destruct (splits_lacks _ _ _ _ E H).
Qed.
Lemma asks_total em eh s : exists full used, asks em eh s full used.
Proof.
  destruct (find 109 s) eqn:E1.
  - apply find_some in E1. destruct E1 as (p & q & E & _). do 2 eexists. apply Asks_m, E.
  - apply find_none in E1. destruct (find 104 s) eqn:E2.
    + apply find_some in E2. destruct E2 as (p & q & E & _). do 2 eexists. apply Asks_h; [exact E1|exact E].
    + apply find_none in E2. do 2 eexists. apply Asks_none; assumption.
Qed.

Definition zeros (n : nat) : list Z := repeat 0 n.
Lemma until0_cut t : c_string t -> forall n k, (n <= length t + k)%nat -> until0 (firstn n (t ++ zeros k) ++ [0]) = firstn n t.
Proof.
  induction t as [|a t IH]; intros Hc n k Hn.
  - rewrite firstn_nil. cbn [app]. destruct n; [reflexivity|]. destruct k; [cbn in Hn; lia|reflexivity].
  - destruct n; [reflexivity|]. cbn [app firstn until0]. destruct (Z.eqb_spec a 0) as [->|_]; [destruct Hc; left; reflexivity|].
    rewrite IH; [reflexivity|intros X; apply Hc; right; exact X|cbn in Hn; lia].
Qed.
Lemma length0_cut t : c_string t -> forall n k, (n <= length t + k)%nat ->
  length0 (firstn n (t ++ zeros k)) = if (length t <? n)%nat then Some (zlen t) else None.
Proof.
  induction t as [|a t IH]; intros Hc n k Hn.
  - destruct n; [reflexivity|]. destruct k; [cbn in Hn; lia|reflexivity].
  - destruct n; [reflexivity|]. cbn [app firstn length0]. destruct (Z.eqb_spec a 0) as [->|_]; [destruct Hc; left; reflexivity|].
    rewrite IH; [|intros X; apply Hc; right; exact X|cbn in Hn; lia].
    change (S (length (t)) <? S n)%nat with (length t <? n)%nat. cbn [length].
    change (S (length t) <? S n)%nat with (length t <? n)%nat.
    destruct (length t <? n)%nat; [|reflexivity]. cbn [option_map]. rewrite !zlen_len. cbn [length]. f_equal. lia.
Qed.
Lemma room_small k : 0 <= k <= 150 -> room k = 150 - k.
Proof. intros H. unfold room, S1, u64. apply Z.mod_small. lia. Qed.
Lemma room_range k : 0 <= room k.
Proof. unfold room, u64. apply Z.mod_pos_bound. lia. Qed.
Lemma zeros_more a b : (a <= b)%nat -> forall n (t : list Z), (n <= length t + a)%nat -> firstn n (t ++ zeros a) = firstn n (t ++ zeros b).
Proof.
  intros H n t Hn. rewrite !firstn_app. f_equal. unfold zeros.
  replace b with (a + (b - a))%nat by lia. rewrite repeat_app, firstn_app. rewrite repeat_length.
  replace (n - length t - a)%nat with 0%nat by lia. cbn. rewrite app_nil_r. reflexivity.
Qed.

(** the buffer as strncpy leaves it: the start of [t] and zero bytes *)
Definition holds (t b : list Z) : Prop := b = firstn 150 (t ++ zeros 150).
Lemma holds_length t b : holds t b -> length b = 150%nat.
Proof. intros ->. rewrite firstn_length, app_length. unfold zeros. rewrite repeat_length. lia. Qed.
Lemma put_start s b : length b = 150%nat -> exists b', put 0 s S1 b = Some b' /\ holds s b'.
Proof.
  intros Hb. unfold put, S1. cbn [Z.eqb Z.ltb Z.compare Z.add Pos.compare Pos.compare_cont]. eexists. split; [reflexivity|].
  unfold holds. change (Z.to_nat 0) with 0%nat. change (Z.to_nat 150) with 150%nat.
  change (Z.to_nat (0 + 150)) with 150%nat. rewrite (skipn_all2 (n := 150) b) by lia. rewrite app_nil_r. reflexivity.
Qed.
(** writing [e] after the [k] bytes of [pre] *)
Lemma put_after pre rest e b : holds (pre ++ rest) b -> (length pre < 150)%nat ->
  exists b', put (zlen pre) e (room (zlen pre)) b = Some b' /\ holds (pre ++ e) b'.
Proof.
  intros Hb Hp. rewrite room_small by (rewrite zlen_len; lia). unfold put, S1.
  replace (150 - zlen pre =? 0) with false by (rewrite zlen_len; lia).
  replace (150 <? zlen pre + (150 - zlen pre)) with false by lia. eexists. split; [reflexivity|].
  replace (zlen pre + (150 - zlen pre)) with 150 by lia. change (Z.to_nat 150) with 150%nat.
  rewrite (skipn_all2 (n := 150) b) by (rewrite (holds_length _ _ Hb); lia). rewrite app_nil_r.
  assert (Z.to_nat (zlen pre) = length pre) as -> by (rewrite zlen_len; lia).
  assert (Z.to_nat (150 - zlen pre) = (150 - length pre)%nat) as -> by (rewrite zlen_len; lia).
  unfold holds. rewrite Hb. rewrite firstn_firstn. replace (Init.Nat.min (length pre) 150) with (length pre) by lia.
  rewrite <- (app_assoc pre rest), <- (app_assoc pre e).
  rewrite (firstn_app (length pre) pre), firstn_all, Nat.sub_diag, firstn_O, app_nil_r.
  rewrite (firstn_app 150 pre). rewrite (firstn_all2 (n := 150)) by lia. f_equal.
  change (repeat 0 (150 - length pre)) with (zeros (150 - length pre)). apply zeros_more; lia.
Qed.
Lemma holds_len0 t b : c_string t -> holds t b -> length0 b = if (length t <? 150)%nat then Some (zlen t) else None.
Proof. intros Hc ->. apply length0_cut; [exact Hc|lia]. Qed.
Lemma holds_until t b : c_string t -> holds t b -> until0 (firstn 149 b ++ [0]) = firstn 149 t.
Proof. intros Hc ->. rewrite firstn_firstn. change (Init.Nat.min 149 150) with 149%nat. apply until0_cut; [exact Hc|lia]. Qed.

Lemma cs_app a b : c_string (a ++ b) <-> c_string a /\ c_string b.
Proof. unfold c_string. rewrite in_app_iff. tauto. Qed.

Lemma insert_ok s e pre post x b : s = pre ++ [37; x] ++ post -> c_string s -> c_string e -> holds s b ->
  zlen pre + zlen e < 150 -> exists b', insert s e (zlen pre) b = Some b' /\ holds (pre ++ e ++ post) b'.
Proof.
  intros Hs Hc He Hb Hl. rewrite !zlen_len in Hl. rewrite Hs in Hc. apply cs_app in Hc. destruct Hc as [Hc1 Hc2]. unfold insert.
  rewrite Hs in Hb. destruct (put_after pre _ e b Hb ltac:(lia)) as (b1 & -> & H1).
  rewrite (holds_len0 (pre ++ e) b1); [|apply cs_app; auto|exact H1]. replace (length (pre ++ e) <? 150)%nat with true by (rewrite app_length; lia).
  replace (skipn (Z.to_nat (zlen pre + 2)) s) with post.
  2:{ rewrite Hs. replace (Z.to_nat (zlen pre + 2)) with (length (pre ++ [37; x])) by (rewrite app_length, zlen_len; cbn; lia).
      rewrite app_assoc, skipn_app, skipn_all, Nat.sub_diag. reflexivity. }
  rewrite <- (app_nil_r (pre ++ e)) in H1. destruct (put_after (pre ++ e) [] post b1 H1) as (b2 & E2 & H2); [rewrite app_length; lia|].
  exists b2. split; [exact E2|]. rewrite <- app_assoc in H2. exact H2.
Qed.
Lemma insert_over s e pre post x b : s = pre ++ [37; x] ++ post -> c_string s -> c_string e -> holds s b ->
  150 <= zlen pre + zlen e -> insert s e (zlen pre) b = None.
Proof.
  intros Hs Hc He Hb Hl. rewrite !zlen_len in Hl. unfold insert. destruct (Nat.ltb_spec (length pre) 150) as [Hp|Hp].
  - rewrite Hs in Hc, Hb. apply cs_app in Hc. destruct Hc as [Hc1 Hc2].
    destruct (put_after pre _ e b Hb ltac:(lia)) as (b1 & -> & H1).
    rewrite (holds_len0 (pre ++ e) b1); [|apply cs_app; auto|exact H1].
    replace (length (pre ++ e) <? 150)%nat with false by (rewrite app_length; lia). reflexivity.
  - unfold put. pose proof (room_range (zlen pre)) as R. destruct (Z.eqb_spec (room (zlen pre)) 0) as [E|E].
    + rewrite (holds_len0 s b Hc Hb). replace (length s <? 150)%nat with false by (rewrite Hs, !app_length; cbn; lia). reflexivity.
    + replace (S1 <? zlen pre + room (zlen pre)) with true by (unfold S1; rewrite zlen_len in *; lia). reflexivity.
Qed.

Lemma report_ok em eh s b full used : c_string em -> c_string eh -> c_string s -> length b = 150%nat ->
  asks em eh s full used -> used < 150 -> err_nonfatal em eh s b = Some (firstn 149 full).
Proof.
  intros Hm Hh Hs Hb Ha Hu. unfold err_nonfatal. destruct (put_start s b Hb) as (b0 & E0 & H0). rewrite E0.
  destruct Ha as [pre post Hp|pre post Hl Hp|H1 H2].
  - rewrite (find_splits _ _ _ _ Hp). pose proof Hp as [E _]. destruct (insert_ok _ _ _ _ _ _ E Hs Hm H0 Hu) as (b1 & E1 & H1). rewrite E1.
    f_equal. apply holds_until; [|exact H1]. rewrite E in Hs. rewrite !cs_app in Hs |- *. tauto.
  - rewrite (find_lacks _ _ Hl), (find_splits _ _ _ _ Hp). pose proof Hp as [E _].
    destruct (insert_ok _ _ _ _ _ _ E Hs Hh H0 Hu) as (b1 & E1 & H1). rewrite E1.
    f_equal. apply holds_until; [|exact H1]. rewrite E in Hs. rewrite !cs_app in Hs |- *. tauto.
  - rewrite (find_lacks _ _ H1), (find_lacks _ _ H2). f_equal. apply holds_until; assumption.
Qed.
Lemma report_over em eh s b full used : c_string em -> c_string eh -> c_string s -> length b = 150%nat ->
  asks em eh s full used -> 150 <= used -> err_nonfatal em eh s b = None.
Proof.
  intros Hm Hh Hs Hb Ha Hu. unfold err_nonfatal. destruct (put_start s b Hb) as (b0 & E0 & H0). rewrite E0.
  destruct Ha as [pre post Hp|pre post Hl Hp|H1 H2]; [| |lia].
  - rewrite (find_splits _ _ _ _ Hp). pose proof Hp as [E _]. rewrite (insert_over _ _ _ _ _ _ E Hs Hm H0 Hu). reflexivity.
  - rewrite (find_lacks _ _ Hl), (find_splits _ _ _ _ Hp). pose proof Hp as [E _]. rewrite (insert_over _ _ _ _ _ _ E Hs Hh H0 Hu). reflexivity.
Qed.

(** ** the report of a file that cannot be opened *)
Lemma find_skip x c : c <> 37 -> forall l r, find x (l ++ [c]) = None ->
  find x (l ++ [c] ++ r) = option_map (fun p => zlen l + 1 + p) (find x r).
Proof.
  intros Hc. induction l as [|a l IH]; intros r H.
  - cbn [app]. cbn [find]. destruct r as [|b t]; [reflexivity|]. replace (c =? 37) with false by lia. cbn [andb].
    destruct (find x (b :: t)) as [z|]; [|reflexivity]. cbn [option_map]. f_equal. rewrite zlen_nil. lia.
  - cbn [app] in H |- *. destruct l as [|b l].
    + cbn [app find] in H |- *. destruct ((a =? 37) && (c =? x)); [discriminate|].
      specialize (IH r). cbn [app find] in IH. rewrite IH by reflexivity.
      destruct (find x r); [|reflexivity]. cbn [option_map]. f_equal. rewrite !zlen_len. cbn [length]. lia.
    + cbn [app] in H, IH |- *. cbn [find] in H. change (find x (a :: b :: l ++ c :: r)) with
        (if (a =? 37) && (b =? x) then Some 0 else option_map Z.succ (find x (b :: l ++ c :: r))).
      change (match l ++ [c] with _ :: _ => _ | [] => _ end) with (find x (b :: l ++ [c])) in H || idtac.
      destruct ((a =? 37) && (b =? x)); [discriminate|].
      change (option_map Z.succ (find x (b :: l ++ [c])) = None) in H.
      destruct (find x (b :: l ++ [c])) eqn:E; [discriminate|]. rewrite (IH r eq_refl).
      destruct (find x r); [|reflexivity]. cbn [option_map]. f_equal. rewrite !zlen_len. cbn [length]. lia.
Qed.
Lemma destruct_rev {A} (l : list A) : l = [] \/ exists l' a, l = l' ++ [a].
Proof. induction l as [|a l' _] using rev_ind; [left; reflexivity|right; eauto]. Qed.
Lemma lacks_app x s c : lacks x s -> c <> x -> lacks x (s ++ [c]).
Proof.
  intros H Hc a b E. destruct (destruct_rev b) as [->|(b' & d & ->)].
  - change (a ++ [37; x] ++ []) with (a ++ [37] ++ [x]) in E. rewrite app_assoc in E. apply app_inj_tail in E. destruct E. congruence.
  - rewrite !app_assoc in E. apply app_inj_tail in E. destruct E as [E _]. rewrite <- app_assoc in E. exact (H _ _ E).
Qed.
Lemma open_failed_asks em eh name : lacks 109 name ->
  asks em eh (open_failed name) (text "Could not open exported file " ++ name ++ text ": " ++ em) (31 + zlen name + zlen em).
Proof.
  intros Hn.
  assert (F : find 109 (open_failed name) = Some (31 + zlen name)).
  { unfold open_failed. change (text "Could not open exported file ") with (text "Could not open exported file" ++ [32]).
    rewrite <- app_assoc. rewrite find_skip; [|lia|reflexivity]. change (text ": %m") with ([58] ++ [32] ++ [37; 109]).
    rewrite find_skip; [|lia|apply find_lacks, lacks_app; [exact Hn|lia]]. change (find 109 ([32] ++ [37; 109])) with (Some 1). cbn [option_map].
    f_equal. change (zlen (text "Could not open exported file")) with 28. lia. }
  pose proof (find_some _ _ _ F) as (pre & post & Hs & Hp).
  assert (E : open_failed name = (text "Could not open exported file " ++ name ++ text ": ") ++ [37; 109] ++ []).
  { unfold open_failed. rewrite <- !app_assoc. reflexivity. }
  assert (P : splits 109 (open_failed name) (text "Could not open exported file " ++ name ++ text ": ") []).
  { split; [exact E|]. intros a b Ha. destruct Hs as [_ Hm]. specialize (Hm a b Ha). rewrite !zlen_len in Hp.
    rewrite !app_length. change (length (text "Could not open exported file ")) with 29%nat. change (length (text ": ")) with 2%nat. lia. }
  pose proof (Asks_m em eh _ _ _ P) as A. rewrite app_nil_r in A. rewrite <- !app_assoc in A.
  replace (31 + zlen name + zlen em) with (zlen (text "Could not open exported file " ++ name ++ text ": ") + zlen em); [exact A|].
  rewrite !zlen_len, !app_length. change (length (text "Could not open exported file ")) with 29%nat. change (length (text ": ")) with 2%nat. lia.
Qed.
Lemma open_failed_cs name : c_string name -> c_string (open_failed name).
Proof.
  intros H. unfold open_failed. rewrite !cs_app. repeat split; try exact H; intros X; vm_compute in X; intuition discriminate.
Qed.

(** ** the rule of M_Client.v is this function's *)
Lemma strstr2_find x s n : strstr2 37 x s n = option_map (fun p => n + p) (find x s).
Proof.
  revert n. induction s as [|a s IH]; intros n; [reflexivity|]. cbn [strstr2 find]. destruct s as [|b t]; [reflexivity|].
  destruct ((a =? 37) && (b =? x)); [cbn; f_equal; lia|]. rewrite IH. destruct (find x (b :: t)); [|reflexivity]. cbn [option_map]. f_equal. lia.
Qed.
Lemma err_safe_exact E s b : c_string (M_Client.e_strerror E) -> c_string (M_Client.e_hstrerror E) -> c_string s -> length b = 150%nat ->
  M_Client.err_safe E s = match err_nonfatal (M_Client.e_strerror E) (M_Client.e_hstrerror E) s b with Some _ => true | None => false end.
Proof.
  intros Hm Hh Hs Hb. unfold err_safe. rewrite !strstr2_find.
  destruct (asks_total (M_Client.e_strerror E) (M_Client.e_hstrerror E) s) as (full & used & Ha).
  assert (U : M_Client.err_safe E s = (used <? 150)).
  { unfold err_safe. rewrite !strstr2_find. destruct Ha as [pre post Hp|pre post Hl Hp|H1 H2].
    - rewrite (find_splits _ _ _ _ Hp). reflexivity.
    - rewrite (find_lacks _ _ Hl), (find_splits _ _ _ _ Hp). reflexivity.
    - rewrite (find_lacks _ _ H1), (find_lacks _ _ H2). reflexivity. }
  unfold err_safe in U. rewrite !strstr2_find in U. rewrite U. destruct (Z.ltb_spec used 150) as [L|L].
  - rewrite (report_ok _ _ _ _ _ _ Hm Hh Hs Hb Ha L). reflexivity.
  - rewrite (report_over _ _ _ _ _ _ Hm Hh Hs Hb Ha L). reflexivity.
Qed.
