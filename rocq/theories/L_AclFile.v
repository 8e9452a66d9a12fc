(** Lemmas about reading the authorization file. *)
From Verif Require Import Base M_Acl S_Acl L_Acl.

Lemma isspace_blank c : isspace c = is_blank c.
Proof. reflexivity. Qed.

Lemma skip_trim s : skip_space s = trim s.
Proof. induction s as [|c s IH]; cbn; [reflexivity|]. rewrite isspace_blank. destruct (is_blank c); auto. Qed.
Lemma until_word s : until_space s = word s.
Proof. induction s as [|c s IH]; cbn; [reflexivity|]. rewrite isspace_blank. destruct (is_blank c); [auto|]. f_equal; auto. Qed.
Lemma split_uncomment s : fst (split_at 35 s) = uncomment s.
Proof.
  induction s as [|c s IH]; cbn; [reflexivity|]. destruct (c =? 35); [reflexivity|].
  destruct (split_at 35 s) as [a r]. cbn in *. f_equal. exact IH.
Qed.
Lemma cstr_id s : ~ In 0 s -> cstr s = s.
Proof.
  induction s as [|c s IH]; intros H; cbn; [reflexivity|].
  destruct (c =? 0) eqn:E; [exfalso; apply H; left; lia|]. f_equal. apply IH. intros K. apply H. right. exact K.
Qed.

(** a trailing newline does not change the entry *)
Lemma word_nl s : word (s ++ [10]) = word s.
Proof. induction s as [|c s IH]; cbn; [reflexivity|]. destruct (is_blank c); [reflexivity|]. f_equal. exact IH. Qed.
Lemma trim_nl s : word (trim (s ++ [10])) = word (trim s).
Proof.
  induction s as [|c s IH]; cbn; [reflexivity|]. destruct (is_blank c) eqn:E; [exact IH|].
  change (c :: s ++ [10]) with ((c :: s) ++ [10]). apply word_nl.
Qed.
Lemma uncomment_nl s : uncomment (s ++ [10]) = uncomment s \/ uncomment (s ++ [10]) = uncomment s ++ [10].
Proof.
  induction s as [|c s IH]; cbn; [right; reflexivity|]. destruct (c =? 35); [left; reflexivity|].
  destruct IH as [-> | ->]; [left|right]; reflexivity.
Qed.
Lemma line_entry_nl s : line_entry (s ++ [10]) = line_entry s.
Proof.
  unfold line_entry. destruct (uncomment_nl s) as [-> | ->]; [reflexivity|]. apply trim_nl.
Qed.
Lemma entry_line s : ~ In 0 s -> entry_of s = line_entry s.
Proof. intros H. unfold entry_of, line_entry. rewrite cstr_id, split_uncomment, skip_trim, until_word by exact H. reflexivity. Qed.

(** the first line of a text *)
Lemma first_line s : s <> [] ->
  exists l r, ~ In 10 l /\ ((s = l ++ 10 :: r /\ text_lines s = l :: text_lines r) \/
                            (s = l /\ r = [] /\ text_lines s = [l])).
Proof.
  induction s as [|c s IH]; intros N; [contradiction|]. cbn [text_lines]. destruct (c =? 10) eqn:E.
  - exists [], s. split; [intros []|]. left. split; [|reflexivity]. cbn. f_equal. lia.
  - destruct s as [|c' s'].
    + exists [c], []. split; [intros [K|[]]; lia|]. right. repeat split.
    + destruct IH as (l & r & Hl & H); [discriminate|].
      exists (c :: l), r. split; [intros [K|K]; [lia|exact (Hl K)]|].
      destruct H as [[H1 H2]|(H1 & H2 & H3)]; [left|right].
      * rewrite H2. split; [cbn; f_equal; exact H1|reflexivity].
      * rewrite H3. split; [f_equal; exact H1|]. split; [exact H2|reflexivity].
Qed.

Lemma fgets_line l r n : ~ In 10 l -> (length l < n)%nat -> fgets n (l ++ 10 :: r) = (l ++ [10], r).
Proof.
  revert n. induction l as [|c l IH]; intros n H L; (destruct n as [|n]; [cbn in L; lia|]); cbn [fgets app].
  - rewrite Z.eqb_refl. reflexivity.
  - destruct (c =? 10) eqn:E; [exfalso; apply H; left; lia|]. rewrite IH; [reflexivity| |cbn in L; lia].
    intros K. apply H. right. exact K.
Qed.
Lemma fgets_last l n : ~ In 10 l -> (length l <= n)%nat -> fgets n l = (l, []).
Proof.
  revert n. induction l as [|c l IH]; intros n H L; (destruct n as [|n]; cbn [fgets]; try reflexivity).
  - cbn in L. lia.
  - destruct (c =? 10) eqn:E; [exfalso; apply H; left; lia|]. rewrite IH; [reflexivity| |cbn in L; lia].
    intros K. apply H. right. exact K.
Qed.

Lemma entries_cons l ls : 
  filter (fun e => negb (match e with [] => true | _ => false end)) (map line_entry (l :: ls)) =
  (match line_entry l with [] => [] | e => [e] end) ++
  filter (fun e => negb (match e with [] => true | _ => false end)) (map line_entry ls).
Proof. cbn [map filter]. destruct (line_entry l); reflexivity. Qed.

(** first decisive entry *)
Fixpoint decide (gai : list Z -> option (list sa)) (es : list (list Z)) (client : sa) : aout :=
  match es with
  | [] => ANo
  | e :: t => match address_matches gai e client with ANo => decide gai t client | o => o end
  end.

Lemma auth_entries gai client : forall fuel s, plain_text s -> (length s <= fuel)%nat ->
  auth_lines gai fuel s client = decide gai (entries s) client.
Proof.
  induction fuel as [|fuel IH]; intros s [N L] F.
  - destruct s; [reflexivity|cbn in F; lia].
  - destruct s as [|c0 s0]; [reflexivity|]. set (s := c0 :: s0) in *.
    destruct (first_line s ltac:(discriminate)) as (l & r & Hl & H).
    assert (K : exists line, fgets 255 s = (line, r) /\ entry_of line = line_entry l /\ plain_text r /\ (length r <= fuel)%nat /\
              entries s = (match line_entry l with [] => [] | e => [e] end) ++ entries r).
    { destruct H as [[Hs Ht]|(Hs & -> & Ht)].
      - rewrite Ht in L. pose proof (Forall_inv L) as L1. pose proof (Forall_inv_tail L) as L2. cbv beta in L1. exists (l ++ [10]). rewrite Hs in N |- *.
        split; [apply fgets_line; auto; lia|]. split.
        { rewrite entry_line, line_entry_nl; [reflexivity|]. intros K. apply N. apply in_app_iff in K. apply in_app_iff.
          destruct K as [K|[K|[]]]; [left; exact K|discriminate]. }
        split; [split; [|exact L2]; intros K; apply N; apply in_app_iff; right; right; exact K|].
        split; [rewrite Hs, app_length in F; cbn in F; lia|].
        rewrite <- Hs. unfold entries at 1. rewrite Ht. apply entries_cons.
      - rewrite Ht in L. pose proof (Forall_inv L) as L1. cbv beta in L1. exists l.
        split; [rewrite Hs; apply fgets_last; [exact Hl|lia]|]. split; [apply entry_line; rewrite <- Hs; exact N|].
        split; [split; [intros []|constructor]|]. split; [cbn; lia|].
        unfold entries at 1. rewrite Ht. apply entries_cons. }
    destruct K as (line & K1 & K2 & K3 & K4 & K5).
    change (auth_lines gai (S fuel) s client) with
      (let '(line, rest) := fgets 255 s in
       match entry_of line with
       | [] => auth_lines gai fuel rest client
       | e => match address_matches gai e client with
              | ANo => auth_lines gai fuel rest client
              | o => o
              end
       end).
    rewrite K1, K2, K5. rewrite (IH r K3 K4). destruct (line_entry l) as [|x e]; reflexivity.
Qed.

Lemma decide_spec gai client es :
  Forall (fun e => address_matches gai e client = AYes \/ address_matches gai e client = ANo) es ->
  (decide gai es client = AYes /\ Exists (fun e => address_matches gai e client = AYes) es) \/
  (decide gai es client = ANo /\ Forall (fun e => address_matches gai e client = ANo) es).
Proof.
  induction 1 as [|e es H _ IH]; cbn [decide]; [right; split; [reflexivity|constructor]|].
  destruct H as [E|E]; rewrite E.
  - left. split; [reflexivity|]. constructor. exact E.
  - destruct IH as [[A B]|[A B]]; [left|right]; (split; [exact A|]).
    + apply Exists_cons_tl. exact B.
    + constructor; auto.
Qed.

Lemma file_entries gai client content : plain_text content ->
  Forall (fun e => address_matches gai e client = AYes \/ address_matches gai e client = ANo) (entries content) ->
  (authorized_client gai (Some (Some content)) client = AYes /\
     Exists (fun e => address_matches gai e client = AYes) (entries content)) \/
  (authorized_client gai (Some (Some content)) client = ANo /\
     Forall (fun e => address_matches gai e client = ANo) (entries content)).
Proof.
  intros P F. cbn [authorized_client]. rewrite auth_entries by (auto; lia). apply decide_spec. exact F.
Qed.

(** * Where the comparison is safe *)
Lemma match_one_safe client r n : good_addr client -> good_addr r -> 0 <= n <= addr_bits client ->
  (match client, r with V6 _, V4 _ => n <= 32 | _, _ => True end) -> tame (match_one client n r).
Proof.
  intros Hc Hr Hn Hx. destruct client as [a|a|]; destruct r as [b|b|]; cbn in Hc, Hr, Hn; try contradiction;
    destruct Hc as [La Ba]; destruct Hr as [Lb Bb]; cbn [match_one];
    apply len_zlen in La as Za; apply len_zlen in Lb as Zb; cbn in Za, Zb; unfold tame.
  - destruct (compare_spec 30 n a b) as [[E _]|[E _]]; auto; lia.
  - assert (zlen (mapped a) = 16) by (unfold mapped; rewrite zlen_app, Za; reflexivity).
    destruct (compare_spec 30 (n + 96) (mapped a) b) as [[E _]|[E _]]; auto; try lia. apply mapped_bytes; exact Ba.
  - assert (zlen (mapped b) = 16) by (unfold mapped; rewrite zlen_app, Zb; reflexivity).
    destruct (compare_spec 30 (n + 96) a (mapped b)) as [[E _]|[E _]]; auto; try lia. apply mapped_bytes; exact Bb.
  - destruct (compare_spec 30 n a b) as [[E _]|[E _]]; auto; lia.
Qed.

Lemma address_safe gai mask client : gai_ok gai -> good_addr client ->
  (match client with V6 _ => narrow gai mask | _ => True end) -> tame (address_matches gai mask client).
Proof.
  intros G C N. unfold address_matches. destruct (split_at 47 mask) as [host sep] eqn:S.
  set (al := match client with V4 _ => 4 | _ => 16 end).
  set (n := match sep with Some t => i32 (strtol t) | None => al * 8 end).
  destruct ((al * 8 <? n) || (n <? 0)) eqn:E; [right; reflexivity|].
  destruct (gai host) as [res|] eqn:R; [|right; reflexivity].
  assert (B : 0 <= n <= addr_bits client).
  { destruct client; cbn in C; try contradiction; subst al; cbn [addr_bits]; lia. }
  assert (X : Forall (fun r => match client, r with V6 _, V4 _ => n <= 32 | _, _ => True end) res).
  { destruct client as [a|a|]; try (rewrite Forall_forall; intros r _; destruct r; exact I).
    cbn in N. destruct N as [(h & t & Hh & -> & T1 & T2)|N].
    - rewrite split_at_app in S by exact Hh. injection S as <- <-. subst n.
      assert (i32 (strtol t) = strtol t) as -> by (unfold i32; rewrite Z.mod_small; lia).
      rewrite Forall_forall. intros r _. destruct r; auto.
    - rewrite S in N. cbn in N. specialize (N res R). eapply Forall_impl; [|exact N]. intros []; cbn; tauto. }
  specialize (G host res R). revert G X. clear - C B. induction res as [|r res IH]; intros G X; cbn [match_list]; [right; reflexivity|].
  inversion G; subst. inversion X; subst.
  destruct (match_one_safe client r n) as [E|E]; auto; rewrite E; [left; reflexivity|]. apply IH; auto.
Qed.

Lemma fgets_progress n s : (0 < n)%nat -> s <> [] -> (length (snd (fgets n s)) < length s)%nat.
Proof.
  revert s. induction n as [|n IH]; intros s Hn N; [lia|]. destruct s as [|c t]; [contradiction|]. cbn [fgets].
  destruct (c =? 10); [cbn; lia|]. destruct (fgets n t) as [l r] eqn:E. cbn [snd length].
  destruct n as [|n]; [cbn in E; injection E as <- <-; lia|]. destruct t as [|c' t'].
  - cbn in E. injection E as <- <-. cbn. lia.
  - specialize (IH (c' :: t') ltac:(lia) ltac:(discriminate)). rewrite E in IH. cbn in IH. cbn. lia.
Qed.

(** whatever the file contains, the decision terminates and is one of the
    outcomes of address_matches *)
Lemma auth_lines_tame gai client : (forall e, tame (address_matches gai e client)) ->
  forall fuel s, (length s <= fuel)%nat -> tame (auth_lines gai fuel s client).
Proof.
  intros T. induction fuel as [|fuel IH]; intros s F.
  - destruct s; [right; reflexivity|cbn in F; lia].
  - destruct s as [|c s0]; [right; reflexivity|]. set (s := c :: s0) in *.
    pose proof (fgets_progress 255 s ltac:(lia) ltac:(discriminate)) as P.
    change (auth_lines gai (S fuel) s client) with
      (let '(line, rest) := fgets 255 s in
       match entry_of line with
       | [] => auth_lines gai fuel rest client
       | e => match address_matches gai e client with
              | ANo => auth_lines gai fuel rest client
              | o => o
              end
       end).
    destruct (fgets 255 s) as [line rest]. cbn [snd] in P.
    assert (tame (auth_lines gai fuel rest client)) as Q by (apply IH; lia).
    destruct (entry_of line) as [|x e]; [exact Q|].
    destruct (T (x :: e)) as [-> | ->]; [left; reflexivity|exact Q].
Qed.

Lemma ipv4_client_safe gai authfile b : gai_ok gai -> good_addr (V4 b) -> tame (authorized_client gai authfile (V4 b)).
Proof.
  intros G C. destruct authfile as [[s|]|]; [|left; reflexivity|left; reflexivity].
  apply auth_lines_tame; [|lia]. intros e. apply address_safe; auto.
Qed.

(** the over-read happens exactly when the client is the mapped form of the
    entry's address and the entry has no mask *)
Lemma compare_over : forall s t n fuel, length s = length t -> 8 * zlen s < n -> zlen s < Z.of_nat fuel -> s = t ->
  compare_bits fuel n s t = AUb.
Proof.
  induction s as [|x s IH]; intros t n fuel L H F E; subst t.
  - destruct fuel; [reflexivity|]. cbn [compare_bits]. change (zlen (@nil Z)) with 0 in *.
    destruct (8 <=? n); [reflexivity|]. destruct (n =? 0) eqn:E0; [lia|reflexivity].
  - rewrite zlen_cons in *. pose proof (zlen_nonneg s). destruct fuel as [|fuel]; [lia|]. cbn [compare_bits].
    replace (8 <=? n) with true by lia. rewrite Z.eqb_refl. apply IH; auto; lia.
Qed.
Lemma unmasked_over_read gai host a b rest : ~ In 47 host -> gai host = Some (V4 b :: rest) ->
  length b = 4%nat -> a = v4mapped b -> address_matches gai host (V6 a) = AUb.
Proof.
  intros H G L ->. unfold address_matches. rewrite split_at_none by exact H. cbn - [match_list]. rewrite G. cbn [match_list match_one].
  rewrite (compare_over (v4mapped b) (mapped b)); [reflexivity| | | |reflexivity].
  - reflexivity.
  - unfold v4mapped. rewrite !zlen_app, (len_zlen _ _ L).
    change (zlen (repeat 0 10)) with 10. change (zlen [255; 255]) with 2. lia.
  - unfold v4mapped. rewrite !zlen_app, (len_zlen _ _ L).
    change (zlen (repeat 0 10)) with 10. change (zlen [255; 255]) with 2. lia.
Qed.

Lemma bad_mask_admits_family gai host client r rest : ~ In 47 host -> gai host = Some (r :: rest) ->
  good_addr client -> same_family client r ->
  address_matches gai (host ++ 47 :: [97; 98; 99]) client = AYes.
Proof.
  intros H G C F. unfold address_matches. rewrite split_at_app by exact H. rewrite G.
  destruct client as [a|a|], r as [b|b|]; cbn in *; try contradiction; reflexivity.
Qed.
