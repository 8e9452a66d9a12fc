(** Lemmas about the client's option haggling. *)
From Coq Require Import String.
From Verif Require Import Base M_Const M_Io M_Nego M_Client S_Client L_Wire L_Io L_Client.
Local Open Scope list_scope.
Local Open Scope k_scope.

(** the state after a read: only the stream and the count differ *)
Definition with_in (l : list Z) (n : nat) (s : kst) : kst := mkK l (k_tin s) (k_sec s) (k_out s) n (k_size s) (k_flags s).

Lemma junk_length E s n : length (junk E s n) = Z.to_nat n.
Proof. unfold junk. now rewrite map_length, seq_length. Qed.

Definition reply_end (s : kst) (o : kout (option kreply)) : Prop :=
  match o with
  | KFail _ => True
  | KRet None _ => True
  | KRet (Some r) s1 => exists n opt d,
      s1 = with_in (k_in s1) n s /\
      k_in s = REPLY_MAGIC ++ opt ++ be 4 (r_type r) ++ be 4 (r_size r) ++ d /\ zlen opt = 4 /\
      0 <= r_type r < 2 ^ 32 /\ 0 <= r_size r < 2 ^ 32 /\
      (if (0 <? r_size r) && (r_size r <? 4096) then
         zlen (r_data r) = r_size r /\
         (if r_size r <=? zlen d then d = r_data r ++ k_in s1 else k_in s1 = [])
       else r_data r = [] /\ k_in s1 = d)
  | _ => False
  end.
Lemma split5 h : zlen h = 20 -> Forall is_byte h ->
  h = be 8 (unbe (firstn 8 h)) ++ firstn 4 (skipn 8 h) ++ be 4 (unbe (firstn 4 (skipn 12 h))) ++ be 4 (unbe (skipn 16 h)) /\
  0 <= unbe (firstn 4 (skipn 12 h)) < 2 ^ 32 /\ 0 <= unbe (skipn 16 h) < 2 ^ 32.
Proof.
  intros L F. unfold zlen in L.
  do 20 (destruct h as [|? h]; [cbn [length] in L; lia|]). destruct h; [|cbn [length] in L; lia].
  cbn [firstn skipn]. repeat (apply byte_cons in F; destruct F as [? F]).
  assert (B : forall a, 0 <= a < 256 -> is_byte a) by (intros; assumption).
  split; [|split].
  - rewrite (be_unbe_len 8) by (try reflexivity; repeat (constructor; [apply B; lia|]); constructor).
    rewrite !(be_unbe_len 4) by (try reflexivity; repeat (constructor; [apply B; lia|]); constructor). reflexivity.
  - unfold unbe. cbn [unbe_acc]. lia.
  - unfold unbe. cbn [unbe_acc]. lia.
Qed.

Lemma read_reply_spec E s : Forall is_byte (k_in s) -> reply_end s (read_reply E s).
Proof.
  intros B. unfold read_reply.
  change (kbind (kreadit E 20) ?f s) with (kbind (kreadit_on (junk E s 20) 20) f s). unfold kbind at 1. unfold kreadit_on.
  destruct (20 <=? zlen (k_in s)) eqn:E20; cbn [fst snd negb]; [|exact I].
  apply Z.leb_le in E20. set (h := firstn (Z.to_nat 20) (k_in s)). set (d := skipn (Z.to_nat 20) (k_in s)).
  assert (Hd : k_in s = h ++ d) by (symmetry; apply firstn_skipn).
  assert (Lh : zlen h = 20) by (unfold zlen, h in *; rewrite firstn_length; lia).
  rewrite Hd in B. apply Forall_app in B. destruct B as [Bh Bd].
  destruct (split5 h Lh Bh) as (Hh & Ht & Hs).
  destruct (unbe (firstn 8 h) =? NBD_OPT_REPLY_MAGIC) eqn:Em; cbn [negb]; [|exact I].
  apply Z.eqb_eq in Em. rewrite Em in Hh. change (be 8 NBD_OPT_REPLY_MAGIC) with REPLY_MAGIC in Hh.
  set (type := unbe (firstn 4 (skipn 12 h))) in *. set (size := unbe (skipn 16 h)) in *.
  assert (Lo : zlen (firstn 4 (skipn 8 h)) = 4) by (unfold zlen in *; rewrite firstn_length, skipn_length; lia).
  set (opt := firstn 4 (skipn 8 h)) in *. clearbody h type size opt d.
  destruct ((0 <? size) && (size <? 4096)) eqn:Ez.
  - set (s1 := mkK d _ _ _ _ _ _).
    change (kbind (kreadit E size) ?f s1) with (kbind (kreadit_on (junk E s1 size) size) f s1). unfold kbind at 1. unfold kreadit_on.
    change (k_in s1) with d.
    assert (Hz : 0 < size < 4096) by (apply andb_prop in Ez; destruct Ez as [E1 E2]; apply Z.ltb_lt in E1, E2; lia).
    destruct (size <=? zlen d) eqn:El; cbn [kret snd reply_end r_type r_size r_data k_in]; eexists _, opt, d;
      (split; [reflexivity|split; [rewrite Hd, Hh; rewrite <- !app_assoc; reflexivity|split; [exact Lo|split; [exact Ht|split; [exact Hs|]]]]]); rewrite Ez.
    + split; [apply Z.leb_le in El; unfold zlen in *; rewrite firstn_length; lia|]. rewrite El. now rewrite firstn_skipn.
    + apply Z.leb_gt in El. split; [|destruct (Z.leb_spec size (zlen d)); [lia|reflexivity]].
      unfold zlen in *. rewrite app_length, skipn_length, junk_length. lia.
  - cbn [kret reply_end r_type r_size r_data k_in]. eexists _, opt, d.
    split; [reflexivity|]. split; [rewrite Hd, Hh; rewrite <- !app_assoc; reflexivity|].
    split; [exact Lo|]. split; [exact Ht|]. split; [exact Hs|]. rewrite Ez. auto.
Qed.

(** ** %m and %h *)
Lemma strstr_some a b l : forall n p, strstr2 a b l n = Some p -> exists x y, l = x ++ a :: b :: y.
Proof.
  induction l as [|c l IH]; intros n p; [discriminate|]. destruct l as [|c' l]; [discriminate|]. cbn [strstr2].
  destruct ((c =? a) && (c' =? b)) eqn:Ec.
  - intros _. apply andb_prop in Ec. destruct Ec as [E1 E2]. apply Z.eqb_eq in E1, E2. subst. exists [], l. reflexivity.
  - intros H. destruct (IH _ _ H) as (x & y & ->). exists (c :: x), y. reflexivity.
Qed.
Lemma unsafe_format E l : err_safe E l = false -> has_format l.
Proof.
  unfold err_safe. destruct (strstr2 37 109 l 0) as [p|] eqn:E1.
  - intros _. destruct (strstr_some _ _ _ _ _ E1) as (x & y & ->). exists x, 109, y. auto.
  - destruct (strstr2 37 104 l 0) as [p|] eqn:E2; [|discriminate]. intros _.
    destruct (strstr_some _ _ _ _ _ E2) as (x & y & ->). exists x, 104, y. auto.
Qed.
Lemma format_prefix a b : has_format a -> has_format (a ++ b).
Proof. intros (x & c & y & -> & H). exists x, c, (y ++ b). split; [now rewrite <- app_assoc|exact H]. Qed.
Lemma format_after p x : forallb (fun c => negb (c =? 37)) p = true -> has_format (p ++ x) -> has_format x.
Proof.
  induction p as [|a p IH]; intros Hp H; [exact H|]. cbn [forallb] in Hp. apply andb_prop in Hp. destruct Hp as [Ha Hp].
  apply IH; [exact Hp|]. destruct H as (u & c & y & Hu & Hc). destruct u as [|u0 u]; cbn [app] in Hu.
  - injection Hu as -> _. discriminate.
  - injection Hu as -> Hu. exists u, c, y. auto.
Qed.
Lemma cstring_prefix l : exists c, l = cstring l ++ c.
Proof.
  induction l as [|a l (c & IH)]; [exists []; reflexivity|]. cbn [cstring].
  destruct a; [exists (0 :: l); reflexivity| |]; exists c; cbn [app]; now rewrite <- IH.
Qed.
Lemma said_ub E p r s s' : forallb (fun c => negb (c =? 37)) p = true -> server_said E p r s = KUb s' ->
  0 < r_size r /\ (zlen (r_data r) < r_size r \/ has_format (r_data r)).
Proof.
  intros Hp. unfold server_said. destruct (0 <? r_size r) eqn:E0; [|discriminate]. apply Z.ltb_lt in E0.
  destruct (zlen (r_data r) <? r_size r) eqn:El; [apply Z.ltb_lt in El; auto|]. destruct (err_safe E _) eqn:Es; [discriminate|].
  intros _. split; [exact E0|right]. apply unsafe_format in Es.
  set (x := cstring _) in Es. apply format_prefix with (b := skipn 1023 (p ++ x)) in Es. rewrite firstn_skipn in Es.
  apply format_after in Es; [|exact Hp].
  destruct (cstring_prefix (firstn (Z.to_nat (r_size r - 1)) (r_data r))) as (c & Hc). fold x in Hc.
  apply format_prefix with (b := c) in Es. rewrite <- Hc in Es.
  rewrite <- (firstn_skipn (Z.to_nat (r_size r - 1)) (r_data r)). now apply format_prefix.
Qed.
Lemma policy_plain : forallb (fun c => negb (c =? 37)) policy_prefix = true. Proof. vm_compute. reflexivity. Qed.
Lemma unknown_plain : forallb (fun c => negb (c =? 37)) unknown_prefix = true. Proof. vm_compute. reflexivity. Qed.

Lemma flag31 t : 0 <= t < 2 ^ 32 -> flag t 2147483648 = (2 ^ 31 <=? t).
Proof.
  intros H. unfold flag.
  assert (Hd : Z.land t 2147483648 = (t / 2 ^ 31) mod 2 * 2 ^ 31).
  { apply Z.bits_inj'. intros n Hn. rewrite Z.land_spec. change 2147483648 with (1 * 2 ^ 31).
    rewrite <- !Z.shiftl_mul_pow2 by lia. rewrite !Z.shiftl_spec by lia.
    destruct (Z.lt_ge_cases n 31) as [Hlt|Hge]; [rewrite !(Z.testbit_neg_r _ (n - 31)) by lia; apply andb_false_r|].
    change 2 with (2 ^ 1) at 2. rewrite <- Z.land_ones by lia. rewrite Z.land_spec, <- Z.shiftr_div_pow2 by lia.
    rewrite Z.shiftr_spec by lia. replace (n - 31 + 31) with n by lia. reflexivity. }
  rewrite Hd. clear Hd. change (2 ^ 31) with 2147483648. change (2 ^ 32) with 4294967296 in H.
  assert (Hb : t / 2147483648 = if 2147483648 <=? t then 1 else 0).
  { destruct (Z.leb_spec 2147483648 t).
    - symmetry. apply Z.div_unique with (r := t - 2147483648); lia.
    - apply Z.div_small. lia. }
  rewrite Hb. destruct (2147483648 <=? t); reflexivity.
Qed.

Lemma go_ub fuel : forall E name gf s s', Forall is_byte (k_in s) -> go_loop fuel E name gf s = KUb s' ->
  exists pre rest, k_in s = pre ++ rest /\ wary rest.
Proof.
  induction fuel as [|fuel IH]; intros E name gf s s' B H; [discriminate|]. cbn [go_loop] in H.
  generalize (read_reply_spec E s B). generalize (end_bind (read_reply E) (fun r => match r with
    | None => kerr
    | Some r =>
      if flag (r_type r) 2147483648 then
        if r_type r =? REP_ERR_UNSUP then send_opt_exportname E false name gf
        else if r_type r =? REP_ERR_POLICY then server_said E policy_prefix r
        else server_said E unknown_prefix r
      else if r_type r =? REP_INFO then
        if zlen (r_data r) <? 2 then KUb
        else if unbe (firstn 2 (r_data r)) =? INFO_EXPORT then
          if zlen (r_data r) <? 12 then KUb
          else parse_sizes (skipn 2 (r_data r)) ;;; go_loop fuel E name gf
        else go_loop fuel E name gf
      else if r_type r =? REP_ACK then kret tt
      else go_loop fuel E name gf
    end) s). rewrite H. clear H.
  destruct (read_reply E s) as [[r|] s1|s1|s1|s1|s1]; cbn [reply_end]; intros Hb Hr; try discriminate; try contradiction.
  destruct Hr as (n & opt & d & Hs1 & Hin & Lo & Ht & Hz & Hdat).
  assert (Bd : Forall is_byte d) by (rewrite Hin, !Forall_app in B; tauto).
  assert (B1 : Forall is_byte (k_in s1)).
  { destruct (_ && _) in Hdat; [|destruct Hdat as [_ ->]; exact Bd]. destruct Hdat as [_ Hdat].
    destruct (_ <=? _) in Hdat; [rewrite Hdat in Bd; apply Forall_app in Bd; tauto|rewrite Hdat; constructor]. }
  assert (Hin1 : exists a, k_in s = a ++ k_in s1).
  { destruct (_ && _) in Hdat; destruct Hdat as [Hd1 Hd2].
    - destruct (_ <=? _) in Hd2; [|exists (k_in s); now rewrite Hd2, app_nil_r].
      rewrite Hd2 in Hin. rewrite Hin. exists (REPLY_MAGIC ++ opt ++ be 4 (r_type r) ++ be 4 (r_size r) ++ r_data r).
      now rewrite <- !app_assoc.
    - rewrite Hin, <- Hd2. exists (REPLY_MAGIC ++ opt ++ be 4 (r_type r) ++ be 4 (r_size r)). now rewrite <- !app_assoc. }
  assert (More : forall s2, k_in s2 = k_in s1 -> go_loop fuel E name gf s2 = KUb s' -> exists pre rest, k_in s = pre ++ rest /\ wary rest).
  { intros s2 H2 Hg. destruct Hin1 as (a & ->). rewrite <- H2 in B1 |- *. destruct (IH _ _ _ _ _ B1 Hg) as (pre & rest & -> & Hw).
    exists (a ++ pre), rest. now rewrite app_assoc. }
  assert (Here : (2 ^ 31 <= r_type r /\ r_type r <> 2 ^ 31 + 1 /\ 0 < r_size r /\
       (4096 <= r_size r \/ zlen d < r_size r \/ has_format (firstn (Z.to_nat (r_size r)) d))
     \/ r_type r = 3 /\ (r_size r < 2 \/ 4096 <= r_size r \/ r_size r < 12 /\ (zlen d < r_size r \/ firstn 2 d = [0; 0]))) ->
     exists pre rest, k_in s = pre ++ rest /\ wary rest).
  { intros Hw. exists [], (k_in s). split; [reflexivity|]. exists opt, (r_type r), (r_size r), d. auto. }
  assert (Said : forall p s2, forallb (fun c => negb (c =? 37)) p = true -> server_said E p r s1 = KUb s2 ->
     0 < r_size r /\ (4096 <= r_size r \/ zlen d < r_size r \/ has_format (firstn (Z.to_nat (r_size r)) d))).
  { intros p s2 Hp Hs. destruct (said_ub E p r s1 s2 Hp Hs) as (H0 & Hs2). split; [exact H0|].
    destruct (Z.lt_ge_cases (r_size r) 4096) as [Hlt|]; [|lia].
    assert (Ec : (0 <? r_size r) && (r_size r <? 4096) = true) by (apply andb_true_intro; split; apply Z.ltb_lt; lia).
    rewrite Ec in Hdat. destruct Hdat as [Hl Hd2]. destruct Hs2 as [Hs2|Hf]; [lia|].
    destruct (Z.leb_spec (r_size r) (zlen d)) as [Hle|Hgt]; [|lia]. rewrite Hd2. right. right.
    replace (Z.to_nat (r_size r)) with (length (r_data r) + 0)%nat by (unfold zlen in *; lia).
    rewrite firstn_app_2. cbn [firstn]. now rewrite app_nil_r. }
  rewrite (flag31 _ Ht) in Hb. destruct (Z.leb_spec (2 ^ 31) (r_type r)) as [Herr|Herr].
  - destruct (r_type r =? REP_ERR_UNSUP) eqn:Eu; [symmetry in Hb; now apply exportname_no_ub in Hb|].
    apply Z.eqb_neq in Eu. change REP_ERR_UNSUP with (2 ^ 31 + 1) in Eu.
    destruct (r_type r =? REP_ERR_POLICY); symmetry in Hb; apply Said in Hb; try apply policy_plain; try apply unknown_plain;
      apply Here; left; tauto.
  - destruct (r_type r =? REP_INFO) eqn:Ei.
    + apply Z.eqb_eq in Ei. change REP_INFO with 3 in Ei.
      destruct (zlen (r_data r) <? 2) eqn:E2.
      { apply Z.ltb_lt in E2. apply Here. right. split; [exact Ei|].
        destruct (_ && _) eqn:Ec in Hdat; destruct Hdat as [Hl _]; [lia|].
        apply andb_false_iff in Ec. rewrite !Z.ltb_ge in Ec. lia. }
      apply Z.ltb_ge in E2. destruct (unbe _ =? INFO_EXPORT) eqn:Ee; [|symmetry in Hb; now apply (More s1)].
      destruct (zlen (r_data r) <? 12) eqn:E12.
      { apply Z.ltb_lt in E12. apply Here. right. split; [exact Ei|].
        destruct (_ && _) eqn:Ec in Hdat; destruct Hdat as [Hl Hd2]; [|rewrite Hl in E2; cbn in E2; lia].
        right. right. split; [lia|]. destruct (Z.leb_spec (r_size r) (zlen d)) as [Hle|Hgt]; [right|left; lia].
        rewrite Hd2 in Bd |- *. apply Forall_app in Bd. destruct Bd as [Bd _]. apply Z.eqb_eq in Ee.
        destruct (r_data r) as [|x [|y t]]; [unfold zlen in E2; cbn [length] in E2; lia|unfold zlen in E2; cbn [length] in E2; lia|]. cbn [firstn app] in *.
        apply byte_cons in Bd. destruct Bd as [Bx Bd]. apply byte_cons in Bd. destruct Bd as [By _].
        unfold unbe in Ee. cbn [unbe_acc] in Ee. unfold INFO_EXPORT in Ee. f_equal; [lia|f_equal; lia]. }
      unfold parse_sizes, kset, kbind in Hb. symmetry in Hb. eapply More; [|exact Hb]. reflexivity.
    + destruct (r_type r =? REP_ACK); [discriminate|]. symmetry in Hb. now apply (More s1).
Qed.
