(** The size and flags the client ends up with. *)
From Coq Require Import String.
From Verif Require Import Base M_Const M_Io M_Nego M_Client S_Client L_Wire L_Io L_Client L_ClientGo.
Local Open Scope list_scope.
Local Open Scope k_scope.

Definition go_step (fuel : nat) (E : kenv) (name : list Z) (gf : Z) (r : option kreply) : K unit :=
  match r with
    | None => kerr
    | Some r =>
      if flag (r_type r) 2147483648 then
        if r_type r =? REP_ERR_UNSUP then send_opt_exportname E false name gf
        else if r_type r =? REP_ERR_POLICY then server_said E policy_prefix r
        else server_said E unknown_prefix r
      else if r_type r =? REP_INFO then
        if zlen (r_data r) <? 2 then KUb
        else if unbe (firstn 2 (r_data r)) =? INFO_EXPORT then
          if zlen (r_data r) <? 12 then KUb
          else parse_sizes (skipn 2 (r_data r)) ;;; go_loop fuel E name gf
        else go_loop fuel E name gf
      else if r_type r =? REP_ACK then kret tt
      else go_loop fuel E name gf
    end.
Lemma go_unfold fuel E name gf s : go_loop (S fuel) E name gf s = kbind (read_reply E) (go_step fuel E name gf) s.
Proof. reflexivity. Qed.

Lemma go_empty fuel E name gf s s' u : k_in s = [] -> go_loop fuel E name gf s <> KRet u s'.
Proof.
  intros H. destruct fuel as [|fuel]; [discriminate|]. rewrite go_unfold. unfold kbind at 1. unfold read_reply.
  change (kbind (kreadit E 20) ?f s) with (kbind (kreadit_on (junk E s 20) 20) f s). unfold kbind at 1. unfold kreadit_on. rewrite H.
  change (20 <=? zlen (@nil Z)) with false. cbv beta iota. cbn [fst negb kret]. cbv beta iota. cbn [go_step]. discriminate.
Qed.

Lemma said_ret E p r s u s' : server_said E p r s <> KRet u s'.
Proof.
  unfold server_said, kerr. destruct (0 <? _); [|discriminate]. destruct (_ <? _); [discriminate|]. destruct (err_safe _ _); discriminate.
Qed.

Lemma split10 h : zlen h = 10 -> Forall is_byte h -> h = be 8 (unbe (firstn 8 h)) ++ be 2 (unbe (firstn 2 (skipn 8 h))).
Proof.
  intros L F. unfold zlen in L.
  do 10 (destruct h as [|? h]; [cbn [length] in L; lia|]). destruct h; [|cbn [length] in L; lia].
  cbn [firstn skipn]. repeat (apply byte_cons in F; destruct F as [? F]).
  assert (B : forall a, 0 <= a < 256 -> is_byte a) by (intros; assumption).
  rewrite (be_unbe_len 8) by (try reflexivity; repeat (constructor; [apply B; lia|]); constructor).
  rewrite !(be_unbe_len 2) by (try reflexivity; repeat (constructor; [apply B; lia|]); constructor). reflexivity.
Qed.

(** EXPORT_NAME that is not the user's own choice: the sizes come from the stream *)
Lemma exportname_sound E name gf s u s' : Forall is_byte (k_in s) -> send_opt_exportname E false name gf s = KRet u s' ->
  exists rest, k_in s = be 8 (k_size s') ++ be 2 (k_flags s') ++ rest.
Proof.
  intros B. unfold send_opt_exportname. set (s1 := mkK (k_in s) (k_tin s) (k_sec s)
     ((k_out s ++ [(k_sec s, opt_head OPT_EXPORT_NAME (zlen name))]) ++ [(k_sec s, name)]) (k_reads s) (k_size s) (k_flags s)).
  match goal with |- (_ ;;; _ ;;; ?c) s = _ -> _ => change ((ksend (opt_head OPT_EXPORT_NAME (zlen name)) ;;; ksend name ;;; c) s) with (c s1) end.
  change (kbind (kreadit E 10) ?f s1) with (kbind (kreadit_on (junk E s1 10) 10) f s1).
  destruct (readit_on_along (junk E s1 10) 10 s1) as (r & l & a & Hr & Ha & _ & Hy). unfold kbind at 1. rewrite Hr. cbv beta iota.
  destruct (fst r) eqn:Ef; cbn [negb andb]; [|discriminate]. destruct (Hy eq_refl) as [Hsn Hl]. rewrite Hsn. specialize (Hl ltac:(lia)).
  change (k_in s1) with (k_in s) in Ha. rewrite Ha in B. apply Forall_app in B. destruct B as [Ba _].
  assert (Hsp := split10 a Hl Ba). unfold parse_sizes, kset. unfold kbind at 1. cbv beta iota.
  assert (Hend : forall s2 : kst, k_size s2 = unbe (firstn 8 a) -> k_flags s2 = unbe (firstn 2 (skipn 8 a)) ->
     exists rest, k_in s = be 8 (k_size s2) ++ be 2 (k_flags s2) ++ rest).
  { intros s2 -> ->. exists l. now rewrite Ha, app_assoc, <- Hsp. }
  destruct (flag gf FLAG_NO_ZEROES).
  - intros H. injection H as _ <-. apply Hend; reflexivity.
  - set (s2 := mkK _ _ _ _ _ _ _). change (kbind (kreadit E 124) ?f s2) with (kbind (kreadit_on (junk E s2 124) 124) f s2).
    destruct (readit_on_along (junk E s2 124) 124 s2) as (r2 & l2 & a2 & Hr2 & _). unfold kbind at 1. rewrite Hr2. cbv beta iota.
    intros H. injection H as _ <-. apply Hend; reflexivity.
Qed.

Lemma go_sound fuel : forall E name gf s u s', Forall is_byte (k_in s) -> go_loop fuel E name gf s = KRet u s' ->
  (k_size s', k_flags s') = (k_size s, k_flags s) \/ announced_in (k_in s) (k_size s') (k_flags s').
Proof.
  induction fuel as [|fuel IH]; intros E name gf s u s' B H; [discriminate|]. rewrite go_unfold in H.
  generalize (read_reply_spec E s B). generalize (end_bind (read_reply E) (go_step fuel E name gf) s). rewrite H. clear H.
  destruct (read_reply E s) as [[r|] s1|s1|s1|s1|s1]; cbn [reply_end]; intros Hb Hr; try discriminate; try contradiction.
  symmetry in Hb. cbn [go_step] in Hb.
  destruct Hr as (n & opt & d & Hs1 & Hin & Lo & Ht & Hz & Hdat).
  assert (Bd : Forall is_byte d) by (rewrite Hin, !Forall_app in B; tauto).
  assert (B1 : Forall is_byte (k_in s1)).
  { destruct (_ && _) in Hdat; [|destruct Hdat as [_ ->]; exact Bd]. destruct Hdat as [_ Hdat].
    destruct (_ <=? _) in Hdat; [rewrite Hdat in Bd; apply Forall_app in Bd; tauto|rewrite Hdat; constructor]. }
  assert (Hin1 : k_in s1 <> [] -> exists p, d = p ++ k_in s1 /\ zlen p <= r_size r /\
                   (p = r_data r)).
  { intros Hne. destruct (_ && _) in Hdat; destruct Hdat as [Hd1 Hd2].
    - destruct (_ <=? _) in Hd2; [|contradiction]. exists (r_data r). split; [exact Hd2|]. split; [lia|reflexivity].
    - exists []. split; [now rewrite Hd2|]. split; [exact (proj1 Hz)|now rewrite Hd1]. }
  assert (Hsz : k_size s1 = k_size s /\ k_flags s1 = k_flags s) by (rewrite Hs1; split; reflexivity).
  assert (More : forall s2, k_in s2 = k_in s1 -> go_loop fuel E name gf s2 = KRet u s' ->
     (k_size s', k_flags s') = (k_size s2, k_flags s2) /\ k_in s1 <> [] \/ announced_in (k_in s) (k_size s') (k_flags s')).
  { intros s2 H2 Hg. destruct (k_in s1) as [|x l] eqn:E1; [now apply go_empty in Hg|]. rewrite <- E1 in *. rewrite <- H2 in B1.
    assert (Hne : k_in s1 <> []) by (rewrite E1; discriminate).
    destruct (IH _ _ _ _ _ _ B1 Hg) as [Heq|Han]; [left; split; [exact Heq|exact Hne]|right].
    destruct (Hin1 Hne) as (p & Hp & _). rewrite Hin, Hp. rewrite H2 in Han. set (h := REPLY_MAGIC ++ opt ++ be 4 (r_type r) ++ be 4 (r_size r) ++ p).
    replace (REPLY_MAGIC ++ opt ++ be 4 (r_type r) ++ be 4 (r_size r) ++ p ++ k_in s1) with (h ++ k_in s1) by (subst h; now rewrite <- !app_assoc).
    destruct Han as [(pre & o & len & rest & Hl & Hq)|(pre & o & len & d' & rest & Hl & Hd' & Hq)]; [left|right].
    - exists (h ++ pre), o, len, rest. split; [exact Hl|]. now rewrite Hq, <- app_assoc.
    - exists (h ++ pre), o, len, d', rest. split; [exact Hl|]. split; [exact Hd'|]. now rewrite Hq, <- app_assoc. }
  rewrite (flag31 _ Ht) in Hb. destruct (Z.leb_spec (2 ^ 31) (r_type r)) as [Herr|Herr].
  - destruct (r_type r =? REP_ERR_UNSUP) eqn:Eu.
    + right. right. apply Z.eqb_eq in Eu. destruct (exportname_sound _ _ _ _ _ _ B1 Hb) as (rest & Hrest).
      assert (Hne : k_in s1 <> []) by (rewrite Hrest; intros Hx; apply (f_equal (@length Z)) in Hx; rewrite app_length, be_length in Hx; discriminate).
      destruct (Hin1 Hne) as (p & Hp & Hlp & _). exists [], opt, (r_size r), p, rest.
      split; [exact Lo|]. split; [exact Hlp|]. rewrite Hin, Hp, Hrest, Eu. reflexivity.
    + destruct (r_type r =? REP_ERR_POLICY); now apply said_ret in Hb.
  - destruct (r_type r =? REP_INFO) eqn:Ei.
    + apply Z.eqb_eq in Ei. destruct (zlen (r_data r) <? 2); [discriminate|].
      destruct (unbe _ =? INFO_EXPORT) eqn:Ee.
      * destruct (zlen (r_data r) <? 12) eqn:E12; [discriminate|]. apply Z.ltb_ge in E12.
        unfold parse_sizes, kset in Hb. unfold kbind at 1 in Hb.
        assert (HM := fun H => More _ H Hb). destruct (HM eq_refl) as [[Heq Hne]|Han]; [|right; exact Han]. right. left. cbn [k_size k_flags] in Heq.
        assert (Hsz2 : k_size s' = unbe (firstn 8 (skipn 2 (r_data r))) /\ k_flags s' = unbe (firstn 2 (skipn 8 (skipn 2 (r_data r)))))
          by (split; congruence). clear Heq. destruct Hsz2 as [-> ->].
        destruct (Hin1 Hne) as (p & Hp & Hlp & ->).
        rewrite Hp in Bd. apply Forall_app in Bd. destruct Bd as [Bp _].
        set (D := r_data r) in *. clearbody D.
        assert (HD : D = [0; 0] ++ be 8 (unbe (firstn 8 (skipn 2 D))) ++ be 2 (unbe (firstn 2 (skipn 8 (skipn 2 D)))) ++ skipn 12 D).
        { destruct D as [|x [|y t]]; [unfold zlen in E12; cbn [length] in E12; lia|unfold zlen in E12; cbn [length] in E12; lia|].
          apply byte_cons in Bp. destruct Bp as [Bx Bp]. apply byte_cons in Bp. destruct Bp as [By Bp].
          apply Z.eqb_eq in Ee. cbn [firstn] in Ee. unfold unbe in Ee. cbn [unbe_acc] in Ee. unfold INFO_EXPORT in Ee.
          assert (x = 0) by lia. assert (y = 0) by lia. subst x y. cbn [skipn app]. f_equal. f_equal.
          assert (Lt : (10 <= length t)%nat) by (unfold zlen in E12; cbn [length] in E12; lia).
          rewrite <- (firstn_skipn 10 t) at 1.
          assert (L10 : zlen (firstn 10 t) = 10) by (unfold zlen; rewrite firstn_length; lia).
          rewrite (split10 (firstn 10 t) L10) by (rewrite <- (firstn_skipn 10 t) in Bp; apply Forall_app in Bp; tauto).
          rewrite <- app_assoc. do 10 (destruct t as [|? t]; [cbn [length] in Lt; lia|]). reflexivity. }
        exists [], opt, (r_size r), (skipn 12 D ++ k_in s1). split; [exact Lo|].
        rewrite Hin, Hp, Ei. rewrite HD at 1. change (be 4 REP_INFO) with [0; 0; 0; 3]. now rewrite <- !app_assoc.
      * destruct (More s1 eq_refl Hb) as [[Heq _]|]; [|auto]. destruct Hsz as [<- <-]. auto.
    + destruct (r_type r =? REP_ACK) eqn:Ek.
      * injection Hb as _ <-. left. destruct Hsz as [-> ->]. reflexivity.
      * destruct (More s1 eq_refl Hb) as [[Heq _]|]; [|auto]. destruct Hsz as [<- <-]. auto.
Qed.

(** ** a well-behaved server *)
Lemma readit_app old a l n s : k_in s = a ++ l -> zlen a = n ->
  kreadit_on old n s = KRet (true, a) (with_in l (S (k_reads s)) s).
Proof.
  intros Hin <-. unfold kreadit_on. rewrite Hin.
  destruct (Z.leb_spec (zlen a) (zlen (a ++ l))) as [_|H]; [|unfold zlen in H; rewrite app_length in H; lia].
  replace (Z.to_nat (zlen a)) with (length a + 0)%nat by (unfold zlen; lia).
  rewrite firstn_app_2, skipn_app, skipn_all2, Nat.add_0_r, Nat.sub_diag by lia. cbn [firstn skipn app]. rewrite app_nil_r. reflexivity.
Qed.
Lemma readit_bind {A} E n (f : bool * list Z -> K A) a l s : k_in s = a ++ l -> zlen a = n ->
  kbind (kreadit E n) f s = f (true, a) (with_in l (S (k_reads s)) s).
Proof. intros H L. unfold kbind, kreadit. now rewrite (readit_app _ a l n s H L). Qed.

Lemma read_reply_app E s o t d rest : k_in s = reply o t d ++ rest -> 0 <= t < 2 ^ 32 -> zlen d < 4096 ->
  exists n, read_reply E s = KRet (Some (mkR t (zlen d) d)) (with_in rest n s).
Proof.
  intros Hin Ht Hd. unfold read_reply. unfold reply in Hin.
  set (h := REPLY_MAGIC ++ be 4 o ++ be 4 t ++ be 4 (zlen d)).
  assert (Hin' : k_in s = h ++ d ++ rest) by (rewrite Hin; subst h; now rewrite <- !app_assoc).
  assert (Lh : zlen h = 20) by (subst h; unfold zlen; rewrite !app_length, !be_length; reflexivity).
  rewrite (readit_bind E 20 _ h (d ++ rest) s Hin' Lh). cbn [fst snd negb].
  assert (H0 : 0 <= zlen d) by apply zlen_nonneg.
  assert (Hm : unbe (firstn 8 h) =? NBD_OPT_REPLY_MAGIC = true) by (subst h; cbn [app firstn REPLY_MAGIC]; reflexivity).
  assert (Hs16 : skipn 16 h = be 4 (zlen d)).
  { subst h. replace (REPLY_MAGIC ++ be 4 o ++ be 4 t ++ be 4 (zlen d)) with ((REPLY_MAGIC ++ be 4 o ++ be 4 t) ++ be 4 (zlen d)) by now rewrite <- !app_assoc.
    rewrite skipn_app, skipn_all2 by (rewrite !app_length, !be_length; cbn; lia). rewrite !app_length, !be_length. reflexivity. }
  assert (Hs12 : firstn 4 (skipn 12 h) = be 4 t).
  { subst h. replace (REPLY_MAGIC ++ be 4 o ++ be 4 t ++ be 4 (zlen d)) with ((REPLY_MAGIC ++ be 4 o) ++ be 4 t ++ be 4 (zlen d)) by now rewrite <- !app_assoc.
    rewrite skipn_app, skipn_all2 by (rewrite !app_length, !be_length; cbn; lia). rewrite !app_length, !be_length. cbn [length REPLY_MAGIC plus minus skipn app].
    rewrite firstn_app, firstn_all2, be_length by (rewrite be_length; lia). cbn [minus firstn]. apply app_nil_r. }
  rewrite Hm, Hs16, Hs12, !unbe_be. cbn [negb]. change (2 ^ (8 * Z.of_nat 4)) with (2 ^ 32).
  rewrite !Z.mod_small by lia. set (s1 := with_in (d ++ rest) (S (k_reads s)) s).
  destruct (0 <? zlen d) eqn:E0; cbn [andb].
  - destruct (Z.ltb_spec (zlen d) 4096) as [_|]; [|lia].
    rewrite (readit_bind E (zlen d) _ d rest s1 eq_refl eq_refl). cbn [snd kret]. eexists. reflexivity.
  - apply Z.ltb_ge in E0. destruct d; [|unfold zlen in E0; cbn [length] in E0; lia]. cbn [app]. eexists. reflexivity.
Qed.

Lemma flag31_small t : 0 <= t < 2 ^ 31 -> flag t 2147483648 = false.
Proof. intros H. rewrite flag31 by (change (2 ^ 31) with 2147483648 in H; change (2 ^ 32) with 4294967296; lia). apply Z.leb_gt. lia. Qed.

Lemma go_over E name gf : forall rs fuel s rest, k_in s = msgs rs ++ rest -> (length rs <= fuel)%nat ->
  Forall (fun r : Z * Z * list Z => digestible (snd (fst r)) (snd r)) rs ->
  exists n z w, go_loop fuel E name gf s = go_loop (fuel - length rs) E name gf (mkK rest (k_tin s) (k_sec s) (k_out s) n z w) /\
    (Forall (fun r : Z * Z * list Z => announces_nothing (snd (fst r)) (snd r)) rs -> z = k_size s /\ w = k_flags s).
Proof.
  induction rs as [|[[o t] d] rs IH]; intros fuel s rest Hin Hf HF.
  - cbn in Hin. exists (k_reads s), (k_size s), (k_flags s). rewrite <- Hin. cbn [length]. rewrite Nat.sub_0_r. destruct s. auto.
  - destruct fuel as [|fuel]; [cbn in Hf; lia|]. inversion HF as [|x y Hd HF']; subst. cbn [fst snd] in Hd.
    assert (Hin' : k_in s = reply o t d ++ msgs rs ++ rest) by (rewrite Hin; unfold msgs; cbn [map concat]; now rewrite <- app_assoc).
    assert (Hb : 0 <= t < 2 ^ 31 /\ zlen d < 4096).
    { destruct Hd as [(H1 & H2 & _)|(-> & H2 & _)]; [auto|]. split; [cbn; lia|exact H2]. }
    destruct Hb as [Ht Hz].
    destruct (read_reply_app E s o t d (msgs rs ++ rest) Hin') as (n & Hr); [change (2 ^ 31) with 2147483648 in Ht; change (2 ^ 32) with 4294967296; lia|exact Hz|].
    rewrite go_unfold. unfold kbind at 1. rewrite Hr. cbn [go_step r_type r_data].
    rewrite (flag31_small t Ht). set (s1 := with_in (msgs rs ++ rest) n s).
    assert (Go : forall s2, k_in s2 = msgs rs ++ rest -> k_tin s2 = k_tin s -> k_sec s2 = k_sec s -> k_out s2 = k_out s ->
       exists n z w, go_loop fuel E name gf s2 = go_loop (fuel - length rs) E name gf (mkK rest (k_tin s) (k_sec s) (k_out s) n z w) /\
         (Forall (fun r : Z * Z * list Z => announces_nothing (snd (fst r)) (snd r)) rs -> z = k_size s2 /\ w = k_flags s2)).
    { intros s2 H2 Ht2 Hs2 Ho2. destruct (IH fuel s2 rest H2) as (n' & z & w & Hg & Hk); [cbn in Hf; lia|exact HF'|].
      exists n', z, w. rewrite Ht2, Hs2, Ho2 in Hg. auto. }
    assert (Plain : exists n z w, go_loop fuel E name gf s1 = go_loop (S fuel - length ((o, t, d) :: rs)) E name gf (mkK rest (k_tin s) (k_sec s) (k_out s) n z w) /\
         (Forall (fun r : Z * Z * list Z => announces_nothing (snd (fst r)) (snd r)) ((o, t, d) :: rs) -> z = k_size s /\ w = k_flags s)).
    { destruct (Go s1) as (n' & z & w & Hg & Hk); try reflexivity. exists n', z, w. split; [exact Hg|].
      intros HA. inversion HA; subst. auto. }
    destruct (t =? REP_INFO) eqn:Ei.
    + destruct Hd as [(_ & _ & [(_ & a & b & tl & -> & Hab & Ba & Bb)|[Hn _]])|(_ & _ & sz & fl & more & ->)].
      * destruct (Z.ltb_spec (zlen (a :: b :: tl)) 2) as [Hl|_]; [unfold zlen in Hl; cbn [length] in Hl; lia|].
        cbn [firstn]. destruct (unbe [a; b] =? INFO_EXPORT) eqn:Ee; [|exact Plain].
        exfalso. apply Z.eqb_eq in Ee. unfold unbe in Ee. cbn [unbe_acc] in Ee. unfold is_byte, INFO_EXPORT in *. apply Hab.
        f_equal; [lia|f_equal; lia].
      * apply Z.eqb_eq in Ei. unfold REP_INFO in Ei. contradiction.
      * unfold export_info. set (D := ([0; 0] ++ be 8 sz ++ be 2 fl) ++ more) in *.
        assert (HL : 12 <= zlen D) by (subst D; unfold zlen; rewrite !app_length, !be_length; cbn [length]; lia).
        destruct (Z.ltb_spec (zlen D) 2); [lia|]. replace (firstn 2 D) with [0; 0] by reflexivity.
        change (unbe [0; 0] =? INFO_EXPORT) with true. cbv iota. destruct (Z.ltb_spec (zlen D) 12); [lia|].
        unfold parse_sizes, kset. unfold kbind at 1. cbv beta iota.
        match goal with |- exists n z w, go_loop fuel E name gf ?s2 = _ /\ _ => destruct (Go s2) as (n' & z & w & Hg & Hk); try reflexivity end.
        exists n', z, w. split; [exact Hg|]. intros HA. exfalso. inversion HA as [|x y HA1 HA2]; subst. cbn [fst snd] in HA1.
        destruct HA1 as (_ & _ & [(_ & a & b & tl & He & Hab & _)|[Hn _]]).
        -- subst D. cbn [app] in He. injection He as <- <- _. contradiction.
        -- apply Z.eqb_eq in Ei. unfold REP_INFO in Ei. contradiction.
    + destruct (t =? REP_ACK) eqn:Ek; [|exact Plain]. exfalso. apply Z.eqb_eq in Ek. unfold REP_ACK in Ek. subst t.
      destruct Hd as [(_ & _ & [(Hx & _)|[_ Hx]])|(Hx & _)]; try lia.
Qed.

Lemma go_one E name gf fuel s o size flags more rest : k_in s = reply o 3 (export_info size flags ++ more) ++ rest ->
  zlen (export_info size flags ++ more) < 4096 -> 0 <= size < 2 ^ 64 -> 0 <= flags < 2 ^ 16 ->
  exists n, go_loop (S fuel) E name gf s = go_loop fuel E name gf (mkK rest (k_tin s) (k_sec s) (k_out s) n size flags).
Proof.
  intros Hin Hl Hz Hw. destruct (read_reply_app E s o 3 _ rest Hin) as (n & Hr); [lia|exact Hl|].
  rewrite go_unfold. unfold kbind at 1. rewrite Hr. cbn [go_step r_type r_data]. change (flag 3 2147483648) with false.
  change (3 =? REP_INFO) with true. cbv iota. unfold export_info. set (D := ([0; 0] ++ be 8 size ++ be 2 flags) ++ more) in *.
  assert (HL : 12 <= zlen D) by (subst D; unfold zlen; rewrite !app_length, !be_length; cbn [length]; lia).
  destruct (Z.ltb_spec (zlen D) 2); [lia|]. replace (firstn 2 D) with [0; 0] by reflexivity.
  change (unbe [0; 0] =? INFO_EXPORT) with true. cbv iota. destruct (Z.ltb_spec (zlen D) 12); [lia|].
  unfold parse_sizes, kset. unfold kbind at 1. cbv beta iota. subst D. cbn [app with_in k_in k_tin k_sec k_out k_reads]. change (skipn 2 (0 :: 0 :: ?l)) with l.
  exists n. f_equal. rewrite <- app_assoc.
  assert (F8 : firstn 8 (be 8 size ++ be 2 flags ++ more) = be 8 size).
  { rewrite firstn_app, firstn_all2, be_length by (rewrite be_length; lia). cbn [Nat.sub firstn]. apply app_nil_r. }
  assert (F2 : firstn 2 (skipn 8 (be 8 size ++ be 2 flags ++ more)) = be 2 flags).
  { rewrite skipn_app, skipn_all2, be_length by (rewrite be_length; lia). cbn [Nat.sub skipn app].
    rewrite firstn_app, firstn_all2, be_length by (rewrite be_length; lia). cbn [Nat.sub firstn]. apply app_nil_r. }
  rewrite F8, F2, !unbe_be. change (8 * Z.of_nat 8) with 64. change (8 * Z.of_nat 2) with 16. now rewrite !Z.mod_small by lia.
Qed.
Lemma go_ack E name gf fuel s o d rest : k_in s = reply o 1 d ++ rest -> zlen d < 4096 ->
  exists n, go_loop (S fuel) E name gf s = KRet tt (with_in rest n s).
Proof.
  intros Hin Hl. destruct (read_reply_app E s o 1 _ rest Hin) as (n & Hr); [lia|exact Hl|].
  rewrite go_unfold. unfold kbind at 1. rewrite Hr. exists n. reflexivity.
Qed.

Lemma flag_2 gf : 0 <= gf < 65536 -> flag gf FLAG_NO_ZEROES = Z.testbit gf 1.
Proof.
  intros H. unfold flag, FLAG_NO_ZEROES. change 2 with (2 ^ 1) at 1.
  replace (Z.land gf (2 ^ 1)) with (if Z.testbit gf 1 then 2 else 0); [destruct (Z.testbit gf 1); reflexivity|].
  apply Z.bits_inj'. intros n Hn. rewrite Z.land_spec, Z.pow2_bits_eqb by lia.
  destruct (Z.eqb_spec 1 n) as [<-|Hne]; [rewrite andb_true_r; destruct (Z.testbit gf 1); reflexivity|].
  rewrite andb_false_r. destruct (Z.testbit gf 1); [|apply Z.bits_0].
  change 2 with (2 ^ 1). rewrite Z.pow2_bits_eqb by lia. destruct (Z.eqb_spec 1 n); [contradiction|reflexivity].
Qed.

Lemma nego_start fuel E g gf plain tls stream : serves E g gf stream plain tls ->
  exists s, knegotiate fuel E g (kstart plain tls) = after_tls fuel E g gf s /\ k_in s = stream /\ all_sent s = hello g gf /\
    k_size s = 0 /\ k_flags s = 0 /\ k_sec s = g_tls g.
Proof.
  intros (Hgf & Hn & _ & HS). rewrite negotiate_eq. unfold kgreeted.
  set (tail := if g_tls g then reply 5 1 [] else stream).
  assert (Hp : plain = greeting gf ++ tail) by (subst tail; destruct (g_tls g); [destruct HS as (_ & _ & -> & _); reflexivity|exact HS]).
  assert (Ht : g_tls g = true -> tls = stream) by (intros Hg; rewrite Hg in HS; now destruct HS as (_ & _ & _ & ->)).
  set (s0 := kstart plain tls). unfold kbind at 1.
  rewrite (readit_app (repeat 0 8) [0x4e; 0x42; 0x44; 0x4d; 0x41; 0x47; 0x49; 0x43] (IHAVEOPT ++ be 2 gf ++ tail) 8 s0);
    [|subst s0; cbn [kstart k_in]; rewrite Hp; unfold greeting; now rewrite <- !app_assoc|reflexivity].
  cbv beta iota. cbn [snd]. replace (negb _) with false by (vm_compute; reflexivity). cbv iota.
  set (s1 := with_in _ _ s0).
  rewrite (readit_bind E 8 _ IHAVEOPT (be 2 gf ++ tail) s1 eq_refl eq_refl). cbn [snd].
  replace (unbe IHAVEOPT =? CLISERV_MAGIC) with false by (vm_compute; reflexivity). cbv iota.
  set (s2 := with_in _ _ s1). rewrite (readit_bind E 2 _ (be 2 gf) tail s2 eq_refl) by (unfold zlen; now rewrite be_length). cbn [snd].
  rewrite unbe_be. change (2 ^ (8 * Z.of_nat 2)) with 65536. rewrite Z.mod_small by lia. rewrite Hn, Z.eqb_refl. cbn [negb].
  rewrite flag_2 by lia. set (cf := be 4 _). set (s3 := with_in _ _ s2).
  set (s4 := mkK tail tls false [(false, cf)] (k_reads s3) 0 0).
  match goal with |- exists s, (ksend cf ;;; ?c) s3 = _ /\ _ => change ((ksend cf ;;; c) s3) with (c s4) end.
  assert (Hsent : all_sent s4 = be 4 (if Z.testbit gf 1 then Z.lor (g_cflags g) 2 else g_cflags g)).
  { unfold all_sent, s4. cbn [k_out map concat snd]. apply app_nil_r. }
  destruct (g_tls g) eqn:Eg.
  - destruct HS as (F & Et & _ & _). unfold kbind at 1.
    assert (Hst : exists n, kstarttls E s4 = KRet tt (mkK tls [] true ([(false, cf)] ++ [(false, starttls_request)]) n 0 0)).
    { unfold kstarttls, send_request. replace (opt_head OPT_STARTTLS 0) with starttls_request by (vm_compute; reflexivity).
      set (s5 := mkK tail tls false ([(false, cf)] ++ [(false, starttls_request)]) (k_reads s3) 0 0).
      match goal with |- exists n, (ksend _ ;;; ?c) s4 = _ => change ((ksend starttls_request ;;; c) s4) with (c s5) end.
      assert (Rd : forall (A : Type) old n (f : Z * list Z -> K A) a l s, k_in s = a ++ l -> zlen a = n -> length old = length a -> n <= 1024 ->
         kbind (kread_on E old n) f s = f (n, a) (with_in l (S (k_reads s)) s)).
      { intros A old n f a l s Hin La Lold Hle. destruct (full_read E old n s F) as (a' & l' & Hr & Hin' & La' & Lt');
          [rewrite <- La in *; split; [apply zlen_nonneg|exact Hle]|].
        assert (a' = a /\ l' = l).
        { rewrite Hin in Hin'. assert (zlen a' = n).
          { destruct (Z.lt_ge_cases (zlen a') n) as [Hlt|]; [|lia]. specialize (Lt' Hlt). subst l'.
            apply (f_equal (@length Z)) in Hin'. rewrite !app_length in Hin'. cbn [length] in Hin'. unfold zlen in *. lia. }
          symmetry in Hin'. apply app_eq_len in Hin'; [exact Hin'|unfold zlen in *; lia]. }
        destruct H as [-> ->]. unfold kbind. rewrite Hr. rewrite <- Lold, skipn_all, app_nil_r, La. reflexivity. }
      change (kbind (kread E 8) ?f s5) with (kbind (kread_on E (junk E s5 8) 8) f s5).
      rewrite (Rd _ (junk E s5 8) 8 _ REPLY_MAGIC (be 4 5 ++ be 4 1 ++ be 4 0) s5 eq_refl eq_refl) by (try (now rewrite junk_length); lia).
      cbn [fst snd]. change (8 <? 0) with false. replace (unbe REPLY_MAGIC =? NBD_OPT_REPLY_MAGIC) with true by (vm_compute; reflexivity). cbn [negb].
      set (s6 := with_in _ _ s5). change (kbind (kread E 4) ?f s6) with (kbind (kread_on E (junk E s6 4) 4) f s6).
      rewrite (Rd _ (junk E s6 4) 4 _ (be 4 5) (be 4 1 ++ be 4 0) s6 eq_refl eq_refl) by (try (now rewrite junk_length); lia).
      cbn [fst snd]. change (4 <? 0) with false. replace (unbe (be 4 5) =? OPT_STARTTLS) with true by (vm_compute; reflexivity). cbn [negb].
      set (s7 := with_in _ _ s6). rewrite (Rd _ _ 4 _ (be 4 1) (be 4 0) s7 eq_refl eq_refl) by (try (now rewrite le_length); lia).
      cbn [fst snd]. change (4 <? 0) with false. replace (unbe (be 4 1) =? REP_ACK) with true by (vm_compute; reflexivity). cbn [negb].
      set (s8 := with_in _ _ s7). rewrite (Rd _ _ 4 _ (be 4 0) [] s8 eq_refl eq_refl) by (try (now rewrite le_length); lia).
      cbn [fst snd]. change (4 <? 0) with false. replace (unbe (be 4 0) =? 0) with true by (vm_compute; reflexivity). cbn [negb].
      rewrite Et. eexists. reflexivity. }
    destruct Hst as (n & ->). eexists. split; [reflexivity|]. cbn [k_in k_size k_flags k_sec]. split; [auto|]. split; [|auto].
    unfold all_sent, hello. cbn [k_out app map concat snd]. rewrite Eg. subst cf. reflexivity.
  - unfold kbind at 1. cbn [kret]. exists s4. split; [reflexivity|]. split; [reflexivity|]. split; [|auto].
    rewrite Hsent. unfold hello. rewrite Eg. now rewrite app_nil_r.
Qed.

Lemma sent_push s b x : all_sent s = x -> all_sent (mkK (k_in s) (k_tin s) (k_sec s) (k_out s ++ [(k_sec s, b)]) (k_reads s) (k_size s) (k_flags s)) = x ++ b.
Proof. intros <-. unfold all_sent. cbn [k_out]. rewrite map_app, concat_app. cbn [map concat snd]. now rewrite app_nil_r. Qed.

(** GO *)
Lemma client_go fuel E g gf plain tls stream : serves E g gf stream plain tls -> g_list g = false -> g_no_optgo g = false ->
  exists s, knegotiate fuel E g (kstart plain tls) = go_loop fuel E (g_name g) gf s /\ k_in s = stream /\
    all_sent s = hello g gf ++ go_request (g_name g) /\ k_size s = 0 /\ k_flags s = 0 /\ k_sec s = g_tls g.
Proof.
  intros HS Hl Hn. pose proof HS as (_ & _ & Hname & _). destruct (nego_start fuel E g gf plain tls stream HS) as (s & -> & Hin & Hsent & Hz & Hw & Hsec).
  unfold after_tls. rewrite Hl, Hn. unfold send_info_request, send_request.
  pose proof (zlen_nonneg (g_name g)) as Hp. change (2 ^ 32 - 6) with 4294967290 in Hname.
  eexists. split; [reflexivity|]. cbn [k_in k_size k_flags k_sec]. split; [exact Hin|]. split; [|auto].
  pose proof (sent_push s (opt_head OPT_GO (4 + zlen (g_name g) + 2)) _ Hsent) as H1.
  pose proof (sent_push _ (be 4 (u32 (zlen (g_name g)))) _ H1) as H2. cbn [k_in k_tin k_sec k_out k_reads k_size k_flags] in H2.
  pose proof (sent_push _ (g_name g) _ H2) as H3. cbn [k_in k_tin k_sec k_out k_reads k_size k_flags] in H3.
  pose proof (sent_push _ (be 2 0) _ H3) as H4. cbn [k_in k_tin k_sec k_out k_reads k_size k_flags] in H4.
  cbn [k_in k_tin k_sec k_out k_reads k_size k_flags]. rewrite H4. unfold go_request, opt_head.
  unfold u32. rewrite !Z.mod_small by lia. replace (4 + zlen (g_name g) + 2) with (zlen (g_name g) + 6) by lia.
  change (be 8 OPTS_MAGIC) with IHAVEOPT. change (be 4 OPT_GO) with [0; 0; 0; 7]. change (be 2 0) with [0; 0].
  now rewrite <- !app_assoc.
Qed.

Lemma client_go_result fuel E g gf plain tls rs1 rs2 o size flags more o' ack rest :
  serves E g gf (msgs rs1 ++ reply o 3 (export_info size flags ++ more) ++ msgs rs2 ++ reply o' 1 ack ++ rest) plain tls ->
  g_list g = false -> g_no_optgo g = false ->
  Forall (fun r : Z * Z * list Z => digestible (snd (fst r)) (snd r)) rs1 ->
  Forall (fun r : Z * Z * list Z => announces_nothing (snd (fst r)) (snd r)) rs2 ->
  zlen (export_info size flags ++ more) < 4096 -> zlen ack < 4096 -> 0 <= size < 2 ^ 64 -> 0 <= flags < 2 ^ 16 ->
  (length rs1 + length rs2 + 2 <= fuel)%nat ->
  exists s, knegotiate fuel E g (kstart plain tls) = KRet tt s /\ k_size s = size /\ k_flags s = flags /\ k_in s = rest /\
    all_sent s = hello g gf ++ go_request (g_name g) /\ k_sec s = g_tls g.
Proof.
  intros HS Hl Hn F1 F2 Hm Ha Hz Hw Hf.
  destruct (client_go fuel E g gf plain tls _ HS Hl Hn) as (s & -> & Hin & Hsent & _ & _ & Hsec).
  destruct (go_over E (g_name g) gf rs1 fuel s _ Hin) as (n1 & z1 & w1 & -> & _); [lia|exact F1|].
  set (s1 := mkK _ _ _ _ n1 z1 w1). replace (fuel - length rs1)%nat with (S (fuel - length rs1 - 1)) by lia.
  destruct (go_one E (g_name g) gf (fuel - length rs1 - 1) s1 o size flags more _ eq_refl Hm Hz Hw) as (n2 & ->).
  set (s2 := mkK _ _ _ _ n2 size flags).
  destruct (go_over E (g_name g) gf rs2 (fuel - length rs1 - 1) s2 _ eq_refl) as (n3 & z3 & w3 & -> & Hk); [lia| |].
  { eapply Forall_impl; [|exact F2]. intros r Hr. left. exact Hr. }
  destruct (Hk F2) as [-> ->]. set (s3 := mkK _ _ _ _ n3 _ _).
  replace (fuel - length rs1 - 1 - length rs2)%nat with (S (fuel - length rs1 - 1 - length rs2 - 1)) by lia.
  destruct (go_ack E (g_name g) gf (fuel - length rs1 - 1 - length rs2 - 1) s3 o' ack rest eq_refl Ha) as (n4 & ->).
  eexists. split; [reflexivity|]. repeat split; auto.
Qed.

(** EXPORT_NAME *)
Lemma exportname_result E b name gf s size flags zeroes rest : k_in s = be 8 size ++ be 2 flags ++ zeroes ++ rest ->
  zlen zeroes = (if Z.testbit gf 1 then 0 else 124) -> 0 <= gf < 65536 -> 0 <= size < 2 ^ 64 -> 0 <= flags < 2 ^ 16 -> zlen name < 2 ^ 32 ->
  exists s', send_opt_exportname E b name gf s = KRet tt s' /\ k_size s' = size /\ k_flags s' = flags /\ k_in s' = rest /\
    all_sent s' = all_sent s ++ export_name_request name /\ k_sec s' = k_sec s.
Proof.
  intros Hin Hlz Hgf Hz Hw Hnm. unfold send_opt_exportname.
  set (s1 := mkK (k_in s) (k_tin s) (k_sec s)
     ((k_out s ++ [(k_sec s, opt_head OPT_EXPORT_NAME (zlen name))]) ++ [(k_sec s, name)]) (k_reads s) (k_size s) (k_flags s)).
  match goal with |- exists s', (_ ;;; _ ;;; ?c) s = _ /\ _ => change ((ksend (opt_head OPT_EXPORT_NAME (zlen name)) ;;; ksend name ;;; c) s) with (c s1) end.
  assert (Hsent : all_sent s1 = all_sent s ++ export_name_request name).
  { unfold all_sent. subst s1. cbn [k_out]. rewrite !map_app, !concat_app. cbn [map concat snd]. rewrite !app_nil_r, <- app_assoc. f_equal.
    unfold opt_head, export_name_request. unfold u32. change (2 ^ 32) with 4294967296 in *. pose proof (zlen_nonneg name). rewrite Z.mod_small by lia.
    change (be 8 OPTS_MAGIC) with IHAVEOPT. change (be 4 OPT_EXPORT_NAME) with [0; 0; 0; 1]. now rewrite <- !app_assoc. }
  rewrite (readit_bind E 10 _ (be 8 size ++ be 2 flags) (zeroes ++ rest) s1); [|change (k_in s1) with (k_in s); rewrite Hin, <- app_assoc; reflexivity|unfold zlen; rewrite app_length, !be_length; reflexivity].
  cbn [fst snd negb andb]. unfold parse_sizes, kset. unfold kbind at 1. cbv beta iota.
  assert (F8 : firstn 8 (be 8 size ++ be 2 flags) = be 8 size).
  { rewrite firstn_app, firstn_all2, be_length by (rewrite be_length; lia). cbn [Nat.sub firstn]. apply app_nil_r. }
  assert (F2 : firstn 2 (skipn 8 (be 8 size ++ be 2 flags)) = be 2 flags).
  { rewrite skipn_app, skipn_all2, be_length by (rewrite be_length; lia). cbn [Nat.sub skipn app]. apply firstn_all2. rewrite be_length. lia. }
  rewrite F8, F2, !unbe_be. change (8 * Z.of_nat 8) with 64. change (8 * Z.of_nat 2) with 16. rewrite !Z.mod_small by lia.
  rewrite flag_2 by exact Hgf. destruct (Z.testbit gf 1).
  - destruct zeroes; [|unfold zlen in Hlz; cbn [length] in Hlz; lia]. eexists. split; [reflexivity|]. cbn [k_size k_flags k_in k_sec with_in app].
    repeat split; auto.
  - set (s2 := mkK _ _ _ _ _ _ _). rewrite (readit_bind E 124 _ zeroes rest s2 eq_refl Hlz). eexists. split; [reflexivity|]. repeat split; auto.
Qed.

Lemma client_name_result fuel E g gf plain tls size flags zeroes rest :
  serves E g gf (be 8 size ++ be 2 flags ++ zeroes ++ rest) plain tls -> g_list g = false -> g_no_optgo g = true ->
  zlen zeroes = (if Z.testbit gf 1 then 0 else 124) -> 0 <= size < 2 ^ 64 -> 0 <= flags < 2 ^ 16 ->
  exists s, knegotiate fuel E g (kstart plain tls) = KRet tt s /\ k_size s = size /\ k_flags s = flags /\ k_in s = rest /\
    all_sent s = hello g gf ++ export_name_request (g_name g) /\ k_sec s = g_tls g.
Proof.
  intros HS Hl Hn Hz0 Hz Hw. pose proof HS as (Hgf & _ & Hname & _).
  destruct (nego_start fuel E g gf plain tls _ HS) as (s & -> & Hin & Hsent & _ & _ & Hsec).
  unfold after_tls. rewrite Hl, Hn.
  destruct (exportname_result E true (g_name g) gf s size flags zeroes rest Hin Hz0 Hgf Hz Hw) as (s' & Hr & H1 & H2 & H3 & H4 & H5); [lia|].
  exists s'. rewrite Hr, <- Hsent. repeat split; auto. congruence.
Qed.

Lemma client_fallback_result fuel E g gf plain tls rs o d size flags zeroes rest :
  serves E g gf (msgs rs ++ reply o (2 ^ 31 + 1) d ++ be 8 size ++ be 2 flags ++ zeroes ++ rest) plain tls -> g_list g = false -> g_no_optgo g = false ->
  Forall (fun r : Z * Z * list Z => digestible (snd (fst r)) (snd r)) rs -> zlen d < 4096 -> (length rs < fuel)%nat ->
  zlen zeroes = (if Z.testbit gf 1 then 0 else 124) -> 0 <= size < 2 ^ 64 -> 0 <= flags < 2 ^ 16 ->
  exists s, knegotiate fuel E g (kstart plain tls) = KRet tt s /\ k_size s = size /\ k_flags s = flags /\ k_in s = rest /\
    all_sent s = hello g gf ++ go_request (g_name g) ++ export_name_request (g_name g) /\ k_sec s = g_tls g.
Proof.
  intros HS Hl Hn F1 Hd Hf Hz0 Hz Hw. pose proof HS as (Hgf & _ & Hname & _).
  destruct (client_go fuel E g gf plain tls _ HS Hl Hn) as (s & -> & Hin & Hsent & _ & _ & Hsec).
  destruct (go_over E (g_name g) gf rs fuel s _ Hin) as (n1 & z1 & w1 & -> & _); [lia|exact F1|].
  set (s1 := mkK _ _ _ _ n1 z1 w1). replace (fuel - length rs)%nat with (S (fuel - length rs - 1)) by lia.
  destruct (read_reply_app E s1 o (2 ^ 31 + 1) d _ eq_refl) as (n2 & Hr); [cbn; lia|exact Hd|].
  rewrite go_unfold. unfold kbind at 1. rewrite Hr. cbn [go_step r_type r_data].
  change (flag (2 ^ 31 + 1) 2147483648) with true. change (2 ^ 31 + 1 =? REP_ERR_UNSUP) with true. cbv iota.
  set (s2 := with_in _ n2 s1).
  destruct (exportname_result E false (g_name g) gf s2 size flags zeroes rest eq_refl Hz0 Hgf Hz Hw) as (s' & -> & H1 & H2 & H3 & H4 & H5); [lia|].
  exists s'. repeat split; auto.
  - rewrite H4. change (all_sent s2) with (all_sent s). rewrite Hsent. now rewrite <- app_assoc.
  - rewrite H5. exact Hsec.
Qed.

(** the greeting only moves along the stream *)
Lemma greeted_along E g rest s u s' : kgreeted E g rest s = KRet u s' -> Forall is_byte (k_in s) ->
  exists s1 cf gf, kgreeted E g rest s = (ksend (be 4 cf) ;;; rest gf) s1 /\ along s s1 /\ k_tin s1 = k_tin s /\ k_size s1 = k_size s /\ k_flags s1 = k_flags s /\ k_sec s1 = k_sec s.
Proof.
  intros H B. unfold kgreeted in *.
  destruct (readit_on_along (repeat 0 8) 8 s) as (r1 & l1 & a1 & H1 & E1 & N1 & Y1). unfold kbind at 1 in H. unfold kbind at 1. rewrite H1 in *. cbv beta iota in *. clear H1.
  destruct (negb _) in *; [discriminate|]. set (s1 := mkK l1 _ _ _ _ _ _) in *.
  change (kbind (kreadit E 8) ?f s1) with (kbind (kreadit_on (junk E s1 8) 8) f s1) in *.
  destruct (readit_on_along (junk E s1 8) 8 s1) as (r2 & l2 & a2 & H2 & E2 & N2 & Y2). unfold kbind at 1 in H. unfold kbind at 1. rewrite H2 in *. cbv beta iota in *. clear H2.
  destruct (_ =? CLISERV_MAGIC) in *; [discriminate|]. set (s2 := mkK l2 _ _ _ _ _ _) in *.
  change (kbind (kreadit E 2) ?f s2) with (kbind (kreadit_on (junk E s2 2) 2) f s2) in *.
  destruct (readit_on_along (junk E s2 2) 2 s2) as (r3 & l3 & a3 & H3 & E3 & N3 & Y3). unfold kbind at 1 in H. unfold kbind at 1. rewrite H3 in *. cbv beta iota in *. clear H3.
  destruct (negb _) in *; [discriminate|]. eexists _, _, _. split; [reflexivity|]. cbn [k_in s1 s2] in *.
  split; [exists (a1 ++ a2 ++ a3); cbn [k_in]; rewrite E1, E2, E3; now rewrite <- !app_assoc|]. auto.
Qed.
Lemma announced_along a l size flags : announced_in l size flags -> announced_in (a ++ l) size flags.
Proof.
  intros [(pre & o & len & rest & Hl & ->)|(pre & o & len & d & rest & Hl & Hd & ->)]; [left|right].
  - exists (a ++ pre), o, len, rest. split; [exact Hl|]. now rewrite <- app_assoc.
  - exists (a ++ pre), o, len, d, rest. split; [exact Hl|]. split; [exact Hd|]. now rewrite <- app_assoc.
Qed.

Definition keeps_sizes (s : kst) (r : kout unit) : Prop := forall s', r = KRet tt s' -> k_size s' = k_size s /\ k_flags s' = k_flags s.
Lemma starttls_keeps' E s : keeps_sizes s (kstarttls E s).
Proof.
  unfold kstarttls, send_request. unfold kbind at 1. unfold ksend.
  rd. destruct (fst r <? 0); [intros s' H; discriminate|]. destruct (negb _); [intros s' H; discriminate|].
  rd. destruct (fst r0 <? 0); [intros s' H; discriminate|]. destruct (negb _); [intros s' H; discriminate|].
  rd. destruct (fst r1 <? 0); [intros s' H; discriminate|]. destruct (negb _); [intros s' H; discriminate|].
  rd. destruct (fst r2 <? 0); [intros s' H; discriminate|]. destruct (negb _); [intros s' H; discriminate|].
  destruct (e_tls E); intros s' H; [|discriminate]. injection H as <-. auto.
Qed.
Lemma starttls_keeps E s s' : kstarttls E s = KRet tt s' -> k_size s' = k_size s /\ k_flags s' = k_flags s.
Proof. apply starttls_keeps'. Qed.

(** nothing is made up *)
Lemma client_sound fuel E g plain tls s : Forall is_byte plain -> Forall is_byte tls -> g_no_optgo g = false ->
  knegotiate fuel E g (kstart plain tls) = KRet tt s ->
  (k_size s, k_flags s) = (0, 0) \/ announced_in (if g_tls g then tls else plain) (k_size s) (k_flags s).
Proof.
  intros Bp Bt Hn H. rewrite negotiate_eq in H.
  destruct (greeted_along _ _ _ _ _ _ H Bp) as (s1 & cf & gf & He & (a & Ha) & Ht & Hz & Hw & Hs). rewrite He in H. clear He.
  cbn [kstart k_in k_tin k_size k_flags k_sec] in *.
  set (s2 := mkK (k_in s1) (k_tin s1) (k_sec s1) (k_out s1 ++ [(k_sec s1, be 4 cf)]) (k_reads s1) (k_size s1) (k_flags s1)).
  assert (Hgo : ((if g_tls g then kstarttls E else kret tt) ;;; after_tls fuel E g gf) s2 = KRet tt s) by exact H. clear H.
  assert (After : forall s3, k_size s3 = 0 -> k_flags s3 = 0 -> Forall is_byte (k_in s3) -> after_tls fuel E g gf s3 = KRet tt s ->
    (k_size s, k_flags s) = (0, 0) \/ announced_in (k_in s3) (k_size s) (k_flags s)).
  { intros s3 Hz3 Hw3 B3 H3. unfold after_tls in H3. rewrite Hn in H3. destruct (g_list g).
    - exfalso. revert H3. generalize (end_bind (ask_list fuel E) (fun _ s => @KExit0 unit s) s3). destruct (ask_list fuel E s3); intros ->; discriminate.
    - unfold send_info_request, send_request in H3.
      match type of H3 with ?X = _ => match X with (?m ;;; ?c) ?s0 =>
        change X with (c (mkK (k_in s3) (k_tin s3) (k_sec s3) ((((k_out s3 ++ [(k_sec s3, opt_head OPT_GO (4 + zlen (g_name g) + 2))]) ++ [(k_sec s3, be 4 (u32 (zlen (g_name g))))]) ++ [(k_sec s3, g_name g)]) ++ [(k_sec s3, be 2 0)]) (k_reads s3) (k_size s3) (k_flags s3))) in H3 end end.
      apply go_sound in H3; [|exact B3]. cbn [k_in k_size k_flags] in H3. rewrite Hz3, Hw3 in H3. exact H3. }
  destruct (g_tls g).
  - assert (H2 : k_sec s2 = false) by exact Hs. destruct (starttls_spec E s2 H2) as [_ Hend].
    revert Hgo. generalize (end_bind (kstarttls E) (fun _ => after_tls fuel E g gf) s2).
    assert (Hst := fun s' => starttls_keeps E s2 s').
    destruct (kstarttls E s2) as [[] s3|s3|s3|s3|s3]; intros ->; try discriminate. intros H3.
    destruct Hend as (_ & Hin & _). destruct (Hst s3 eq_refl) as [Kz Kw].
    rewrite <- Ht. change (k_tin s1) with (k_tin s2). rewrite <- Hin. apply After; auto.
    + rewrite Kz. exact Hz.
    + rewrite Kw. exact Hw.
    + rewrite Hin. change (k_tin s2) with (k_tin s1). rewrite Ht. exact Bt.
  - unfold kbind at 1, kret at 1 in Hgo. destruct (After s2) as [H|H]; auto.
    + change (k_in s2) with (k_in s1). rewrite Ha in Bp. apply Forall_app in Bp. tauto.
    + right. rewrite Ha. apply announced_along. exact H.
Qed.

(** undefined behaviour can only come from a reply to be wary of *)
Lemma client_ub fuel E g plain tls s : Forall is_byte plain -> Forall is_byte tls ->
  knegotiate fuel E g (kstart plain tls) = KUb s ->
  exists pre rest, (if g_tls g then tls else plain) = pre ++ rest /\ wary rest.
Proof.
  intros Bp Bt H. rewrite negotiate_eq in H.
  assert (Rd : forall old n (f : bool * list Z -> K unit) s0, kbind (kreadit_on old n) f s0 = KUb s -> exists r s1, f r s1 = KUb s /\ along s0 s1 /\
     k_tin s1 = k_tin s0 /\ k_sec s1 = k_sec s0).
  { intros old n f s0 H0. destruct (readit_on_along old n s0) as (r & l & a & Hr & Ha & _). unfold kbind in H0. rewrite Hr in H0.
    eexists _, _. split; [exact H0|]. split; [exists a; exact Ha|]. auto. }
  unfold kgreeted in H. apply Rd in H. destruct H as (r1 & s1 & H & (a1 & A1) & T1 & S1).
  destruct (negb _) in H; [discriminate|]. change (kbind (kreadit E 8) ?f s1) with (kbind (kreadit_on (junk E s1 8) 8) f s1) in H.
  apply Rd in H. destruct H as (r2 & s2 & H & (a2 & A2) & T2 & S2).
  destruct (_ =? CLISERV_MAGIC) in H; [discriminate|]. change (kbind (kreadit E 2) ?f s2) with (kbind (kreadit_on (junk E s2 2) 2) f s2) in H.
  apply Rd in H. destruct H as (r3 & s3 & H & (a3 & A3) & T3 & S3). destruct (negb _) in H; [discriminate|].
  set (gf := unbe (snd r3)) in *. set (cf := be 4 _) in H.
  set (s4 := mkK (k_in s3) (k_tin s3) (k_sec s3) (k_out s3 ++ [(k_sec s3, cf)]) (k_reads s3) (k_size s3) (k_flags s3)).
  assert (Hgo : ((if g_tls g then kstarttls E else kret tt) ;;; after_tls fuel E g gf) s4 = KUb s) by exact H. clear H.
  assert (After : forall s5, Forall is_byte (k_in s5) -> after_tls fuel E g gf s5 = KUb s -> exists pre rest, k_in s5 = pre ++ rest /\ wary rest).
  { intros s5 B5 H5. unfold after_tls in H5. destruct (g_list g).
    - exfalso. revert H5. generalize (end_bind (ask_list fuel E) (fun _ s => @KExit0 unit s) s5). assert (Hu := fun x => ask_no_ub fuel E s5 x).
      destruct (ask_list fuel E s5) as [? ?|?|?|s6|?]; intros ->; try discriminate. now destruct (Hu s6).
    - destruct (g_no_optgo g); [now apply exportname_no_ub in H5|]. unfold send_info_request, send_request in H5.
      match type of H5 with ?X = _ => match X with (?m ;;; ?c) ?s0 =>
        change X with (c (mkK (k_in s5) (k_tin s5) (k_sec s5) ((((k_out s5 ++ [(k_sec s5, opt_head OPT_GO (4 + zlen (g_name g) + 2))]) ++ [(k_sec s5, be 4 (u32 (zlen (g_name g))))]) ++ [(k_sec s5, g_name g)]) ++ [(k_sec s5, be 2 0)]) (k_reads s5) (k_size s5) (k_flags s5))) in H5 end end.
      apply go_ub in H5; [|exact B5]. exact H5. }
  cbn [kstart k_in k_tin k_sec] in *.
  destruct (g_tls g).
  - assert (H2 : k_sec s4 = false) by (cbn [s4 k_sec]; congruence). destruct (starttls_spec E s4 H2) as [_ Hend].
    revert Hgo. generalize (end_bind (kstarttls E) (fun _ => after_tls fuel E g gf) s4).
    destruct (kstarttls E s4) as [[] s5|s5|s5|s5|s5]; try contradiction; intros ->; try discriminate. intros H5.
    destruct Hend as (_ & Hin & _). assert (Hin' : k_in s5 = tls) by (rewrite Hin; cbn [s4 k_tin]; congruence).
    rewrite <- Hin' in *. now apply After.
  - unfold kbind at 1, kret at 1 in Hgo. destruct (After s4) as (pre & rest & Hp & Hw); auto.
    + cbn [s4 k_in]. rewrite A1, A2, A3, !Forall_app in Bp. tauto.
    + cbn [s4 k_in] in Hp. exists (a1 ++ a2 ++ a3 ++ pre), rest. split; [|exact Hw]. rewrite A1, A2, A3, Hp. now rewrite <- !app_assoc.
Qed.

Lemma forallb_Forall {A} (P : A -> Prop) (f : A -> bool) l : (forall x, f x = true -> P x) -> forallb f l = true -> Forall P l.
Proof. intros H Hf. apply Forall_forall. intros x Hx. apply H. rewrite forallb_forall in Hf. now apply Hf. Qed.

(** any bytes may be found in the unset buffer of EXPORT_NAME *)
Lemma dropped_any_size : exists g plain, g_no_optgo g = true /\ plain = greeting 3 /\
  forall size flags, 0 <= size < 2 ^ 64 -> 0 <= flags < 2 ^ 16 -> exists E s, full_reads E /\
  knegotiate 10 E g (kstart plain []) = KRet tt s /\ k_size s = size /\ k_flags s = flags.
Proof.
  exists (mkCfg false false true (text "disk") 0 1), (greeting 3). split; [reflexivity|]. split; [reflexivity|].
  intros size flags Hz Hw. set (b := be 8 size ++ be 2 flags).
  exists (mkE (fun _ => RdSome 4096) (fun _ i => nth i b 0) true [] []).
  set (E := mkE _ _ _ _ _).
  assert (HS : serves E (mkCfg false false true (text "disk") 0 1) 3 [] (greeting 3) []).
  { unfold serves. cbn [g_tls g_needed g_name]. split; [lia|]. split; [reflexivity|]. split; [vm_compute; reflexivity|]. now rewrite app_nil_r. }
  destruct (nego_start 10 E _ 3 (greeting 3) [] [] HS) as (s & -> & Hin & _).
  assert (Lb : length b = 10%nat) by (subst b; rewrite app_length, !be_length; reflexivity).
  assert (Hj : forall s, junk E s 10 = b).
  { intros s0. unfold junk. cbn [E e_junk Z.to_nat Pos.to_nat Pos.iter_op Nat.add seq map].
    change (map (fun i => nth i b 0) (seq 0 10) = b). clearbody b. do 10 (destruct b as [|? b]; [discriminate|]). destruct b; [reflexivity|discriminate]. }
  unfold after_tls. cbn [g_list g_no_optgo g_name]. unfold send_opt_exportname.
  set (s1 := mkK (k_in s) (k_tin s) (k_sec s) ((k_out s ++ [(k_sec s, opt_head OPT_EXPORT_NAME (zlen (text "disk")))]) ++ [(k_sec s, text "disk")]) (k_reads s) (k_size s) (k_flags s)).
  match goal with |- exists s', _ /\ (_ ;;; _ ;;; ?c) s = _ /\ _ => change ((ksend (opt_head OPT_EXPORT_NAME (zlen (text "disk"))) ;;; ksend (text "disk") ;;; c) s) with (c s1) end.
  change (kbind (kreadit E 10) ?f s1) with (kbind (kreadit_on (junk E s1 10) 10) f s1). unfold kbind at 1. unfold kreadit_on.
  change (k_in s1) with (k_in s). rewrite Hin. change (10 <=? zlen (@nil Z)) with false. cbv beta iota. cbn [fst snd negb andb length skipn app].
  rewrite Hj. unfold parse_sizes, kset. unfold kbind at 1. cbv beta iota. change (flag 3 FLAG_NO_ZEROES) with true. cbv iota.
  eexists. split; [intros i; exists 4096; split; [reflexivity|lia]|]. split; [reflexivity|]. cbn [k_size k_flags].
  assert (F8 : firstn 8 b = be 8 size).
  { subst b. rewrite firstn_app, firstn_all2, be_length by (rewrite be_length; lia). cbn [Nat.sub firstn]. apply app_nil_r. }
  assert (F2 : firstn 2 (skipn 8 b) = be 2 flags).
  { subst b. rewrite skipn_app, skipn_all2, be_length by (rewrite be_length; lia). cbn [Nat.sub skipn app]. apply firstn_all2. rewrite be_length. lia. }
  rewrite F8, F2, !unbe_be. change (8 * Z.of_nat 8) with 64. change (8 * Z.of_nat 2) with 16. now rewrite !Z.mod_small by lia.
Qed.
