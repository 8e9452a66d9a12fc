(** Replaying the log of a session gives the disk the session left. *)
From Verif Require Import Base M_Const M_Disk M_Tree M_Raw M_Setup M_Par L_Wp S_Wire S_Disk L_Wire L_Setup L_PlainS L_Props
  S_Par S_Run L_ParP S_Byte L_Byte L_ByteS M_Log S_Log L_Log.

Lemma effect_logged q d i : effect (logged true q) d i = effect q d i.
Proof. reflexivity. Qed.
Lemma effects_logged qs : forall d i, effects (map (logged true) qs) d i = effects qs d i.
Proof. unfold effects. induction qs as [|q t IH]; intros d i; [reflexivity|]. cbn [map fold_left]. rewrite IH. reflexivity. Qed.
Lemma effects_app a b d i : effects (a ++ b) d i = effects b (effects a d) i.
Proof. unfold effects. rewrite fold_left_app. reflexivity. Qed.
Lemma effect_idle q d i : q_cmd q <> 1 -> q_cmd q <> 4 -> q_cmd q <> 6 -> effect q d i = d i.
Proof.
  intros H1 H4 H6. unfold effect. replace (q_cmd q =? 1) with false by lia. replace (q_cmd q =? 4) with false by lia.
  replace (q_cmd q =? 6) with false by lia. cbn [orb]. destruct (_ && _); reflexivity.
Qed.
Lemma effect_untouched q d j : touches q j = false -> effect q d j = d j.
Proof.
  unfold touches, effect. intros H. destruct ((q_from q <=? j) && (j <? q_from q + q_len q)) eqn:E; [|reflexivity].
  rewrite <- andb_assoc, E, andb_true_r in H.
  destruct (q_cmd q =? 1); [discriminate|]. cbn [orb] in H. rewrite H. reflexivity.
Qed.
Lemma effects_untouched qs j : (forall q, In q qs -> touches q j = false) -> forall d, effects qs d j = d j.
Proof.
  unfold effects. induction qs as [|q t IH]; intros H d; [reflexivity|]. cbn [fold_left].
  rewrite IH by (intros q' Hq'; apply H; right; exact Hq'). apply effect_untouched. apply H. left. reflexivity.
Qed.
Lemma effects_one qs j : forall i q d, nth_error qs i = Some q ->
  (forall k q', nth_error qs k = Some q' -> k <> i -> touches q' j = false) ->
  effects qs d j = effect q d j.
Proof.
  intros i q d Hi Ho. destruct (nth_error_split _ _ Hi) as [a [b [-> Hl]]].
  rewrite effects_app.
  assert (Ha : forall q', In q' a -> touches q' j = false).
  { intros q' Hin. destruct (In_nth_error _ _ Hin) as [k Hk].
    assert (Hkl : (k < length a)%nat) by (apply nth_error_Some; congruence).
    apply (Ho k q'); [rewrite nth_error_app1 by lia; exact Hk|lia]. }
  assert (Hb : forall q', In q' b -> touches q' j = false).
  { intros q' Hin. destruct (In_nth_error _ _ Hin) as [k Hk].
    apply (Ho (length a + S k)%nat q'); [|lia]. rewrite nth_error_app2 by lia.
    replace (length a + S k - length a)%nat with (S k) by lia. exact Hk. }
  unfold effects at 1. cbn [fold_left]. fold (effects b (effect q (effects a d))).
  rewrite (effects_untouched b j Hb). unfold effect. rewrite (effects_untouched a j Ha). reflexivity.
Qed.

(** ** One request at a time *)
Lemma history_effects size ro d h d' : history size ro d h d' -> all_done h ->
  forall i, d' i = effects (map fst h) d i.
Proof.
  induction 1 as [d d' Hu|d q ans d1 h d2 Hst Hh IH]; intros Hd i; [apply Hu|].
  rewrite IH by (intros q' a' Hin; apply Hd; right; exact Hin). cbn [map fst]. unfold effects at 2. cbn [fold_left].
  apply effects_ext. clear i IH. destruct (Hd q ans (or_introl eq_refl)) as [[data ->] [H4 H6]].
  destruct Hst as [Hf Hst]. intros i.
  assert (Hk : known_flags q).
  { destruct (Z.ltb_spec (q_flags q) 4) as [K|K]; [exact K|]. destruct Hf as [Hf _]; [unfold known_flags; lia|discriminate]. }
  destruct (Hst Hk) as (R & W & F & T & Zs & O). clear Hst Hf.
  destruct (Z.eq_dec (q_cmd q) 0) as [E0|N0].
  { destruct (R E0) as [U _]. rewrite effect_idle by lia. apply U. }
  destruct (Z.eq_dec (q_cmd q) 1) as [E1|N1].
  { destruct (W E1) as (W1 & W2 & W3). destruct ro; [destruct (W1 eq_refl); discriminate|].
    destruct (Z.leb_spec (q_from q + q_len q) size) as [K|K].
    - destruct (W3 eq_refl K) as [[_ Hr]|[[e [_ He]] _]]; [|discriminate].
      rewrite Hr. unfold effect. rewrite E1. reflexivity.
    - destruct (W2 eq_refl) as [E _]; [unfold inside; lia|discriminate]. }
  destruct (Z.eq_dec (q_cmd q) 3) as [E3|N3].
  { destruct (F E3) as [U _]. rewrite effect_idle by lia. apply U. }
  destruct (Z.eq_dec (q_cmd q) 6) as [E6|N6].
  { destruct (Zs E6) as (W1 & W2 & W3). destruct ro; [destruct (W1 eq_refl); discriminate|].
    destruct (Z.leb_spec (q_from q + q_len q) size) as [K|K].
    - destruct (W3 eq_refl K) as [[_ [_ Hr]]|[[e [_ He]] _]]; [|discriminate].
      rewrite (Hr (H6 E6)). unfold effect. rewrite E6. reflexivity.
    - destruct (W2 eq_refl) as [E _]; [unfold inside; lia|discriminate]. }
  destruct (O N0 N1 N3 H4 N6) as [E _]. discriminate.
Qed.

Lemma answers_reqs qs : forall s h z, answers qs s = Some (h, z) -> map fst h = qs.
Proof.
  induction qs as [|q t IH]; intros s h z H; cbn [answers] in H; [injection H as <- _; reflexivity|].
  repeat match type of H with
  | match ?x with _ => _ end = _ => destruct x as [[? ?]|] eqn:?; try discriminate
  | match ?x with _ => _ end = _ => destruct x eqn:?; try discriminate
  end.
  injection H as <- <-. cbn [map fst]. f_equal. eapply IH; eassumption.
Qed.

Lemma replay_sequential size ro d d' h lf log ents last bs max pw :
  history size ro d h d' -> all_done h ->
  parse_log lf true log = Some ents -> log_requests ents = map (logged true) (map fst h ++ last) ->
  Forall (fun q => q_cmd q = 2) last -> simple_only ents ->
  0 < bs -> (forall k, 0 < pw k) -> Forall (replayable bs) (map fst h ++ last) ->
  blocks_in bs (map fst h ++ last) < max -> max <= 18446744073709551615 ->
  exists s', trplay bs max pw (datalog_mark ++ log) d = TExit 0 s' /\ forall i, t_img s' i = d' i.
Proof.
  intros Hh Hd Hlog Hreq Hlast Hs Hb Hp Hrep Hbl Hmx.
  assert (Er : Forall (replayable bs) (log_requests ents)).
  { rewrite Hreq. apply Forall_map. exact Hrep. }
  assert (Eb : blocks_in bs (log_requests ents) = blocks_in bs (map fst h ++ last)).
  { rewrite Hreq. generalize (map fst h ++ last). induction l as [|x l IH]; [reflexivity|]. cbn [map blocks_in]. rewrite IH. reflexivity. }
  destruct (trplay_ok bs max pw log ents d lf Hb Hp Hlog Er Hs ltac:(lia) Hmx) as [s' [E1 [_ E3]]].
  exists s'. split; [exact E1|]. intros i. rewrite E3, Hreq, effects_logged, effects_app.
  rewrite (effects_untouched last i).
  - symmetry. apply (history_effects size ro); assumption.
  - intros q Hin. rewrite Forall_forall in Hlast. unfold touches. rewrite (Hlast q Hin). reflexivity.
Qed.

(** ** Concurrent requests on disjoint ranges *)
Lemma with_cookie_in ck ls v : In v (with_cookie ck ls) -> exists ck', In (ck', v) ls.
Proof.
  unfold with_cookie. rewrite in_map_iff. intros [[ck' v'] [E Hin]]. cbn [snd] in E. subst v'.
  apply filter_In in Hin. exists ck'. tauto.
Qed.
Lemma log_replies_in ck h ents : In (GRep ck h) ents -> In h (log_replies ck ents).
Proof.
  induction ents as [|e t IH]; [intros []|]. intros [->|Hin].
  - cbn [log_replies]. rewrite eqb_bytes_refl. left. reflexivity.
  - cbn [log_replies]. destruct e as [q|ck' h']; [apply IH; exact Hin|].
    destruct (eqb_bytes ck' ck); [right|]; apply IH; exact Hin.
Qed.

Lemma replay_concurrent flags expected ms su w namelen structured tls qs tail e n l s d last ls bs max pw :
  let c := client_of su namelen structured tls in
  opened flags expected ms su w ->
  Forall wreq_ok qs -> Forall (fun q => q_type q <> 2) qs -> NoDup (map q_cookie qs) -> stops tail e ->
  ends_clean tail last ->
  sys_run true c l (sys_init n (concat (map encode qs) ++ tail) w) = SGo s -> y_rd s = RDone d ->
  cflag c F_DATALOG = true -> cflag c F_SPLICE = false ->
  disjoint qs -> Forall (fun q => q_cmd q <> 4 /\ (q_cmd q = 6 -> q_len q <= 67108864)) qs ->
  split_replies (length (y_out s)) (data_len qs) (y_out s) = Some ls ->
  (forall q, In q qs -> q_cmd q = 1 \/ q_cmd q = 6 -> with_cookie (q_cookie q) ls = [VSimple 0 []]) ->
  (forall ck v, In (ck, v) ls -> is_chunk v = false) ->
  0 < bs -> (forall k, 0 < pw k) -> Forall (replayable bs) (qs ++ last) ->
  blocks_in bs (qs ++ last) < max -> max <= 18446744073709551615 ->
  exists s', trplay bs max pw (datalog_mark ++ y_log s) (disk_of su w) = TExit 0 s' /\
    forall i, t_img s' i = disk_of su (y_w s) i.
Proof.
  intros c Hop Hqs Hnd Hck Hst Hcl Hrun Hdone Hdl Hsp Hdis Hcmd Hsplit Hans Hch Hb Hp Hrep Hbl Hmx.
  destruct (opened_bytes flags expected ms su w namelen structured tls true qs tail e n l s d 0 Hop Hqs Hnd Hck Hst Hrun Hdone) as [ls0 [Hs0 _]].
  assert (ls0 = ls) by congruence. subst ls0. clear Hs0.
  assert (Hby : forall j,
      ((forall q, In q qs -> touches q j = false) -> disk_of su (y_w s) j = disk_of su w j) /\
      forall i q, nth_error qs i = Some q ->
        (forall k q', nth_error qs k = Some q' -> k <> i -> touches q' j = false) ->
        byte_outcome q j (disk_of su w j) (with_cookie (q_cookie q) ls) (disk_of su (y_w s) j)).
  { intros j. destruct (opened_bytes flags expected ms su w namelen structured tls true qs tail e n l s d j Hop Hqs Hnd Hck Hst Hrun Hdone) as [ls1 [Hs1 K]].
    assert (ls1 = ls) by congruence. subst ls1. exact K. }
  assert (Hsz : 0 <= c_size c <= 9223372036854775807) .
  { destruct (opened_plain _ _ _ _ _ namelen structured tls Hop) as (fis & _ & _ & _ & _ & _ & _ & Hz & _). exact Hz. }
  destruct (any_log true c Hsz qs tail e Hqs Hnd Hck Hst n w s (ex_intro _ l (or_introl Hrun)) last d eq_refl Hcl Hdone) as (ls2 & ents & Hs2 & Hlog & Hreq & Hrep2 & Hin).
  assert (ls2 = ls) by congruence. subst ls2. clear Hs2.
  rewrite Hdl, Hsp in Hlog, Hreq. cbn [andb negb] in Hlog, Hreq.
  assert (Hso : simple_only ents).
  { intros ck h Hi. destruct (Hin ck h Hi) as [q [Hq ->]]. pose proof (log_replies_in _ _ _ Hi) as K.
    rewrite (Hrep2 q Hq) in K. apply in_map_iff in K. destruct K as [v [Hv Hv2]].
    destruct (with_cookie_in _ _ _ Hv2) as [ck' Hv3]. pose proof (Hch _ _ Hv3) as K. destruct v as [e0 dt|]; [|discriminate].
    exists e0. symmetry. exact Hv. }
  assert (Er : Forall (replayable bs) (log_requests ents)) by (rewrite Hreq; apply Forall_map; exact Hrep).
  assert (Eb : blocks_in bs (log_requests ents) = blocks_in bs (qs ++ last)).
  { rewrite Hreq. generalize (qs ++ last). induction l0 as [|x l0 IH]; [reflexivity|]. cbn [map blocks_in]. rewrite IH. reflexivity. }
  destruct (trplay_ok bs max pw (y_log s) ents (disk_of su w) _ Hb Hp Hlog Er Hso ltac:(lia) Hmx) as [s' [E1 [_ E3]]].
  exists s'. split; [exact E1|]. intros j. rewrite E3, Hreq, effects_logged, effects_app.
  rewrite (effects_untouched last j).
  2:{ intros q Hq. destruct Hcl as [[_ ->]|[q0 [rest [_ [Ht [_ ->]]]]]]; [destruct Hq|]. destruct Hq as [<-|[]].
      unfold touches, q_cmd. rewrite Ht. reflexivity. }
  destruct (Hby j) as [Hn1 Hn2].
  destruct (existsb (fun q => touches q j) qs) eqn:Ex.
  - apply existsb_exists in Ex. destruct Ex as [q [Hq Ht]]. destruct (In_nth_error _ _ Hq) as [i Hi].
    assert (Ho : forall k q', nth_error qs k = Some q' -> k <> i -> touches q' j = false)
      by (intros k q' Hk Hki; apply (Hdis i k q q' j Hi Hk Hki Ht)).
    rewrite (effects_one qs j i q _ Hi Ho). destruct (Hn2 i q Hi Ho) as [Ho1 _]. destruct (Ho1 Ht) as [e0 [Hv Hef]].
    rewrite Forall_forall in Hcmd. destruct (Hcmd q Hq) as [N4 L6].
    unfold touches in Ht. unfold effect.
    assert (Hr : (q_from q <=? j) && (j <? q_from q + q_len q) = true) by lia. rewrite Hr.
    destruct Hef as (B1 & _ & B6). destruct (Z.eq_dec (q_cmd q) 1) as [C1|C1].
    + rewrite (Hans q Hq (or_introl C1)) in Hv. injection Hv as <-. rewrite C1. destruct (B1 C1) as [B _]. rewrite (B eq_refl). reflexivity.
    + assert (C6 : q_cmd q = 6) by lia. rewrite (Hans q Hq (or_intror C6)) in Hv. injection Hv as <-. rewrite C6.
      destruct (B6 C6) as [B _]. cbn [Z.eqb Pos.eqb orb]. symmetry. apply B; [reflexivity|]. specialize (L6 C6). lia.
  - assert (Hno : forall q, In q qs -> touches q j = false).
    { intros q Hq. destruct (touches q j) eqn:Et; [|reflexivity]. assert (existsb (fun q => touches q j) qs = true) by (apply existsb_exists; eauto). congruence. }
    rewrite (effects_untouched qs j Hno). symmetry. apply Hn1. exact Hno.
Qed.
