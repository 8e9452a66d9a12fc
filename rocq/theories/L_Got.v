(** What a client has received, and what the server has sent. *)
From Verif Require Import Base M_Const M_Disk M_Tree M_Raw M_Par M_Multi L_Wp L_Raw S_Wire S_Disk L_Wire L_Req L_Plain L_Session L_PlainS S_Par S_Run L_Msg L_LogMsg L_Sched L_SchedC L_SchedL L_Sent L_Fin S_Multi.

Definition one_reply (dlen : list Z -> Z) (s : list Z) : option (list Z * view * list Z) :=
  match take_be 4 s with
  | Some (magic, s1) =>
    if magic =? 0x67446698 then
      match take_be 4 s1 with
      | Some (e, s2) =>
        match take 8 s2 with
        | Some (ck, s3) =>
          match take (if e =? 0 then dlen ck else 0) s3 with
          | Some (data, s4) => Some (ck, VSimple e data, s4)
          | None => None
          end
        | None => None
        end
      | None => None
      end
    else
      match parse_chunk s1 with
      | Some (k, s2) => Some (k_cookie k, VChunk (k_flags k) (k_type k) (k_payload k), s2)
      | None => None
      end
  | None => None
  end.
Lemma one_reply_enc dlen ck v r : length ck = 8%nat -> wf_view (dlen ck) v -> one_reply dlen (enc_view ck v ++ r) = Some (ck, v, r).
Proof.
  intros Hc Hv. unfold one_reply. destruct v as [e data|fl ty p]; cbn [enc_view wf_view] in *; rewrite <- !app_assoc.
  - destruct Hv as [He Hd]. rewrite take_be4 by (split; lia). change (0x67446698 =? 0x67446698) with true. cbv iota.
    rewrite take_be4 by exact He. rewrite take_app by (unfold zlen; lia). rewrite take_app by exact Hd. reflexivity.
  - destruct Hv as (H1 & H2 & H3). rewrite take_be4 by (split; lia). change (0x668e33ef =? 0x67446698) with false. cbv iota.
    unfold parse_chunk. rewrite take_be2 by exact H1. rewrite take_be2 by exact H2. rewrite take_app by (unfold zlen; lia).
    rewrite take_be4 by exact H3. rewrite take_app by reflexivity. reflexivity.
Qed.

Notation wfp dlen := (fun x : list Z * view => length (fst x) = 8%nat /\ wf_view (dlen (fst x)) (snd x)).
Lemma enc_prefix dlen : forall a b r r', Forall (wfp dlen) a -> Forall (wfp dlen) b ->
  concat (map enc_pair a) ++ r = concat (map enc_pair b) ++ r' -> (length r' <= length r)%nat ->
  exists b', b = a ++ b'.
Proof.
  induction a as [|[ck v] a IH]; intros b r r' Ha Hb E Hl; [exists b; reflexivity|].
  inversion Ha as [|? ? [H1 H2] Ha']; subst. cbn [fst snd] in *.
  destruct b as [|[ck' v'] b].
  - exfalso. cbn [map concat] in E. apply (f_equal (@length Z)) in E. rewrite ?app_length in E. cbn [length Nat.add] in E.
    assert (0 < length (enc_pair (ck, v)))%nat by (unfold enc_pair; cbn [fst snd]; destruct v; cbn; lia). lia.
  - inversion Hb as [|? ? [H3 H4] Hb']; subst. cbn [fst snd map concat] in *. unfold enc_pair at 1 3 in E. cbn [fst snd] in E.
    rewrite <- !app_assoc in E.
    pose proof (one_reply_enc dlen ck v (concat (map enc_pair a) ++ r) H1 H2) as P1.
    pose proof (one_reply_enc dlen ck' v' (concat (map enc_pair b) ++ r') H3 H4) as P2.
    rewrite E, P2 in P1. injection P1 as -> -> E'. destruct (IH b r r' Ha' Hb' (eq_sym E') Hl) as [b' ->]. exists b'. reflexivity.
Qed.

Lemma enc_inj ck d : length ck = 8%nat -> forall a b, Forall (wf_view d) a -> Forall (wf_view d) b ->
  map (enc_view ck) a = map (enc_view ck) b -> a = b.
Proof.
  intros Hc. induction a as [|v a IH]; intros [|v' b] Ha Hb E; try discriminate; [reflexivity|].
  inversion Ha; subst. inversion Hb; subst. cbn [map] in E. injection E as E1 E2.
  pose proof (one_reply_enc (fun _ => d) ck v [] Hc ltac:(assumption)) as P1.
  pose proof (one_reply_enc (fun _ => d) ck v' [] Hc ltac:(assumption)) as P2.
  rewrite E1, P2 in P1. injection P1 as ->. f_equal. apply IH; assumption.
Qed.

Lemma so_far_whole vs more : answer_so_far (vs ++ more) -> whole_answer vs -> more = [].
Proof.
  intros Hs Hw. destruct more as [|x more] using rev_ind; [reflexivity|exfalso]. clear IHmore. rewrite app_assoc in Hs.
  assert (Hd : exists v, In v vs /\ (is_chunk v = false \/ is_done v = true)).
  { destruct Hw as [(e & d & ->)|(init & last & -> & H1 & H2 & H3)].
    - exists (VSimple e d). split; [left; reflexivity|auto].
    - exists last. split; [apply in_or_app; right; left; reflexivity|auto]. }
  destruct Hd as (v & Hin & Hv).
  assert (Hall : Forall (fun v => is_chunk v = true /\ is_done v = false) (vs ++ more)).
  { destruct Hs as [H|[(e & d & E)|(init & last & E & H1 & H2 & H3)]].
    - rewrite Forall_app in H. tauto.
    - apply (app_inj_tail _ []) in E. destruct E as [-> _]. constructor.
    - apply app_inj_tail in E. destruct E as [-> _]. exact H3. }
  rewrite Forall_forall in Hall. destruct (Hall v) as [A1 A2]; [apply in_or_app; auto|]. destruct Hv; congruence.
Qed.

Section Got.
  Variables (st lg : bool) (c : client) (qs : list wreq) (tail : list Z) (e : stream_end).
  Hypothesis Hqs : Forall wreq_ok qs.
  Hypothesis Hn : NoDup (map q_cookie qs).
  Variable s : sys.
  Hypothesis G : good st lg c qs tail e s.
  Hypothesis S : said_all qs s.

  Lemma out_prefix : exists rest, y_out s ++ rest = concat (map snd (y_msgs s)).
  Proof.
    destruct (g_out _ _ _ _ _ _ _ G) as [[_ Hout]|(t & x & rest & init & m & pre & _ & _ & _ & Hms & Hm & Hout & _)].
    - exists []. rewrite app_nil_r. exact Hout.
    - exists rest. rewrite Hms, Hout, concat_app. cbn [concat]. rewrite app_nil_r, <- app_assoc. f_equal. congruence.
  Qed.

  Lemma got_msgs i q vs : nth_error qs i = Some q -> has_got qs (y_out s) q vs ->
    exists more, of_id i (y_msgs s) = map (enc_view (q_cookie q)) (vs ++ more) /\ Forall (wf_view (dlen_of q)) (vs ++ more) /\ answer_so_far (vs ++ more).
  Proof.
    intros Hi (ms & part & Ho & Hw & Hv). pose proof (msgs_owner _ _ _ _ _ _ _ G) as Hown.
    pose proof (said_full qs s S) as Hf.
    set (D := decoded qs (y_msgs s)).
    assert (Hd1 : concat (map snd (y_msgs s)) = concat (map enc_pair D))
      by (eapply (decoded_bytes qs Hqs Hn (y_msgs s) (fun _ _ vs => answer_so_far vs)); [exact Hown|exact Hf]).
    assert (Hd2 : Forall (wfp (data_len qs)) D)
      by (eapply (decoded_wf qs Hqs Hn (y_msgs s) (fun _ _ vs => answer_so_far vs)); [exact Hown|exact Hf]).
    destruct (decoded_with qs Hqs Hn (y_msgs s) (fun _ _ vs => answer_so_far vs) Hown Hf i q Hi) as (E1 & E2 & E3).
    destruct out_prefix as [rest Hr]. rewrite Hd1, Ho, <- app_assoc in Hr.
    destruct (enc_prefix (data_len qs) ms D (part ++ rest) [] Hw Hd2) as [D' ED].
    { rewrite app_nil_r. exact Hr. } { cbn. lia. }
    fold D in E1, E2, E3. rewrite ED, with_cookie_app in E1, E2, E3. rewrite Hv in *. eauto.
  Qed.

  Lemma got_whole i q vs : nth_error qs i = Some q -> has_got qs (y_out s) q vs -> whole_answer vs ->
    of_id i (y_msgs s) = map (enc_view (q_cookie q)) vs /\ existsb final (of_id i (y_msgs s)) = true.
  Proof.
    intros Hi Hg Hw. destruct (got_msgs i q vs Hi Hg) as (more & E1 & E2 & E3).
    pose proof (so_far_whole vs more E3 Hw) as ->. rewrite app_nil_r in *. split; [exact E1|]. rewrite E1.
    rewrite Forall_forall in E2.
    assert (Hd : exists v, In v vs /\ is_done v = true).
    { destruct Hw as [(er & d & ->)|(init & last & -> & H1 & H2 & H3)].
      - exists (VSimple er d). split; [left; reflexivity|reflexivity].
      - exists last. split; [apply in_or_app; right; left; reflexivity|exact H2]. }
    destruct Hd as (v & Hin & Hv). apply existsb_exists. exists (enc_view (q_cookie q) v). split; [apply in_map, Hin|].
    eapply final_done; [apply E2, Hin|exact Hv].
  Qed.
End Got.
