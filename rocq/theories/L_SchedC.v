(** What a client (and a reader of the transaction log) finds in the bytes of
    a finished connection, from the invariant of L_Sched.v. *)
From Verif Require Import Base M_Const M_Disk M_Tree M_Raw M_Par L_Wp L_Raw S_Wire S_Disk L_Wire L_Req L_Plain L_Session L_PlainS S_Par L_Msg L_LogMsg L_Sched.

(** ** Cutting the stream into messages *)
Definition enc_pair (x : list Z * view) : list Z := enc_view (fst x) (snd x).
Lemma enc_view_nonempty ck v : enc_view ck v <> [].
Proof. destruct v; cbn; discriminate. Qed.

Lemma split_one fuel dlen ck v s : length ck = 8%nat -> wf_view (dlen ck) v ->
  split_replies (S fuel) dlen (enc_view ck v ++ s) =
    match split_replies fuel dlen s with Some l => Some ((ck, v) :: l) | None => None end.
Proof.
  intros Hc Hv. cbn [split_replies]. destruct (enc_view ck v ++ s) as [|b t] eqn:E.
  { exfalso. apply app_eq_nil in E. exact (enc_view_nonempty _ _ (proj1 E)). }
  rewrite <- E. clear E b t. destruct v as [er data|fl ty p]; cbn [enc_view wf_view] in *.
  - destruct Hv as [He Hd]. rewrite <- !app_assoc. rewrite take_be4 by (split; lia).
    change (1732535960 =? 1732535960) with true. cbv iota. rewrite take_be4 by exact He.
    rewrite take_app by (unfold zlen; lia). rewrite take_app by exact Hd. reflexivity.
  - destruct Hv as (Hf & Ht & Hp). rewrite <- !app_assoc. rewrite take_be4 by (split; lia).
    change (1720595439 =? 1732535960) with false. change (1720595439 =? 1720595439) with true. cbv iota.
    replace (be 4 (zlen p)) with (be 4 (u32 (zlen p))) by (rewrite u32_small by exact Hp; reflexivity).
    rewrite parse_chunk_app by assumption. reflexivity.
Qed.

Lemma split_all dlen l : Forall (fun x => length (fst x) = 8%nat /\ wf_view (dlen (fst x)) (snd x)) l ->
  forall fuel, (length l <= fuel)%nat -> split_replies fuel dlen (concat (map enc_pair l)) = Some l.
Proof.
  induction 1 as [|[ck v] l [H1 H2] _ IH]; intros fuel Hf.
  - destruct fuel; reflexivity.
  - destruct fuel as [|fuel]; [cbn in Hf; lia|]. cbn [map concat]. unfold enc_pair at 1. cbn [fst snd] in *.
    rewrite split_one by assumption. rewrite IH by (cbn in Hf; lia). reflexivity.
Qed.

Lemma data_len_in qs : NoDup (map q_cookie qs) -> forall q, In q qs -> data_len qs (q_cookie q) = dlen_of q.
Proof.
  induction qs as [|a qs IH]; cbn [map data_len In]; intros Hn q Hq; [contradiction|].
  inversion Hn as [|x l Hx Hl]; subst. unfold eqb_bytes. destruct Hq as [->|Hq].
  - destruct (list_eq_dec Z.eq_dec (q_cookie q) (q_cookie q)); [reflexivity|congruence].
  - destruct (list_eq_dec Z.eq_dec (q_cookie a) (q_cookie q)) as [E|_]; [|apply IH; assumption].
    exfalso. apply Hx. rewrite E. apply in_map, Hq.
Qed.

Lemma cookie_inj qs i j q q' : NoDup (map q_cookie qs) -> nth_error qs i = Some q -> nth_error qs j = Some q' ->
  q_cookie q = q_cookie q' -> i = j.
Proof.
  intros Hn Hi Hj E. apply (proj1 (NoDup_nth_error _) Hn).
  - rewrite map_length. apply nth_error_Some. congruence.
  - rewrite !nth_error_map, Hi, Hj. cbn. congruence.
Qed.

(** one message back *)
Definition dec1 (qs : list wreq) (m : list Z) : list Z * view :=
  match split_replies 1 (data_len qs) m with Some [x] => x | _ => ([], VSimple 0 []) end.
Lemma dec1_enc qs q v : NoDup (map q_cookie qs) -> In q qs -> length (q_cookie q) = 8%nat ->
  wf_view (dlen_of q) v -> dec1 qs (enc_view (q_cookie q) v) = (q_cookie q, v).
Proof.
  intros Hn Hq Hc Hv. unfold dec1. rewrite <- (app_nil_r (enc_view _ _)).
  rewrite split_one; [reflexivity|exact Hc|]. rewrite data_len_in by assumption. exact Hv.
Qed.

Lemma of_id_in i m (l : list (nat * list Z)) : In (i, m) l -> In m (of_id i l).
Proof.
  intros H. unfold of_id. apply in_map_iff. exists (i, m). split; [reflexivity|].
  apply filter_In. split; [exact H|]. apply Nat.eqb_refl.
Qed.

(** messages, tagged with request numbers, each request's forming an answer *)
Section Split.
  Variable qs : list wreq.
  Hypothesis Hqs : Forall wreq_ok qs.
  Hypothesis Hn : NoDup (map q_cookie qs).
  Variable ms : list (nat * list Z).
  (** all messages of request [i] begin an answer *)
  Variable full : wreq -> nat -> list view -> Prop.
  Hypothesis Hms : forall i m, In (i, m) ms -> exists q, nth_error qs i = Some q.
  Hypothesis Hfull : forall i q, nth_error qs i = Some q ->
    exists vs, of_id i ms = map (enc_view (q_cookie q)) vs /\ Forall (wf_view (dlen_of q)) vs /\ full q i vs.

  Lemma q_in i q : nth_error qs i = Some q -> In q qs /\ length (q_cookie q) = 8%nat.
  Proof.
    intros H. apply nth_error_In in H. split; [exact H|]. rewrite Forall_forall in Hqs. apply Hqs, H.
  Qed.

  Definition decoded : list (list Z * view) := map (fun x => dec1 qs (snd x)) ms.

  Lemma dec_of i m q : In (i, m) ms -> nth_error qs i = Some q ->
    exists v, m = enc_view (q_cookie q) v /\ wf_view (dlen_of q) v /\ dec1 qs m = (q_cookie q, v).
  Proof.
    intros H Hi. destruct (Hfull _ _ Hi) as (vs & E & Hw & _). apply of_id_in in H. rewrite E in H.
    apply in_map_iff in H. destruct H as (v & <- & Hv). rewrite Forall_forall in Hw. destruct (q_in _ _ Hi).
    exists v. repeat split; auto. apply dec1_enc; auto.
  Qed.

  Lemma decoded_bytes : concat (map snd ms) = concat (map enc_pair decoded).
  Proof.
    unfold decoded. rewrite map_map. f_equal. apply map_ext_in. intros [i m] H. cbn [snd].
    destruct (Hms _ _ H) as [q Hq]. destruct (dec_of _ _ _ H Hq) as (v & E & _ & ->). exact E.
  Qed.
  Lemma decoded_wf : Forall (fun x => length (fst x) = 8%nat /\ wf_view (data_len qs (fst x)) (snd x)) decoded.
  Proof.
    unfold decoded. rewrite Forall_map, Forall_forall. intros [i m] H. cbn [snd].
    destruct (Hms _ _ H) as [q Hq]. destruct (dec_of _ _ _ H Hq) as (v & _ & Hw & ->). cbn [fst snd].
    destruct (q_in _ _ Hq) as [Hin Hc]. split; [exact Hc|]. rewrite data_len_in by assumption. exact Hw.
  Qed.
  Lemma decoded_owner x : In x decoded -> exists q, In q qs /\ fst x = q_cookie q.
  Proof.
    unfold decoded. intros H. apply in_map_iff in H. destruct H as ([i m] & <- & H). cbn [snd].
    destruct (Hms _ _ H) as [q Hq]. destruct (dec_of _ _ _ H Hq) as (v & _ & _ & ->).
    exists q. split; [eapply nth_error_In; eauto|reflexivity].
  Qed.
  Lemma decoded_with i q : nth_error qs i = Some q ->
    of_id i ms = map (enc_view (q_cookie q)) (with_cookie (q_cookie q) decoded) /\
    Forall (wf_view (dlen_of q)) (with_cookie (q_cookie q) decoded) /\
    full q i (with_cookie (q_cookie q) decoded).
  Proof.
    intros Hi. destruct (Hfull _ _ Hi) as (vs & E & Hw & F).
    assert (Ew : with_cookie (q_cookie q) decoded = vs).
    { unfold with_cookie, decoded.
      assert (G : forall l, incl l ms ->
        map snd (filter (fun x => eqb_bytes (fst x) (q_cookie q)) (map (fun x => dec1 qs (snd x)) l)) =
        map (fun m => snd (dec1 qs m)) (of_id i l)).
      { induction l as [|[j m] l IH]; intros Hincl; [reflexivity|]. unfold of_id in *. cbn [map filter fst snd].
        assert (Hin : In (j, m) ms) by (apply Hincl; left; reflexivity).
        destruct (Hms _ _ Hin) as [q' Hq']. destruct (dec_of _ _ _ Hin Hq') as (v & _ & _ & Ed). rewrite Ed. cbn [fst].
        specialize (IH (fun y Hy => Hincl y (or_intror Hy))).
        destruct (list_eq_dec Z.eq_dec (q_cookie q') (q_cookie q)) as [Eq|Ne].
        - rewrite Eq, eqb_bytes_refl. assert (j = i) by (eapply cookie_inj; eauto). subst j. rewrite Nat.eqb_refl. cbn [map snd]. rewrite Ed, IH. reflexivity.
        - replace (eqb_bytes (q_cookie q') (q_cookie q)) with false
            by (unfold eqb_bytes; destruct (list_eq_dec Z.eq_dec (q_cookie q') (q_cookie q)); congruence).
          assert (j <> i) by (intros ->; congruence). replace (Nat.eqb j i) with false by (symmetry; apply Nat.eqb_neq; assumption).
          exact IH. }
      rewrite G by apply incl_refl. rewrite E, map_map.
      destruct (q_in _ _ Hi) as [Hin Hc]. rewrite <- (map_id vs) at 2. apply map_ext_in. intros v Hv.
      rewrite Forall_forall in Hw. rewrite dec1_enc by auto. reflexivity. }
    rewrite Ew. auto.
  Qed.
End Split.
