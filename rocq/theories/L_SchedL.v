(** Reading the transaction log back, and the finished connection. *)
From Verif Require Import Base M_Const M_Disk M_Tree M_Raw M_Par L_Wp L_Raw S_Wire S_Disk L_Wire L_Req L_Plain L_Session L_PlainS S_Par L_Msg L_LogMsg L_Sched L_SchedC.

Definition enc_hv (ck : list Z) (h : hview) : list Z :=
  match h with
  | HSimple e => be 4 0x67446698 ++ be 4 e ++ ck
  | HChunk fl ty n => be 4 0x668e33ef ++ be 2 fl ++ be 2 ty ++ ck ++ be 4 n
  end.
Lemma enc_hv_head ck v : enc_hv ck (head_view v) = enc_head ck v.
Proof. destruct v; reflexivity. Qed.
Definition wf_hv (h : hview) : Prop :=
  match h with
  | HSimple e => is_u32 e
  | HChunk fl ty n => 0 <= fl < 65536 /\ 0 <= ty < 65536 /\ is_u32 n
  end.
Lemma wf_head d v : wf_view d v -> wf_hv (head_view v).
Proof. destruct v; cbn; tauto. Qed.

Definition enc_ent (x : lview) : list Z :=
  match x with GReq q => header q ++ q_data q | GRep ck h => enc_hv ck h end.
Definition wf_ent (dl : bool) (x : lview) : Prop :=
  match x with
  | GReq q => is_u32 (q_type q) /\ length (q_cookie q) = 8%nat /\ is_u64 (q_from q) /\ is_u32 (q_len q) /\
              zlen (q_data q) = (if dl && (q_type q mod 65536 =? 1) then q_len q else 0)
  | GRep ck h => length ck = 8%nat /\ wf_hv h
  end.
Lemma enc_ent_nonempty x : enc_ent x <> [].
Proof. destruct x as [q|ck h]; [|destruct h]; cbn; discriminate. Qed.

Lemma parse_one fuel dl x s : wf_ent dl x ->
  parse_log (S fuel) dl (enc_ent x ++ s) =
    match parse_log fuel dl s with Some l => Some (x :: l) | None => None end.
Proof.
  intros Hw. cbn [parse_log]. destruct (enc_ent x ++ s) as [|b t] eqn:E.
  { exfalso. apply app_eq_nil in E. exact (enc_ent_nonempty _ (proj1 E)). }
  rewrite <- E. clear E b t. destruct x as [q|ck h]; cbn [enc_ent wf_ent] in *.
  - destruct Hw as (H1 & H2 & H3 & H4 & H5). unfold header. rewrite <- !app_assoc.
    rewrite take_be4 by (split; lia). change (0x25609513 =? 0x25609513) with true. cbv iota.
    rewrite take_be4 by exact H1. rewrite take_app by (unfold zlen; lia). rewrite take_be8 by exact H3.
    rewrite take_be4 by exact H4. rewrite take_app by exact H5. destruct q; reflexivity.
  - destruct Hw as (H1 & H2). destruct h as [er|fl ty n]; cbn [enc_hv wf_hv] in *; rewrite <- !app_assoc.
    + rewrite take_be4 by (split; lia). change (0x67446698 =? 0x25609513) with false.
      change (0x67446698 =? 0x67446698) with true. cbv iota.
      rewrite take_be4 by exact H2. rewrite take_app by (unfold zlen; lia). reflexivity.
    + destruct H2 as (H2 & H3 & H4). rewrite take_be4 by (split; lia). change (0x668e33ef =? 0x25609513) with false.
      change (0x668e33ef =? 0x67446698) with false. change (0x668e33ef =? 0x668e33ef) with true. cbv iota.
      rewrite take_be2 by exact H2. rewrite take_be2 by exact H3. rewrite take_app by (unfold zlen; lia).
      rewrite take_be4 by exact H4. reflexivity.
Qed.
Lemma parse_all dl l : Forall (wf_ent dl) l ->
  forall fuel, (length l <= fuel)%nat -> parse_log fuel dl (concat (map enc_ent l)) = Some l.
Proof.
  induction 1 as [|x l H1 _ IH]; intros fuel Hf.
  - destruct fuel; reflexivity.
  - destruct fuel as [|fuel]; [cbn in Hf; lia|]. cbn [map concat].
    rewrite parse_one by assumption. rewrite IH by (cbn in Hf; lia). reflexivity.
Qed.

Lemma concat_long {A B} (f : A -> list B) l : (forall x, In x l -> f x <> []) -> (length l <= length (concat (map f l)))%nat.
Proof.
  induction l as [|x l IH]; intros H; [cbn; lia|]. cbn [map concat length]. rewrite app_length.
  assert (length (f x) <> 0)%nat.
  { pose proof (H x (or_introl eq_refl)). destruct (f x); cbn; congruence. }
  specialize (IH (fun y Hy => H y (or_intror Hy))). lia.
Qed.

(** a reply record back *)
Definition dech (m : list Z) : list Z * hview :=
  match parse_log 1 false m with Some [GRep ck h] => (ck, h) | _ => ([], HSimple 0) end.
Lemma dech_enc ck h : length ck = 8%nat -> wf_hv h -> dech (enc_hv ck h) = (ck, h).
Proof.
  intros H1 H2. unfold dech. rewrite <- (app_nil_r (enc_hv _ _)). change (enc_hv ck h) with (enc_ent (GRep ck h)).
  rewrite parse_one by (split; assumption). reflexivity.
Qed.

Section Final.
  Variable st lg : bool.
  Variable c : client.
  Variables (qs : list wreq) (tail : list Z) (e : stream_end).
  Hypothesis Hqs : Forall wreq_ok qs.
  Hypothesis Hn : NoDup (map q_cookie qs).
  Variable s : sys.
  Hypothesis G : good st lg c qs tail e s.

  Lemma msgs_owner i m : In (i, m) (y_msgs s) -> exists q, nth_error qs i = Some q.
  Proof.
    intros H. destruct (g_core _ _ _ _ _ _ _ G) as [K1 K2 K3 K4 K5 K6 K7 K8 K9 K10].
    destruct (nth_error (y_hist s) i) as [[rq p]|] eqn:E.
    - destruct (K2 _ _ _ E) as (q & Hq & _). eauto.
    - apply nth_error_None in E. destruct (K6 i) as [Hm _]; [unfold taken; lia|].
      apply of_id_in in H. rewrite Hm in H. contradiction.
  Qed.
  Lemma recs_owner i m : In (Some i, m) (y_recs s) -> exists q, nth_error qs i = Some q.
  Proof.
    intros H. destruct (g_core _ _ _ _ _ _ _ G) as [K1 K2 K3 K4 K5 K6 K7 K8 K9 K10].
    destruct (nth_error (y_hist s) i) as [[rq p]|] eqn:E.
    - destruct (K2 _ _ _ E) as (q & Hq & _). eauto.
    - apply nth_error_None in E. destruct (K6 i) as [_ Hm]; [unfold taken; lia|].
      assert (In m (of_rec i (y_recs s))).
      { unfold of_rec. apply in_map_iff. exists (Some i, m). split; [reflexivity|]. apply filter_In. split; [exact H|]. cbn. apply Nat.eqb_refl. }
      rewrite Hm in H0. contradiction.
  Qed.

  (** ** Once the reading thread is done *)
  Variable d : bool.
  Hypothesis Hd : y_rd s = RDone d.

  Lemma done_next : y_next s = length qs /\ y_q s = [] /\ none (fun x => negb (is_idle x)) (y_th s).
  Proof.
    destruct (g_done _ _ _ _ _ _ _ G d Hd) as [H1 H2]. split; [|auto].
    destruct (g_rd _ _ _ _ _ _ _ G) as [Hle R]. rewrite Hd in R. destruct R as [R _]. unfold todo in R.
    assert (length (skipn (y_next s) qs) = 0)%nat by (rewrite R; reflexivity). rewrite skipn_length in H. lia.
  Qed.
  Lemma done_finished i q : nth_error qs i = Some q -> finished lg q i s.
  Proof.
    intros Hi. destruct done_next as (H1 & H2 & H3). apply (k_done _ _ _ _ (g_core _ _ _ _ _ _ _ G)).
    - unfold taken. rewrite H2. cbn [length]. assert (i < length qs)%nat by (apply nth_error_Some; congruence). lia.
    - exact Hi.
    - intros t x Hx. specialize (H3 _ _ Hx). destruct x; try discriminate.
  Qed.
  Lemma done_hist : length (y_hist s) = length qs /\
    forall i q, nth_error qs i = Some q -> exists p, nth_error (y_hist s) i = Some (mreq q, p) /\ payload_ok q p.
  Proof.
    destruct done_next as (H1 & _ & _). destruct (g_core _ _ _ _ _ _ _ G) as [K1 K2 K3 K4 K5 K6 K7 K8 K9 K10].
    split; [congruence|]. intros i q Hi. destruct (nth_error (y_hist s) i) as [[rq p]|] eqn:E.
    - destruct (K2 _ _ _ E) as (q' & Hq & -> & Hp). assert (q' = q) by congruence. subst q'. eauto.
    - apply nth_error_None in E. assert (i < length qs)%nat by (apply nth_error_Some; congruence). lia.
  Qed.
  Lemma done_out : y_out s = concat (map snd (y_msgs s)).
  Proof.
    destruct done_next as (_ & _ & H3). apply (bytes_none _ _ _ _ _ (g_out _ _ _ _ _ _ _ G)).
    intros t x Hx. specialize (H3 _ _ Hx). destruct x; auto; discriminate.
  Qed.
  Lemma done_log : y_log s = concat (map snd (y_recs s)).
  Proof.
    destruct done_next as (_ & _ & H3). apply (bytes_none _ _ _ _ _ (proj1 (g_log _ _ _ _ _ _ _ G))).
    intros t x Hx. specialize (H3 _ _ Hx). destruct x; auto; discriminate.
  Qed.

  Lemma done_full : forall i q, nth_error qs i = Some q ->
    exists vs, of_id i (y_msgs s) = map (enc_view (q_cookie q)) vs /\ Forall (wf_view (dlen_of q)) vs /\ whole_answer vs.
  Proof. intros i q Hi. destruct (done_finished _ _ Hi) as [(vs & H) _]. eauto. Qed.

  Definition replies : list (list Z * view) := decoded qs (y_msgs s).

  Theorem done_answers :
    split_replies (length (y_out s)) (data_len qs) (y_out s) = Some replies /\
    (forall q, In q qs -> whole_answer (with_cookie (q_cookie q) replies)) /\
    (forall x, In x replies -> exists q, In q qs /\ fst x = q_cookie q).
  Proof.
    split; [|split].
    - rewrite done_out. rewrite (decoded_bytes qs Hqs Hn (y_msgs s) (fun _ _ => whole_answer) msgs_owner done_full).
      apply split_all; [apply (decoded_wf qs Hqs Hn (y_msgs s) (fun _ _ => whole_answer) msgs_owner done_full)|].
      apply concat_long. intros [ck v] _. apply enc_view_nonempty.
    - intros q Hq. apply In_nth_error in Hq. destruct Hq as [i Hi].
      apply (decoded_with qs Hqs Hn (y_msgs s) (fun _ _ => whole_answer) msgs_owner done_full i q Hi).
    - intros x Hx. apply (decoded_owner qs Hqs Hn (y_msgs s) (fun _ _ => whole_answer) msgs_owner done_full x Hx).
  Qed.

  (** ** The log *)
  Hypothesis Hlg : lg = true.
  Variable last : list wreq.
  Hypothesis Hends : ends_clean tail last.
  Definition dl : bool := cflag c F_DATALOG && negb (cflag c F_SPLICE).

  Definition tr (x : lent) : list lview :=
    match x with
    | LReq q => [GReq (logged dl q)]
    | LLast _ => map (fun q => GReq (logged dl q)) last
    | LRep i m => [GRep (fst (dech m)) (snd (dech m))]
    end.

  Lemma rec_of i m q : In (Some i, m) (y_recs s) -> nth_error qs i = Some q ->
    exists v, m = enc_head (q_cookie q) v /\ wf_hv (head_view v) /\ dech m = (q_cookie q, head_view v).
  Proof.
    intros H Hi. destruct (done_finished _ _ Hi) as [(vs & E1 & Hw & _) E2]. specialize (E2 Hlg).
    destruct (q_in qs Hqs _ _ Hi) as [Hin Hc].
    assert (H' : In m (of_rec i (y_recs s))).
    { unfold of_rec. apply in_map_iff. exists (Some i, m). split; [reflexivity|]. apply filter_In. split; [exact H|]. cbn. apply Nat.eqb_refl. }
    rewrite E2, E1, map_map in H'. apply in_map_iff in H'. destruct H' as (v & <- & Hv).
    rewrite Forall_forall in Hw. specialize (Hw _ Hv). apply wf_head in Hw. rewrite head_enc by exact Hc.
    exists v. rewrite <- enc_hv_head. rewrite dech_enc by assumption. auto.
  Qed.

  Lemma held_dl q : wreq_ok q -> held lg c (header q) = dl && (q_cmd q =? 1).
  Proof.
    intros Hq. rewrite (held_write true lg c q (proj1 (proj2 Hq)) Hq). rewrite Hlg. unfold dl.
    destruct (q_cmd q =? 1), (cflag c F_DATALOG), (negb (cflag c F_SPLICE)); reflexivity.
  Qed.
  Lemma logged_ok q : wreq_ok q -> wf_ent dl (GReq (logged dl q)).
  Proof.
    intros (H1 & H2 & H3 & H4 & H5). cbn [wf_ent logged q_type q_cookie q_from q_len q_data].
    repeat split; try apply H1; try apply H3; try apply H4; try exact H2.
    fold (q_cmd q). destruct dl; cbn [andb]; [exact H5|reflexivity].
  Qed.
  Lemma logged_enc q : wreq_ok q -> concat (map snd (ent_recs lg c (LReq q))) = enc_ent (GReq (logged dl q)).
  Proof.
    intros Hq. cbn [ent_recs map concat snd]. rewrite held_dl by exact Hq. cbn [enc_ent].
    change (header (logged dl q)) with (header q). cbn [logged q_data]. f_equal.
    pose proof Hq as (_ & _ & _ & _ & H5). destruct dl; cbn [andb]; [|reflexivity].
    destruct (q_cmd q =? 1); cbn [map concat snd]; [apply app_nil_r|].
    destruct (q_data q); [reflexivity|]. unfold zlen in H5. cbn [length] in H5. lia.
  Qed.

  Definition es_ok (es : list lent) : Prop :=
    Forall (fun x => match x with
                     | LReq q => In q qs
                     | LLast hdr => last <> [] /\ hdr = firstn 28 tail
                     | LRep i m => In (Some i, m) (y_recs s)
                     end) es.

  Lemma last_cases : last = [] /\ last_items tail = [] \/
    exists q, last = [q] /\ wreq_ok q /\ q_type q = 2 /\ firstn 28 tail = header q /\ last_items tail = [LLast (header q)].
  Proof.
    destruct Hends as [[H1 ->]|(q & rest & H1 & H2 & H3 & ->)].
    - left. split; [reflexivity|]. unfold last_items. replace (zlen tail <? 28) with true by lia. reflexivity.
    - right. exists q. rewrite H3, encode_header, <- app_assoc.
      assert (Hl : length (header q) = 28%nat) by (apply header_length, H1).
      rewrite firstn_pre by exact Hl. repeat split; auto; try apply H1.
      apply (last_items_hdr true c _ (header q) (q_data q ++ rest)); [|exact Hl]. reflexivity.
  Qed.

  Theorem done_records : exists ents,
    parse_log (length (y_log s)) dl (y_log s) = Some ents /\
    log_requests ents = map (logged dl) (qs ++ last) /\
    (forall q, In q qs -> log_replies (q_cookie q) ents = map head_view (with_cookie (q_cookie q) replies)) /\
    (forall ck h, In (GRep ck h) ents -> exists q, In q qs /\ ck = q_cookie q).
  Proof.
    destruct (proj2 (proj2 (g_log _ _ _ _ _ _ _ G)) Hlg) as (es & open & cur & R1 & R2 & R3).
    unfold items_now in R3. rewrite Hd in R3. destruct R3 as [-> ->]. rewrite app_nil_r in R1.
    destruct done_next as (Hnx & _ & _). rewrite Hnx, firstn_all in R2.
    assert (Hes : es_ok es).
    { apply Forall_forall. intros x Hx. destruct x as [q|hdr|i m].
      - assert (Hin : In (LReq q) (filter is_item es)) by (apply filter_In; auto). rewrite R2 in Hin. apply in_app_or in Hin.
        destruct Hin as [Hin|Hin]; [apply in_map_iff in Hin; destruct Hin as (q' & Eq & Hin); injection Eq as ->; exact Hin|].
        exfalso. destruct last_cases as [[_ E0]|(q0 & _ & _ & _ & _ & E0)]; rewrite E0 in Hin; [contradiction|].
        destruct Hin as [E|[]]; discriminate.
      - assert (Hin : In (LLast hdr) (filter is_item es)) by (apply filter_In; auto). rewrite R2 in Hin. apply in_app_or in Hin.
        destruct Hin as [Hin|Hin]; [apply in_map_iff in Hin; destruct Hin as (q' & Eq & Hin); discriminate|].
        destruct last_cases as [[_ E0]|(q0 & El & _ & _ & E1 & E0)]; rewrite E0 in Hin; [contradiction|].
        destruct Hin as [E|[]]. injection E as <-. split; [rewrite El; discriminate|auto].
      - rewrite R1. apply in_concat. exists [(Some i, m)]. split; [|left; reflexivity].
        apply in_map_iff. exists (LRep i m). auto. }
    assert (Hok : Forall (wf_ent dl) (concat (map tr es)) /\ concat (map snd (concat (map (ent_recs lg c) es))) = concat (map enc_ent (concat (map tr es)))).
    { clear R1 R2. induction Hes as [|x es Hx Hes IH]; [split; [constructor|reflexivity]|]. destruct IH as [IH1 IH2].
      cbn [map concat]. rewrite !map_app, !concat_app, IH2. destruct x as [q|hdr|i m].
      - assert (Hq : wreq_ok q) by (rewrite Forall_forall in Hqs; auto).
        split; [|f_equal; rewrite logged_enc by exact Hq; cbn [tr map concat]; rewrite app_nil_r; reflexivity].
        apply Forall_app. split; [|exact IH1]. constructor; [|constructor]. apply logged_ok, Hq.
      - destruct Hx as [Hl ->]. destruct last_cases as [[El _]|(q0 & El & H1 & H2 & H3 & H4)]; [contradiction|].
        split.
        + apply Forall_app. split; [|exact IH1]. cbn [tr]. rewrite El. constructor; [|constructor]. apply logged_ok, H1.
        + f_equal. rewrite H3. cbn [tr ent_recs]. rewrite El. cbn [map concat snd]. rewrite !app_nil_r. cbn [enc_ent logged q_data].
          pose proof H1 as (_ & _ & _ & _ & H5). change (q_cmd q0) with (q_type q0 mod 65536) in H5. rewrite H2 in H5.
          change (2 mod 65536 =? 1) with false in H5. cbv iota in H5.
          assert (En : q_data q0 = []) by (destruct (q_data q0); [reflexivity|unfold zlen in H5; cbn [length] in H5; lia]).
          rewrite En. change (header (logged dl q0)) with (header q0).
          destruct dl; rewrite app_nil_r; reflexivity.
      - destruct (recs_owner _ _ Hx) as [q Hq]. destruct (rec_of _ _ _ Hx Hq) as (v & E1 & E2 & E3).
        destruct (q_in qs Hqs _ _ Hq) as [Hin Hc].
        split; [|f_equal; cbn [tr ent_recs map concat snd enc_ent]; rewrite E3; cbn [fst snd]; rewrite enc_hv_head, E1; reflexivity].
        apply Forall_app. split; [|exact IH1]. constructor; [|constructor]. cbn [wf_ent]. rewrite E3. auto. }
    destruct Hok as [Hw Hb].
    exists (concat (map tr es)). split; [|split; [|split]].
    - rewrite done_log, R1, Hb. apply parse_all; [exact Hw|]. apply concat_long. intros x _. apply enc_ent_nonempty.
    - assert (Hr : log_requests (concat (map tr es)) = log_requests (concat (map tr (filter is_item es)))).
      { assert (Ha : forall a b, log_requests (a ++ b) = log_requests a ++ log_requests b).
        { induction a as [|[q|ck h] a IH]; intros b; cbn [app log_requests]; [reflexivity| |]; rewrite IH; reflexivity. }
        clear. assert (Ha : forall a b, log_requests (a ++ b) = log_requests a ++ log_requests b).
        { induction a as [|[q|ck h] a IH]; intros b; cbn [app log_requests]; [reflexivity| |]; rewrite IH; reflexivity. }
        induction es as [|[q|hdr|i m] es IH]; [reflexivity| | |]; cbn [filter is_item map concat]; rewrite !Ha, IH; reflexivity. }
      rewrite Hr, R2. clear Hr. rewrite map_app, concat_app, map_map. cbn [tr].
      assert (Hc : forall l z, log_requests (concat (map (fun x => [GReq (logged dl x)]) l) ++ z) = map (logged dl) l ++ log_requests z).
      { induction l as [|q l IH]; intros z; cbn [map concat app log_requests]; [reflexivity|]. rewrite IH. reflexivity. }
      rewrite Hc, map_app. f_equal. destruct last_cases as [[-> ->]|(q0 & El & _ & _ & _ & ->)]; [reflexivity|].
      cbn [map concat tr]. rewrite El. reflexivity.
    - intros q Hq. apply In_nth_error in Hq. destruct Hq as [i Hi].
      destruct (decoded_with qs Hqs Hn (y_msgs s) (fun _ _ => whole_answer) msgs_owner done_full i q Hi) as (D1 & D2 & _).
      fold replies in D1, D2. destruct (done_finished _ _ Hi) as [_ E2]. specialize (E2 Hlg).
      destruct (q_in qs Hqs _ _ Hi) as [Hin Hck].
      assert (Hrep : log_replies (q_cookie q) (concat (map tr es)) = map (fun m => snd (dech m)) (of_rec i (y_recs s))).
      { rewrite R1. revert Hes. clear -Hqs Hn G Hd Hi Hlg Hends Hck d. intros Hes. 
        assert (Ha : forall a b, log_replies (q_cookie q) (a ++ b) = log_replies (q_cookie q) a ++ log_replies (q_cookie q) b).
        { induction a as [|[q'|ck h] a IH]; intros b; cbn [app log_replies]; [reflexivity|auto|]. rewrite IH.
          destruct (eqb_bytes ck (q_cookie q)); reflexivity. }
        induction Hes as [|x es Hx Hes IH]; [reflexivity|]. cbn [map concat]. rewrite Ha, of_rec_app, map_app, IH. f_equal.
        destruct x as [q'|hdr|j m]; cbn [tr ent_recs].
        - unfold of_rec. destruct (held lg c (header q')); reflexivity.
        - unfold of_rec. cbn. destruct last as [|q0 [|q1 l]] eqn:El; [reflexivity|reflexivity|].
          destruct Hends as [[_ E]|(q2 & rest & _ & _ & _ & E)]; discriminate.
        - destruct (recs_owner _ _ Hx) as [q' Hq']. destruct (rec_of _ _ _ Hx Hq') as (v & _ & _ & E3).
          cbn [log_replies]. rewrite E3. cbn [fst snd].
          destruct (Nat.eq_dec i j) as [<-|Hne].
          + assert (q' = q) by congruence. subst q'. rewrite eqb_bytes_refl, of_rec_same. cbn [map]. rewrite E3. reflexivity.
          + rewrite of_rec_other by exact Hne. unfold eqb_bytes.
            destruct (list_eq_dec Z.eq_dec (q_cookie q') (q_cookie q)) as [Eq|_]; [|reflexivity].
            exfalso. apply Hne. symmetry. eapply cookie_inj; eauto. }
      rewrite Hrep, E2, D1, !map_map. apply map_ext_in. intros v Hv. rewrite head_enc by exact Hck. rewrite <- enc_hv_head.
      rewrite Forall_forall in D2. rewrite dech_enc; [reflexivity|exact Hck|]. eapply wf_head, D2, Hv.
    - intros ck h Hin. apply in_concat in Hin. destruct Hin as (l & Hl & Hin). apply in_map_iff in Hl. destruct Hl as (x & <- & Hx).
      unfold es_ok in Hes. rewrite Forall_forall in Hes. specialize (Hes _ Hx). destruct x as [q|hdr|i m]; cbn [tr] in Hin.
      + destruct Hin as [E|[]]. discriminate.
      + apply in_map_iff in Hin. destruct Hin as (q & E & _). discriminate.
      + destruct Hin as [E|[]]. injection E as <- <-. destruct (recs_owner _ _ Hes) as [q Hq].
        destruct (rec_of _ _ _ Hes Hq) as (v & _ & _ & ->). exists q. split; [eapply nth_error_In; eauto|reflexivity].
  Qed.
End Final.
