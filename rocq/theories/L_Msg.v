(** What a worker sends for one request, whatever the other threads do in
    between: a whole answer with the request's cookie. *)
From Verif Require Import Base M_Const M_Disk M_Tree M_Raw M_Par L_Wp L_Raw S_Wire S_Disk L_Wire L_Req L_Plain L_Session S_Par.

(** [pspec W st p acc Q]: starting with messages [acc] sent, every run of [p] in
    which the rest of the world changes arbitrarily between any two steps ends
    with [Q], and the messages sent always satisfy [W].  With [st] no step is
    undefined, exits, or exhausts a bound. *)
Fixpoint pspec (W : list (list Z) -> Prop) (st : bool) {A} (p : P A) (acc : list (list Z)) (Q : A -> list (list Z) -> Prop) : Prop :=
  match p with
  | PRet a => Q a acc
  | PAct X m k => forall w, match m w with
                            | Ret a _ => pspec W st (k a) acc Q
                            | _ => st = false
                            end
  | PSend m k => W (acc ++ [m]) /\ pspec W st k (acc ++ [m]) Q
  | PLog _ k => pspec W st k acc Q
  end.

Section Msg.
  Variable W : list (list Z) -> Prop.
  Variable st : bool.

  Lemma pspec_mono {A} (p : P A) : forall acc (Q Q' : A -> list (list Z) -> Prop),
    pspec W st p acc Q -> (forall a ms, Q a ms -> Q' a ms) -> pspec W st p acc Q'.
  Proof.
    induction p as [a|X m k IH|m k IH|m k IH]; cbn [pspec]; intros acc Q Q' H HQ; eauto.
    2:{ destruct H; eauto. }
    intros w. specialize (H w). destruct (m w); eauto.
  Qed.
  Lemma pspec_ret {A} (a : A) acc (Q : A -> list (list Z) -> Prop) : Q a acc -> pspec W st (PRet a) acc Q.
  Proof. auto. Qed.
  Lemma pspec_act {X} (m : M X) acc (Q : X -> list (list Z) -> Prop) :
    (forall w, match m w with Ret a _ => Q a acc | _ => st = false end) -> pspec W st (act m) acc Q.
  Proof. intros H w. exact (H w). Qed.
  Lemma pspec_bind {A B} (p : P A) (f : A -> P B) : forall acc (Q : B -> list (list Z) -> Prop),
    pspec W st p acc (fun a ms => pspec W st (f a) ms Q) -> pspec W st (pbind p f) acc Q.
  Proof.
    induction p as [a|X m k IH|m k IH|m k IH]; cbn [pspec pbind]; intros acc Q H; auto.
    2:{ destruct H; eauto. }
    intros w. specialize (H w). destruct (m w); auto.
  Qed.
  Lemma pspec_send m acc (Q : unit -> list (list Z) -> Prop) : W (acc ++ [m]) -> Q tt (acc ++ [m]) -> pspec W st (psend m) acc Q.
  Proof. split; assumption. Qed.
  Lemma pspec_log lg m acc (Q : unit -> list (list Z) -> Prop) : Q tt acc -> pspec W st (plog lg m) acc Q.
  Proof. destruct lg; auto. Qed.

  Lemma pspec_loopP {S R} (body : S -> P (S + R)) (I : S -> list (list Z) -> Prop) (mu : S -> Z)
        (Q : R -> list (list Z) -> Prop) :
    (forall s acc, I s acc -> pspec W st (body s) acc (fun r ms =>
        match r with inl s' => I s' ms /\ (st = true -> mu s' + 1 <= mu s) | inr x => Q x ms end)) ->
    forall n s acc, I s acc -> pspec W st (ploopP body n s) acc (fun r ms =>
        match r with inl s' => I s' ms /\ (st = true -> mu s' + Z.pos n <= mu s) | inr x => Q x ms end).
  Proof.
    intros Hb. induction n as [n IH|n IH|]; intros s acc Hs; cbn [ploopP].
    - apply pspec_bind. eapply pspec_mono; [apply Hb; exact Hs|]. cbn beta. intros [s1|x] ms H1; [|exact H1].
      destruct H1 as [H1 M1]. apply pspec_bind. eapply pspec_mono; [apply IH; exact H1|]. cbn beta.
      intros [s2|x] ms2 H2; [|exact H2]. destruct H2 as [H2 M2].
      eapply pspec_mono; [apply IH; exact H2|]. cbn beta. intros [s3|x] ms3 H3; [|exact H3].
      destruct H3 as [H3 M3]. split; [exact H3|]. intros Hst. specialize (M1 Hst). specialize (M2 Hst). specialize (M3 Hst). lia.
    - apply pspec_bind. eapply pspec_mono; [apply IH; exact Hs|]. cbn beta.
      intros [s2|x] ms2 H2; [|exact H2]. destruct H2 as [H2 M2].
      eapply pspec_mono; [apply IH; exact H2|]. cbn beta. intros [s3|x] ms3 H3; [|exact H3].
      destruct H3 as [H3 M3]. split; [exact H3|]. intros Hst. specialize (M2 Hst). specialize (M3 Hst). lia.
    - apply Hb. exact Hs.
  Qed.

  (** A loop; the variant matters only with [st]. *)
  Lemma pspec_loop {S R} bound (body : S -> P (S + R)) (I : S -> list (list Z) -> Prop) (mu : S -> Z)
        (Q : R -> list (list Z) -> Prop) s acc :
    (forall s acc, I s acc -> pspec W st (body s) acc (fun r ms =>
        match r with inl s' => I s' ms /\ (st = true -> mu s' + 1 <= mu s) | inr x => Q x ms end)) ->
    (st = true -> forall s acc, I s acc -> 0 <= mu s) ->
    (st = true -> mu s <= bound) ->
    I s acc -> pspec W st (ploop bound body s) acc Q.
  Proof.
    intros Hb Hm Hbd Hs. unfold ploop. apply pspec_bind.
    eapply pspec_mono; [apply (pspec_loopP body I mu Q Hb); exact Hs|]. cbn beta.
    intros [s'|x] ms H; [|exact H]. destruct H as [H M]. apply pspec_act. intros w.
    destruct st; [|reflexivity]. specialize (M eq_refl). specialize (Hm eq_refl s' ms H). specialize (Hbd eq_refl).
    pose proof (Hm). lia.
  Qed.

  Variable c : client.
  (** with [st]: a plain export, see L_Plain.v *)
  Hypothesis Hpos : st = true -> forall a, 0 <= a < c_size c -> forall w,
    exists h o mb, get_filepos c a w = Ret (Some (h, o, mb)) w /\ 0 <= mb.
  Hypothesis Hplain : st = true ->
    cflag c F_TREEFILES = false /\ cflag c F_WAIT = false /\ cflag c F_COPYONWRITE = false.
  Hypothesis Hsz : 0 <= c_size c <= 9223372036854775807.

  (** a step that sends nothing *)
  Lemma sp_get_filepos a acc (Q : option (fref * Z * Z) -> list (list Z) -> Prop) :
    (st = true -> 0 <= a < c_size c) ->
    (forall r, (st = true -> exists h o mb, r = Some (h, o, mb) /\ 0 <= mb) -> Q r acc) ->
    pspec W st (act (get_filepos c a)) acc Q.
  Proof.
    intros Ha HQ. apply pspec_act. intros w. destruct st eqn:Est.
    - destruct (Hpos eq_refl a (Ha eq_refl) w) as (h & o & mb & E & Hmb). rewrite E. apply HQ. eauto.
    - destruct (get_filepos c a w); auto. apply HQ. discriminate.
  Qed.

  Lemma moved_le r n : 0 <= n -> -1 <= moved r n <= n.
  Proof. intros Hn. unfold moved, MAX_RW. destruct r; lia. Qed.
  Lemma moved_max r n : moved r n <= 2147479552.
  Proof. unfold moved, MAX_RW. destruct r; lia. Qed.

  Lemma sp_pread h o n acc (Q : Z * (Z -> Z) -> list (list Z) -> Prop) :
    (forall k d, -1 <= k <= Z.max 0 n -> k <= 2147479552 -> Q (k, d) acc) ->
    pspec W st (act (sys_pread h o n)) acc Q.
  Proof.
    intros HQ. apply pspec_act. intros w. unfold sys_pread, bind, pull, get, modify, ret.
    assert (H1 : forall f, Q (-1, f) acc) by (intros f; apply HQ; lia).
    destruct h, (w_orc w (w_tick w)); try apply H1; (destruct (o <? 0); [apply H1|]);
      apply HQ; try apply moved_max;
      match goal with |- _ <= moved ?r ?x <= _ => pose proof (moved_le r x ltac:(lia)); lia end.
  Qed.
  Lemma sp_pwrite h o n d acc (Q : Z -> list (list Z) -> Prop) :
    (forall k, (0 <= n -> -1 <= k <= n) -> Q k acc) ->
    pspec W st (act (sys_pwrite h o n d)) acc Q.
  Proof.
    intros HQ. apply pspec_act. intros w. unfold sys_pwrite, bind, pull, get, modify, ret.
    assert (Hm : forall r, 0 <= n -> -1 <= moved r n <= n).
    { intros r Hn. apply moved_le, Hn. }
    destruct h, (w_orc w (w_tick w)); try (apply HQ; lia); (destruct (o <? 0); [apply HQ; lia|]);
      match goal with |- context [moved ?r n <=? 0] => destruct (moved r n <=? 0) end; apply HQ; apply Hm.
  Qed.
  Lemma sp_fsync h acc (Q : Z -> list (list Z) -> Prop) :
    (forall k, Q k acc) -> pspec W st (act (sys_fsync h)) acc Q.
  Proof.
    intros HQ. apply pspec_act. intros w. unfold sys_fsync, bind, pull, get, modify, ret.
    destruct h, (w_orc w (w_tick w)); apply HQ.
  Qed.
  Lemma sp_get {X} (f : world -> X) acc (Q : X -> list (list Z) -> Prop) : (forall x, Q x acc) -> pspec W st (act (get f)) acc Q.
  Proof. intros HQ. apply pspec_act. intros w. apply HQ. Qed.
  Lemma sp_modify f acc (Q : unit -> list (list Z) -> Prop) : Q tt acc -> pspec W st (act (modify f)) acc Q.
  Proof. intros HQ. apply pspec_act. intros w. exact HQ. Qed.
  Lemma sp_any {X} (m : M X) acc (Q : X -> list (list Z) -> Prop) : st = false -> (forall x, Q x acc) -> pspec W st (act m) acc Q.
  Proof. intros E HQ. apply pspec_act. intros w. destruct (m w); auto. Qed.

  Lemma sp_sync_after h fua acc (Q : unit -> list (list Z) -> Prop) : Q tt acc -> pspec W st (p_sync_after c h fua) acc Q.
  Proof.
    intros HQ. unfold p_sync_after.
    destruct (cflag c F_SYNC); [|destruct fua; [|exact HQ]]; apply pspec_bind; apply sp_fsync; intros k; exact HQ.
  Qed.

  Lemma clamp_bounds mb len : 0 <= len -> (st = true -> 0 <= mb) -> st = true -> 0 <= clamp mb len <= len.
  Proof. intros H1 H2 Hs. specialize (H2 Hs). unfold clamp. destruct (mb =? 0); cbn [negb andb]; [lia|]. destruct (mb <? len) eqn:E; lia. Qed.

  Lemma sp_rawexpwrite a d len fua acc (Q : Z -> list (list Z) -> Prop) :
    0 <= len -> (st = true -> 0 <= a < c_size c) ->
    (forall k, (st = true -> -1 <= k <= len) -> Q k acc) ->
    pspec W st (p_rawexpwrite c a d len fua) acc Q.
  Proof.
    intros Hl Ha HQ. unfold p_rawexpwrite. apply pspec_bind. apply sp_get_filepos; [exact Ha|].
    intros r Hr. destruct r as [[[h o] mb]|].
    - apply pspec_bind. apply sp_pwrite. intros k Hk. apply pspec_bind. apply sp_sync_after. apply pspec_ret. apply HQ.
      intros Hs. destruct (Hr Hs) as (h' & o' & mb' & E & Hmb). injection E as -> -> ->.
      pose proof (clamp_bounds mb' len Hl (fun _ => Hmb) Hs). lia.
    - apply HQ. lia.
  Qed.

  Lemma sp_rawexpwrite_fully a d len fua acc (Q : bool -> list (list Z) -> Prop) :
    0 <= len -> (st = true -> 0 <= a /\ a + len <= c_size c) ->
    (forall b, Q b acc) -> pspec W st (p_rawexpwrite_fully c a d len fua) acc Q.
  Proof.
    intros Hl Ha HQ. unfold p_rawexpwrite_fully.
    apply pspec_loop with (I := fun s ms => let '(a', b', l') := s in
        ms = acc /\ (st = true -> 0 <= a' /\ a' + l' <= c_size c /\ 0 <= l')) (mu := fun s => let '(_, _, l') := s in l').
    - intros [[a' b'] l'] ms (-> & HI). unfold p_rawexpwrite_fully_body.
      destruct (0 <? l') eqn:El; [|apply HQ]. apply pspec_bind. apply sp_rawexpwrite; [lia| |].
      { intros Hs. specialize (HI Hs). lia. }
      intros k Hk. destruct (0 <? k) eqn:Ek; [|apply HQ].
      cbn [pspec]. split; [split; [reflexivity|]|]; intros Hs; specialize (HI Hs); specialize (Hk Hs); lia.
    - intros Hs [[a' b'] l'] ms (_ & HI). apply HI, Hs.
    - intros _. lia.
    - split; [reflexivity|]. intros Hs. specialize (Ha Hs). lia.
  Qed.

  Lemma sp_rawexpread a len acc (Q : Z * (Z -> Z) -> list (list Z) -> Prop) :
    0 <= len -> (st = true -> 0 <= a < c_size c) ->
    (forall k d, -1 <= k -> k <= 2147479552 -> (st = true -> k <= len) -> Q (k, d) acc) ->
    pspec W st (p_rawexpread c a len) acc Q.
  Proof.
    intros Hl Ha HQ. unfold p_rawexpread. apply pspec_bind. apply sp_get_filepos; [exact Ha|].
    intros r Hr. destruct r as [[[h o] mb]|].
    - apply sp_pread. intros k d Hk Hm. apply HQ; [lia|lia|].
      intros Hs. destruct (Hr Hs) as (h' & o' & mb' & E & Hmb). injection E as -> -> ->.
      pose proof (clamp_bounds mb' len Hl (fun _ => Hmb) Hs). lia.
    - apply HQ; lia.
  Qed.

  (** ** Messages of one request *)
  Variable q : wreq.
  Hypothesis Hq : wreq_ok q.
  Definition dlen_of : Z := if q_cmd q =? 0 then q_len q else 0.

  (** chunks sent so far, none of them the last *)
  Definition begun (acc : list (list Z)) : Prop :=
    exists vs, acc = map (enc_view (q_cookie q)) vs /\
      Forall (wf_view dlen_of) vs /\ Forall (fun v => is_chunk v = true /\ is_done v = false) vs.
  Definition complete (acc : list (list Z)) : Prop :=
    exists vs, acc = map (enc_view (q_cookie q)) vs /\ Forall (wf_view dlen_of) vs /\ whole_answer vs.

  (** what may have been sent at any time *)
  Definition said (acc : list (list Z)) : Prop := begun acc \/ complete acc.
  Hypothesis HW : forall acc, said acc -> W acc.

  Lemma begun_nil : begun [].
  Proof. exists []. repeat split; constructor. Qed.

  Lemma begun_chunk acc ty payload l : begun acc -> 0 <= ty < 65536 -> is_u32 (zlen payload) -> l = zlen payload ->
    begun (acc ++ [chunk (q_cookie q) 0 ty l payload]).
  Proof.
    intros (vs & -> & H1 & H2) Ht Hp ->. exists (vs ++ [VChunk 0 ty payload]). rewrite map_app. split; [|split].
    - f_equal. cbn [map enc_view]. unfold chunk, u32. rewrite (Z.mod_small (zlen payload)) by exact Hp. reflexivity.
    - apply Forall_app. split; [exact H1|]. constructor; [|constructor]. split; [lia|]. split; [exact Ht|exact Hp].
    - apply Forall_app. split; [exact H2|]. repeat constructor.
  Qed.
  Lemma complete_chunk acc ty payload l : begun acc -> 0 <= ty < 65536 -> is_u32 (zlen payload) -> l = zlen payload ->
    complete (acc ++ [chunk (q_cookie q) NBD_REPLY_FLAG_DONE ty l payload]).
  Proof.
    intros (vs & -> & H1 & H2) Ht Hp ->. exists (vs ++ [VChunk 1 ty payload]). rewrite map_app. split; [|split].
    - f_equal. cbn [map enc_view]. unfold chunk, u32. rewrite (Z.mod_small (zlen payload)) by exact Hp. reflexivity.
    - apply Forall_app. split; [exact H1|]. constructor; [|constructor]. split; [lia|]. split; [exact Ht|exact Hp].
    - right. exists vs, (VChunk 1 ty payload). repeat split; auto.
  Qed.
  Lemma complete_simple e data : is_u32 e -> zlen data = (if e =? 0 then dlen_of else 0) ->
    complete [simple_reply (q_cookie q) e data].
  Proof.
    intros He Hd. exists [VSimple e data]. repeat split.
    - constructor; [|constructor]. split; [exact He|exact Hd].
    - left. eauto.
  Qed.

  Lemma sp_simple lg e data (Q : unit -> list (list Z) -> Prop) :
    is_u32 e -> zlen data = (if e =? 0 then dlen_of else 0) ->
    (forall ms, complete ms -> Q tt ms) -> pspec W st (p_simple lg (q_cookie q) e data) [] Q.
  Proof.
    intros He Hd HQ. unfold p_simple. apply pspec_bind. apply pspec_log.
    pose proof (complete_simple e data He Hd) as Hc. apply pspec_send; [apply HW; right; exact Hc|]. apply HQ, Hc.
  Qed.
  Lemma sp_simple_err lg e (Q : unit -> list (list Z) -> Prop) :
    (forall ms, complete ms -> Q tt ms) ->
    pspec W st (p_simple lg (q_cookie q) (nbd_errno e) []) [] Q.
  Proof.
    intros HQ. destruct (wire_error_u32 (nbd_errno e) (nbd_errno_wire e)) as [H1 H2].
    apply sp_simple; auto. rewrite H2. reflexivity.
  Qed.
  Lemma sp_simple_status lg (b : bool) e (Q : unit -> list (list Z) -> Prop) : dlen_of = 0 ->
    (forall ms, complete ms -> Q tt ms) ->
    pspec W st (p_simple lg (q_cookie q) (if b then nbd_errno e else 0) []) [] Q.
  Proof.
    intros Hd HQ. destruct b; [apply sp_simple_err; exact HQ|].
    apply sp_simple; [unfold is_u32; lia|rewrite Hd; reflexivity|exact HQ].
  Qed.

  (** ** Reading *)
  Definition ctx_ok (x : readctx) : Prop :=
    x_structured x = c_structured c /\ x_df x = false /\ (c_structured c = false -> x_buflen x = q_len q).
  Definition sent_ok (x : readctx) (ms : list (list Z)) : Prop :=
    if x_structured x then begun ms else ms = [].

  Lemma sp_confirm lg x k acc (Q : unit -> list (list Z) -> Prop) :
    ctx_ok x -> sent_ok x acc -> 0 <= k <= 2147479552 ->
    (forall ms, sent_ok x ms -> Q tt ms) ->
    pspec W st (p_confirm_read lg (mreq q) x k) acc Q.
  Proof.
    intros (H1 & H2 & _) Hs Hk HQ. unfold p_confirm_read. rewrite H2. unfold sent_ok in *.
    destruct (x_structured x); cbn [negb andb]; [|apply HQ; exact Hs].
    unfold p_chunk. apply pspec_bind. cbn [mreq rq_cookie].
    assert (Hz : zlen (be 8 (u64 (rq_from (mreq q) + x_off x)) ++ slice (x_buf x) 0 k) = k + 8).
    { rewrite zlen_app, be_zlen, slice_zlen by lia. lia. }
    match goal with |- pspec W st (psend ?m) _ _ => assert (Hb : begun (acc ++ [m])) end.
    { apply begun_chunk; auto; [unfold NBD_REPLY_TYPE_OFFSET_DATA; lia|]. rewrite Hz. unfold is_u32. lia. }
    apply pspec_send; [apply HW; left; exact Hb|]. apply pspec_log. apply HQ. exact Hb.
  Qed.

  Lemma find_read_buf_spec x w : exists x1 i, find_read_buf x w = Ret (x1, i) w /\
    x_structured x1 = x_structured x /\ x_df x1 = x_df x /\ x_buflen x1 = x_buflen x /\ x_off x1 = x_off x /\ x_len x1 = x_len x /\
    (x_structured x && negb (x_df x) = true -> i = 0 /\ x_alloc x1 = x_len x) /\
    (x_structured x && negb (x_df x) = false -> i = x_off x /\ x1 = x).
  Proof.
    unfold find_read_buf. destruct (x_structured x) eqn:E1, (x_df x) eqn:E2; cbn [negb orb andb];
      do 2 eexists; (split; [reflexivity|]); cbn; rewrite ?E1, ?E2; repeat split; auto; discriminate.
  Qed.
  Lemma sp_find_read_buf x acc (Q : readctx * Z -> list (list Z) -> Prop) :
    (forall x1 i, x_structured x1 = x_structured x -> x_df x1 = x_df x -> x_buflen x1 = x_buflen x ->
       x_off x1 = x_off x -> x_len x1 = x_len x ->
       (x_structured x && negb (x_df x) = true -> i = 0 /\ x_alloc x1 = x_len x) ->
       (x_structured x && negb (x_df x) = false -> i = x_off x /\ x1 = x) -> Q (x1, i) acc) ->
    pspec W st (act (find_read_buf x)) acc Q.
  Proof.
    intros HQ. apply pspec_act. intros w.
    destruct (find_read_buf_spec x w) as (x1 & i & E & H1 & H2 & H3 & H4 & H5 & H6 & H7). rewrite E. apply HQ; auto.
  Qed.
  Lemma sp_buf_store x i n d acc (Q : readctx -> list (list Z) -> Prop) :
    (st = true -> n <= 0 \/ (0 <= i /\ i + n <= x_alloc x)) ->
    (forall x1, x_structured x1 = x_structured x -> x_df x1 = x_df x -> x_buflen x1 = x_buflen x ->
       x_off x1 = x_off x -> x_len x1 = x_len x -> x_alloc x1 = x_alloc x -> Q x1 acc) ->
    pspec W st (act (buf_store x i n d)) acc Q.
  Proof.
    intros Hb HQ. apply pspec_act. intros w. unfold buf_store. destruct (n <=? 0) eqn:En; [apply HQ; auto|].
    destruct ((0 <=? i) && (i + n <=? x_alloc x)) eqn:Eb; [apply HQ; reflexivity|].
    unfold ub. destruct st; [|reflexivity]. specialize (Hb eq_refl). lia.
  Qed.

  (** with [st]: the buffer has room for what is still to come *)
  Definition room (x : readctx) : Prop :=
    0 <= x_off x /\ 0 <= x_len x /\ x_off x + x_len x = q_len q /\ (x_structured x = false -> x_alloc x = q_len q).

  Lemma sp_rawexpread_fully lg x acc (Q : readctx * bool -> list (list Z) -> Prop) :
    ctx_ok x -> sent_ok x acc -> (st = true -> room x /\ q_from q + q_len q <= c_size c) ->
    is_u64 (q_from q) ->
    (forall x1 b ms, ctx_ok x1 -> sent_ok x1 ms -> Q (x1, b) ms) ->
    pspec W st (p_rawexpread_fully lg (mreq q) c x) acc Q.
  Proof.
    intros Hx Ha Hr Hf HQ. unfold p_rawexpread_fully.
    apply pspec_loop with (I := fun x ms => ctx_ok x /\ sent_ok x ms /\ (st = true -> room x /\ q_from q + q_len q <= c_size c)) (mu := x_len).
    - clear x acc Hx Ha Hr. intros x ms (Hx & Ha & Hr). unfold p_rawexpread_fully_body.
      destruct (0 <? x_len x) eqn:El; [|apply HQ; assumption].
      apply pspec_bind. apply sp_find_read_buf. intros x1 i E1 E2 E3 E4 E5 E6 E7.
      apply pspec_bind. apply sp_rawexpread; [lia| |].
      { intros Hs. destruct (Hr Hs) as ((R1 & R2 & R3 & _) & Hi). cbn [mreq rq_from].
        pose proof Hq as (_ & _ & _ & Hl & _). unfold is_u64 in Hf. unfold is_u32 in Hl.
        rewrite i64_small by lia. lia. }
      intros k d Hk1 Hk2 Hk3. destruct Hx as (X1 & X2 & X3).
      assert (Hx1 : ctx_ok x1). { unfold ctx_ok. rewrite E1, E2, E3. auto. }
      assert (Ha1 : sent_ok x1 ms). { unfold sent_ok. rewrite E1. exact Ha. }
      destruct (k <=? 0) eqn:Ek; [apply HQ; assumption|].
      apply pspec_bind. apply sp_buf_store.
      { intros Hs. right. destruct (Hr Hs) as ((R1 & R2 & R3 & R4) & _). specialize (Hk3 Hs).
        rewrite X2 in *. cbn [negb] in *. rewrite Bool.andb_true_r in *. destruct (x_structured x) eqn:Est.
        - destruct (E6 eq_refl) as [-> ->]. lia.
        - destruct (E7 eq_refl) as [-> ->]. rewrite R4 by reflexivity. lia. }
      intros x2 F1 F2 F3 F4 F5 F6.
      assert (Hx2 : ctx_ok x2). { unfold ctx_ok. rewrite F1, F2, F3, E1, E2, E3. auto. }
      apply pspec_bind. apply sp_confirm; [exact Hx2| |lia|].
      { unfold sent_ok. rewrite F1, E1. exact Ha. }
      intros ms2 Hs2. cbn [pspec].
      split; [|cbn [ctx_set x_len]; intros Hs; lia].
      split; [|split].
      + unfold ctx_ok, ctx_set. cbn. exact Hx2.
      + unfold sent_ok, ctx_set in *. cbn. exact Hs2.
      + intros Hs. destruct (Hr Hs) as ((R1 & R2 & R3 & R4) & Hi). specialize (Hk3 Hs). split; [|exact Hi].
        unfold room, ctx_set. cbn. rewrite F1, F6, E1. split; [lia|]. split; [lia|]. split; [lia|].
        intros Est. assert (Eb : x_structured x && negb (x_df x) = false) by (rewrite Est; reflexivity).
        destruct (E7 Eb) as [_ ->]. auto.
    - intros Hs x0 ms (_ & _ & H). apply H, Hs.
    - intros Hs. lia.
    - auto.
  Qed.

  (** nobody but the page arithmetic decides how much is read per page *)
  Definition pages (maph : Z) (s : Z * Z * Z * readctx) : Prop :=
    let '(mapcnt, a, len, x) := s in
    0 <= a /\ 0 <= mapcnt /\ 0 <= len < 4294967296 /\ a - mapcnt * 4096 <= 4096 /\
    (mapcnt <= maph + 1) /\ maph < 4503599627370496 /\ a <= 9223372036854775807 /\
    (0 < len -> mapcnt * 4096 <= a).

  Lemma page_part_bounds maph mapcnt a len x : pages maph (mapcnt, a, len, x) ->
    mapcnt <= maph ->
    let r := page_part (a - mapcnt * 4096) len in
    0 <= r <= len /\ r <= 4294967295 /\ u64 (len - r) = len - r /\
    (0 < len - r -> a + r = (mapcnt + 1) * 4096) /\ a + r <= (mapcnt + 1) * 4096.
  Proof.
    intros (H1 & H2 & H3 & H4 & H5 & H6 & H7 & H8) Hm. cbn zeta. unfold page_part, DIFFPAGESIZE.
    set (o := a - mapcnt * 4096) in *.
    destruct (Z.eq_dec len 0) as [->|Hne].
    - assert (Hr : (if (0 <? 4096 - o) && (0 <? u64 (4096 - o)) then 0 else i64 (u64 (4096 - o))) = 0).
      { destruct ((0 <? 4096 - o) && (0 <? u64 (4096 - o))) eqn:E; [reflexivity|].
        pose proof (u64_range (4096 - o)) as Hu. unfold is_u64 in Hu.
        assert (Hz : u64 (4096 - o) = 0).
        { destruct (0 <? 4096 - o) eqn:E2; cbn [andb] in E; [lia|]. replace (4096 - o) with 0 by lia. reflexivity. }
        rewrite Hz. reflexivity. }
      rewrite Hr. change (u64 (0 - 0)) with 0. unfold o in *. lia.
    - assert (Ho : 0 <= o <= 4096) by (unfold o in *; lia).
      assert (Hu : u64 (4096 - o) = 4096 - o) by (apply u64_small; unfold is_u64; lia).
      rewrite Hu, i64_small by lia.
      assert (Hv : forall r, 0 <= r <= len -> u64 (len - r) = len - r) by (intros r Hr; apply u64_small; unfold is_u64; lia).
      destruct ((0 <? 4096 - o) && (len <? 4096 - o)) eqn:E.
      + rewrite Hv by lia. unfold o in *. lia.
      + assert (4096 - o <= len) by lia. rewrite Hv by lia. unfold o in *. lia.
  Qed.

  Lemma pages_next maph mapcnt a len x x' : pages maph (mapcnt, a, len, x) ->
    mapcnt <= maph -> a + len <= 9223372036854775807 ->
    let r := page_part (a - mapcnt * 4096) len in
    pages maph (mapcnt + 1, a + r, u64 (len - r), x') /\ (a + r) + u64 (len - r) = a + len.
  Proof.
    intros H Hm Hal. pose proof (page_part_bounds maph mapcnt a len x H Hm) as Hb. cbn zeta in *.
    set (r := page_part (a - mapcnt * 4096) len) in *. destruct Hb as (B1 & B2 & B3 & B4 & B5). rewrite B3.
    destruct H as (H1 & H2 & H3 & H4 & H5 & H6 & H7 & H8).
    split; [|lia]. repeat split; try lia. 
  Qed.

  Lemma sp_expread lg x acc (Q : readctx * bool -> list (list Z) -> Prop) :
    ctx_ok x -> sent_ok x acc -> (st = true -> room x) -> x_off x = 0 ->
    q_from q + q_len q <= c_size c ->
    (forall x1 b ms, ctx_ok x1 -> sent_ok x1 ms -> Q (x1, b) ms) ->
    pspec W st (p_expread lg (mreq q) c x) acc Q.
  Proof.
    intros Hx Ha Hr H0 Hin HQ. pose proof Hq as (_ & _ & Hf & Hl & _). unfold is_u64 in Hf. unfold is_u32 in Hl.
    unfold p_expread. cbn [mreq rq_from rq_len].
    destruct (negb (cflag c F_COPYONWRITE) && negb (waiting c)) eqn:Ec.
    { apply sp_rawexpread_fully; auto. }
    assert (Hst : st = false).
    { destruct st; [|reflexivity]. destruct (Hplain eq_refl) as (_ & P2 & P3).
      rewrite P3 in Ec. unfold waiting in Ec. rewrite P2 in Ec. discriminate. }
    rewrite H0, i64_small by lia. rewrite (Z.add_0_l (q_from q)).
    assert (Hmh : 0 <= map_high (q_from q) (q_len q) < 4503599627370496).
    { unfold map_high, DIFFPAGESIZE, u64. pose proof (Z.mod_pos_bound (q_from q + q_len q - 1) 18446744073709551616 ltac:(lia)).
      split; [apply Z.div_pos; lia|]. apply Z.div_lt_upper_bound; lia. }
    apply pspec_loop with (mu := fun _ => 0) (I := fun s ms =>
      let '(mapcnt, a, len, x) := s in pages (map_high (q_from q) (q_len q)) s /\
      a + len <= 9223372036854775807 /\ ctx_ok x /\ sent_ok x ms); try (intros; congruence).
    2:{ unfold DIFFPAGESIZE. split; [|split; [lia|split; assumption]].
        pose proof (Z.div_mod (q_from q) 4096 ltac:(lia)) as Hd. pose proof (Z.mod_pos_bound (q_from q) 4096 ltac:(lia)).
        assert (0 <= q_from q / 4096) by (apply Z.div_pos; lia).
        repeat split; try lia.
        destruct (Z.eq_dec (q_len q) 0) as [E0|E0].
        - destruct (Z.eq_dec (q_from q) 0) as [F0|F0]; [rewrite F0 in *; change (0 / 4096) with 0; lia|].
          unfold map_high, DIFFPAGESIZE, u64. rewrite E0, Z.add_0_r, Z.mod_small by lia.
          assert (q_from q <= 4096 * ((q_from q - 1) / 4096) + 4096).
          { pose proof (Z.div_mod (q_from q - 1) 4096 ltac:(lia)). pose proof (Z.mod_pos_bound (q_from q - 1) 4096 ltac:(lia)). lia. }
          lia.
        - unfold map_high, DIFFPAGESIZE, u64. rewrite Z.mod_small by lia.
          assert (q_from q / 4096 <= (q_from q + q_len q - 1) / 4096) by (apply Z.div_le_mono; lia). lia. }
    clear x acc Hx Ha Hr H0. intros [[[mapcnt a] len] x] ms (Hpg & Hal & Hx & Ha). unfold p_expread_body, DIFFPAGESIZE.
    destruct (mapcnt <=? map_high (q_from q) (q_len q)) eqn:Em; [|apply HQ; assumption].
    pose proof (page_part_bounds _ _ _ _ _ Hpg ltac:(lia)) as Hb. cbn zeta in Hb.
    pose proof (fun x' => pages_next _ _ _ _ x x' Hpg ltac:(lia) Hal) as Hn. cbn zeta in Hn.
    set (r := page_part (a - mapcnt * 4096) len) in *.
    apply pspec_bind. apply sp_any; [exact Hst|]. intros v. destruct (negb (v =? NOPAGE)).
    - apply pspec_bind. apply sp_find_read_buf. intros x1 i E1 E2 E3 E4 E5 _ _.
      apply pspec_bind. apply sp_pread. intros k d Hk Hk2.
      apply pspec_bind. apply sp_buf_store; [congruence|]. intros x2 F1 F2 F3 F4 F5 F6.
      destruct Hx as (X1 & X2 & X3).
      assert (Hx2 : ctx_ok x2). { unfold ctx_ok. rewrite F1, F2, F3, E1, E2, E3. auto. }
      assert (Ha2 : sent_ok x2 ms). { unfold sent_ok. rewrite F1, E1. exact Ha. }
      destruct (negb (k =? r)) eqn:Ek; [apply HQ; assumption|].
      apply pspec_bind. apply sp_confirm; [exact Hx2|exact Ha2|lia|]. intros ms2 Hs2. cbn [pspec].
      destruct (Hn x2) as [N1 N2]. split; [|congruence]. split; [exact N1|]. split; [lia|]. split; assumption.
    - destruct (waiting c); [apply HQ; assumption|].
      apply pspec_bind. apply sp_rawexpread_fully; [exact Hx|exact Ha|congruence|exact Hf|].
      intros x1 b ms1 Hx1 Ha1. destruct b; [apply HQ; assumption|]. cbn [pspec].
      destruct (Hn x1) as [N1 N2]. split; [|congruence]. split; [exact N1|]. split; [lia|]. split; assumption.
  Qed.

  Lemma sp_complete_read lg x e msg acc (Q : unit -> list (list Z) -> Prop) :
    ctx_ok x -> sent_ok x acc -> q_cmd q = 0 -> is_u32 e -> (zlen msg <= 1000) ->
    (forall ms, complete ms -> Q tt ms) ->
    pspec W st (p_complete_read lg (mreq q) x e msg) acc Q.
  Proof.
    intros (X1 & X2 & X3) Ha Hc He Hm HQ. pose proof Hq as (_ & _ & Hf & Hl & _). unfold is_u32 in Hl.
    unfold p_complete_read. unfold sent_ok in Ha. pose proof (zlen_nonneg msg).
    destruct (x_structured x) eqn:Est.
    - rewrite X2. cbn [andb]. apply pspec_bind. apply pspec_ret.
      destruct (negb (e =? 0)); unfold p_chunk; apply pspec_bind; cbn [mreq rq_cookie];
        match goal with |- pspec W st (psend ?m) _ _ => assert (Hb : complete (acc ++ [m])) end;
        try (apply pspec_send; [apply HW; right; exact Hb|]; apply pspec_log; apply HQ; exact Hb).
      + assert (Hz : zlen (be 4 e ++ le16 (zlen msg) ++ msg) = 6 + zlen msg).
        { rewrite !zlen_app, be_zlen. change (zlen (le16 (zlen msg))) with 2. lia. }
        apply complete_chunk; auto; [unfold NBD_REPLY_TYPE_ERROR; lia|]. rewrite Hz. unfold is_u32. lia.
      + apply complete_chunk; auto; [unfold NBD_REPLY_TYPE_NONE; lia|]. change (zlen (@nil Z)) with 0. unfold is_u32; lia.
    - subst acc. apply sp_simple; auto. unfold dlen_of. rewrite Hc. change (0 =? 0) with true. cbv iota.
      destruct (e =? 0); [|reflexivity]. rewrite X3 by congruence. apply slice_zlen. lia.
  Qed.

  Lemma sp_normal_read lg (Q : unit -> list (list Z) -> Prop) :
    q_cmd q = 0 -> flag (q_type q) NBD_CMD_FLAG_DF = false -> q_from q + q_len q <= c_size c ->
    (forall ms, complete ms -> Q tt ms) ->
    pspec W st (p_handle_normal_read lg c (mreq q)) [] Q.
  Proof.
    intros Hc Hdf Hin HQ. unfold p_handle_normal_read. cbn [mreq rq_type]. rewrite Hdf, Bool.andb_false_r. cbn [andb orb].
    pose proof Hq as (_ & _ & Hf & Hl & _). unfold is_u32 in Hl.
    apply pspec_bind. apply sp_get. intros g. cbn [mreq rq_len]. apply pspec_bind.
    apply sp_expread; auto.
    - unfold ctx_ok. destruct (c_structured c); cbn; repeat split; auto; discriminate.
    - unfold sent_ok. destruct (c_structured c); cbn; [apply begun_nil|reflexivity].
    - intros _. unfold room. destruct (c_structured c); cbn; repeat split; try lia; discriminate.
    - destruct (c_structured c); reflexivity.
    - intros x1 b ms Hx Hs. destruct b.
      + apply pspec_bind. apply sp_get. intros e.
        apply sp_complete_read; auto; [apply wire_error_u32, nbd_errno_wire|]. change (zlen read_failed) with 12. lia.
      + apply sp_complete_read; auto; [unfold is_u32; lia|]. change (zlen (@nil Z)) with 0. lia.
  Qed.

  Lemma sp_splice_in a len (Q : option (list Z) -> list (list Z) -> Prop) acc :
    0 <= len -> (st = true -> 0 <= a /\ a + len <= c_size c) ->
    (forall r, (forall l, r = Some l -> zlen l = len) -> Q r acc) ->
    pspec W st (p_expsplice_in c a len) acc Q.
  Proof.
    intros Hl Ha HQ. unfold p_expsplice_in.
    apply pspec_loop with (mu := fun s => snd (fst s)) (I := fun s ms =>
       let '(a', l', d) := s in ms = acc /\ zlen d + l' = len /\ 0 <= l' /\ (st = true -> 0 <= a' /\ a' + l' <= c_size c)).
    - intros [[a' l'] d] ms (-> & Hz & Hl' & HI). unfold p_expsplice_in_body.
      destruct (0 <? l') eqn:El.
      + apply pspec_bind. unfold p_rawexpread. apply pspec_bind. apply sp_get_filepos; [intros Hs; specialize (HI Hs); lia|].
        intros r Hr.
        assert (Hgo : forall k d0, -1 <= k -> k <= l' ->
            pspec W st (if 0 <? k then PRet (inl (a' + k, l' - k, d ++ slice d0 0 k)) else PRet (inr None)) acc
            (fun r ms => match r with
               | inl s' => (let '(a', l', d) := s' in ms = acc /\ zlen d + l' = len /\ 0 <= l' /\ (st = true -> 0 <= a' /\ a' + l' <= c_size c))
                            /\ (st = true -> snd (fst s') + 1 <= snd (fst (a', l', d)))
               | inr x => Q x ms end)).
        { intros k d0 Hk Hk2. destruct (0 <? k) eqn:Ek; cbn [pspec fst snd].
          - split; [|lia]. split; [reflexivity|]. rewrite zlen_app, slice_zlen by lia. split; [lia|]. split; [lia|].
            intros Hs. specialize (HI Hs). lia.
          - apply HQ. discriminate. }
        destruct r as [[[h o] mb]|]; [|apply Hgo; lia].
        apply sp_pread. intros k d0 Hk _. apply Hgo; [lia|].
        unfold clamp in Hk. destruct (mb =? 0); cbn [negb andb] in Hk; [lia|]. destruct (mb <? l') eqn:E; lia.
      + cbn [pspec]. apply HQ. intros l E. injection E as <-. lia.
    - intros _ [[a' l'] d] ms (_ & _ & H & _). exact H.
    - intros _. cbn. lia.
    - split; [reflexivity|]. change (zlen (@nil Z)) with 0. split; [lia|]. split; [lia|]. intros Hs. specialize (Ha Hs). lia.
  Qed.

  Lemma sp_read lg (Q : unit -> list (list Z) -> Prop) :
    q_cmd q = 0 -> flag (q_type q) NBD_CMD_FLAG_DF = false -> q_from q + q_len q <= c_size c ->
    (forall ms, complete ms -> Q tt ms) ->
    pspec W st (p_handle_read lg c (mreq q)) [] Q.
  Proof.
    intros Hc Hdf Hin HQ. unfold p_handle_read. apply pspec_bind.
    destruct (cflag c F_SPLICE); [|apply sp_normal_read; auto].
    unfold p_handle_splice_read. destruct (c_tls c); [apply sp_normal_read; auto|].
    apply pspec_bind. pose proof Hq as (_ & _ & Hf & Hl & _). unfold is_u32, is_u64 in *.
    assert (Hmk : forall ok, pspec W st (if negb ok then PRet false
        else r <~- p_expsplice_in c (i64 (rq_from (mreq q))) (rq_len (mreq q)) ;;
             match r with
             | None => PRet false
             | Some data => p_simple lg (rq_cookie (mreq q)) 0 data ;;- PRet true
             end) [] (fun b ms => pspec W st (if b then PRet tt else p_handle_normal_read lg c (mreq q)) ms Q)).
    { intros ok. destruct ok; cbn [negb]; [|apply sp_normal_read; auto].
      apply pspec_bind. cbn [mreq rq_from rq_len]. rewrite i64_small by lia. apply sp_splice_in; [lia|lia|].
      intros [data|] Hd; [|apply sp_normal_read; auto].
      apply pspec_bind. apply sp_simple; [unfold is_u32; lia| |].
      - unfold dlen_of. rewrite Hc. apply Hd. reflexivity.
      - intros ms Hms. cbn [pspec]. apply HQ. exact Hms. }
    apply pspec_act. intros w. unfold mkpipe. destruct (MAX_PIPE_SIZE <? rq_len (mreq q)); [apply (Hmk false)|].
    unfold bind, pull, ret. destruct (w_orc w (w_tick w)); [apply (Hmk true)|apply (Hmk true)|apply (Hmk false)].
  Qed.

  (** ** Changing *)
  Lemma sp_copyin pagestart pb acc (Q : Z * (Z -> Z) -> list (list Z) -> Prop) :
    st = false -> (forall r, Q r acc) ->
    pspec W st (ploop (DIFFPAGESIZE + 1) (p_copyin_body c) (pagestart, 0, DIFFPAGESIZE, pb)) acc Q.
  Proof.
    intros Hst HQ. apply pspec_loop with (mu := fun _ => 0) (I := fun _ ms => ms = acc); try congruence.
    intros [[[ps p] rl] pb'] ms ->. unfold p_copyin_body. destruct (0 <? rl) eqn:E; [|apply HQ].
    apply pspec_bind. apply sp_rawexpread; [lia|congruence|]. intros k d _ _ _.
    destruct (0 <? k); cbn [pspec]; [split; [reflexivity|congruence]|apply HQ].
  Qed.

  Lemma sp_expwrite a d len fua acc (Q : bool -> list (list Z) -> Prop) :
    0 <= len -> (st = true -> 0 <= a /\ a + len <= c_size c) -> (forall b, Q b acc) ->
    pspec W st (p_expwrite c a d len fua) acc Q.
  Proof.
    intros Hl Ha HQ. unfold p_expwrite. destruct (negb (cflag c F_COPYONWRITE) && negb (waiting c)) eqn:Ec.
    { apply sp_rawexpwrite_fully; auto. }
    assert (Hst : st = false).
    { destruct st; [|reflexivity]. destruct (Hplain eq_refl) as (_ & P2 & P3).
      rewrite P3 in Ec. unfold waiting in Ec. rewrite P2 in Ec. discriminate. }
    apply pspec_bind. apply sp_get. intros g. apply pspec_bind.
    apply pspec_loop with (mu := fun _ => 0) (I := fun _ ms => ms = acc); try congruence.
    intros [[[[mapcnt a'] b'] len'] pb] ms ->. unfold p_expwrite_body.
    assert (Hend : forall b : bool, pspec W st (if b then PRet true else p_sync_after c FDiff fua ;;- PRet false) acc Q).
    { intros [|]; [apply HQ|]. apply pspec_bind. apply sp_sync_after. apply HQ. }
    destruct (mapcnt <=? map_high a len); [|apply (Hend false)].
    apply pspec_bind. apply sp_any; [exact Hst|]. intros v. destruct (negb (v =? NOPAGE)).
    - apply pspec_bind. apply sp_any; [exact Hst|]. intros k. destruct (negb (k =? _)); [apply (Hend true)|].
      cbn [pspec]. split; [reflexivity|congruence].
    - apply pspec_bind.
      assert (Hrest : pspec W st (pb1 <~- p_fill_page c (mapcnt * DIFFPAGESIZE) (a' - mapcnt * DIFFPAGESIZE)
                          (page_part (a' - mapcnt * DIFFPAGESIZE) len') pb ;;
         match pb1 with
         | None => PRet (inr true)
         | Some pb1 =>
             let pb2 := fun j => if (a' - mapcnt * DIFFPAGESIZE <=? j) && (j <? a' - mapcnt * DIFFPAGESIZE + page_part (a' - mapcnt * DIFFPAGESIZE) len')
                              then d (b' + (j - (a' - mapcnt * DIFFPAGESIZE))) else pb1 j in
             k <~- act (sys_write_diff DIFFPAGESIZE pb2) ;;
             if negb (k =? DIFFPAGESIZE) then PRet (inr true)
             else PRet (inl (mapcnt + 1, a' + page_part (a' - mapcnt * DIFFPAGESIZE) len', b' + page_part (a' - mapcnt * DIFFPAGESIZE) len',
                             u64 (len' - page_part (a' - mapcnt * DIFFPAGESIZE) len'), pb2))
         end) acc (fun r ms => match r with
            | inl _ => ms = acc /\ (st = true -> 0 + 1 <= 0)
            | inr b => pspec W st (if b then PRet true else p_sync_after c FDiff fua ;;- PRet false) ms Q end)).
      { apply pspec_bind. 
        assert (Hpb : forall o, pspec W st (match o with
         | None => PRet (inr true)
         | Some pb1 =>
             let pb2 := fun j => if (a' - mapcnt * DIFFPAGESIZE <=? j) && (j <? a' - mapcnt * DIFFPAGESIZE + page_part (a' - mapcnt * DIFFPAGESIZE) len')
                              then d (b' + (j - (a' - mapcnt * DIFFPAGESIZE))) else pb1 j in
             k <~- act (sys_write_diff DIFFPAGESIZE pb2) ;;
             if negb (k =? DIFFPAGESIZE) then PRet (inr true)
             else PRet (inl (mapcnt + 1, a' + page_part (a' - mapcnt * DIFFPAGESIZE) len', b' + page_part (a' - mapcnt * DIFFPAGESIZE) len',
                             u64 (len' - page_part (a' - mapcnt * DIFFPAGESIZE) len'), pb2))
         end) acc (fun r ms => match r with
            | inl _ => ms = acc /\ (st = true -> 0 + 1 <= 0)
            | inr b => pspec W st (if b then PRet true else p_sync_after c FDiff fua ;;- PRet false) ms Q end)).
        { intros [pb1|]; [|apply (Hend true)]. cbn zeta. apply pspec_bind. apply sp_any; [exact Hst|]. intros k.
          destruct (negb (k =? DIFFPAGESIZE)); [apply (Hend true)|]. cbn [pspec]. split; [reflexivity|congruence]. }
        unfold p_fill_page. destruct (_ || _); [|apply (Hpb (Some pb))].
        destruct (waiting c); [apply (Hpb None)|]. apply pspec_bind. apply sp_copyin; [exact Hst|].
        intros [k pb1]. destruct (k <? 0); [apply (Hpb None)|apply (Hpb (Some pb1))]. }
      destruct (cflag c F_SPARSE); [apply sp_modify; exact Hrest|].
      apply pspec_bind. apply sp_get. intros n. apply pspec_bind. apply sp_modify. apply sp_modify. exact Hrest.
  Qed.

  Lemma sp_expwrite_zeroes fua acc (Q : bool -> list (list Z) -> Prop) :
    (st = true -> q_from q + q_len q <= c_size c) -> (forall b, Q b acc) ->
    pspec W st (p_expwrite_zeroes c (mreq q) fua) acc Q.
  Proof.
    intros Hin HQ. unfold p_expwrite_zeroes. cbn [mreq rq_from rq_len].
    pose proof Hq as (_ & _ & Hf & Hl & _). unfold is_u32, is_u64 in *.
    apply pspec_loop with (mu := fun l => l) (I := fun l ms => ms = acc /\ 0 <= l <= q_len q); [|intros _ l ms (_ & Hl0); lia|intros _; lia|split; [reflexivity|lia]].
    intros l ms (-> & Hl'). unfold p_expwrite_zeroes_body. destruct (0 <? l) eqn:El; [|apply HQ].
    apply pspec_bind. unfold ZMAX.
    apply sp_expwrite; [destruct (67108864 <? l); lia| |].
    { intros Hs. specialize (Hin Hs). rewrite i64_small by lia. destruct (67108864 <? l) eqn:E; lia. }
    intros [|]; cbn [pspec]; [apply HQ|]. split; [split; [reflexivity|]|intros _]; destruct (67108864 <? l) eqn:E; lia.
  Qed.

  Lemma sp_fsync_all fis acc (Q : bool -> list (list Z) -> Prop) : (forall b, Q b acc) -> pspec W st (p_fsync_all fis) acc Q.
  Proof.
    intros HQ. induction fis as [|fi t IH]; cbn [p_fsync_all]; [apply HQ|].
    apply pspec_bind. apply sp_fsync. intros k. destruct (k <? 0); [apply HQ|exact IH].
  Qed.
  (** with [st]: there is an export array *)
  Hypothesis Hexp : st = true -> exists fi fis, c_export c = Some (fi :: fis).
  Lemma sp_expflush acc (Q : bool -> list (list Z) -> Prop) : (forall b, Q b acc) -> pspec W st (p_expflush c) acc Q.
  Proof.
    intros HQ. unfold p_expflush.
    destruct (cflag c F_COPYONWRITE); [apply pspec_bind, sp_fsync; intros; apply HQ|].
    destruct (cflag c F_WAIT); [apply pspec_bind, sp_fsync; intros; apply HQ|].
    destruct (cflag c F_TREEFILES).
    - destruct (cflag c F_READONLY); [apply HQ|]. apply pspec_bind. apply sp_modify. apply HQ.
    - destruct (c_export c) as [l|] eqn:E; [apply sp_fsync_all; exact HQ|].
      apply sp_any; [|intros; apply HQ]. destruct st; [|reflexivity]. destruct (Hexp eq_refl) as (fi & fis & E2). discriminate.
  Qed.

  Lemma sp_exptrim acc (Q : unit -> list (list Z) -> Prop) :
    (st = true -> bad_write c = false /\ q_from q + q_len q <= c_size c) -> Q tt acc -> pspec W st (p_exptrim c (mreq q)) acc Q.
  Proof.
    intros Hin HQ. unfold p_exptrim. cbn [mreq rq_from rq_len].
    pose proof Hq as (_ & _ & Hf & Hl & _). unfold is_u32, is_u64 in *.
    apply pspec_bind. apply pspec_act. intros w. destruct (negb (cflag c F_READONLY)) eqn:Er; cbn [assert_].
    2:{ unfold die. destruct st; [|reflexivity]. destruct (Hin eq_refl) as [Hb _]. unfold bad_write in Hb.
        apply orb_false_iff in Hb. destruct Hb as [Hb _]. rewrite Hb in Er. discriminate. }
    cbn [ret]. clear w. apply pspec_bind. apply pspec_act. intros w.
    destruct (u64 (q_from q + q_len q) <=? c_size c) eqn:Es; cbn [assert_ ret].
    2:{ unfold die. destruct st; [|reflexivity]. destruct (Hin eq_refl) as [_ Hi].
        unfold u64 in Es. rewrite Z.mod_small in Es by lia. lia. }
    clear w. destruct (cflag c F_COPYONWRITE) eqn:Ecw; [exact HQ|].
    destruct (cflag c F_TREEFILES) eqn:Etr.
    - assert (Hst : st = false).
      { destruct st; [|reflexivity]. destruct (Hplain eq_refl) as (P1 & _). congruence. }
      apply pspec_loop with (mu := fun _ => 0) (I := fun _ ms => ms = acc); try congruence.
      intros mn ms ->. unfold p_trim_tree_body. destruct (mn <? _); [|exact HQ].
      apply pspec_bind. apply sp_any; [exact Hst|]. intros. cbn [pspec]. split; [reflexivity|congruence].
    - destruct (c_export c) as [l|] eqn:E.
      2:{ apply sp_any; [|intros []; exact HQ]. destruct st; [|reflexivity]. destruct (Hexp eq_refl) as (fi & fis & E2). discriminate. }
      destruct (nth_error l 0) as [cur|] eqn:E0.
      2:{ apply sp_any; [|intros []; exact HQ]. destruct st; [|reflexivity]. destruct (Hexp eq_refl) as (fi & fis & E2).
          injection E2 as ->. discriminate. }
      apply pspec_loop with (mu := fun s => zlen l + 1 - snd s) (I := fun s ms => ms = acc /\ 1 <= snd s <= zlen l + 1).
      + intros [[h s0] i] ms (-> & Hi). unfold p_trim_body. apply pspec_bind.
        assert (Hafter : pspec W st (let i' := i + 1 in
            if (i' <? zlen l) && (snd match nth_error l (Z.to_nat i) with Some nx => (fi_h nx, fi_start nx) | None => (FBad, i64 (c_size c)) end <? u64 (rq_from (mreq q) + rq_len (mreq q)))
            then PRet (inl (fst match nth_error l (Z.to_nat i) with Some nx => (fi_h nx, fi_start nx) | None => (FBad, i64 (c_size c)) end,
                        snd match nth_error l (Z.to_nat i) with Some nx => (fi_h nx, fi_start nx) | None => (FBad, i64 (c_size c)) end, i'))
            else PRet (inr tt)) acc (fun r ms => match r with
               | inl s' => (ms = acc /\ 1 <= snd s' <= zlen l + 1) /\ (st = true -> zlen l + 1 - snd s' + 1 <= zlen l + 1 - snd (h, s0, i))
               | inr x => Q x ms end)).
        { cbn zeta. destruct (i + 1 <? zlen l) eqn:Ei; cbn [andb]; [|exact HQ].
          match goal with |- pspec W st (if ?b then _ else _) _ _ => destruct b end; [|exact HQ]. cbn [pspec snd] in *.
          split; [split; [reflexivity|lia]|intros _; lia]. }
        destruct (_ && _); [|exact Hafter]. cbn zeta. apply pspec_act. intros w. unfold punch_hole, bind, pull, modify, get.
        destruct (w_orc w (w_tick w)); try exact Hafter;
          (match goal with |- context [if ?b then _ else _] => destruct b end; exact Hafter).
      + intros _ [[h s0] i] ms (_ & Hi). cbn [snd] in *. lia.
      + intros _. cbn [snd]. lia.
      + split; [reflexivity|]. cbn [snd]. pose proof (zlen_nonneg l). lia.
  Qed.

  (** what [package_create] made for this request *)
  Definition fits (p : payload) : Prop := q_cmd q = 1 -> p <> PNone.

  Lemma df_flag : bad_flags (mreq q) = false -> flag (q_type q) NBD_CMD_FLAG_DF = false.
  Proof.
    intros H. pose proof Hq as (Ht & _). apply bad_flags_spec in H; [|exact Ht].
    unfold known_flags, q_flags in H. unfold is_u32 in Ht. unfold flag, NBD_CMD_FLAG_DF.
    apply negb_false_iff. apply Z.eqb_eq.
    assert (Hb : q_type q < 262144).
    { pose proof (Z.div_mod (q_type q) 65536 ltac:(lia)). pose proof (Z.mod_pos_bound (q_type q) 65536 ltac:(lia)). lia. }
    change 262144 with (2 ^ 18) in *.
    apply Z.bits_inj'. intros n Hn. rewrite Z.land_spec, Z.bits_0.
    destruct (Z.eq_dec n 18) as [->|Hne].
    - rewrite (Z.bits_above_log2 (q_type q) 18); [reflexivity|lia|].
      destruct (Z.eq_dec (q_type q) 0) as [->|]; [reflexivity|]. apply Z.log2_lt_pow2; lia.
    - change 262144 with (2 ^ 18). rewrite Z.pow2_bits_false by lia. apply Bool.andb_false_r.
  Qed.

  Theorem sp_handle_request lg p :
    (st = true -> fits p) ->
    pspec W st (p_handle_request lg c (mreq q) p) [] (fun _ ms => complete ms).
  Proof.
    intros Hp. unfold p_handle_request. change (cmd_of (mreq q)) with (q_cmd q).
    pose proof Hq as (Ht & Hck & Hf & Hl & _).
    pose proof (bad_range_spec c q Hf Hl Hsz) as Hbr. unfold inside in Hbr.
    assert (Herr : forall e, pspec W st (p_reply_error lg (mreq q) e) [] (fun _ ms => complete ms)).
    { intros e. unfold p_reply_error. cbn [mreq rq_cookie]. apply sp_simple_err; auto. }
    destruct (bad_flags (mreq q)) eqn:Ebf; [apply Herr|]. pose proof (df_flag Ebf) as Hdf.
    unfold NBD_CMD_READ, NBD_CMD_WRITE, NBD_CMD_FLUSH, NBD_CMD_TRIM, NBD_CMD_WRITE_ZEROES.
    destruct (q_cmd q =? 0) eqn:E0.
    { destruct (bad_range c (mreq q)) eqn:Er; [apply Herr|]. apply sp_read; auto; [lia|].  tauto. }
    assert (Hd0 : dlen_of = 0) by (unfold dlen_of; rewrite E0; reflexivity).
    destruct (q_cmd q =? 1) eqn:E1.
    { destruct (bad_write c); [apply Herr|]. destruct (bad_range c (mreq q)) eqn:Er; [apply Herr|].
      assert (Hin : q_from q + q_len q <= c_size c) by tauto. unfold is_u32, is_u64 in *.
      unfold p_handle_write. apply pspec_bind. cbn [mreq rq_from rq_len].
      assert (Hend : forall b : bool, pspec W st (e <~- act (get w_errno) ;; p_simple lg (rq_cookie (mreq q)) (if b then nbd_errno e else 0) []) [] (fun _ ms => complete ms)).
      { intros b. apply pspec_bind, sp_get. intros e. apply sp_simple_status; auto. }
      destruct p as [d|d|].
      - apply sp_expwrite; [lia|intros _; rewrite i64_small by lia; lia|exact Hend].
      - apply sp_rawexpwrite_fully; [lia|intros _; rewrite i64_small by lia; lia|exact Hend].
      - apply sp_any; [|exact Hend]. destruct st; [|reflexivity]. exfalso. apply (Hp eq_refl); [lia|reflexivity]. }
    destruct (q_cmd q =? 3) eqn:E3.
    { unfold p_handle_flush. apply pspec_bind, sp_expflush. intros b. apply pspec_bind, sp_get. intros e.
      apply sp_simple_status; auto. }
    destruct (q_cmd q =? 4) eqn:E4.
    { destruct (bad_write c) eqn:Ebw; [apply Herr|]. destruct (bad_range c (mreq q)) eqn:Er; [apply Herr|].
      unfold p_handle_trim. apply pspec_bind, sp_exptrim; [intros _; split; [first [reflexivity|assumption]|tauto]|].
      apply (sp_simple_status lg false 0); auto. }
    destruct (q_cmd q =? 6) eqn:E6; [|apply Herr].
    destruct (bad_write c); [apply Herr|]. destruct (bad_range c (mreq q)) eqn:Er; [apply Herr|].
    unfold p_handle_write_zeroes. apply pspec_bind, sp_expwrite_zeroes; [tauto|]. intros b. apply pspec_bind, sp_get. intros e.
    apply sp_simple_status; auto.
  Qed.
End Msg.
