(** Facts about requests that hold for every kind of export. *)
From Verif Require Import Base M_Const M_Disk M_Tree M_Raw L_Wp L_Raw S_Wire S_Disk L_Wire L_Req L_Session.

Lemma refused_request c q p w e :
  wreq_ok q -> 0 <= c_size c <= 9223372036854775807 ->
  refusal (c_size c) (bad_write c) q = Some e ->
  handle_request c (mreq q) p w = Ret tt (emit (ESend (error_reply q e)) w).
Proof.
  intros Hq Hsz Href.
  assert (Hrep : forall x y, nbd_errno x = y -> Some y = Some e ->
            reply_error (mreq q) x w = Ret tt (emit (ESend (error_reply q e)) w)).
  { intros x y Hx Hy. injection Hy as <-. unfold reply_error, send, modify, simple_reply, error_reply.
    rewrite Hx, app_nil_r. reflexivity. }
  unfold refusal in Href. unfold handle_request. change (cmd_of (mreq q)) with (q_cmd q).
  pose proof Hq as (Ht & _ & Hf & Hl & _).
  pose proof (bad_flags_spec q Ht) as Hbf. unfold known_flags in Hbf.
  pose proof (bad_range_spec c q Hf Hl Hsz) as Hbr. unfold inside in Hbr.
  destruct (4 <=? q_flags q) eqn:Ef.
  { destruct (bad_flags (mreq q)) eqn:Eb; [|lia]. eapply Hrep; [|exact Href]; reflexivity. }
  destruct (bad_flags (mreq q)) eqn:Eb; [lia|].
  unfold NBD_CMD_READ, NBD_CMD_WRITE, NBD_CMD_FLUSH, NBD_CMD_TRIM, NBD_CMD_WRITE_ZEROES.
  assert (Hout : bad_range c (mreq q) = (c_size c <? q_from q + q_len q)).
  { destruct (bad_range c (mreq q)) eqn:E1, (c_size c <? q_from q + q_len q) eqn:E2; auto; lia. }
  rewrite Hout.
  destruct (q_cmd q =? 0).
  { destruct (c_size c <? q_from q + q_len q); [|discriminate]. eapply Hrep; [|exact Href]; reflexivity. }
  destruct (q_cmd q =? 1).
  { destruct (bad_write c); [eapply Hrep; [|exact Href]; reflexivity|].
    destruct (c_size c <? q_from q + q_len q); [|discriminate]. eapply Hrep; [|exact Href]; reflexivity. }
  destruct (q_cmd q =? 3); [discriminate|].
  destruct (q_cmd q =? 4).
  { destruct (bad_write c); [eapply Hrep; [|exact Href]; reflexivity|].
    destruct (c_size c <? q_from q + q_len q); [|discriminate]. eapply Hrep; [|exact Href]; reflexivity. }
  destruct (q_cmd q =? 6).
  { destruct (bad_write c); [eapply Hrep; [|exact Href]; reflexivity|].
    destruct (c_size c <? q_from q + q_len q); [|discriminate]. eapply Hrep; [|exact Href]; reflexivity. }
  eapply Hrep; [|exact Href]; reflexivity.
Qed.

(** One request is taken off the stream, whatever comes after it. *)
Lemma mainloop_step c q rest n w :
  wreq_ok q -> q_type q <> 2 ->
  mainloop (S n) c (encode q ++ rest) w =
  (p <- (if q_cmd q =? 1 then receive_payload c (mreq q) (q_data q) else ret PNone) ;;
   handle_request c (mreq q) p ;;; mainloop n c rest) w.
Proof.
  intros Hq Hnd. pose proof Hq as (Ht & Hc & Hf & Hl & Hda).
  cbn [mainloop]. rewrite encode_header, <- app_assoc.
  destruct (decode_header q (q_data q ++ rest) Ht Hc Hf Hl) as (D1 & D2 & D3).
  rewrite D3, D1, D2. change (NBD_REQUEST_MAGIC =? NBD_REQUEST_MAGIC) with true. cbn [negb].
  change (cmd_of (mreq q)) with (q_cmd q). unfold NBD_CMD_WRITE, NBD_CMD_DISC. cbn [mreq rq_len rq_type].
  destruct (q_cmd q =? 1) eqn:Ec.
  - replace (zlen (q_data q ++ rest) <? q_len q) with false.
    2:{ rewrite zlen_app. pose proof (zlen_nonneg rest). lia. }
    assert (Hn : Z.to_nat (q_len q) = length (q_data q)) by (unfold zlen in Hda; lia).
    rewrite Hn, firstn_pre, skipn_pre by reflexivity. reflexivity.
  - replace (q_type q =? 2) with false by lia.
    assert (Hnil : q_data q = []) by (destruct (q_data q); [reflexivity|unfold zlen in Hda; cbn in Hda; lia]).
    rewrite Hnil. reflexivity.
Qed.

Lemma mainloop_stop c tail e n w : stops tail e ->
  mainloop (S n) c tail w = Ret (model_end e) w.
Proof.
  intros Hst. cbn [mainloop]. destruct Hst as [s Hs|s Hs Hm|q s Ht Hc Hf Hl Hcmd Hlen|q rest Hq Hd].
  - replace (length s <? 28)%nat with true by (unfold zlen in Hs; lia). reflexivity.
  - replace (length s <? 28)%nat with false by (unfold zlen in Hs; lia).
    unfold decode_request. rewrite firstn_firstn. change (Nat.min 4 28) with 4%nat.
    replace (unbe (firstn 4 s) =? NBD_REQUEST_MAGIC) with false by (symmetry; apply Z.eqb_neq; exact Hm).
    reflexivity.
  - destruct (decode_header q s Ht Hc Hf Hl) as (D1 & D2 & D3). rewrite D3, D1, D2.
    change (NBD_REQUEST_MAGIC =? NBD_REQUEST_MAGIC) with true. cbn [negb].
    change (cmd_of (mreq q)) with (q_cmd q). rewrite Hcmd.
    change (1 =? NBD_CMD_WRITE) with true. cbn [mreq rq_len].
    replace (zlen s <? q_len q) with true by lia. reflexivity.
  - pose proof Hq as (Ht & Hc & Hf & Hl & Hda).
    assert (Hcm : q_cmd q = 2) by (unfold q_cmd; rewrite Hd; reflexivity).
    rewrite Hcm in Hda. change (2 =? 1) with false in Hda. cbv iota in Hda.
    assert (Hnil : q_data q = []) by (destruct (q_data q); [reflexivity|unfold zlen in Hda; cbn in Hda; lia]).
    rewrite encode_header, Hnil, app_nil_r.
    destruct (decode_header q rest Ht Hc Hf Hl) as (D1 & D2 & D3). rewrite D3, D1, D2.
    change (NBD_REQUEST_MAGIC =? NBD_REQUEST_MAGIC) with true. cbn [negb].
    change (cmd_of (mreq q)) with (q_cmd q). rewrite Hcm.
    change (2 =? NBD_CMD_WRITE) with false. cbn [mreq rq_type]. rewrite Hd.
    change (2 =? NBD_CMD_DISC) with true. reflexivity.
Qed.

(** the requests executed, one after the other, whatever they do *)
Fixpoint execute (c : client) (qs : list wreq) : M unit :=
  match qs with
  | [] => ret tt
  | q :: t =>
      p <- (if q_cmd q =? 1 then receive_payload c (mreq q) (q_data q) else ret PNone) ;;
      handle_request c (mreq q) p ;;; execute c t
  end.

Lemma bind_assoc {A B C} (m : M A) (f : A -> M B) (g : B -> M C) w :
  bind (bind m f) g w = bind m (fun a => bind (f a) g) w.
Proof. unfold bind. destruct (m w); reflexivity. Qed.
Lemma bind_ext {A B} (m : M A) (f g : A -> M B) w : (forall a w', f a w' = g a w') -> bind m f w = bind m g w.
Proof. unfold bind. intros H. destruct (m w); auto. Qed.

Lemma mainloop_execute c qs : forall tail e n w,
  Forall wreq_ok qs -> Forall (fun q => q_type q <> 2) qs -> stops tail e -> (length qs < n)%nat ->
  mainloop n c (concat (map encode qs) ++ tail) w = (execute c qs ;;; ret (model_end e)) w.
Proof.
  induction qs as [|q qs IH]; intros tail e n w Hok Hnd Hst Hn; (destruct n as [|n]; [cbn in Hn; lia|]).
  - cbn [map concat app execute]. rewrite (mainloop_stop c tail e n w Hst). reflexivity.
  - inversion Hok; subst. inversion Hnd; subst. cbn [map concat execute]. rewrite <- app_assoc.
    rewrite mainloop_step by assumption. rewrite bind_assoc. apply bind_ext. intros p w1.
    rewrite bind_assoc. apply bind_ext. intros _ w2. apply IH; auto. cbn in Hn; lia.
Qed.

Lemma run_execute c qs tail e w :
  Forall wreq_ok qs -> Forall (fun q => q_type q <> 2) qs -> stops tail e ->
  run c (concat (map encode qs) ++ tail) w = (execute c qs ;;; ret (model_end e)) w.
Proof.
  intros Hok Hnd Hst. unfold run. apply mainloop_execute; auto.
  pose proof (encodes_length qs Hok). rewrite app_length. lia.
Qed.
