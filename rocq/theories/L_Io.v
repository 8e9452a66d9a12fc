(** Lemmas about the socket transfer loops and header byte order. *)
From Verif Require Import Base M_Const M_Io S_Io.

(** * Memory *)
Lemma store_nil m p i : store m p [] i = m i.
Proof. unfold store. rewrite zlen_nil. destruct ((p <=? i) && (i <? p + 0)) eqn:E; [lia|reflexivity]. Qed.

Lemma store_slice m p l : slice (store m p l) p (zlen l) = l.
Proof.
  rewrite <- (slice_bytefn l) at 3.
  transitivity (slice (fun i => bytefn l (i + - p)) p (zlen l)).
  - apply slice_ext. intros i Hi. unfold store. replace ((p <=? i) && (i <? p + zlen l)) with true by lia.
    unfold bytefn. f_equal. 
  - rewrite slice_shift. f_equal. lia.
Qed.

Lemma store_other m p l i : i < p \/ p + zlen l <= i -> store m p l i = m i.
Proof. intros H. unfold store. replace ((p <=? i) && (i <? p + zlen l)) with false by lia. reflexivity. Qed.

Lemma delivered_nil inp m p : delivered inp inp m m p [].
Proof. repeat split; auto. Qed.

Lemma delivered_step inp n m m' p got rest :
  0 <= n <= zlen inp ->
  delivered (skipn (Z.to_nat n) inp) rest (store m p (firstn (Z.to_nat n) inp)) m' (p + n) got ->
  delivered inp rest m m' p (firstn (Z.to_nat n) inp ++ got) /\
  zlen (firstn (Z.to_nat n) inp ++ got) = n + zlen got.
Proof.
  intros Hn (H1 & H2 & H3).
  assert (L : zlen (firstn (Z.to_nat n) inp) = n) by (unfold zlen in *; rewrite firstn_length; lia).
  assert (L2 : zlen (firstn (Z.to_nat n) inp ++ got) = n + zlen got) by (rewrite zlen_app, L; lia).
  split; [|exact L2]. pose proof (zlen_nonneg got). split.
  - rewrite <- app_assoc, <- H1, firstn_skipn. reflexivity.
  - split.
    + rewrite L2, slice_split by lia. rewrite H2. f_equal.
      transitivity (slice (store m p (firstn (Z.to_nat n) inp)) p (zlen (firstn (Z.to_nat n) inp))); [|apply store_slice].
      rewrite L. apply slice_ext. intros i Hi. apply H3. lia.
    + intros i Hi. rewrite H3 by lia. apply store_other. lia.
Qed.


Lemma some_bytes_range k len avail : 0 < len -> 0 < avail -> 1 <= some_bytes k len avail <= len.
Proof. unfold some_bytes. lia. Qed.

(** outcome of a receive loop, both kinds *)
Definition received (calls : list rdres) (inp : list Z) (m : Z -> Z) (p len : Z) (r : io rst) : Prop :=
  exists got,
  match r with
  | Done s => delivered inp (r_in s) m (r_mem s) p got /\ zlen got = len
  | Failed s | Exited s =>
      delivered inp (r_in s) m (r_mem s) p got /\ zlen got < len /\
      (r_in s = [] \/ exists c, In c calls /\ hard c)
  | Pending s => delivered inp (r_in s) m (r_mem s) p got /\ zlen got < len
  | Oob => False
  end.

Lemma received_step calls k inp m p len r :
  let n := some_bytes k len (zlen inp) in
  0 < len -> n <> 0 ->
  received calls (skipn (Z.to_nat n) inp) (store m p (firstn (Z.to_nat n) inp)) (p + n) (len - n) r ->
  received (RdSome k :: calls) inp m p len r.
Proof.
  intros n Hl Hn (got & H). exists (firstn (Z.to_nat n) inp ++ got).
  pose proof (zlen_nonneg inp).
  assert (Hr : 0 <= n <= zlen inp) by (unfold n, some_bytes in *; lia).
  destruct r as [s|s|s| |s]; try contradiction.
  - destruct H as [D L]. destruct (delivered_step inp n m _ p got _ Hr D) as [D' L']. split; [exact D'|lia].
  - destruct H as (D & L & C). destruct (delivered_step inp n m _ p got _ Hr D) as [D' L'].
    split; [exact D'|]. split; [lia|]. destruct C as [C|(c & C1 & C2)]; [left; exact C|].
    right. exists c. split; [right; exact C1|exact C2].
  - destruct H as (D & L & C). destruct (delivered_step inp n m _ p got _ Hr D) as [D' L'].
    split; [exact D'|]. split; [lia|]. destruct C as [C|(c & C1 & C2)]; [left; exact C|].
    right. exists c. split; [right; exact C1|exact C2].
  - destruct H as [D L]. destruct (delivered_step inp n m _ p got _ Hr D) as [D' L']. split; [exact D'|lia].
Qed.

Lemma received_retry calls inp m p len r e : received calls inp m p len r -> received (RdFail e :: calls) inp m p len r.
Proof.
  intros (got & H). exists got. destruct r as [s|s|s| |s]; auto;
    destruct H as (D & L & [C|(c & C1 & C2)]); (split; [exact D|]; split; [exact L|]); auto;
    right; exists c; (split; [right; exact C1|exact C2]).
Qed.

Lemma zlen_zero {A} (l : list A) : zlen l = 0 -> l = [].
Proof. destruct l; [reflexivity|rewrite zlen_cons; pose proof (zlen_nonneg l); lia]. Qed.

Lemma in_obj_ok o p n : o_lo o <= p -> p + n <= o_hi o -> in_obj o p n = true.
Proof. unfold in_obj. lia. Qed.

Lemma readit_received : forall calls inp m o p len, 0 <= len -> o_lo o <= p -> p + len <= o_hi o ->
  received calls inp m p len (readit calls inp m o p len).
Proof.
  induction calls as [|c calls IH]; intros inp m o p len Hl Hlo Hhi; cbn [readit];
    (destruct (len =? 0) eqn:E0;
      [exists []; split; [apply delivered_nil|rewrite zlen_nil; lia]|]).
  - exists []. split; [apply delivered_nil|rewrite zlen_nil; lia].
  - destruct c as [k|e|].
    + destruct (some_bytes k len (zlen inp) =? 0) eqn:En.
      * exists []. split; [apply delivered_nil|]. split; [rewrite zlen_nil; lia|]. left.
        apply zlen_zero. pose proof (zlen_nonneg inp). unfold some_bytes in En. cbn. lia.
      * assert (some_bytes k len (zlen inp) <= len) by (unfold some_bytes; lia).
        assert (0 <= some_bytes k len (zlen inp)) by (pose proof (zlen_nonneg inp); unfold some_bytes; lia).
        rewrite in_obj_ok by lia. apply received_step; [lia|lia|]. apply IH; lia.
    + destruct (e =? EAGAIN) eqn:Ee.
      * apply received_retry. apply IH; lia.
      * exists []. split; [apply delivered_nil|]. split; [rewrite zlen_nil; lia|]. right.
        exists (RdFail e). split; [left; reflexivity|cbn; unfold EAGAIN in *; lia].
    + exists []. split; [apply delivered_nil|]. split; [rewrite zlen_nil; lia|]. right.
      exists RdEof. split; [left; reflexivity|exact I].
Qed.

Lemma readit_tls_received : forall calls inp m o p len, 0 <= len -> o_lo o <= p -> p + len <= o_hi o ->
  received calls inp m p len (readit_tls calls inp m o p len).
Proof.
  induction calls as [|c calls IH]; intros inp m o p len Hl Hlo Hhi; cbn [readit_tls];
    (destruct (len =? 0) eqn:E0;
      [exists []; split; [apply delivered_nil|rewrite zlen_nil; lia]|]).
  - exists []. split; [apply delivered_nil|rewrite zlen_nil; lia].
  - destruct c as [k|e|].
    + destruct (some_bytes k len (zlen inp) =? 0) eqn:En.
      * exists []. split; [apply delivered_nil|]. split; [rewrite zlen_nil; lia|]. left.
        apply zlen_zero. pose proof (zlen_nonneg inp). unfold some_bytes in En. cbn. lia.
      * assert (some_bytes k len (zlen inp) <= len) by (unfold some_bytes; lia).
        assert (0 <= some_bytes k len (zlen inp)) by (pose proof (zlen_nonneg inp); unfold some_bytes; lia).
        rewrite in_obj_ok by lia. apply received_step; [lia|lia|]. apply IH; lia.
    + destruct (e =? EAGAIN) eqn:Ee.
      * apply received_retry. apply IH; lia.
      * exists []. split; [apply delivered_nil|]. split; [rewrite zlen_nil; lia|]. right.
        exists (RdFail e). split; [left; reflexivity|cbn; unfold EAGAIN in *; lia].
    + exists []. split; [apply delivered_nil|]. split; [rewrite zlen_nil; lia|]. right.
      exists RdEof. split; [left; reflexivity|exact I].
Qed.

(** a healthy connection delivers *)

Lemma readit_completes : forall calls inp m o p len, 0 <= len -> o_lo o <= p -> p + len <= o_hi o ->
  (forall c, In c calls -> ~ hard c) -> len <= zlen inp -> len <= data_calls calls ->
  exists s, readit calls inp m o p len = Done s.
Proof.
  induction calls as [|c calls IH]; intros inp m o p len Hl Hlo Hhi Hh Hi Hd; cbn [readit];
    (destruct (len =? 0) eqn:E0; [eauto|]).
  - unfold data_calls in Hd. cbn in Hd. rewrite zlen_nil in Hd. lia.
  - assert (Hh' : forall c0, In c0 calls -> ~ hard c0) by (intros c0 H; apply Hh; right; exact H).
    unfold data_calls in Hd. cbn [filter] in Hd. destruct c as [k|e|]; cbn [is_data] in Hd.
    + rewrite zlen_cons in Hd. pose proof (some_bytes_range k len (zlen inp)) as R.
      assert (some_bytes k len (zlen inp) <= zlen inp) by (unfold some_bytes; lia).
      replace (some_bytes k len (zlen inp) =? 0) with false by lia.
      rewrite in_obj_ok by lia. apply IH; auto; try lia.
      * unfold zlen in *. rewrite skipn_length. lia.
      * unfold data_calls. lia.
    + assert (~ hard (RdFail e)) by (apply Hh; left; reflexivity). cbn in H.
      replace (e =? EAGAIN) with true by (unfold EAGAIN; lia). apply IH; auto.
    + exfalso. apply (Hh RdEof); [left; reflexivity|exact I].
Qed.

Lemma readit_tls_completes : forall calls inp m o p len, 0 <= len -> o_lo o <= p -> p + len <= o_hi o ->
  (forall c, In c calls -> ~ hard c) -> len <= zlen inp -> len <= data_calls calls ->
  exists s, readit_tls calls inp m o p len = Done s.
Proof.
  induction calls as [|c calls IH]; intros inp m o p len Hl Hlo Hhi Hh Hi Hd; cbn [readit_tls];
    (destruct (len =? 0) eqn:E0; [eauto|]).
  - unfold data_calls in Hd. cbn in Hd. rewrite zlen_nil in Hd. lia.
  - assert (Hh' : forall c0, In c0 calls -> ~ hard c0) by (intros c0 H; apply Hh; right; exact H).
    unfold data_calls in Hd. cbn [filter] in Hd. destruct c as [k|e|]; cbn [is_data] in Hd.
    + rewrite zlen_cons in Hd. pose proof (some_bytes_range k len (zlen inp)) as R.
      assert (some_bytes k len (zlen inp) <= zlen inp) by (unfold some_bytes; lia).
      replace (some_bytes k len (zlen inp) =? 0) with false by lia.
      rewrite in_obj_ok by lia. apply IH; auto; try lia.
      * unfold zlen in *. rewrite skipn_length. lia.
      * unfold data_calls. lia.
    + assert (~ hard (RdFail e)) by (apply Hh; left; reflexivity). cbn in H.
      replace (e =? EAGAIN) with true by (unfold EAGAIN; lia). apply IH; auto.
    + exfalso. apply (Hh RdEof); [left; reflexivity|exact I].
Qed.

(** * Skipping *)
Definition skipped (s0 : rst) (len : Z) (r : io rst) : Prop :=
  match r with
  | Done s => exists skip, r_in s0 = skip ++ r_in s /\ zlen skip = len
  | Exited s | Pending s => exists skip, r_in s0 = skip ++ r_in s /\ zlen skip < len
  | _ => False
  end.

Lemma socket_read_spec tls o p len s : 0 <= len -> o_lo o <= p -> p + len <= o_hi o ->
  match socket_read tls o p len s with
  | Done s' => exists got, delivered (r_in s) (r_in s') (r_mem s) (r_mem s') p got /\ zlen got = len
  | Exited s' | Pending s' => exists got, delivered (r_in s) (r_in s') (r_mem s) (r_mem s') p got /\ zlen got < len
  | _ => False
  end.
Proof.
  intros H1 H2 H3. unfold socket_read.
  assert (R : received (r_calls s) (r_in s) (r_mem s) p len
                ((if tls then readit_tls else readit) (r_calls s) (r_in s) (r_mem s) o p len))
    by (destruct tls; [apply readit_tls_received|apply readit_received]; auto).
  destruct ((if tls then readit_tls else readit) (r_calls s) (r_in s) (r_mem s) o p len);
    destruct R as (got & R); try contradiction; try (exists got; tauto).
Qed.

Lemma consume_spec tls o len bufsiz s : 0 <= len -> 0 < bufsiz -> o_hi o = o_lo o + bufsiz ->
  skipped s len (consume tls o len bufsiz s).
Proof.
  intros Hl Hb Ho. unfold consume.
  destruct (loopP_total (consume_body tls o bufsiz)
    (fun st => 0 <= snd st <= len /\ exists skip, r_in s = skip ++ r_in (fst st) /\ zlen skip = len - snd st)
    (fun r => skipped s len r) snd) with (p := Z.to_pos (len + 1)) (s := (s, len)) as (r & E & Q).
  - intros st [H _]. lia.
  - intros [s1 l] [Hr (skip & E & L)]. cbn [fst snd] in *. unfold consume_body.
    destruct (0 <? l) eqn:E0.
    + set (cur := if bufsiz <? l then bufsiz else l).
      assert (Hc : 0 < cur <= l /\ cur <= bufsiz) by (unfold cur; destruct (bufsiz <? l) eqn:B; lia).
      assert (R := socket_read_spec tls o (o_lo o) cur s1 ltac:(lia) ltac:(lia) ltac:(lia)).
      assert (Hz : forall got, 0 <= zlen got) by (intros; apply (zlen_nonneg (A:=Z))).
      destruct (socket_read tls o (o_lo o) cur s1) as [s2|s2|s2| |s2];
        try contradiction; destruct R as (got & (D & _) & L2); cbn [skipped].
      * cbn [fst snd]. split; [|lia]. split; [lia|]. exists (skip ++ got).
        split; [rewrite E, D, app_assoc; reflexivity|rewrite zlen_app; lia].
      * exists (skip ++ got). split; [rewrite E, D, app_assoc; reflexivity|rewrite zlen_app; lia].
      * exists (skip ++ got). split; [rewrite E, D, app_assoc; reflexivity|rewrite zlen_app; lia].
    + exists skip. split; [exact E|lia].
  - cbn. split; [lia|]. exists []. split; [reflexivity|rewrite zlen_nil; lia].
  - cbn. lia.
  - rewrite E. exact Q.
Qed.

Lemma consume_len_spec tls lo bo s : o_hi lo = o_lo lo + 4 -> o_hi bo = o_lo bo + 1024 -> Forall is_byte (r_in s) ->
  match consume_len tls lo bo s with
  | Done s' => exists hdr skip, r_in s = hdr ++ skip ++ r_in s' /\ zlen hdr = 4 /\ zlen skip = unbe hdr
  | Exited s' | Pending s' => exists skip, r_in s = skip ++ r_in s' /\
      (zlen skip < 4 \/ zlen skip < 4 + unbe (firstn 4 (r_in s)))
  | _ => False
  end.
Proof.
  intros Hlo Hbo Hb. unfold consume_len.
  assert (R := socket_read_spec tls lo (o_lo lo) 4 s ltac:(lia) ltac:(lia) ltac:(lia)).
  destruct (socket_read tls lo (o_lo lo) 4 s) as [s1|s1|s1| |s1]; try contradiction; destruct R as (got & (D & M & _) & L).
  - rewrite L in M. rewrite M.
    assert (Hg : 0 <= unbe got).
    { apply unbe_range. rewrite D in Hb. apply Forall_app in Hb. tauto. }
    assert (K := consume_spec tls bo (unbe got) 1024 s1 Hg ltac:(lia) ltac:(lia)).
    assert (F : firstn 4 (r_in s) = got).
    { rewrite D. replace 4%nat with (length got + 0)%nat by (unfold zlen in L; lia).
      rewrite firstn_app_2. cbn. apply app_nil_r. }
    destruct (consume tls bo (unbe got) 1024 s1) as [s2|s2|s2| |s2]; cbn [skipped] in K; try contradiction.
    + destruct K as (skip & E & L2). exists got, skip. rewrite D, E. auto.
    + destruct K as (skip & E & L2). exists (got ++ skip). rewrite F, zlen_app, D, E, app_assoc. split; [reflexivity|lia].
    + destruct K as (skip & E & L2). exists (got ++ skip). rewrite F, zlen_app, D, E, app_assoc. split; [reflexivity|lia].
  - exists got. split; [exact D|lia].
  - exists got. split; [exact D|lia].
Qed.

(** * Sending *)
Definition sent_ok (m : Z -> Z) (p len : Z) (wire : list Z) (r : io (list Z)) : Prop :=
  match r with
  | Done w => w = wire ++ slice m p len
  | Failed w | Pending w => exists n, 0 <= n < len /\ w = wire ++ slice m p n
  | Exited _ | Oob => False
  end.

Lemma sent_step m p len n wire r : 0 < n <= len ->
  sent_ok m (p + n) (len - n) (wire ++ slice m p n) r -> sent_ok m p len wire r.
Proof.
  intros Hn H. destruct r as [w|w|w| |w]; cbn [sent_ok] in *; try contradiction.
  - rewrite H, <- app_assoc, <- slice_split by lia. do 2 f_equal; lia.
  - destruct H as (k & Hk & ->). exists (n + k). split; [lia|]. rewrite <- app_assoc, <- slice_split by lia. reflexivity.
  - destruct H as (k & Hk & ->). exists (n + k). split; [lia|]. rewrite <- app_assoc, <- slice_split by lia. reflexivity.
Qed.

Lemma writeit_spec : forall calls m o p len wire, 0 <= len -> o_lo o <= p -> p + len <= o_hi o ->
  ~ In (WrFail EAGAIN) calls -> sent_ok m p len wire (writeit calls m o p len wire).
Proof.
  induction calls as [|c calls IH]; intros m o p len wire Hl Hlo Hhi He; cbn [writeit];
    (destruct (len =? 0) eqn:E0;
      [cbn [sent_ok]; replace len with 0 by lia; rewrite slice_nil, app_nil_r; reflexivity|]).
  - exists 0. split; [lia|]. rewrite slice_nil, app_nil_r. reflexivity.
  - assert (He' : ~ In (WrFail EAGAIN) calls) by (intros H; apply He; right; exact H).
    destruct c as [k|e|e].
    + pose proof (some_bytes_range k len len) as R. rewrite in_obj_ok by lia.
      apply sent_step with (n := some_bytes k len len); [lia|]. apply IH; auto; lia.
    + destruct (e =? EAGAIN) eqn:Ee.
      * exfalso. apply He. left. f_equal. lia.
      * exists 0. split; [lia|]. rewrite slice_nil, app_nil_r. reflexivity.
    + destruct (e =? EAGAIN) eqn:Ee; [apply IH; auto|].
      exists 0. split; [lia|]. rewrite slice_nil, app_nil_r. reflexivity.
Qed.

Lemma writeit_tls_spec : forall calls m o p len wire, 0 <= len -> o_lo o <= p -> p + len <= o_hi o ->
  sent_ok m p len wire (writeit_tls calls m o p len wire).
Proof.
  induction calls as [|c calls IH]; intros m o p len wire Hl Hlo Hhi; cbn [writeit_tls];
    (destruct (len =? 0) eqn:E0;
      [cbn [sent_ok]; replace len with 0 by lia; rewrite slice_nil, app_nil_r; reflexivity|]).
  - exists 0. split; [lia|]. rewrite slice_nil, app_nil_r. reflexivity.
  - destruct c as [k|e|e].
    + pose proof (some_bytes_range k len len) as R. rewrite in_obj_ok by lia.
      apply sent_step with (n := some_bytes k len len); [lia|]. apply IH; auto; lia.
    + destruct (e =? EAGAIN) eqn:Ee; [apply IH; auto|].
      exists 0. split; [lia|]. rewrite slice_nil, app_nil_r. reflexivity.
    + apply IH; auto.
Qed.

(** a send that was refused with EAGAIN never works out: at the very start it
    touches memory before the buffer, later it repeats a byte *)
Lemma writeit_eagain_first calls m o len wire : 0 < len < 18446744073709551615 ->
  (exists k, nth_error calls 0 = Some (WrSome k)) ->
  writeit (WrFail EAGAIN :: calls) m o (o_lo o) len wire = Oob.
Proof.
  intros Hl (k & Hk). cbn [writeit]. replace (len =? 0) with false by lia. change (EAGAIN =? EAGAIN) with true.
  cbv iota. rewrite u64_small by (unfold is_u64; lia).
  destruct calls as [|c calls]; [discriminate|]. cbn in Hk. injection Hk as ->. cbn [writeit].
  replace (len + 1 =? 0) with false by lia.
  assert (in_obj o (o_lo o - 1) (some_bytes k (len + 1) (len + 1)) = false) as -> by (unfold in_obj; lia).
  reflexivity.
Qed.

(** * Byte order *)
Lemma be_split n m x : be (n + m) x = be n (x / 2 ^ (8 * Z.of_nat m)) ++ be m x.
Proof.
  induction n as [|n IH]; cbn [be Nat.add app]; [reflexivity|].
  f_equal; [|exact IH].
  rewrite Z.div_div by (try apply Z.pow_nonzero; try apply Z.pow_pos_nonneg; lia).
  rewrite <- Z.pow_add_r by lia. do 3 f_equal. lia.
Qed.

Lemma rev_bytes l : Forall is_byte l -> Forall is_byte (rev l).
Proof. intros H. apply Forall_forall. intros x Hx. rewrite Forall_forall in H. apply H. apply in_rev. exact Hx. Qed.

Lemma be_unbe_len n l : length l = n -> Forall is_byte l -> be n (unbe l) = l.
Proof. intros <- H. apply be_unbe. exact H. Qed.

Lemma swap32_load l : length l = 4%nat -> Forall is_byte l -> swap32 (unle l) = unbe l.
Proof.
  intros L B. unfold swap32, unle, le. rewrite be_unbe_len; [rewrite rev_involutive; reflexivity|rewrite rev_length; exact L|apply rev_bytes; exact B].
Qed.
Lemma swap16_load l : length l = 2%nat -> Forall is_byte l -> swap16 (unle l) = unbe l.
Proof.
  intros L B. unfold swap16, unle, le. rewrite be_unbe_len; [rewrite rev_involutive; reflexivity|rewrite rev_length; exact L|apply rev_bytes; exact B].
Qed.
Lemma le_bytes n x : Forall is_byte (le n x).
Proof. apply rev_bytes, be_bytes. Qed.
Lemma le_length n x : length (le n x) = n.
Proof. unfold le. rewrite rev_length. apply be_length. Qed.
Lemma swap32_store x : le 4 (swap32 x) = be 4 x.
Proof. unfold swap32. unfold le at 1. rewrite be_unbe_len; [unfold le; apply rev_involutive|apply le_length|apply le_bytes]. Qed.
Lemma swap16_store x : le 2 (swap16 x) = be 2 x.
Proof. unfold swap16. unfold le at 1. rewrite be_unbe_len; [unfold le; apply rev_involutive|apply le_length|apply le_bytes]. Qed.
Lemma unle_le n x : 0 <= x < 2 ^ (8 * Z.of_nat n) -> unle (le n x) = x.
Proof. intros H. unfold unle, le. rewrite rev_involutive, unbe_be. apply Z.mod_small. exact H. Qed.
Lemma le_unle n l : length l = n -> Forall is_byte l -> le n (unle l) = l.
Proof.
  intros L B. unfold le, unle. rewrite be_unbe_len; [apply rev_involutive|rewrite rev_length; exact L|apply rev_bytes; exact B].
Qed.

Lemma unbe_app a b : unbe (a ++ b) = unbe a * 2 ^ (8 * Z.of_nat (length b)) + unbe b.
Proof. unfold unbe. rewrite unbe_acc_app. apply unbe_acc_shift. Qed.

Lemma lor_shift lo hi : 0 <= lo -> 0 <= hi < 4294967296 -> Z.lor (Z.shiftl lo 32) hi = lo * 4294967296 + hi.
Proof.
  intros Hlo Hhi. rewrite Z.shiftl_mul_pow2 by lia. change (2 ^ 32) with 4294967296.
  rewrite <- Z.lxor_lor; [rewrite <- Z.add_nocarry_lxor; [reflexivity|]|].
  - apply Z.bits_inj'. intros n Hn. rewrite Z.land_spec, Z.bits_0.
    destruct (Z.ltb n 32) eqn:E.
    + change 4294967296 with (2 ^ 32). rewrite Z.mul_pow2_bits_low by lia. reflexivity.
    + rewrite (Z.bits_above_log2 hi n); [apply andb_false_r|lia|].
      destruct (Z.eq_dec hi 0) as [->|H0]; [cbn; lia|].
      assert (Z.log2 hi < 32); [|lia]. apply Z.log2_lt_pow2; [lia|]. change (2 ^ 32) with 4294967296. lia.
  - apply Z.bits_inj'. intros n Hn. rewrite Z.land_spec, Z.bits_0.
    destruct (Z.ltb n 32) eqn:E.
    + change 4294967296 with (2 ^ 32). rewrite Z.mul_pow2_bits_low by lia. reflexivity.
    + rewrite (Z.bits_above_log2 hi n); [apply andb_false_r|lia|].
      destruct (Z.eq_dec hi 0) as [->|H0]; [cbn; lia|].
      assert (Z.log2 hi < 32); [|lia]. apply Z.log2_lt_pow2; [lia|]. change (2 ^ 32) with 4294967296. lia.
Qed.

Lemma swap32_range x : 0 <= swap32 x < 4294967296.
Proof.
  unfold swap32. pose proof (unbe_range (le 4 x) (le_bytes 4 x)) as H. rewrite le_length in H. exact H.
Qed.

Lemma ntohll_swap a : is_u64 a -> ntohll a = unbe (le 8 a).
Proof.
  intros Ha. unfold is_u64 in Ha. unfold ntohll.
  change 4294967295 with (Z.ones 32). rewrite Z.land_ones by lia. rewrite Z.shiftr_div_pow2 by lia.
  change (2 ^ 32) with 4294967296.
  rewrite (u32_small (a mod 4294967296)) by (unfold is_u32; lia).
  rewrite (u32_small (a / 4294967296)) by (unfold is_u32; lia).
  set (lo := a mod 4294967296). set (hi := a / 4294967296).
  assert (U : u64 (Z.shiftl (swap32 lo) 32) = Z.shiftl (swap32 lo) 32).
  { apply u64_small. unfold is_u64. rewrite Z.shiftl_mul_pow2 by lia. change (2 ^ 32) with 4294967296.
    pose proof (swap32_range lo). lia. }
  rewrite U, lor_shift by (pose proof (swap32_range lo); pose proof (swap32_range hi); lia).
  unfold swap32, le.
  assert (E8 : be 8 a = be 4 hi ++ be 4 lo).
  { change 8%nat with (4 + 4)%nat. rewrite be_split. change (2 ^ (8 * Z.of_nat 4)) with 4294967296. f_equal.
    unfold lo. rewrite (Z.mod_eq a 4294967296) by lia.
    replace (a - 4294967296 * (a / 4294967296)) with (a + (- (a / 4294967296)) * 2 ^ (8 * Z.of_nat 4))
      by (change (2 ^ (8 * Z.of_nat 4)) with 4294967296; lia).
    rewrite be_shift. reflexivity. }
  rewrite E8, rev_app_distr, unbe_app, rev_length, be_length. reflexivity.
Qed.

Lemma ntohll_load l : length l = 8%nat -> Forall is_byte l -> ntohll (unle l) = unbe l.
Proof.
  intros L B.
  assert (R : Forall is_byte (rev l)) by (apply rev_bytes; exact B).
  assert (RL : length (rev l) = 8%nat) by (rewrite rev_length; exact L).
  rewrite ntohll_swap.
  - unfold unle, le. rewrite be_unbe_len by auto. rewrite rev_involutive. reflexivity.
  - unfold unle, is_u64. pose proof (unbe_range (rev l) R) as H. rewrite RL in H. exact H.
Qed.
Lemma ntohll_store x : is_u64 x -> le 8 (ntohll x) = be 8 x.
Proof.
  intros H. rewrite ntohll_swap by exact H. unfold le at 1.
  rewrite be_unbe_len; [unfold le; apply rev_involutive|apply le_length|apply le_bytes].
Qed.
Lemma ntohll_involutive a : is_u64 a -> ntohll (ntohll a) = a.
Proof.
  intros H. rewrite (ntohll_swap a H).
  replace (unbe (le 8 a)) with (unle (be 8 a)) by reflexivity.
  rewrite ntohll_load; [|apply be_length|apply be_bytes].
  rewrite unbe_be. apply Z.mod_small. exact H.
Qed.

(** * Headers *)
Lemma firstn_app_len {A} n (a b : list A) : length a = n -> firstn n (a ++ b) = a.
Proof. intros <-. rewrite <- (Nat.add_0_r (length a)), firstn_app_2. cbn. apply app_nil_r. Qed.
Lemma skipn_app_len {A} n (a b : list A) : length a = n -> skipn n (a ++ b) = b.
Proof. intros <-. induction a; [reflexivity|exact IHa]. Qed.

Lemma Forall_firstn {A} (P : A -> Prop) n l : Forall P l -> Forall P (firstn n l).
Proof. intros H. rewrite <- (firstn_skipn n l) in H. apply Forall_app in H. tauto. Qed.
Lemma Forall_skipn {A} (P : A -> Prop) n l : Forall P l -> Forall P (skipn n l).
Proof. intros H. rewrite <- (firstn_skipn n l) in H. apply Forall_app in H. tauto. Qed.
Lemma field_length {A} (l : list A) k n : (k + n <= length l)%nat -> length (firstn n (skipn k l)) = n.
Proof. intros H. rewrite firstn_length, skipn_length. lia. Qed.

Lemma le4_inj x y : is_u32 x -> is_u32 y -> le 4 x = le 4 y -> x = y.
Proof. intros Hx Hy E. rewrite <- (unle_le 4 x), <- (unle_le 4 y) by assumption. rewrite E. reflexivity. Qed.

Lemma unle_range n l : length l = n -> Forall is_byte l -> 0 <= unle l < 2 ^ (8 * Z.of_nat n).
Proof. intros <- B. unfold unle. rewrite <- (rev_length l). apply unbe_range. apply rev_bytes. exact B. Qed.

Lemma request_big_endian b : length b = 28%nat -> Forall is_byte b ->
  let r := host_request (load_request b) in
  cr_type r = unbe (firstn 4 (skipn 4 b)) /\ cr_from r = unbe (firstn 8 (skipn 16 b)) /\
  cr_len r = unbe (firstn 4 (skipn 24 b)) /\ le 8 (cr_cookie r) = firstn 8 (skipn 8 b) /\
  (request_magic_ok (load_request b) = true <-> unbe (firstn 4 b) = 0x25609513).
Proof.
  intros L B r. unfold r, host_request, load_request. cbn [cr_magic cr_type cr_cookie cr_from cr_len]. clear r.
  assert (F4 : forall k, (k + 4 <= 28)%nat -> length (firstn 4 (skipn k b)) = 4%nat) by (intros; apply field_length; lia).
  assert (F8 : forall k, (k + 8 <= 28)%nat -> length (firstn 8 (skipn k b)) = 8%nat) by (intros; apply field_length; lia).
  assert (FB : forall n k, Forall is_byte (firstn n (skipn k b))) by (intros; apply Forall_firstn, Forall_skipn; exact B).
  split; [apply swap32_load; [apply F4; lia|apply FB]|].
  split; [apply ntohll_load; [apply F8; lia|apply FB]|].
  split; [apply swap32_load; [apply F4; lia|apply FB]|].
  split; [apply le_unle; [apply F8; lia|apply FB]|].
  unfold request_magic_ok. cbn [load_request cr_magic].
  assert (L0 : length (firstn 4 b) = 4%nat) by (rewrite firstn_length; lia).
  assert (B0 : Forall is_byte (firstn 4 b)) by (apply Forall_firstn; exact B).
  rewrite <- (swap32_load (firstn 4 b)) by auto. rewrite Z.eqb_eq.
  split; intros E.
  - rewrite E. vm_compute. reflexivity.
  - rewrite <- (unle_le 4 (unle (firstn 4 b))) by (apply unle_range; auto).
    replace (le 4 (unle (firstn 4 b))) with (le 4 (swap32 NBD_REQUEST_MAGIC)); [vm_compute; reflexivity|].
    rewrite le_unle by auto. rewrite swap32_store. rewrite swap32_load in E by auto.
    rewrite <- (be_unbe_len 4 (firstn 4 b)) by auto. rewrite E. reflexivity.
Qed.

Lemma swap32_involutive x : is_u32 x -> swap32 (swap32 x) = x.
Proof.
  intros H. unfold swap32 at 1. rewrite swap32_store, unbe_be. apply Z.mod_small. exact H.
Qed.

Lemma request_round_trip type cookie from len : is_u32 type -> is_u64 cookie -> is_u64 from -> is_u32 len ->
  let b := store_request type cookie from len in
  length b = 28%nat /\ request_magic_ok (load_request b) = true /\
  host_request (load_request b) = mkCReq (cr_magic (load_request b)) type cookie from len.
Proof.
  intros Ht Hc Hf Hl b.
  assert (Hm : is_u32 (swap32 NBD_REQUEST_MAGIC)) by apply swap32_range.
  assert (Hs : forall x, is_u32 (swap32 x)) by (intros; apply swap32_range).
  assert (Hn : is_u64 (ntohll from)).
  { rewrite ntohll_swap by exact Hf. pose proof (unbe_range (le 8 from) (le_bytes 8 from)) as R. rewrite le_length in R. exact R. }
  assert (E : load_request b = mkCReq (swap32 NBD_REQUEST_MAGIC) (swap32 type) cookie (ntohll from) (swap32 len)).
  { unfold load_request, b, store_request.
    assert (L := le_length).
    set (A1 := le 4 (swap32 NBD_REQUEST_MAGIC)). set (A2 := le 4 (swap32 type)). set (A3 := le 8 cookie).
    set (A4 := le 8 (ntohll from)). set (A5 := le 4 (swap32 len)).
    assert (S1 : forall k, skipn (4 + k) (A1 ++ A2 ++ A3 ++ A4 ++ A5) = skipn k (A2 ++ A3 ++ A4 ++ A5)) by reflexivity.
    assert (S2 : forall k, skipn (4 + k) (A2 ++ A3 ++ A4 ++ A5) = skipn k (A3 ++ A4 ++ A5)) by reflexivity.
    assert (S3 : forall k, skipn (8 + k) (A3 ++ A4 ++ A5) = skipn k (A4 ++ A5)) by reflexivity.
    assert (S4 : forall k, skipn (8 + k) (A4 ++ A5) = skipn k A5) by reflexivity.
    rewrite (firstn_app_len 4 A1) by apply L.
    change (skipn 4 (A1 ++ A2 ++ A3 ++ A4 ++ A5)) with (A2 ++ A3 ++ A4 ++ A5).
    change (skipn 8 (A1 ++ A2 ++ A3 ++ A4 ++ A5)) with (A3 ++ A4 ++ A5).
    change (skipn 16 (A1 ++ A2 ++ A3 ++ A4 ++ A5)) with (A4 ++ A5).
    change (skipn 24 (A1 ++ A2 ++ A3 ++ A4 ++ A5)) with A5.
    rewrite (firstn_app_len 4 A2), (firstn_app_len 8 A3), (firstn_app_len 8 A4) by apply L.
    change (firstn 4 A5) with A5.
    unfold A1, A2, A3, A4, A5. rewrite !unle_le; auto; try apply Hs; exact Hn. }
  split; [unfold b, store_request; rewrite !app_length, !le_length; reflexivity|].
  rewrite E. split; [unfold request_magic_ok; cbn [cr_magic]; apply Z.eqb_refl|].
  unfold host_request. cbn [cr_magic cr_type cr_cookie cr_from cr_len].
  rewrite !swap32_involutive, ntohll_involutive by assumption. reflexivity.
Qed.

Lemma reply_layouts cookie e flags type len :
  store_reply cookie e = be 4 0x67446698 ++ be 4 e ++ le 8 cookie /\
  store_chunk flags type cookie len = be 4 0x668e33ef ++ be 2 flags ++ be 2 type ++ le 8 cookie ++ be 4 len /\
  length (store_reply cookie e) = 16%nat /\ length (store_chunk flags type cookie len) = 20%nat.
Proof.
  split; [unfold store_reply; rewrite !swap32_store; reflexivity|].
  split; [unfold store_chunk; rewrite !swap32_store, !swap16_store; reflexivity|].
  unfold store_reply, store_chunk. rewrite !app_length, !le_length. split; reflexivity.
Qed.

Lemma option_headers opt type len : is_u32 opt -> is_u32 type -> is_u32 len ->
  store_optreply opt type len = be 8 0x3e889045565a9 ++ be 4 opt ++ be 4 type ++ be 4 len /\
  load_optreply (store_optreply opt type len) = (0x3e889045565a9, opt, type, len) /\
  store_option opt len = be 8 0x49484156454F5054 ++ be 4 opt ++ be 4 len /\
  load_option (store_option opt len) = (0x49484156454F5054, opt, len).
Proof.
  intros Ho Ht Hl.
  assert (E1 : store_optreply opt type len = be 8 0x3e889045565a9 ++ be 4 opt ++ be 4 type ++ be 4 len).
  { unfold store_optreply. rewrite !swap32_store, ntohll_store by (unfold is_u64, NBD_OPT_REPLY_MAGIC; lia). reflexivity. }
  assert (E2 : store_option opt len = be 8 0x49484156454F5054 ++ be 4 opt ++ be 4 len).
  { unfold store_option. rewrite !swap32_store, ntohll_store by (unfold is_u64, OPTS_MAGIC; lia). reflexivity. }
  assert (S4 : forall x, is_u32 x -> swap32 (unle (be 4 x)) = x).
  { intros x Hx. rewrite swap32_load; [|apply be_length|apply be_bytes]. rewrite unbe_be. apply Z.mod_small. exact Hx. }
  split; [exact E1|]. split; [|split; [exact E2|]].
  - rewrite E1. unfold load_optreply.
    set (A1 := be 8 0x3e889045565a9). set (A2 := be 4 opt). set (A3 := be 4 type). set (A4 := be 4 len).
    change (skipn 8 (A1 ++ A2 ++ A3 ++ A4)) with (A2 ++ A3 ++ A4).
    change (skipn 12 (A1 ++ A2 ++ A3 ++ A4)) with (A3 ++ A4).
    change (skipn 16 (A1 ++ A2 ++ A3 ++ A4)) with A4.
    rewrite (firstn_app_len 8 A1), (firstn_app_len 4 A2), (firstn_app_len 4 A3) by apply be_length.
    change (firstn 4 A4) with A4. unfold A2, A3, A4. rewrite !S4 by assumption. reflexivity.
  - rewrite E2. unfold load_option.
    set (A1 := be 8 0x49484156454F5054). set (A2 := be 4 opt). set (A4 := be 4 len).
    change (skipn 8 (A1 ++ A2 ++ A4)) with (A2 ++ A4).
    change (skipn 12 (A1 ++ A2 ++ A4)) with A4.
    rewrite (firstn_app_len 8 A1), (firstn_app_len 4 A2) by apply be_length.
    change (firstn 4 A4) with A4. unfold A2, A4. rewrite !S4 by assumption. reflexivity.
Qed.

From Verif Require M_Raw.
Lemma request_decoder b : length b = 28%nat -> Forall is_byte b ->
  let r := host_request (load_request b) in
  snd (M_Raw.decode_request b) = M_Raw.mkReq (cr_type r) (le 8 (cr_cookie r)) (cr_from r) (cr_len r).
Proof.
  intros L B r. destruct (request_big_endian b L B) as (H1 & H2 & H3 & H4 & _). fold r in H1, H2, H3, H4.
  rewrite H1, H2, H3, H4. reflexivity.
Qed.
