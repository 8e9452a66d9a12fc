(** Steps of the thread that handles requests keep the invariant of waitfile exports. *)
From Verif Require Import Base M_Const M_Wait S_Wait L_Wait L_WaitS.

Definition unlocked (c : cpc) : Prop := match c with CPass true _ _ => False | _ => True end.

(** the end of a page of a write *)
Lemma page_done e mp dl df fi fs dk ex cp il lg a0 len0 d0 fua a len d :
  limits e -> whole e (WWrite a0 len0 d0 fua) -> a0 <= a -> 4096 <= len -> a + len = a0 + len0 -> a mod 4096 = 0 -> len mod 4096 = 0 ->
  (forall i, d i = d0 (i + (a - a0))) -> ex = false -> unlocked cp ->
  Forall (whole e) il ->
  0 <= dl /\ dl + page_writes il + len / 4096 - 1 <= 1048576 ->
  (forall p, mp p <> NOPAGE -> 0 <= mp p < dl /\ 0 <= p < pages e) ->
  (forall p q, mp p <> NOPAGE -> mp p = mp q -> p = q) ->
  (forall b, mp (b / 4096) <> NOPAGE ->
     (if (a <=? b) && (b <? a + 4096) then Some (d (b - a)) else cur (RMapW (WWrite a0 len0 d0 fua) a len d fua) lg b) =
     Some (df (mp (b / 4096) * 4096 + b mod 4096))) ->
  (forall b, mp (b / 4096) = NOPAGE ->
     match (if (a <=? b) && (b <? a + 4096) then Some (d (b - a)) else cur (RMapW (WWrite a0 len0 d0 fua) a len d fua) lg b) with
     | Some x => cp <> CWait /\ fi b = x /\ b < fs
     | None => cp <> CWait -> fi b = found e b
     end) ->
  (cp <> CWait -> we_f0size e <= fs) ->
  (ex = true <-> cp = CDone) ->
  (forall lk i d, cp = CPass lk i d -> 0 <= i /\ 0 <= d /\ (lk = true -> d = 0 -> forall p, p < i -> mp p = NOPAGE)) ->
  reads_right e lg -> writes_ok lg ->
  let s := mkWt mp dl df (dl * 4096) (dl * 4096) fi fs dk ex (RMapW (WWrite a0 len0 d0 fua) a len d fua) cp il lg in
  inv e (if len - 4096 =? 0 then done (WWrite a0 len0 d0 fua) (WOk []) s
         else s_rpc (RMapW (WWrite a0 len0 d0 fua) (a + 4096) (len - 4096) (fun i => d (i + 4096)) fua) s).
Proof.
  intros [SP PG] W Ha Hl Hal Hm Hlm Hd EX UL Hil Hb Hs Hinj Hmap Hnone Hsz Hexp Hpass Hr Hw s.
  assert (CUR : forall b, (if (a <=? b) && (b <? a + 4096) then Some (d (b - a)) else cur (RMapW (WWrite a0 len0 d0 fua) a len d fua) lg b) =
    if (a0 <=? b) && (b <? a + 4096) then Some (d0 (b - a0)) else last_write lg b).
  { intros b. cbn [cur]. destruct (Z.leb_spec a b), (Z.ltb_spec b (a + 4096)), (Z.leb_spec a0 b), (Z.ltb_spec b a); cbn [andb]; try reflexivity; try lia.
    rewrite Hd. do 2 f_equal. lia. }
  assert (ND : cp <> CDone). { intros Q. apply Hexp in Q. congruence. }
  destruct (len - 4096 =? 0) eqn:El.
  - assert (len = 4096) by lia. subst len.
    assert (C2 : forall b, last_write (lg ++ [(WWrite a0 len0 d0 fua, WOk [])]) b = if (a0 <=? b) && (b <? a + 4096) then Some (d0 (b - a0)) else last_write lg b).
    { intros b. rewrite last_write_app. cbn [stores]. replace (a0 + len0) with (a + 4096) by lia.
      destruct ((a0 <=? b) && (b <? a + 4096)); reflexivity. }
    unfold s. split; wc; auto.
    + exact I.
    + cbn [left_over]. change (4096 / 4096) with 1 in *. lia.
    + intros b H. cbn [cur]. rewrite C2, <- CUR. auto.
    + intros b H. cbn [cur]. rewrite C2, <- CUR. apply Hnone. exact H.
    + intros Q. contradiction.
    + apply reads_app; [exact Hr|]. intros ? ? ? Q. discriminate.
    + apply writes_app; auto.
  - unfold s. split; wc; auto.
    + unfold rpc_ok. wc. exists a0, len0, d0. split; [reflexivity|]. split; [exact W|]. split; [lia|]. split; [lia|]. split; [lia|].
      split; [lia|]. split; [|exact EX]. intros i. rewrite Hd. f_equal. lia.
    + cbn [left_over]. split; [lia|]. replace ((len - 4096) / 4096) with (len / 4096 - 1) by lia. lia.
    + intros b H. cbn [cur]. rewrite <- CUR. auto.
    + intros b H. cbn [cur]. rewrite <- CUR. apply Hnone. exact H.
    + intros Q. contradiction.
Qed.

Lemma write_inv e s s' rq a len d fua : limits e -> inv e s -> w_rpc s = RMapW rq a len d fua -> unlocked (w_cpc s) ->
  write_page e s rq a len d fua = WGo s' -> inv e s'.
Proof.
  intros L I R UL E. pose proof (dlen_small _ _ I) as SM. pose proof L as [SP PG]. dest s I. subst rp. unfold rpc_ok in Irpc. wc.
  destruct Irpc as [a0 [len0 [d0 [-> [W [Ha [Hl [Hal [Hm [Hd EX]]]]]]]]]].
  cbn [whole] in W. assert (Hlm : len mod 4096 = 0) by lia. assert (Hn : chunk a len = 4096) by (unfold chunk, DIFFPAGESIZE; lia).
  unfold write_page in E. rewrite Hn in E. wc.
  assert (Hp : 0 <= a / 4096 < pages e) by (unfold pages, DIFFPAGESIZE; lia).
  change DIFFPAGESIZE with 4096 in E.
  replace (negb (a / 4096 <? pages e)) with false in E by lia.
  rewrite Hm in E. change (0 =? 0) with true in E. change (4096 =? 4096) with true in E. cbn [negb orb andb] in E. cbv iota in E.
  assert (DP : dp = dl * 4096) by tauto. assert (DS : ds = dl * 4096) by tauto.
  assert (PAGE : forall b, a <= b < a + 4096 <-> b / 4096 = a / 4096) by (intros b; lia).
  destruct (there (mp (a / 4096))) eqn:Et.
  - apply there_spec in Et. destruct (Islot _ Et) as [Hs _]. rewrite at_slot_small in E by lia.
    replace (Z.max ds (mp (a / 4096) * 4096 + 0 + 4096)) with (dl * 4096) in E by lia.
    rewrite Z.add_0_r in E. subst dp.
    assert (X : inv e (if len - 4096 =? 0 then done (WWrite a0 len0 d0 fua) (WOk []) (mkWt mp dl (put df (mp (a / 4096) * 4096) 4096 d) (dl * 4096) (dl * 4096) fi fs dk ex (RMapW (WWrite a0 len0 d0 fua) a len d fua) cp il lg)
         else s_rpc (RMapW (WWrite a0 len0 d0 fua) (a + 4096) (len - 4096) (fun i => d (i + 4096)) fua) (mkWt mp dl (put df (mp (a / 4096) * 4096) 4096 d) (dl * 4096) (dl * 4096) fi fs dk ex (RMapW (WWrite a0 len0 d0 fua) a len d fua) cp il lg))).
    { apply page_done; auto; try lia.
      - cbn [left_over] in Ibud. lia.
      - intros b H. destruct ((a <=? b) && (b <? a + 4096)) eqn:Eb.
        + assert (Q : b / 4096 = a / 4096) by lia. rewrite Q. rewrite put_in by lia. do 2 f_equal. lia.
        + rewrite (Imap b H). f_equal. rewrite put_out; [reflexivity|].
          assert (N : b / 4096 <> a / 4096) by lia. intros G. apply N. apply Iinj; [exact H|]. lia.
      - intros b H. destruct ((a <=? b) && (b <? a + 4096)) eqn:Eb.
        + assert (Q : b / 4096 = a / 4096) by lia. congruence.
        + apply (Inone b H). }
    destruct (len - 4096 =? 0); injection E as <-; exact X.
  - assert (Et' : mp (a / 4096) = NOPAGE).
    { destruct (Z.eq_dec (mp (a / 4096)) NOPAGE) as [Q|Q]; [exact Q|]. apply there_spec in Q. congruence. }
    rewrite SP in E. subst dp ds.
    assert (LE : 1 <= len / 4096) by lia. pose proof (page_writes_pos _ _ Iin) as PP. cbn [left_over] in Ibud.
    rewrite (u32_small (dl + 1)) in E by (unfold is_u32; lia).
    replace (Z.max (dl * 4096) (dl * 4096 + 4096)) with ((dl + 1) * 4096) in E by lia.
    replace (dl * 4096 + 4096) with ((dl + 1) * 4096) in E by lia.
    match type of E with context[put df (dl * 4096) 4096 ?pb] => set (pb0 := pb) in E end.
    assert (PB : forall j, 0 <= j < 4096 -> pb0 j = d j).
    { intros j Hj. unfold pb0. rewrite put_in by lia. f_equal. lia. }
    clearbody pb0.
    assert (X : inv e (if len - 4096 =? 0 then done (WWrite a0 len0 d0 fua) (WOk []) (mkWt (set_at mp (a / 4096) dl) (dl + 1) (put df (dl * 4096) 4096 pb0) ((dl + 1) * 4096) ((dl + 1) * 4096) fi fs dk ex (RMapW (WWrite a0 len0 d0 fua) a len d fua) cp il lg)
         else s_rpc (RMapW (WWrite a0 len0 d0 fua) (a + 4096) (len - 4096) (fun i => d (i + 4096)) fua) (mkWt (set_at mp (a / 4096) dl) (dl + 1) (put df (dl * 4096) 4096 pb0) ((dl + 1) * 4096) ((dl + 1) * 4096) fi fs dk ex (RMapW (WWrite a0 len0 d0 fua) a len d fua) cp il lg))).
    { apply page_done; auto; try lia.
      - intros p H. destruct (Z.eq_dec p (a / 4096)) as [->|N].
        + rewrite set_same. lia.
        + rewrite set_other in * by exact N. destruct (Islot p H). lia.
      - intros p q H. destruct (Z.eq_dec p (a / 4096)) as [->|N], (Z.eq_dec q (a / 4096)) as [->|N2]; auto.
        + rewrite set_same, set_other by exact N2. intros Q. exfalso. assert (mp q <> NOPAGE) by (unfold NOPAGE; lia).
          destruct (Islot q H0). lia.
        + rewrite set_same, set_other in * by exact N. intros Q. destruct (Islot p H). lia.
        + rewrite !set_other in * by assumption. auto.
      - intros b H. destruct ((a <=? b) && (b <? a + 4096)) eqn:Eb.
        + assert (Q : b / 4096 = a / 4096) by lia. rewrite Q, set_same. rewrite put_in by lia. rewrite PB by lia. do 2 f_equal. lia.
        + assert (N : b / 4096 <> a / 4096) by lia. rewrite set_other in * by exact N.
          rewrite (Imap b H). destruct (Islot _ H). f_equal. rewrite put_out; [reflexivity|]. lia.
      - intros b H. destruct ((a <=? b) && (b <? a + 4096)) eqn:Eb.
        + assert (Q : b / 4096 = a / 4096) by lia. rewrite Q, set_same in H. unfold NOPAGE in H. lia.
        + assert (N : b / 4096 <> a / 4096) by lia. rewrite set_other in H by exact N. apply (Inone b H).
      - intros lk i x Q. destruct (Ipass lk i x Q) as [P1 [P2 _]]. split; [lia|]. split; [lia|].
        intros -> . rewrite Q in UL. destruct UL. }
    destruct (len - 4096 =? 0); injection E as <-; exact X.
Qed.

Lemma log_read_cur lg a len r b : last_write (lg ++ [(WRead a len, r)]) b = last_write lg b.
Proof. rewrite last_write_app. cbn [stores]. destruct r; reflexivity. Qed.
Lemma log_flush_cur lg r b : last_write (lg ++ [(WFlush, r)]) b = last_write lg b.
Proof. rewrite last_write_app. cbn [stores]. destruct r; reflexivity. Qed.

(** a read ends *)
Lemma read_done e s a0 len0 r : inv e s -> (forall b, cur (w_rpc s) (w_log s) b = last_write (w_log s) b) ->
  (forall data, r = WOk data -> data = expected e (w_log s) a0 len0) -> inv e (done (WRead a0 len0) r s).
Proof.
  intros I C D. dest s I. split; wc; auto.
  - exact Logic.I.
  - cbn [left_over]. assert (0 <= left_over rp); [|lia]. unfold rpc_ok in Irpc. wc. destruct rp; cbn [left_over]; try lia.
    destruct Irpc as [? [? [? [_ [_ [_ [X _]]]]]]]. lia.
  - intros b H. cbn [cur]. rewrite log_read_cur, <- C. auto.
  - intros b H. cbn [cur]. rewrite log_read_cur, <- C. apply (Inone b H).
  - apply reads_app; [exact Ireads|]. intros a len data Q. injection Q as <- <-. intros ->. auto.
  - apply writes_app; [exact Iwrites|]. intros ? ? ? ? Q. discriminate.
Qed.

Lemma read_inv e s s' rq a len acc : limits e -> inv e s -> w_rpc s = RMapR rq a len acc ->
  read_page e s rq a len acc = WGo s' -> inv e s'.
Proof.
  intros L I R E. pose proof I as I0. pose proof (dlen_small _ _ I) as SM. pose proof L as [SP PG].
  dest s I. subst rp. unfold rpc_ok in Irpc. wc.
  destruct Irpc as [a0 [len0 [-> [W [Ha [Hl [Hal Hacc]]]]]]]. pose proof W as W'. cbn [whole] in W'.
  assert (FAIL : forall s', WGo (done (WRead a0 len0) WErr (mkWt mp dl df ds dp fi fs dk ex (RMapR (WRead a0 len0) a len acc) cp il lg)) = WGo s' -> inv e s').
  { intros x Q. injection Q as <-. apply read_done; [exact I0|reflexivity|discriminate]. }
  unfold read_page in E. wc. set (n := chunk a len) in E.
  assert (Hn : 0 < n <= len /\ a + n <= (a / 4096) * 4096 + 4096) by (unfold n, chunk, DIFFPAGESIZE; lia). clearbody n.
  assert (GO : forall data, data = expected e lg a n -> (let acc := acc ++ data in
    if len - n =? 0 then WGo (done (WRead a0 len0) (WOk acc) (mkWt mp dl df ds dp fi fs dk ex (RMapR (WRead a0 len0) a len acc) cp il lg))
    else WGo (s_rpc (RMapR (WRead a0 len0) (a + n) (len - n) acc) (mkWt mp dl df ds dp fi fs dk ex (RMapR (WRead a0 len0) a len acc) cp il lg))) = WGo s' -> inv e s').
  { intros data D. cbv zeta. assert (AD : acc ++ data = expected e lg a0 (a + n - a0)).
    { replace (a + n - a0) with ((a - a0) + n) by lia. rewrite expected_app by lia. rewrite Hacc, D. f_equal. f_equal. lia. }
    rewrite AD. destruct (len - n =? 0) eqn:El; intros Q; injection Q as <-.
    - replace (a + n - a0) with len0 by lia.
      change (inv e (done (WRead a0 len0) (WOk (expected e lg a0 len0)) (mkWt mp dl df ds dp fi fs dk ex (RMapR (WRead a0 len0) a len acc) cp il lg))).
      apply read_done; [exact I0|reflexivity|]. wc. intros x Q. injection Q as <-. reflexivity.
    - split; wc; auto. unfold rpc_ok. wc. exists a0, len0. split; [reflexivity|]. split; [exact W|]. split; [lia|]. split; [lia|].
      split; [lia|]. reflexivity. }
  change DIFFPAGESIZE with 4096 in E.
  destruct (negb (a / 4096 <? pages e)); [discriminate|].
  destruct (there (mp (a / 4096))) eqn:Et.
  - apply there_spec in Et. destruct (Islot _ Et) as [Hs _]. rewrite at_slot_small in E by lia.
    destruct (mp (a / 4096) * 4096 + a mod 4096 + n <=? ds); [|apply FAIL; exact E].
    apply (GO (slice df (mp (a / 4096) * 4096 + a mod 4096) n)); [|exact E].
    apply slice_expected. intros i Hi. assert (Q : (a + i) / 4096 = a / 4096) by lia.
    specialize (Imap (a + i)). rewrite Q in Imap. specialize (Imap Et). cbn [cur] in Imap. unfold latest. rewrite Imap.
    f_equal. lia.
  - assert (Et' : mp (a / 4096) = NOPAGE).
    { destruct (Z.eq_dec (mp (a / 4096)) NOPAGE) as [Q|Q]; [exact Q|]. apply there_spec in Q. congruence. }
    destruct ex eqn:EX; cbn [negb] in E; [|apply FAIL; exact E].
    destruct (a + n <=? fs); [|apply FAIL; exact E].
    apply (GO (slice fi a n)); [|exact E]. apply slice_expected. intros i Hi. assert (Q : (a + i) / 4096 = a / 4096) by lia.
    specialize (Inone (a + i)). rewrite Q in Inone. specialize (Inone Et'). cbn [cur] in Inone. unfold latest.
    assert (NW : cp <> CWait). { destruct Iexp as [X _]. rewrite (X eq_refl). discriminate. }
    destruct (last_write lg (a + i)); [tauto|auto].
Qed.

Lemma raw_inv e s s' rq : limits e -> inv e s -> w_rpc s = RRaw rq -> raw s rq = WGo s' -> inv e s'.
Proof.
  intros L I R E. pose proof I as I0. dest s I. subst rp. unfold rpc_ok in Irpc. wc. destruct Irpc as [W EX]. subst ex.
  assert (CD : cp = CDone) by (apply Iexp; reflexivity). subst cp.
  specialize (Idone eq_refl).
  destruct rq as [a len|a len d fua|]; cbn [raw] in E; wc.
  - destruct (a + len <=? fs); injection E as <-.
    + change (inv e (done (WRead a len) (WOk (slice fi a len)) (mkWt mp dl df ds dp fi fs dk true (RRaw (WRead a len)) CDone il lg))).
      apply read_done; [exact I0|reflexivity|]. wc. intros x Q. injection Q as <-. apply slice_expected.
      intros i Hi. specialize (Inone (a + i) (Idone _)). cbn [cur] in Inone. unfold latest. destruct (last_write lg (a + i)); [tauto|].
      apply Inone. discriminate.
    + change (inv e (done (WRead a len) WErr (mkWt mp dl df ds dp fi fs dk true (RRaw (WRead a len)) CDone il lg))).
      apply read_done; [exact I0|reflexivity|discriminate].
  - assert (X : forall dk', inv e (mkWt mp dl df ds dp (put fi a len d) (Z.max fs (a + len)) dk' true RIdle CDone il (lg ++ [(WWrite a len d fua, WOk [])]))).
    { intros dk'. split; wc; auto.
      - exact Logic.I.
      - intros b H. rewrite Idone in H. congruence.
      - intros b H. specialize (Inone b H). cbn [cur] in *. rewrite last_write_app. cbn [stores].
        destruct ((a <=? b) && (b <? a + len)) eqn:Eb.
        + split; [discriminate|]. split; [|lia]. apply put_in. lia.
        + rewrite put_out by lia. destruct (last_write lg b).
          * destruct Inone as [N [F G]]. split; [exact N|]. split; [exact F|lia].
          * exact Inone.
      - intros N. specialize (Isize N). lia.
      - apply reads_app; [exact Ireads|]. intros ? ? ? Q. discriminate.
      - apply writes_app; auto. }
    destruct fua; injection E as <-; apply X.
  - injection E as <-. split; wc; auto.
    + intros b H. rewrite Idone in H. congruence.
    + intros b H. cbn [cur] in *. rewrite log_flush_cur. apply (Inone b H).
    + apply reads_app; [exact Ireads|]. intros ? ? ? Q. discriminate.
    + apply writes_app; [exact Iwrites|]. intros ? ? ? ? Q. discriminate.
Qed.

Lemma req_inv e s s' : limits e -> inv e s -> req_step e s = WGo s' -> inv e s'.
Proof.
  intros L I E. unfold req_step in E. destruct (w_rpc s) as [|rq a len acc|rq a len d fua|rq] eqn:R.
  - dest s I. subst rp. destruct il as [|rq l]; [discriminate|]. rewrite page_writes_cons in Ibud.
    inversion Iin as [|? ? W Iin']; subst. pose proof (page_writes_pos _ _ Iin') as PP. cbn [left_over cur] in *.
    destruct rq as [a len|a len d fua|]; injection E as <-.
    + split; wc; auto.
      * unfold rpc_ok. wc. destruct ex; [auto|]. exists a, len. cbn [whole] in *.
        split; [reflexivity|]. split; [tauto|]. split; [lia|]. split; [lia|]. split; [lia|]. rewrite Z.sub_diag. reflexivity.
      * destruct ex; cbn [left_over]; lia.
      * intros b H. destruct ex; cbn [cur]; auto.
      * intros b H. destruct ex; cbn [cur]; apply (Inone b H).
    + split; wc; auto.
      * unfold rpc_ok. wc. destruct ex; [auto|]. exists a, len, d. cbn [whole] in *.
        split; [reflexivity|]. split; [tauto|]. split; [lia|]. split; [lia|]. split; [lia|]. split; [lia|]. split; [|reflexivity].
        intros i. f_equal. lia.
      * cbn [whole] in W; destruct ex; cbn [left_over]; lia.
      * intros b H. destruct ex; cbn [cur]; [auto|]. replace ((a <=? b) && (b <? a)) with false by lia. auto.
      * intros b H. destruct ex; cbn [cur]; [apply (Inone b H)|]. replace ((a <=? b) && (b <? a)) with false by lia. apply (Inone b H).
    + split; wc; auto.
      * cbn [left_over]. lia.
      * intros b H. cbn [cur]. rewrite log_flush_cur. auto.
      * intros b H. cbn [cur]. rewrite log_flush_cur. apply (Inone b H).
      * apply reads_app; [exact Ireads|]. intros ? ? ? Q. discriminate.
      * apply writes_app; [exact Iwrites|]. intros ? ? ? ? Q. discriminate.
  - eapply read_inv; eauto. destruct (w_cpc s) as [|[] ? ?|]; try exact E; discriminate.
  - assert (UL : unlocked (w_cpc s)) by (destruct (w_cpc s) as [|[] ? ?|]; try exact Logic.I; discriminate).
    eapply write_inv; eauto. destruct (w_cpc s) as [|[] ? ?|]; try exact E; discriminate.
  - eapply raw_inv; eauto.
Qed.

Lemma req_no_ub e s : limits e -> inv e s -> req_step e s <> WUb.
Proof.
  intros L I. pose proof (i_rpc _ _ I) as P. unfold rpc_ok in P. unfold req_step.
  destruct (w_rpc s) as [|rq a len acc|rq a len d fua|rq] eqn:R.
  - destruct (w_in s) as [|[] ?]; discriminate.
  - destruct P as [a0 [len0 [-> [W [Ha [Hl [Hal _]]]]]]]. cbn [whole] in W.
    assert (X : read_page e s (WRead a0 len0) a len acc <> WUb).
    { unfold read_page. change DIFFPAGESIZE with 4096. replace (negb (a / 4096 <? pages e)) with false by (unfold pages, DIFFPAGESIZE; lia).
      cbv zeta. repeat match goal with |- context[if ?b then _ else _] => destruct b end; discriminate. }
    destruct (w_cpc s) as [|[] ? ?|]; auto; discriminate.
  - destruct P as [a0 [len0 [d0 [-> [W [Ha [Hl [Hal _]]]]]]]]. cbn [whole] in W.
    assert (X : write_page e s (WWrite a0 len0 d0 fua) a len d fua <> WUb).
    { unfold write_page. change DIFFPAGESIZE with 4096. replace (negb (a / 4096 <? pages e)) with false by (unfold pages, DIFFPAGESIZE; lia).
      cbv zeta. repeat match goal with |- context[if ?b then _ else _] => destruct b end; discriminate. }
    destruct (w_cpc s) as [|[] ? ?|]; auto; discriminate.
  - destruct rq; cbn [raw]; [destruct (_ <=? _)| |]; discriminate.
Qed.

Lemma step_inv e c s s' : limits e -> inv e s -> wstep e c s = WGo s' ->
  (w_export s = false -> w_export s' = true -> ~ in_write s) -> inv e s'.
Proof. intros L I E C. destruct c; cbn [wstep] in E; [eapply req_inv|eapply com_inv]; eauto. Qed.

Lemma run_inv e l : limits e -> forall s, inv e s -> clean e l s ->
  match wrun e l s with WGo s' => inv e s' | WNot => True | WUb => False end.
Proof.
  intros L. induction l as [|c l IH]; intros s I C; cbn [wrun clean] in *; [exact I|].
  destruct (wstep e c s) as [s'| |] eqn:E; [|exact Logic.I|].
  - destruct C as [C1 C2]. apply IH; [eapply step_inv; eauto|exact C2].
  - destruct c; cbn [wstep] in E; [eapply req_no_ub|eapply com_no_ub]; eauto.
Qed.

Lemma modest_limits e reqs : modest e reqs -> limits e.
Proof. intros [A [B _]]. split; [exact A|]. unfold pages, DIFFPAGESIZE. exact B. Qed.
