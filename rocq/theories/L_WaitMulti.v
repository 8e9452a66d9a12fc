(** Several connections to one waitfile export: each is followed by a process of its
    own with a file that agrees on the pages it uses. *)
From Verif Require Import Base M_Const M_Disk M_Wait S_Wait L_Wait L_WaitS L_WaitR L_WaitP M_WaitMulti S_WaitMulti.

(** the file as found, its end moved to the end of the export *)
Definition wide (e : wenv) : wenv := mkWe (we_size e) (we_sparse e) (found e) (Z.max (we_f0size e) (we_size e)) (we_junk e).
Lemma found_wide e b : found (wide e) b = found e b.
Proof. unfold found, wide. cbn [we_f0size we_f0]. unfold found. destruct (b <? we_f0size e) eqn:A; destruct (b <? Z.max _ _) eqn:B; try reflexivity. lia. Qed.
Lemma latest_wide e l b : latest (wide e) l b = latest e l b.
Proof. unfold latest. rewrite found_wide. reflexivity. Qed.
Lemma expected_wide e l a n : expected (wide e) l a n = expected e l a n.
Proof. unfold expected. apply map_ext. intros i. apply latest_wide. Qed.
Lemma reads_wide e l : reads_right (wide e) l -> reads_right e l.
Proof. intros H l1 a len data l2 E. rewrite <- expected_wide. eapply H; eauto. Qed.
Lemma modest_wide e reqs : modest e reqs -> modest (wide e) reqs.
Proof. intros [A [B [C D]]]. split; [exact A|]. split; [exact B|]. split; [exact C|exact D]. Qed.

Definition used (reqs : list wreq) (p : Z) : Prop := exists rq, In rq reqs /\ touches rq p.
Definition written (reqs : list wreq) (p : Z) : Prop := exists rq, In rq reqs /\ rewrites rq p.

Record sim (e : wenv) (U : Z -> Prop) (s t : wst) : Prop := mkSim {
  m_map : w_map s = w_map t; m_dlen : w_dlen s = w_dlen t; m_diff : w_diff s = w_diff t; m_dsize : w_dsize s = w_dsize t;
  m_dpos : w_dpos s = w_dpos t; m_export : w_export s = w_export t; m_rpc : w_rpc s = w_rpc t; m_cpc : w_cpc s = w_cpc t;
  m_in : w_in s = w_in t; m_log : w_log s = w_log t;
  m_wait : w_cpc t = CWait -> forall b, U (b / 4096) -> w_file s b = found e b;
  m_file : w_cpc t <> CWait -> forall b, U (b / 4096) -> w_file s b = w_file t b }.
Record own (reqs : list wreq) (s : wst) : Prop := mkOwn {
  o_in : forall rq, In rq (w_in s) -> In rq reqs;
  o_rpc : match w_rpc s with RIdle => True | RMapR rq _ _ _ | RMapW rq _ _ _ _ | RRaw rq => In rq reqs end;
  o_map : forall p, w_map s p <> NOPAGE -> written reqs p }.

Lemma slice_eq f g o n : (forall b, o <= b < o + n -> f b = g b) -> slice f o n = slice g o n.
Proof. intros H. unfold slice. apply map_ext_in. intros i I. apply in_seq in I. apply H. lia. Qed.
Lemma put_agree f g o n d b : f b = g b -> put f o n d b = put g o n d b.
Proof. intros H. unfold put. destruct ((o <=? b) && (b <? o + n)); auto. Qed.
Lemma page_of i b : DIFFPAGESIZE * i <= b < DIFFPAGESIZE * i + DIFFPAGESIZE -> b / 4096 = i.
Proof. unfold DIFFPAGESIZE. intros H. symmetry. apply Z.div_unique with (b - 4096 * i); lia. Qed.

Ltac dsim := match goal with H : sim _ _ ?s ?t |- _ =>
  destruct H as [Mm Ml Md Ms Mp Me Mr Mc Mi Mg Mw Mf]; destruct s as [mp dl df ds dp fi fs dk ex rp cp il lg];
  destruct t as [mp' dl' df' ds' dp' fi' fs' dk' ex' rp' cp' il' lg']; wc; subst mp' dl' df' ds' dp' ex' rp' cp' il' lg' end.

Section step.
Variables (e : wenv) (reqs : list wreq).
Hypothesis L : limits e.
Lemma lim_wide : limits (wide e).
Proof. exact L. Qed.

Definition follows (s x : wst) : Prop :=
  (exists x', inv (wide e) x' /\ sim e (used reqs) x x') /\ own reqs x /\
  forall b, ~ written reqs (b / 4096) -> w_file x b = w_file s b.

Lemma com_follows s t k x : inv (wide e) t -> sim e (used reqs) s t -> own reqs s ->
  conn_step e (WCom k) s = WGo x -> (w_export s = false -> w_export x = true -> ~ in_write s) -> follows s x.
Proof.
  intros I S O E C. pose proof (com_inv (wide e) k t) as K.
  assert (PG : pages (wide e) = pages e) by reflexivity.
  unfold conn_step in E. destruct O as [O1 O2 O3]. dsim. unfold com_step in K. wc. rewrite PG in K.
  destruct cp as [|lk i d|].
  - injection E as <-. specialize (K _ lim_wide I eq_refl). split; [|split; [split; wc; auto|wc; auto]].
    eexists. split; [apply K; wc; intros; congruence|]. split; wc; auto; try discriminate.
    intros _ b U. rewrite Mw by auto. symmetry. apply (found_wide e).
  - cbn [wstep] in E. unfold com_step in E. wc. destruct (i <? pages e) eqn:EI.
    + destruct (2147483647 <? DIFFPAGESIZE * i); [discriminate|]. destruct (there (mp i)) eqn:ET.
      * assert (WR : written reqs i) by (apply O3; apply there_spec; exact ET).
        destruct (negb (at_slot (mp i) + DIFFPAGESIZE <=? ds)).
        { injection E as <-. specialize (K _ lim_wide I eq_refl). split; [|split; [split; wc; auto|wc; auto]].
          eexists. split; [apply K; wc; intros; congruence|]. split; wc; auto; try discriminate. intros _. apply Mf. discriminate. }
        set (k' := Z.max 0 (Z.min k DIFFPAGESIZE)) in *. assert (KB : 0 <= k' <= DIFFPAGESIZE) by (unfold k', DIFFPAGESIZE; lia).
        assert (FR : forall b, ~ written reqs (b / 4096) ->
          put fi (DIFFPAGESIZE * i) k' (fun j => df (at_slot (mp i) + j)) b = fi b).
        { intros b N. apply put_out. intros B. apply N. rewrite (page_of i) by lia. exact WR. }
        destruct (negb (k' =? DIFFPAGESIZE)); injection E as <-; specialize (K _ lim_wide I eq_refl);
          (split; [|split; [split; wc; auto|wc; auto]]).
        -- eexists. split; [apply K; wc; intros; congruence|]. split; wc; auto; try discriminate.
           intros _ b U. apply put_agree. apply Mf; [discriminate|exact U].
        -- eexists. split; [apply K; wc; intros; congruence|]. split; wc; auto; try discriminate.
           intros _ b U. apply put_agree. apply Mf; [discriminate|exact U].
        -- intros p. unfold set_at. destruct (p =? i); [congruence|]. apply O3.
      * injection E as <-. specialize (K _ lim_wide I eq_refl). split; [|split; [split; wc; auto|wc; auto]].
        eexists. split; [apply K; wc; intros; congruence|]. split; wc; auto; try discriminate. intros _. apply Mf. discriminate.
    + destruct (0 <? d); [|destruct lk]; injection E as <-; specialize (K _ lim_wide I eq_refl);
        (split; [|split; [split; wc; auto|wc; auto]]); (eexists; split; [apply K; wc; first [exact C|intros; congruence]|]);
        (split; wc; auto; try discriminate; intros _; apply Mf; discriminate).
  - discriminate.
Qed.

Lemma whole_size rq : whole (wide e) rq -> match rq with WRead a len | WWrite a len _ _ => 0 <= a /\ 0 < len /\ a + len <= we_size e | WFlush => True end.
Proof. destruct rq; cbn [whole wide we_size]; lia. Qed.

Lemma read_used rq a0 len0 b : rq = WRead a0 len0 -> In rq reqs -> a0 <= b < a0 + len0 -> used reqs (b / 4096).
Proof. intros -> I B. exists (WRead a0 len0). split; [exact I|]. exists b. auto. Qed.
Lemma write_written rq a0 len0 d f b : rq = WWrite a0 len0 d f -> In rq reqs -> a0 <= b < a0 + len0 -> written reqs (b / 4096).
Proof. intros -> I B. exists (WWrite a0 len0 d f). split; [exact I|]. exists b. auto. Qed.

Lemma req_follows s t x : inv (wide e) t -> sim e (used reqs) s t -> own reqs s -> conn_step e WReq s = WGo x -> follows s x.
Proof.
  intros I S O E. pose proof (req_inv (wide e) t) as K. pose proof (i_rpc _ _ I) as P. pose proof (i_size _ _ I) as Z0.
  pose proof (i_exp _ _ I) as X0. pose proof (read_done (wide e) t) as D0. cbn [wide we_f0size] in Z0.
  assert (PG : pages (wide e) = pages e) by reflexivity.
  unfold conn_step in E. destruct O as [O1 O2 O3]. dsim. cbn [wstep] in E. unfold rpc_ok in P. unfold req_step in E, K. wc.
  destruct rp as [|rq a len acc|rq a len d fua|rq].
  - destruct il as [|rq il]; [discriminate|].
    assert (IR : In rq reqs) by (apply O1; now left). assert (IL : forall r, In r il -> In r reqs) by (intros r Hr; apply O1; now right).
    destruct rq as [a len|a len d fua|]; injection E as <-; specialize (K _ lim_wide I eq_refl); (split; [|split; [split; wc; auto|wc; auto]]);
      try (destruct ex; exact IR); (eexists; split; [exact K|]); split; wc; auto.
  - assert (NL : read_page e (mkWt mp dl df ds dp fi fs dk ex (RMapR rq a len acc) cp il lg) rq a len acc = WGo x /\
      (forall s', read_page (wide e) (mkWt mp dl df ds dp fi' fs' dk' ex (RMapR rq a len acc) cp il lg) rq a len acc = WGo s' -> inv (wide e) s')).
    { destruct cp as [|[|] ? ?|]; try discriminate; split; auto. }
    clear E K. destruct NL as [E K]. unfold read_page in E, K. wc. rewrite PG in K.
    destruct P as [a0 [len0 [ER [W [A1 [A2 [A3 A4]]]]]]]. pose proof (whole_size _ W) as WS. rewrite ER in WS.
    destruct (negb (a / DIFFPAGESIZE <? pages e)); [discriminate|].
    assert (CH : 0 <= chunk a len <= len) by (unfold chunk, DIFFPAGESIZE; pose proof (Z.mod_pos_bound a 4096); lia).
    assert (ERR : x = done rq WErr (mkWt mp dl df ds dp fi fs dk ex (RMapR rq a len acc) cp il lg) ->
      follows (mkWt mp dl df ds dp fi fs dk ex (RMapR rq a len acc) cp il lg) x).
    { intros ->. split; [|split; [split; wc; auto|wc; auto]]. eexists. split; [subst rq; apply (D0 a0 len0 WErr I); [reflexivity|discriminate]|].
      subst rq. split; wc; auto. }
    assert (GO : forall b, (if len - chunk a len =? 0
         then WGo (done rq (WOk (acc ++ b)) (mkWt mp dl df ds dp fi fs dk ex (RMapR rq a len acc) cp il lg))
         else WGo (s_rpc (RMapR rq (a + chunk a len) (len - chunk a len) (acc ++ b)) (mkWt mp dl df ds dp fi fs dk ex (RMapR rq a len acc) cp il lg))) = WGo x ->
      (forall s', (if len - chunk a len =? 0
         then WGo (done rq (WOk (acc ++ b)) (mkWt mp dl df ds dp fi' fs' dk' ex (RMapR rq a len acc) cp il lg))
         else WGo (s_rpc (RMapR rq (a + chunk a len) (len - chunk a len) (acc ++ b)) (mkWt mp dl df ds dp fi' fs' dk' ex (RMapR rq a len acc) cp il lg))) = WGo s' -> inv (wide e) s') ->
      follows (mkWt mp dl df ds dp fi fs dk ex (RMapR rq a len acc) cp il lg) x).
    { intros b Eb Kb. destruct (len - chunk a len =? 0); injection Eb as <-; specialize (Kb _ eq_refl);
      (split; [|split; [split; wc; auto|wc; auto]]); (eexists; split; [exact Kb|]); split; wc; auto. }
    destruct (there (mp (a / DIFFPAGESIZE))).
    + destruct (at_slot (mp (a / DIFFPAGESIZE)) + a mod DIFFPAGESIZE + chunk a len <=? ds).
      * eapply GO; [exact E|exact K].
      * apply ERR. congruence.
    + destruct ex; cbn [negb] in *; [|apply ERR; congruence].
      destruct (a + chunk a len <=? fs) eqn:EF; [|apply ERR; congruence].
      assert (CD : cp = CDone) by (apply X0; reflexivity). subst cp. specialize (Z0 ltac:(discriminate)).
      replace (a + chunk a len <=? fs') with true in K by lia.
      rewrite <- (slice_eq fi fi') in K; [eapply GO; [exact E|exact K]|].
      intros b B. apply Mf; [discriminate|]. eapply read_used; [exact ER|exact O2|lia].
  - assert (NL : write_page e (mkWt mp dl df ds dp fi fs dk ex (RMapW rq a len d fua) cp il lg) rq a len d fua = WGo x /\
      (forall s', write_page (wide e) (mkWt mp dl df ds dp fi' fs' dk' ex (RMapW rq a len d fua) cp il lg) rq a len d fua = WGo s' -> inv (wide e) s')).
    { destruct cp as [|[|] ? ?|]; try discriminate; split; auto. }
    clear E K. destruct NL as [E K]. unfold write_page in E, K. wc. rewrite PG in K. cbn [wide we_sparse we_junk] in K.
    destruct P as [a0 [len0 [d0 [ER [W [A1 [A2 [A3 [A4 [A5 A6]]]]]]]]]]. pose proof W as W'. rewrite ER in W'. cbn [whole wide we_size] in W'.
    destruct L as [SP _]. rewrite SP in E, K.
    assert (CH : chunk a len = 4096).
    { unfold chunk, DIFFPAGESIZE. rewrite A4. assert (len mod 4096 = 0); [|lia].
      replace len with (a0 + len0 - a) by lia. lia. }
    rewrite CH in E, K. change (a mod DIFFPAGESIZE) with (a mod 4096) in E, K. rewrite A4 in E, K.
    change (0 =? 0) with true in E, K. change (4096 =? DIFFPAGESIZE) with true in E, K. cbn [negb orb andb] in E, K.
    assert (WR : written reqs (a / 4096)) by (eapply write_written; [exact ER|exact O2|lia]).
    destruct (negb (a / DIFFPAGESIZE <? pages e)); [discriminate|].
    destruct (there (mp (a / DIFFPAGESIZE))); destruct (len - 4096 =? 0); injection E as <-; specialize (K _ eq_refl);
      (split; [|split; [split; wc; auto|wc; auto]]);
      try (eexists; split; [exact K|]; split; wc; auto).
    all: intros p; unfold set_at; change DIFFPAGESIZE with 4096; destruct (Z.eqb_spec p (a / 4096)); [subst p; auto|apply O3].
  - destruct P as [W EX]. subst ex. assert (CD : cp = CDone) by (apply X0; reflexivity). subst cp. specialize (Z0 ltac:(discriminate)).
    specialize (Mf ltac:(discriminate)). pose proof (whole_size _ W) as WS. destruct rq as [a len|a len d fua|]; cbn [raw] in E, K; wc.
    + destruct (a + len <=? fs).
      * injection E as <-. replace (a + len <=? fs') with true in K by lia. specialize (K _ lim_wide I eq_refl).
        split; [|split; [split; wc; auto|wc; auto]]. eexists. split; [exact K|]. split; wc; auto. f_equal. f_equal. f_equal. f_equal.
        apply slice_eq. intros b B. apply Mf. eapply read_used; [reflexivity|exact O2|exact B].
      * injection E as <-. split; [|split; [split; wc; auto|wc; auto]].
        eexists. split; [apply (D0 a len WErr I); [reflexivity|discriminate]|]. split; wc; auto.
    + injection E as <-. specialize (K _ lim_wide I eq_refl). split; [|split].
      * eexists. split; [exact K|]. destruct fua; split; wc; auto; try discriminate; intros _ b U; apply put_agree; apply Mf; exact U.
      * destruct fua; split; wc; auto.
      * intros b N. assert (FR : put fi a len d b = fi b); [|destruct fua; exact FR].
        apply put_out. intros B. apply N. eapply write_written; [reflexivity|exact O2|exact B].
    + injection E as <-. specialize (K _ lim_wide I eq_refl). split; [|split; [split; wc; auto|wc; auto]]. eexists. split; [exact K|]. split; wc; auto.
Qed.

Lemma step_follows s t c x : inv (wide e) t -> sim e (used reqs) s t -> own reqs s -> conn_step e c s = WGo x ->
  (w_export s = false -> w_export x = true -> ~ in_write s) -> follows s x.
Proof. destruct c; [intros; eapply req_follows; eauto|intros; eapply com_follows; eauto]. Qed.

Lemma step_no_ub s t c : inv (wide e) t -> sim e (used reqs) s t -> conn_step e c s <> WUb.
Proof.
  intros I S E. pose proof (com_no_ub (wide e)) as K1. pose proof (req_no_ub (wide e) t lim_wide I) as K2. pose proof (i_rpc _ _ I) as P. dsim.
  assert (PG : pages (wide e) = pages e) by reflexivity.
  destruct c as [|k].
  - unfold conn_step in E. cbn [wstep] in E. unfold req_step in E, K2. unfold rpc_ok in P. wc.
    destruct rp as [|rq a len acc|rq a len d fua|rq].
    + destruct il as [|[] il]; discriminate.
    + destruct cp as [|[|] ? ?|]; try discriminate; unfold read_page in E, K2; wc; rewrite PG in K2;
        (destruct (negb (a / DIFFPAGESIZE <? pages e)); [congruence|]);
        repeat match goal with H : (if ?c then _ else _) = WUb |- _ => destruct c end; discriminate.
    + destruct cp as [|[|] ? ?|]; try discriminate; unfold write_page in E, K2; wc; rewrite PG in K2;
        (destruct (negb (a / DIFFPAGESIZE <? pages e)); [congruence|]);
        repeat match goal with H : (if ?c then _ else _) = WUb |- _ => destruct c end; discriminate.
    + destruct rq; cbn [raw] in E; wc; repeat match goal with H : (if ?c then _ else _) = WUb |- _ => destruct c end; discriminate.
  - specialize (K1 k _ lim_wide I). unfold conn_step in E. wc. destruct cp as [|lk i d|]; [discriminate| |discriminate].
    cbn [wstep] in E. unfold com_step in E, K1. wc. rewrite PG in K1. destruct (i <? pages e).
    + destruct (2147483647 <? DIFFPAGESIZE * i); [congruence|].
      repeat match goal with H : (if ?c then _ else _) = WUb |- _ => destruct c end; discriminate.
    + destruct (0 <? d); [discriminate|]. destruct lk; discriminate.
Qed.
End step.

(** ** the group *)
Lemma set_conn_same k s l : (k < length l)%nat -> nth_error (set_conn k s l) k = Some s.
Proof. revert k. induction l as [|x l IH]; intros k H; cbn [length] in H; [lia|]. destruct k; cbn [set_conn nth_error]; [reflexivity|]. apply IH. lia. Qed.
Lemma set_conn_other k j s l : j <> k -> nth_error (set_conn k s l) j = nth_error l j.
Proof. revert k j. induction l as [|x l IH]; intros k j N; [destruct k; reflexivity|]. destruct k, j; cbn [set_conn nth_error]; try reflexivity; [congruence|]. apply IH. congruence. Qed.
Lemma set_conn_length k s l : length (set_conn k s l) = length l.
Proof. revert k. induction l as [|x l IH]; intros k; [destruct k; reflexivity|]. destruct k; cbn [set_conn length]; [reflexivity|]. rewrite IH. reflexivity. Qed.

Record ginv (e : wenv) (reqss : list (list wreq)) (g : wgroup) : Prop := mkGinv {
  g_len : length (wg_conns g) = length reqss;
  g_conn : forall k reqs s, nth_error reqss k = Some reqs -> nth_error (wg_conns g) k = Some s ->
    own reqs s /\ exists t, inv (wide e) t /\ sim e (used reqs) (lend g s) t;
  g_rest : forall b, (forall reqs, In reqs reqss -> ~ written reqs (b / 4096)) -> wg_file g b = found e b }.

Lemma ginv_start e reqss : (forall reqs, In reqs reqss -> modest e reqs) -> ginv e reqss (wg_start e reqss).
Proof.
  intros M. split.
  - unfold wg_start. cbn [wg_conns]. apply map_length.
  - intros k reqs s H1 H2. unfold wg_start in H2. cbn [wg_conns] in H2. rewrite (map_nth_error wstart k reqss H1) in H2. injection H2 as <-. split.
    + split; cbn [wstart w_in w_rpc w_map]; auto. intros; congruence.
    + exists (wstart reqs). split; [apply start_inv; apply modest_wide; apply M; apply nth_error_In with k; exact H1|].
      unfold lend, wg_start. split; cbn [wg_file wg_fsize wg_disk wstart]; wc; auto; intros; try reflexivity. destruct H. reflexivity.
  - reflexivity.
Qed.

Lemma written_used reqs p : written reqs p -> used reqs p.
Proof. intros [rq [I W]]. exists rq. split; [exact I|]. destruct rq; cbn in *; auto. contradiction. Qed.
Lemma apart_sets reqss i j ri rj p : apart reqss -> i <> j -> nth_error reqss i = Some ri -> nth_error reqss j = Some rj ->
  used ri p -> written rj p -> False.
Proof. intros A N Hi Hj [x [Ix Tx]] [y [Iy Ty]]. exact (A i j ri rj x y p N Hi Hj Ix Iy Tx Ty). Qed.

Lemma ginv_step e reqss k c g : limits e -> apart reqss -> ginv e reqss g -> steady e k c g ->
  match wg_step e k c g with WgGo g' => ginv e reqss g' | WgUb => False end.
Proof.
  intros L A [G1 G2 G3] ST. unfold steady in ST. unfold wg_step. destruct (nth_error (wg_conns g) k) as [s|] eqn:EK; [|split; assumption].
  assert (LK : (k < length (wg_conns g))%nat) by (apply nth_error_Some; congruence).
  destruct (nth_error reqss k) as [reqs|] eqn:ER; [|apply nth_error_None in ER; lia].
  destruct (G2 k reqs s ER EK) as [O [t [I S]]].
  destruct (conn_step e c (lend g s)) as [x| |] eqn:EC; [|split; assumption|].
  2: exact (step_no_ub e reqs L _ _ _ I S EC).
  assert (O' : own reqs (lend g s)) by (destruct O as [Q1 Q2 Q3]; split; unfold lend; wc; assumption).
  specialize (ST s x eq_refl EC).
  destruct (step_follows e reqs L _ _ _ x I S O' EC ST) as [[x' [I' S']] [OX F]].
  change (w_file (lend g s)) with (wg_file g) in F. split.
  - unfold give_back. cbn [wg_conns]. rewrite set_conn_length. exact G1.
  - intros j rj sj Hj Kj. unfold give_back in Kj. cbn [wg_conns] in Kj. destruct (Nat.eq_dec j k) as [->|N].
    + rewrite set_conn_same in Kj by exact LK. injection Kj as <-. rewrite ER in Hj. injection Hj as <-. split; [exact OX|].
      exists x'. split; [exact I'|]. unfold lend, give_back. destruct S'. split; cbn [wg_file wg_fsize wg_disk]; wc; auto.
    + rewrite set_conn_other in Kj by exact N. destruct (G2 j rj sj Hj Kj) as [Oj [tj [Ij Sj]]]. split; [exact Oj|].
      exists tj. split; [exact Ij|]. assert (FR : forall b, used rj (b / 4096) -> w_file x b = wg_file g b).
      { intros b Ub. apply F. intros Wb. eapply apart_sets with (i := j) (j := k); eauto. }
      unfold lend, give_back in *. destruct Sj. split; cbn [wg_file wg_fsize wg_disk] in *; wc; auto.
      * intros H b Ub. rewrite FR by exact Ub. auto.
      * intros H b Ub. rewrite FR by exact Ub. auto.
  - intros b H. unfold give_back. cbn [wg_file]. rewrite F; [apply G3; exact H|]. apply H. apply nth_error_In with k. exact ER.
Qed.

Lemma ginv_run e reqss : limits e -> apart reqss -> forall l g, ginv e reqss g -> all_steady e l g ->
  match wg_run e l g with WgGo g' => ginv e reqss g' | WgUb => False end.
Proof.
  intros L A. induction l as [|[k c] l IH]; intros g G C; cbn [wg_run all_steady] in *; [exact G|].
  destruct C as [C1 C2]. pose proof (ginv_step e reqss k c g L A G C1) as K. destruct (wg_step e k c g) as [g'|]; [|contradiction].
  apply IH; assumption.
Qed.

Lemma group_inv e reqss l g : (forall reqs, In reqs reqss -> modest e reqs) -> apart reqss -> all_steady e l (wg_start e reqss) ->
  wg_run e l (wg_start e reqss) = WgGo g -> ginv e reqss g.
Proof.
  intros M A C E. destruct reqss as [|reqs reqss].
  - assert (G : forall l g0, wg_conns g0 = [] -> wg_run e l g0 = WgGo g0).
    { induction l0 as [|[k c] l0 IH]; intros g0 H; cbn [wg_run]; [reflexivity|]. unfold wg_step. rewrite H. destruct k; cbn [nth_error]; auto. }
    rewrite G in E by reflexivity. injection E as <-. apply ginv_start. exact M.
  - assert (L : limits e) by (eapply modest_limits; apply M; now left).
    pose proof (ginv_run e _ L A l _ (ginv_start e _ M) C) as K. rewrite E in K. exact K.
Qed.
