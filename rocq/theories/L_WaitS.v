(** Steps of waitfile exports keep the invariant. *)
From Verif Require Import Base M_Const M_Wait S_Wait L_Wait.

Definition limits (e : wenv) : Prop := we_sparse e = false /\ pages e <= 524288.
Ltac wc := cbn [w_map w_dlen w_diff w_dsize w_dpos w_file w_fsize w_disk w_export w_rpc w_cpc w_in w_log
  s_rpc s_cpc s_in s_map s_diff s_file s_disk s_export done] in *.
Ltac dest s I := destruct s as [mp dl df ds dp fi fs dk ex rp cp il lg]; destruct I as [Iin Irpc Ibud Ipos Islot Iinj Imap Inone Isize Iexp Idone Ipass Ireads Iwrites]; wc.

Lemma put_in f o n d b : o <= b < o + n -> put f o n d b = d (b - o).
Proof. intros H. unfold put. replace ((o <=? b) && (b <? o + n)) with true by lia. reflexivity. Qed.
Lemma put_out f o n d b : ~ o <= b < o + n -> put f o n d b = f b.
Proof. intros H. unfold put. replace ((o <=? b) && (b <? o + n)) with false by lia. reflexivity. Qed.
Lemma set_same f p v : set_at f p v p = v.
Proof. unfold set_at. rewrite Z.eqb_refl. reflexivity. Qed.
Lemma set_other f p v x : x <> p -> set_at f p v x = f x.
Proof. unfold set_at. intros H. replace (x =? p) with false by lia. reflexivity. Qed.


Lemma dlen_small e s : inv e s -> 0 <= w_dlen s <= 1048576.
Proof.
  intros I. destruct I as [Iin Irpc [B1 B2] _ _ _ _ _ _ _ _ _ _ _]. pose proof (page_writes_pos _ _ Iin).
  assert (0 <= left_over (w_rpc s)); [|lia].
  unfold rpc_ok in Irpc. destruct (w_rpc s); cbn [left_over]; try lia.
  destruct Irpc as [? [? [? [_ [_ [_ [L _]]]]]]]. lia.
Qed.
Lemma com_inv e k s s' : limits e -> inv e s -> com_step e k s = WGo s' ->
  (w_export s = false -> w_export s' = true -> ~ in_write s) -> inv e s'.
Proof.
  intros [SP PG] I E C. pose proof (dlen_small _ _ I) as SM. dest s I. unfold com_step in E. wc.
  destruct cp as [|lk i d|]; [| |discriminate].
  - (* the file appears *) injection E as <-. split; wc; auto.
    + intros b H. specialize (Inone b H). destruct (cur rp lg b); [|reflexivity].
      destruct Inone as [N _]. congruence.
    + lia.
    + split; [|discriminate]. intros ->. destruct Iexp as [X _]. specialize (X eq_refl). discriminate.
    + discriminate.
    + intros ? ? ? X. injection X as <- <- <-. split; [lia|]. split; [lia|]. discriminate.
  - assert (EX : ex = false). { destruct ex; [|reflexivity]. destruct Iexp as [X _]. specialize (X eq_refl). discriminate. }
    destruct (Ipass lk i d eq_refl) as [Hi [Hd Hc]].
    assert (NEG : forall p, p < 0 -> mp p = NOPAGE).
    { intros p Hp. destruct (Z.eq_dec (mp p) NOPAGE) as [Q|Q]; [exact Q|]. specialize (Islot p Q). lia. }
    assert (EXP : forall c, c <> CDone -> (ex = true <-> c = CDone)). { intros c Hne. rewrite EX. split; [discriminate|contradiction]. }
    destruct (i <? pages e) eqn:Ei.
    + destruct (2147483647 <? DIFFPAGESIZE * i); [discriminate|].
      destruct (there (mp i)) eqn:Et.
      * apply there_spec in Et. destruct (Islot i Et) as [Hs _].
        rewrite at_slot_small in E by lia.
        assert (DS : ds = dl * 4096) by tauto.
        replace (negb (mp i * 4096 + DIFFPAGESIZE <=? ds)) with false in E by (unfold DIFFPAGESIZE; lia).
        set (k' := Z.max 0 (Z.min k DIFFPAGESIZE)) in E.
        assert (Hk : 0 <= k' <= 4096) by (unfold k', DIFFPAGESIZE; lia). clearbody k'.
        set (fi' := put fi (DIFFPAGESIZE * i) k' (fun j : Z => df (mp i * 4096 + j))) in E.
        set (fs' := if k' =? 0 then fs else Z.max fs (DIFFPAGESIZE * i + k')) in E.
        assert (FS : fs <= fs') by (unfold fs'; destruct (k' =? 0); lia).
        assert (OUT : forall b, b / 4096 <> i -> fi' b = fi b).
        { intros b Hb. unfold fi'. apply put_out. unfold DIFFPAGESIZE. lia. }
        wc. destruct (negb (k' =? DIFFPAGESIZE)) eqn:Ek.
        -- injection E as <-. split; wc; auto.
           ++ intros b H. specialize (Inone b H). rewrite OUT by congruence. destruct (cur rp lg b).
              ** destruct Inone as [_ [X Y]]. split; [discriminate|]. split; [exact X|lia].
              ** intros _. apply Inone. discriminate.
           ++ intros _. assert (we_f0size e <= fs) by (apply Isize; discriminate). lia.
           ++ apply EXP. discriminate.
           ++ discriminate.
           ++ intros ? ? ? X. injection X as <- <- <-. split; [lia|]. split; [lia|]. intros _ _ p Hp. auto.
        -- assert (k' = 4096) by (unfold DIFFPAGESIZE in Ek; lia). subst k'. injection E as <-.
           assert (FI : forall b, b / 4096 = i -> fi' b = df (mp i * 4096 + b mod 4096) /\ b < fs').
           { intros b Hb. unfold fi', fs'. change (4096 =? 0) with false. cbv iota. unfold DIFFPAGESIZE. split; [|lia].
             rewrite put_in by lia. f_equal. lia. }
           split; wc; auto.
           ++ intros p H. destruct (Z.eq_dec p i) as [->|N]; [rewrite set_same in H; congruence|].
              rewrite set_other in * by exact N. auto.
           ++ intros p q H. destruct (Z.eq_dec p i) as [->|N]; [rewrite set_same in H; congruence|].
              rewrite set_other in * by exact N. destruct (Z.eq_dec q i) as [->|N2]; [rewrite set_same; congruence|].
              rewrite set_other by exact N2. auto.
           ++ intros b H. destruct (Z.eq_dec (b / 4096) i) as [Q|N]; [rewrite Q, set_same in H; congruence|].
              rewrite set_other in * by exact N. auto.
           ++ intros b H. destruct (Z.eq_dec (b / 4096) i) as [Q|N].
              ** rewrite (Imap b) by congruence. split; [discriminate|]. destruct (FI b Q) as [F1 F2].
                 rewrite Q. auto.
              ** rewrite set_other in H by exact N. specialize (Inone b H). rewrite OUT by exact N.
                 destruct (cur rp lg b).
                 { destruct Inone as [_ [X Y]]. split; [discriminate|]. split; [exact X|lia]. }
                 { intros _. apply Inone. discriminate. }
           ++ intros _. assert (we_f0size e <= fs) by (apply Isize; discriminate). lia.
           ++ apply EXP. discriminate.
           ++ discriminate.
           ++ intros ? ? ? X. injection X as <- <- <-. split; [lia|]. split; [lia|]. intros _ Hd0. lia.
      * injection E as <-.
        assert (Et' : mp i = NOPAGE).
        { destruct (Z.eq_dec (mp i) NOPAGE) as [Q|Q]; [exact Q|]. apply there_spec in Q. congruence. }
        split; wc; auto.
        -- intros b H. specialize (Inone b H). destruct (cur rp lg b).
           { destruct Inone as [_ X]. split; [discriminate|exact X]. }
           { intros _. apply Inone. discriminate. }
        -- intros _. apply Isize. discriminate.
        -- apply EXP. discriminate.
        -- discriminate.
        -- intros ? ? ? X. injection X as <- <- <-. split; [lia|]. split; [lia|]. intros L D p Hp.
           destruct (Z.eq_dec p i) as [->|N]; [exact Et'|]. apply Hc; auto. lia.
    + destruct (0 <? d) eqn:Edd.
      * injection E as <-. split; wc; auto.
        -- intros b H. specialize (Inone b H). destruct (cur rp lg b).
           { destruct Inone as [_ X]. split; [discriminate|exact X]. }
           { intros _. apply Inone. discriminate. }
        -- intros _. apply Isize. discriminate.
        -- apply EXP. discriminate.
        -- discriminate.
        -- intros ? ? ? X. injection X as <- <- <-. split; [lia|]. split; [lia|]. auto.
      * assert (d = 0) by lia. subst d. destruct lk.
        -- injection E as <-. wc. specialize (C EX eq_refl). unfold in_write in C. wc.
           assert (ALL : forall p, mp p = NOPAGE).
           { intros p. destruct (Z.eq_dec (mp p) NOPAGE) as [Q|Q]; [exact Q|].
             destruct (Islot p Q) as [_ [_ P2]]. apply Hc; auto. lia. }
           split; wc; auto.
           ++ unfold rpc_ok in *. wc. destruct rp; auto. 
              ** destruct C. exact Logic.I.
              ** tauto.
           ++ intros b H. specialize (Inone b H). destruct (cur rp lg b).
              { destruct Inone as [_ X]. split; [discriminate|exact X]. }
              { intros _. apply Inone. discriminate. }
           ++ intros _. apply Isize. discriminate.
           ++ tauto.
           ++ discriminate.
        -- injection E as <-. split; wc; auto.
           ++ intros b H. specialize (Inone b H). destruct (cur rp lg b).
              { destruct Inone as [_ X]. split; [discriminate|exact X]. }
              { intros _. apply Inone. discriminate. }
           ++ intros _. apply Isize. discriminate.
           ++ apply EXP. discriminate.
           ++ discriminate.
           ++ intros ? ? ? X. injection X as <- <- <-. split; [lia|]. split; [lia|]. auto.
Qed.
Lemma com_no_ub e k s : limits e -> inv e s -> com_step e k s <> WUb.
Proof.
  intros [SP PG] I. unfold com_step. destruct (w_cpc s) as [|lk i d|] eqn:Ec; try discriminate.
  pose proof (i_pass _ _ I lk i d Ec) as [Hi _].
  destruct (i <? pages e) eqn:Ei; [|destruct (0 <? d), lk; discriminate].
  replace (2147483647 <? DIFFPAGESIZE * i) with false by (unfold DIFFPAGESIZE; lia).
  destruct (there _); [|discriminate]. repeat match goal with |- context[if ?b then _ else _] => destruct b end; discriminate.
Qed.
