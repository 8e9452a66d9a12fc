(** Invariant of waitfile exports. *)
From Verif Require Import Base M_Const M_Wait S_Wait.

Lemma last_write_app l rq r b : last_write (l ++ [(rq, r)]) b =
  match r with WOk _ => match stores rq b with Some x => Some x | None => last_write l b end | WErr => last_write l b end.
Proof.
  induction l as [|[rq' r'] l IH]; cbn [app last_write].
  - destruct r; [destruct (stores rq b)|]; reflexivity.
  - rewrite IH. destruct r; [destruct (stores rq b)|]; reflexivity.
Qed.
Lemma page_writes_cons rq l : page_writes (rq :: l) = page_writes l + match rq with WWrite _ len _ _ => len / 4096 | _ => 0 end.
Proof. reflexivity. Qed.
Lemma page_writes_pos e l : Forall (whole e) l -> 0 <= page_writes l.
Proof.
  induction 1 as [|rq l H HL IH]; [cbn; lia|]. rewrite page_writes_cons.
  destruct rq; cbn [whole] in H; lia.
Qed.

(** bytes a client may count on, a write in progress included *)
Definition cur (r : rpc) (log : list (wreq * wres)) (b : Z) : option Z :=
  match r with
  | RMapW (WWrite a0 _ d0 _) a _ _ _ => if (a0 <=? b) && (b <? a) then Some (d0 (b - a0)) else last_write log b
  | _ => last_write log b
  end.
Definition left_over (r : rpc) : Z := match r with RMapW _ _ len _ _ => len / 4096 | _ => 0 end.
Definition rpc_ok (e : wenv) (s : wst) : Prop :=
  match w_rpc s with
  | RIdle => True
  | RMapR rq a len acc => exists a0 len0, rq = WRead a0 len0 /\ whole e rq /\ a0 <= a /\ 0 < len /\ a + len = a0 + len0 /\
      acc = expected e (w_log s) a0 (a - a0)
  | RMapW rq a len d fua => exists a0 len0 d0, rq = WWrite a0 len0 d0 fua /\ whole e rq /\ a0 <= a /\ 0 < len /\ a + len = a0 + len0 /\
      a mod 4096 = 0 /\ (forall i, d i = d0 (i + (a - a0))) /\ w_export s = false
  | RRaw rq => whole e rq /\ w_export s = true
  end.

Record inv (e : wenv) (s : wst) : Prop := mkInv {
  i_in : Forall (whole e) (w_in s);
  i_rpc : rpc_ok e s;
  i_budget : 0 <= w_dlen s /\ w_dlen s + page_writes (w_in s) + left_over (w_rpc s) <= 1048576;
  i_pos : w_dpos s = w_dlen s * 4096 /\ w_dsize s = w_dlen s * 4096;
  i_slot : forall p, w_map s p <> NOPAGE -> 0 <= w_map s p < w_dlen s /\ 0 <= p < pages e;
  i_inj : forall p q, w_map s p <> NOPAGE -> w_map s p = w_map s q -> p = q;
  i_map : forall b, w_map s (b / 4096) <> NOPAGE ->
    cur (w_rpc s) (w_log s) b = Some (w_diff s (w_map s (b / 4096) * 4096 + b mod 4096));
  i_none : forall b, w_map s (b / 4096) = NOPAGE ->
    match cur (w_rpc s) (w_log s) b with
    | Some x => w_cpc s <> CWait /\ w_file s b = x /\ b < w_fsize s
    | None => w_cpc s <> CWait -> w_file s b = found e b
    end;
  i_size : w_cpc s <> CWait -> we_f0size e <= w_fsize s;
  i_exp : w_export s = true <-> w_cpc s = CDone;
  i_done : w_cpc s = CDone -> forall p, w_map s p = NOPAGE;
  i_pass : forall lk i d, w_cpc s = CPass lk i d -> 0 <= i /\ 0 <= d /\ (lk = true -> d = 0 -> forall p, p < i -> w_map s p = NOPAGE);
  i_reads : reads_right e (w_log s);
  i_writes : writes_ok (w_log s) }.

Lemma reads_app e l rq r : reads_right e l ->
  (forall a len data, rq = WRead a len -> r = WOk data -> data = expected e l a len) -> reads_right e (l ++ [(rq, r)]).
Proof.
  intros H K l1 a len data l2 E.
  destruct (rev l2) as [|y t] eqn:R.
  - assert (l2 = []) by (rewrite <- (rev_involutive l2), R; reflexivity). subst l2.
    apply app_inj_tail in E. destruct E as [-> E]. injection E as -> ->. eauto.
  - assert (E2 : l2 = rev t ++ [y]) by (rewrite <- (rev_involutive l2), R; reflexivity). subst l2.
    change (l ++ [(rq, r)] = l1 ++ ((WRead a len, WOk data) :: rev t) ++ [y]) in E. rewrite app_assoc in E.
    apply app_inj_tail in E. destruct E as [E _]. eapply H; eauto.
Qed.
Lemma writes_app l rq r : writes_ok l -> (forall a len d fua, rq = WWrite a len d fua -> r = WOk []) -> writes_ok (l ++ [(rq, r)]).
Proof.
  intros H K a len d fua r' I. apply in_app_or in I. destruct I as [I|[I|[]]]; [eauto|].
  injection I as -> ->. eauto.
Qed.

Lemma there_spec x : there x = true <-> x <> NOPAGE.
Proof. unfold there. destruct (Z.eqb_spec x NOPAGE); cbn [negb]; split; congruence. Qed.
Lemma at_slot_small x : 0 <= x <= 1048575 -> at_slot x = x * 4096.
Proof. intros H. unfold at_slot, u32, DIFFPAGESIZE. apply Z.mod_small. lia. Qed.

Lemma expected_app e l a n m : 0 <= n -> 0 <= m ->
  expected e l a (n + m) = expected e l a n ++ expected e l (a + n) m.
Proof.
  intros H K. unfold expected. rewrite Z2Nat.inj_add by lia. rewrite seq_app, map_app. f_equal.
  rewrite <- (Nat.add_0_l (Z.to_nat n)) at 1. generalize (Z.to_nat m) as k. intros k.
  rewrite Nat.add_0_l. assert (G : forall k s, map (fun i => latest e l (a + Z.of_nat i)) (seq (Z.to_nat n + s) k) =
    map (fun i => latest e l (a + n + Z.of_nat i)) (seq s k)).
  { induction k0 as [|k0 IH]; intros s; cbn [seq map]; [reflexivity|]. f_equal; [f_equal; lia|].
    rewrite <- IH. f_equal. f_equal. lia. }
  rewrite <- (G k O). f_equal. f_equal. lia.
Qed.
Lemma slice_expected e l f o a n : (forall i, 0 <= i < n -> f (o + i) = latest e l (a + i)) -> slice f o n = expected e l a n.
Proof.
  intros H. unfold slice, expected. apply map_ext_in. intros i I. apply in_seq in I. apply H. lia.
Qed.

Lemma start_inv e reqs : modest e reqs -> inv e (wstart reqs).
Proof.
  intros [S [P [B F]]]. split; cbn [wstart w_in w_rpc w_map w_dlen w_diff w_dsize w_dpos w_file w_fsize w_export w_cpc w_log left_over cur last_write]; auto.
  1: exact I.
  1: lia.
  all: try (intros; congruence). all: try (intros; discriminate). all: try (split; intros; congruence).
  - intros l1 a len data l2 E. destruct l1; discriminate.
  - intros a len d fua r [].
Qed.
