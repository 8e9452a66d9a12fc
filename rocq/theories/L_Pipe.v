(** Lemmas about filling pipes. *)
From Verif Require Import Base M_Pipe S_Pipe.
Local Open Scope list_scope.

Lemma pages_next a len : 0 <= a -> 0 < len ->
  let p := Z.min len (PAGE - a mod PAGE) in 0 < p /\ pages a len = 1 + pages (a + p) (len - p).
Proof.
  intros Ha Hl. unfold PAGE. pose proof (Z.mod_pos_bound a 4096 ltac:(lia)) as B. pose proof (Z.div_mod a 4096 ltac:(lia)) as D. cbn zeta. split; [lia|].
  unfold pages. destruct (Z.leb_spec len 0) as [|_]; [lia|]. destruct (Z.leb_spec (len - Z.min len (4096 - a mod 4096)) 0) as [H|H].
  - replace ((a + len - 1) / 4096) with (a / 4096); [lia|]. apply Z.div_unique with (r := a mod 4096 + len - 1); lia.
  - rewrite Z.min_r in * by lia. replace (a + (4096 - a mod 4096)) with ((a / 4096 + 1) * 4096) by lia.
    rewrite Z.div_mul by lia. replace ((a / 4096 + 1) * 4096 + (len - (4096 - a mod 4096)) - 1) with (a + len - 1) by lia. lia.
Qed.
Lemma pages_nonneg a len : 0 <= a -> 0 <= pages a len.
Proof. intros Ha. unfold pages. destruct (Z.leb_spec len 0); [lia|]. pose proof (Z.div_le_mono a (a + len - 1) 4096 ltac:(lia) ltac:(lia)). lia. Qed.
Lemma fill_file_spec free : forall a len, 0 <= a ->
  fill_file free a len = if pages a len <=? Z.of_nat free then Done (free - Z.to_nat (pages a len)) else Blocks.
Proof.
  induction free as [|f IH]; intros a len Ha; cbn [fill_file]; destruct (Z.leb_spec len 0) as [Hl|Hl].
  - replace (pages a len) with 0 by (unfold pages; destruct (Z.leb_spec len 0); lia). reflexivity.
  - destruct (pages_next a len Ha Hl) as [P E]. pose proof (pages_nonneg (a + Z.min len (PAGE - a mod PAGE)) (len - Z.min len (PAGE - a mod PAGE)) ltac:(lia)). destruct (Z.leb_spec (pages a len) (Z.of_nat 0)); [lia|reflexivity].
  - replace (pages a len) with 0 by (unfold pages; destruct (Z.leb_spec len 0); lia). reflexivity.
  - destruct (pages_next a len Ha Hl) as [P E]. cbn zeta in *. set (p := Z.min len (PAGE - a mod PAGE)) in *. rewrite IH by lia. pose proof (pages_nonneg (a + p) (len - p) ltac:(lia)) as N.
    rewrite E. destruct (Z.leb_spec (pages (a + p) (len - p)) (Z.of_nat f)); destruct (Z.leb_spec (1 + pages (a + p) (len - p)) (Z.of_nat (S f))); try lia; [|reflexivity]. f_equal. lia.
Qed.
Lemma read_exact a len : 0 <= a -> (read_fill a len = Blocks <-> 256 < pages a len).
Proof. intros Ha. unfold read_fill. rewrite fill_file_spec by exact Ha. change (Z.of_nat SLOTS) with 256. destruct (Z.leb_spec (pages a len) 256); split; intros; try lia; try discriminate; reflexivity. Qed.
Lemma read_done a len : 0 <= a -> read_fill a len <> Waits.
Proof. intros Ha. unfold read_fill. rewrite fill_file_spec by exact Ha. destruct (_ <=? _); discriminate. Qed.
Lemma pages_bound a len : 0 <= a -> len <= 1048576 -> a mod 4096 + len <= 1048576 \/ len <= 1048576 - 4095 -> pages a len <= 256.
Proof.
  intros Ha Hl H. unfold pages. destruct (Z.leb_spec len 0); [lia|].
  pose proof (Z.mod_pos_bound a 4096 ltac:(lia)) as B. pose proof (Z.div_mod a 4096 ltac:(lia)) as D.
  assert ((a + len - 1) / 4096 < a / 4096 + 256); [|lia]. apply Z.div_lt_upper_bound; lia.
Qed.
Lemma read_fits a len : 0 <= a -> len <= 1048576 -> a mod 4096 = 0 \/ len <= 1048576 - 4095 -> exists n, read_fill a len = Done n.
Proof.
  intros Ha Hl H. unfold read_fill. rewrite fill_file_spec by exact Ha. change (Z.of_nat SLOTS) with 256.
  pose proof (pages_bound a len Ha Hl ltac:(lia)). destruct (Z.leb_spec (pages a len) 256); [eauto|lia].
Qed.
Lemma read_full a : 0 <= a -> a mod 4096 <> 0 -> read_fill a 1048576 = Blocks.
Proof.
  intros Ha H. apply read_exact; [exact Ha|]. unfold pages. replace (1048576 <=? 0) with false by reflexivity.
  pose proof (Z.mod_pos_bound a 4096 ltac:(lia)) as B. pose proof (Z.div_mod a 4096 ltac:(lia)) as D.
  replace ((a + 1048576 - 1) / 4096) with (a / 4096 + 256); [lia|]. apply Z.div_unique with (r := a mod 4096 - 1); lia.
Qed.

Lemma sock_fits m free : forall len ps, 0 < m -> Forall (fun p => m <= p) ps -> len <= Z.of_nat free * m -> fill_sock free len ps <> Blocks.
Proof.
  induction free as [|f IH]; intros len ps Hm F H; cbn [fill_sock]; destruct (Z.leb_spec len 0) as [Hl|Hl]; try discriminate; [lia|].
  destruct ps as [|p ps]; [discriminate|]. inversion F; subst. apply IH; auto. destruct (Z.min_spec len p) as [[? ->]|[? ->]]; lia.
Qed.
Lemma sock_blocks m free : forall len ps, 0 < m -> Forall (fun p => 0 < p <= m) ps -> (free <= length ps)%nat -> Z.of_nat free * m < len -> fill_sock free len ps = Blocks.
Proof.
  induction free as [|f IH]; intros len ps Hm F L H; cbn [fill_sock]; (destruct (Z.leb_spec len 0) as [Hl|Hl]; [lia|]); [reflexivity|].
  destruct ps as [|p ps]; [cbn in L; lia|]. inversion F; subst. cbn in L. apply IH; auto; [lia|]. destruct (Z.min_spec len p) as [[? ->]|[? ->]]; lia.
Qed.
