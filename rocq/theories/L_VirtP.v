(** Names of clients and the paths made from them. *)
From Coq Require Import String.
From Verif Require Import Base M_Acl M_Nego M_Conf M_Virt S_Acl S_Virt L_Virt.
Local Open Scope list_scope.

Lemma v4_back b0 b1 b2 b3 : is_byte b0 -> is_byte b1 -> is_byte b2 -> is_byte b3 ->
  decode' (peername (V4 [b0; b1; b2; b3])) = words_of (v4mapped [b0; b1; b2; b3]) /\ lacks 47 (peername (V4 [b0; b1; b2; b3])) = true.
Proof.
  intros H0 H1 H2 H3. destruct (dotted _ _ _ _ H0 H1 H2 H3) as (x & t & E & F & F' & L & L' & V).
  unfold peername, ntop. rewrite E. change (text "::ffff:") with ([58; 58] ++ FFFF). rewrite starts_no by exact F'. split; [|exact L'].
  erewrite decode_1 by (rewrite pieces_one by exact L; reflexivity). cbn [existsb is_empty orb negb andb length Nat.ltb Nat.leb].
  cbn [app FFFF]. erewrite decode_2 by (rewrite !pieces_cons, pieces_f, pieces_one by exact L; reflexivity).
  unfold of_toks. cbn [existsb is_empty orb upto_empty List.rev app flat_map]. rewrite tok_f, V. reflexivity.
Qed.
Lemma v6_back b : length b = 16%nat -> Forall is_byte b -> decode' (peername (V6 b)) = words_of b.
Proof.
  intros Hl Hb. unfold peername, ntop. change (text "::ffff:") with ([58; 58] ++ FFFF). rewrite ntop6_render.
  do 16 (destruct b as [|? b]; [discriminate|]). destruct b; [|discriminate].
  repeat match goal with H : Forall _ (_ :: _) |- _ => apply Forall_cons_iff in H as [? H] end.
  cbn [words_of skipn].
  match goal with |- context [ntop4 [?a; ?b; ?c; ?d]] => destruct (dotted a b c d) as (x & t & E & F & F' & L & L' & V); auto; rewrite E end.
  unfold is_byte in *. apply read_back; auto; lia.
Qed.
Lemma words_inj a b : length a = 16%nat -> length b = 16%nat -> Forall is_byte a -> Forall is_byte b -> words_of a = words_of b -> a = b.
Proof.
  intros La Lb Ha Hb. do 16 (destruct a as [|? a]; [discriminate|]). destruct a; [|discriminate].
  do 16 (destruct b as [|? b]; [discriminate|]). destruct b; [|discriminate].
  repeat match goal with H : Forall _ (_ :: _) |- _ => apply Forall_cons_iff in H as [? H] end. unfold is_byte in *.
  cbn [words_of]. intros Hw. injection Hw as E0 E1 E2 E3 E4 E5 E6 E7. repeat (apply f_equal2; [lia|]). reflexivity.
Qed.
Lemma host_16 a : good_addr a -> length (host a) = 16%nat /\ Forall is_byte (host a).
Proof.
  destruct a as [b|b|]; cbn [good_addr host]; try contradiction; auto. intros [H1 H2]. split.
  - change (length (v4mapped b)) with (12 + length b)%nat. now rewrite H1.
  - change (v4mapped b) with ([0;0;0;0;0;0;0;0;0;0;255;255] ++ b). apply Forall_app. split; [|exact H2]. repeat constructor; unfold is_byte; lia.
Qed.
Lemma name_back a : good_addr a -> decode' (peername a) = words_of (host a).
Proof.
  destruct a as [b|b|]; cbn [good_addr host]; try contradiction; intros [Hl Hb].
  - do 4 (destruct b as [|? b]; [discriminate|]). destruct b; [|discriminate].
    repeat match goal with H : Forall _ (_ :: _) |- _ => apply Forall_cons_iff in H as [? H] end. now apply v4_back.
  - now apply v6_back.
Qed.
Lemma name_inj a b : good_addr a -> good_addr b -> peername a = peername b -> host a = host b.
Proof.
  intros Ha Hb H. destruct (host_16 a Ha), (host_16 b Hb). apply words_inj; auto. rewrite <- !name_back by assumption. now rewrite H.
Qed.

(** no slash in a name *)
Lemma lacks_words tail dotted run : lacks 47 tail = true -> forall ws i, Forall (fun w => 0 <= w < 65536) ws -> lacks 47 (ntop_words i ws run dotted tail) = true.
Proof.
  intros Ht ws. destruct run as [base len]. induction ws as [|w ws IH]; intros i H; cbn [ntop_words].
  - destruct (_ && _); reflexivity.
  - apply Forall_cons_iff in H as [Hw H]. specialize (IH (i + 1) H). destruct (_ && _).
    + rewrite lacks_app, IH. destruct (i =? base); reflexivity.
    + rewrite lacks_app. destruct (hexw w Hw) as (x & t & -> & _ & _ & _ & L & _). destruct (i =? 0), ((i =? 6) && dotted); rewrite ?lacks_app, ?L, ?IH, ?Ht; reflexivity.
Qed.
Lemma words_range b : Forall is_byte b -> Forall (fun w => 0 <= w < 65536) (words_of b).
Proof.
  intros H. remember (length b) as n eqn:En. revert b H En. induction n as [n IH] using lt_wf_ind. intros [|x [|y t]] H En; try constructor.
  - apply Forall_cons_iff in H as [Hx H]. apply Forall_cons_iff in H as [Hy H]. unfold is_byte in *. lia.
  - apply (IH (length t)); [subst n; cbn [length]; lia| |reflexivity]. apply Forall_cons_iff in H as [_ H]. now apply Forall_cons_iff in H as [_ H].
Qed.
Lemma lacks_ntop4 b : length b = 4%nat -> Forall is_byte b -> lacks 47 (ntop4 b) = true.
Proof.
  intros Hl H. do 4 (destruct b as [|? b]; [discriminate|]). destruct b; [|discriminate].
  repeat match goal with H : Forall _ (_ :: _) |- _ => apply Forall_cons_iff in H as [? H] end.
  match goal with |- context [ntop4 [?a; ?b; ?c; ?d]] => destruct (dotted a b c d) as (x & t & E & F & F' & L & L' & V); auto end. now rewrite E.
Qed.
Lemma forall_skip {A} (P : A -> Prop) n l : Forall P l -> Forall P (skipn n l).
Proof. intros H. rewrite <- (firstn_skipn n l) in H. now apply Forall_app in H. Qed.
Lemma lacks_ntop6 b : length b = 16%nat -> Forall is_byte b -> lacks 47 (ntop6 b) = true.
Proof.
  intros Hl H. rewrite ntop6_render. unfold render. destruct (zrun _ _ _ _). apply lacks_words; [|now apply words_range].
  apply lacks_ntop4; [rewrite skipn_length; lia|now apply forall_skip].
Qed.
Lemma lacks_ntop a : good_addr a -> lacks 47 (ntop a) = true.
Proof. destruct a; cbn [good_addr ntop]; try contradiction; intros [? ?]; auto using lacks_ntop4, lacks_ntop6. Qed.
Lemma lacks_spec c s : lacks c s = true <-> ~ In c s.
Proof.
  unfold lacks. rewrite forallb_forall. split.
  - intros H Hi. specialize (H _ Hi). rewrite Z.eqb_refl in H. discriminate.
  - intros H x Hx. apply negb_true_iff, Z.eqb_neq. congruence.
Qed.
Lemma in_skipn {A} (x : A) n l : In x (skipn n l) -> In x l.
Proof. intros H. rewrite <- (firstn_skipn n l). apply in_or_app. now right. Qed.
Lemma name_plain a : good_addr a -> plain_name (peername a).
Proof.
  intros Ha. split; [|].
  - pose proof (lacks_ntop a Ha) as H. apply lacks_spec in H. intros Hi. apply H. unfold peername in Hi. destruct (starts _ _); [now apply in_skipn in Hi|exact Hi].
  - destruct (host_16 a Ha) as [_ Hh]. pose proof (name_back a Ha) as B. pose proof (words_range _ Hh) as R.
    split; intros E; rewrite E in B; rewrite <- B in R; vm_compute in R;
      repeat match goal with H : Forall _ (_ :: _) |- _ => apply Forall_cons_iff in H as [? H] end; intuition congruence.
Qed.

(** ** the path *)
Lemma sprintf_plain s arg : ~ In 37 s -> sprintf s arg = FText s.
Proof.
  induction s as [|c t IH]; intros H; [reflexivity|]. cbn [In] in H. cbn [sprintf].
  assert (Hc : c <> 37) by (intros ->; tauto). rewrite IH by tauto.
  destruct c as [|p|p]; try reflexivity. do 6 (destruct p as [p|p|]; try reflexivity). exfalso. apply Hc. reflexivity.
Qed.
Lemma sprintf_one pre post a : ~ In 37 pre -> ~ In 37 post -> sprintf (pre ++ [37; 115] ++ post) (Some a) = FText (pre ++ a ++ post).
Proof.
  intros H Hp. induction pre as [|c t IH].
  - cbn [app sprintf]. rewrite sprintf_plain by exact Hp. reflexivity.
  - cbn [In] in H. assert (Hc : c <> 37) by (intros ->; tauto). cbn [app sprintf]. cbn [app] in IH. rewrite IH by tauto.
    destruct c as [|p|p]; try reflexivity. do 6 (destruct p as [p|p|]; try reflexivity). exfalso. apply Hc. reflexivity.
Qed.
Lemma lit_path pre post cidr a port : ~ In 37 pre -> ~ In 37 post ->
  set_peername (pre ++ [37; 115] ++ post) VirtIplit cidr (Some (a, port)) = PSet (Some (pre ++ peername a ++ post)) (peername a).
Proof. intros H1 H2. unfold set_peername. rewrite sprintf_one by assumption. reflexivity. Qed.
Lemma cidr_path pre post cidr a port : ~ In 37 pre -> ~ In 37 post -> good_addr a ->
  set_peername (pre ++ [37; 115] ++ post) VirtCidr cidr (Some (a, port)) = PSet (Some (pre ++ netname a port cidr ++ [47] ++ peername a ++ post)) (peername a).
Proof.
  intros H1 H2 Ha. unfold set_peername. rewrite sprintf_one by assumption. destruct a; try contradiction; cbv beta iota; now rewrite <- !app_assoc.
Qed.
Lemma mask_len b n c : length (mask_bytes b n c) = length b.
Proof. revert n c. induction b as [|x t IH]; intros [|n] c; cbn [mask_bytes length]; auto. Qed.
Lemma land_byte x y : is_byte x -> is_byte (Z.land x y).
Proof.
  unfold is_byte. intros H. replace x with (Z.land x (Z.ones 8)) by (rewrite Z.land_ones by lia; apply Z.mod_small; lia).
  rewrite <- Z.land_assoc, (Z.land_comm (Z.ones 8)), Z.land_assoc, Z.land_ones by lia. apply Z.mod_pos_bound. lia.
Qed.
Lemma mask_byte b : Forall is_byte b -> forall n c, Forall is_byte (mask_bytes b n c).
Proof.
  induction 1 as [|x t Hx Ht IH]; intros [|n] c; cbn [mask_bytes]; auto. constructor; auto using land_byte.
Qed.
Lemma net_lacks a port c : good_addr a -> length port = 2%nat -> Forall is_byte port -> lacks 47 (netname a port c) = true.
Proof.
  intros Ha Hl Hp. destruct a as [b|b|]; cbn [good_addr netname] in *; try contradiction; destruct Ha as [H1 H2].
  - apply lacks_ntop4; [rewrite skipn_length, mask_len, app_length; lia|]. apply forall_skip, mask_byte, Forall_app. auto.
  - apply lacks_ntop6; [rewrite skipn_length, mask_len, !app_length; cbn [length]; lia|]. apply forall_skip, mask_byte, Forall_app. split; [exact Hp|].
    apply Forall_app. split; [repeat constructor; unfold is_byte; lia|exact H2].
Qed.
Lemma slash_split a b x y : lacks 47 a = true -> lacks 47 b = true -> a ++ [47] ++ x = b ++ [47] ++ y -> a = b /\ x = y.
Proof.
  revert b. induction a as [|c a IH]; intros [|d b]; cbn [lacks forallb app]; intros Ha Hb H.
  - now injection H as <-.
  - injection H as <- _. discriminate.
  - injection H as -> _. discriminate.
  - injection H as <- H. apply andb_prop in Ha as [_ Ha], Hb as [_ Hb]. destruct (IH b Ha Hb H) as [-> ->]. auto.
Qed.

Lemma lit_apart pre post cidr a b pa pb s n1 n2 : ~ In 37 pre -> ~ In 37 post -> good_addr a -> good_addr b ->
  set_peername (pre ++ [37; 115] ++ post) VirtIplit cidr (Some (a, pa)) = PSet (Some s) n1 ->
  set_peername (pre ++ [37; 115] ++ post) VirtIplit cidr (Some (b, pb)) = PSet (Some s) n2 -> host a = host b.
Proof.
  intros H1 H2 Ha Hb. rewrite !lit_path by assumption. intros E1 E2. injection E1 as E1 _. injection E2 as E2 _. rewrite <- E2 in E1.
  apply app_inv_head, app_inv_tail in E1. now apply name_inj.
Qed.
Definition good_port (p : list Z) : Prop := length p = 2%nat /\ Forall is_byte p.
Lemma cidr_apart pre post cidr a b pa pb s n1 n2 : ~ In 37 pre -> ~ In 37 post -> good_addr a -> good_addr b -> good_port pa -> good_port pb ->
  set_peername (pre ++ [37; 115] ++ post) VirtCidr cidr (Some (a, pa)) = PSet (Some s) n1 ->
  set_peername (pre ++ [37; 115] ++ post) VirtCidr cidr (Some (b, pb)) = PSet (Some s) n2 -> host a = host b.
Proof.
  intros H1 H2 Ha Hb [La Pa] [Lb Pb]. rewrite !cidr_path by assumption. intros E1 E2. injection E1 as E1 _. injection E2 as E2 _. rewrite <- E2 in E1.
  apply app_inv_head in E1. apply slash_split in E1; auto using net_lacks. destruct E1 as [_ E1]. apply app_inv_tail in E1. now apply name_inj.
Qed.

(** ** subnets *)
Lemma subnets_apart n : 0 <= n < 32 -> netname (V4 [10; 0; 0; 0]) [0; 80] n <> netname (V4 [10; 0; 0; 1]) [0; 80] n.
Proof.
  intros H. pose (f n := negb (if list_eq_dec Z.eq_dec (netname (V4 [10; 0; 0; 0]) [0; 80] n) (netname (V4 [10; 0; 0; 1]) [0; 80] n) then true else false)).
  assert (C : f n = true).
  { assert (A : all_below 32 f = true) by (vm_compute; reflexivity). apply (all_below_spec _ _ A). exact H. }
  unfold f in C. destruct (list_eq_dec _ _ _); [discriminate|assumption].
Qed.
Lemma same_subnet n : 0 <= n < 32 -> same_prefix n [10; 0; 0; 0] [10; 0; 0; 1].
Proof.
  intros H i Hi. pose (f i := Bool.eqb (addr_bit [10; 0; 0; 0] i) (addr_bit [10; 0; 0; 1] i)).
  assert (C : f i = true).
  { assert (A : all_below 31 f = true) by (vm_compute; reflexivity). apply (all_below_spec _ _ A). lia. }
  unfold f in C. now apply Bool.eqb_prop in C.
Qed.
