(** Names of clients and the paths made from them: reading a name back. *)
From Coq Require Import String.
From Verif Require Import Base M_Acl M_Nego M_Conf M_Virt S_Acl.
Local Open Scope list_scope.

(** ** finite checks *)
Fixpoint all_from (n : nat) (z : Z) (f : Z -> bool) : bool :=
  match n with O => true | S n => f z && all_from n (z + 1) f end.
Lemma all_from_spec n f : forall z0, all_from n z0 f = true -> forall z, z0 <= z < z0 + Z.of_nat n -> f z = true.
Proof.
  induction n; [lia|]. intros z0. cbn [all_from]. intros H z Hz. apply andb_prop in H as [H1 H2].
  destruct (Z.eq_dec z z0) as [->|]; [exact H1|]. apply (IHn (z0 + 1)); [exact H2|lia].
Qed.
Definition all_below (n : nat) (f : Z -> bool) : bool := all_from n 0 f.
Lemma all_below_spec n f : all_below n f = true -> forall z, 0 <= z < Z.of_nat n -> f z = true.
Proof. intros H z Hz. apply (all_from_spec n f 0 H). lia. Qed.

(** ** pieces between separators *)
Fixpoint pieces (c : Z) (s : list Z) : list (list Z) :=
  match s with
  | [] => [[]]
  | x :: t => if x =? c then [] :: pieces c t
              else match pieces c t with h :: r => (x :: h) :: r | [] => [[x]] end
  end.
Definition lacks (c : Z) (s : list Z) : bool := forallb (fun x => negb (x =? c)) s.
Lemma pieces_ne c s : pieces c s <> [].
Proof. destruct s as [|x t]; cbn; [discriminate|]. destruct (x =? c); [discriminate|]. destruct (pieces c t); discriminate. Qed.
Lemma pieces_app c h t : lacks c h = true -> pieces c (h ++ c :: t) = h :: pieces c t.
Proof.
  induction h as [|x h IH]; cbn [app pieces lacks forallb]; intros H.
  - now rewrite Z.eqb_refl.
  - apply andb_prop in H as [H1 H2]. apply negb_true_iff in H1. rewrite H1, IH by exact H2. reflexivity.
Qed.
Lemma pieces_one c h : lacks c h = true -> pieces c h = [h].
Proof.
  induction h as [|x h IH]; cbn [pieces lacks forallb]; intros H; [reflexivity|].
  apply andb_prop in H as [H1 H2]. apply negb_true_iff in H1. now rewrite H1, IH.
Qed.
Lemma pieces_cons c t : pieces c (c :: t) = [] :: pieces c t.
Proof. cbn [pieces]. now rewrite Z.eqb_refl. Qed.

(** ** values of tokens *)
Definition undigit (c : Z) : Z := if c <? 58 then c - 48 else c - 87.
Definition number (base : Z) (s : list Z) : Z := fold_left (fun a c => a * base + undigit c) s 0.
Definition tok_words (s : list Z) : list Z :=
  match pieces 46 s with
  | [a; b; c; d] => [256 * number 10 a + number 10 b; 256 * number 10 c + number 10 d]
  | _ => [number 16 s]
  end.
Fixpoint upto_empty (l : list (list Z)) : list (list Z) :=
  match l with (x :: t) :: r => (x :: t) :: upto_empty r | _ => [] end.
Definition is_empty (s : list Z) : bool := match s with [] => true | _ => false end.
Definition decode (s : list Z) : list Z :=
  let toks := pieces 58 s in
  if existsb is_empty toks then
    let a := flat_map tok_words (upto_empty toks) in
    let b := flat_map tok_words (List.rev (upto_empty (List.rev toks))) in
    a ++ repeat 0 (8 - length a - length b) ++ b
  else flat_map tok_words toks.
Definition FFFF : list Z := [102; 102; 102; 102; 58].
Definition decode' (s : list Z) : list Z :=
  let toks := pieces 58 s in
  if negb (existsb is_empty toks) && (length toks <? 8)%nat then decode ([58; 58] ++ FFFF ++ s) else decode s.

(** ** hexadecimal words *)
Fixpoint mismatch (p s : list Z) : bool :=
  match p, s with x :: p, y :: s => negb (x =? y) || mismatch p s | _, _ => false end.
Lemma mismatch_starts p s r : mismatch p s = true -> starts p (s ++ r) = false.
Proof.
  revert s. induction p as [|x p IH]; intros [|y s]; cbn [mismatch starts app]; try discriminate.
  destruct (x =? y); cbn [negb orb andb]; [apply IH|reflexivity].
Qed.
Definition hex_check (w : Z) : bool :=
  let s := hex16 w in
  (match tok_words s with [v] => v =? w | _ => false end) && lacks 58 s && lacks 46 s && lacks 47 s && negb (is_empty s) &&
  ((w =? 65535) || mismatch FFFF (s ++ [58])) && negb (starts FFFF s).
Lemma hex_checked : all_below (Z.to_nat 65536) hex_check = true.
Proof. vm_compute. reflexivity. Qed.
Lemma hexw w : 0 <= w < 65536 -> exists x t, hex16 w = x :: t /\ 58 =? x = false /\ lacks 58 (x :: t) = true /\ tok_words (x :: t) = [w] /\
  lacks 47 (x :: t) = true /\ (w = 65535 \/ forall r, starts FFFF (x :: t ++ 58 :: r) = false) /\ starts FFFF (x :: t) = false.
Proof.
  intros H. pose proof (all_below_spec _ _ hex_checked w ltac:(lia)) as C. unfold hex_check in C.
  repeat (apply andb_prop in C as [C ?]). destruct (hex16 w) as [|x t]; [discriminate|]. exists x, t.
  match goal with H : lacks 58 _ = true |- _ => pose proof H as L; unfold lacks in L; cbn [forallb] in L end. apply andb_prop in L as [L _]. apply negb_true_iff in L.
  split; [reflexivity|]. split; [now rewrite Z.eqb_sym|]. split; [assumption|]. split; [|split; [assumption|split; [|now apply negb_true_iff]]].
  - destruct (tok_words (x :: t)) as [|v [|]]; try discriminate. apply Z.eqb_eq in C. now subst.
  - match goal with H : (w =? 65535) || _ = true |- _ => apply orb_prop in H as [H|H] end; [left; now apply Z.eqb_eq|right].
    intros r. replace (x :: t ++ 58 :: r) with (((x :: t) ++ [58]) ++ r) by (cbn [app]; now rewrite <- app_assoc). now apply mismatch_starts.
Qed.

(** ** dotted tails *)
Definition dec_check (w : Z) : bool :=
  let s := dec8 w in (number 10 s =? w) && lacks 58 s && lacks 46 s && lacks 47 s && (match s with x :: _ => negb (102 =? x) && negb (58 =? x) | [] => false end).
Lemma dec_checked : all_below (Z.to_nat 256) dec_check = true.
Proof. vm_compute. reflexivity. Qed.
Lemma decw w : is_byte w -> number 10 (dec8 w) = w /\ lacks 58 (dec8 w) = true /\ lacks 46 (dec8 w) = true /\ lacks 47 (dec8 w) = true /\
  exists x t, dec8 w = x :: t /\ 102 =? x = false /\ 58 =? x = false.
Proof.
  intros H. unfold is_byte in H. pose proof (all_below_spec _ _ dec_checked w ltac:(lia)) as C. unfold dec_check in C.
  repeat (apply andb_prop in C as [C ?]). apply Z.eqb_eq in C. repeat (split; [assumption|]). destruct (dec8 w) as [|x t]; [discriminate|]. cbv iota in *.
  exists x, t. match goal with H : _ && _ = true |- _ => apply andb_prop in H as [Q1 Q2] end. apply negb_true_iff in Q1, Q2. auto.
Qed.
Lemma lacks_app c a b : lacks c (a ++ b) = lacks c a && lacks c b.
Proof. apply forallb_app. Qed.
Lemma dotted b0 b1 b2 b3 : is_byte b0 -> is_byte b1 -> is_byte b2 -> is_byte b3 ->
  exists x t, ntop4 [b0; b1; b2; b3] = x :: t /\ 102 =? x = false /\ 58 =? x = false /\ lacks 58 (x :: t) = true /\ lacks 47 (x :: t) = true /\
    tok_words (x :: t) = [256 * b0 + b1; 256 * b2 + b3].
Proof.
  intros H0 H1 H2 H3. destruct (decw b0 H0) as (N0 & A0 & B0 & C0 & x & t & E & Ex & Ey). destruct (decw b1 H1) as (N1 & A1 & B1 & C1 & _).
  destruct (decw b2 H2) as (N2 & A2 & B2 & C2 & _). destruct (decw b3 H3) as (N3 & A3 & B3 & C3 & _).
  unfold ntop4. rewrite E in *. exists x, (t ++ [46] ++ dec8 b1 ++ [46] ++ dec8 b2 ++ [46] ++ dec8 b3). split; [reflexivity|]. split; [exact Ex|]. split; [exact Ey|].
  change (x :: t ++ [46] ++ dec8 b1 ++ [46] ++ dec8 b2 ++ [46] ++ dec8 b3) with ((x :: t) ++ 46 :: dec8 b1 ++ 46 :: dec8 b2 ++ 46 :: dec8 b3).
  assert (K : forall c h r, lacks c h = true -> negb (46 =? c) = true -> lacks c r = true -> lacks c (h ++ 46 :: r) = true).
  { intros c h r Q1 Q2 Q3. rewrite lacks_app, Q1. cbn [lacks forallb andb]. rewrite Q2. exact Q3. }
  split; [repeat (apply K; [assumption|reflexivity|]); assumption|]. split; [repeat (apply K; [assumption|reflexivity|]); assumption|].
  unfold tok_words.
  rewrite (pieces_app 46 (x :: t)), pieces_app, pieces_app, pieces_one by assumption. now rewrite N0, N1, N2, N3.
Qed.

(** ** the run of zeroes *)
Fixpoint zrun (i : Z) (ws : list bool) (cur best : Z * Z) : Z * Z :=
  let better := if snd best <? snd cur then cur else best in
  match ws with
  | [] => better
  | w :: t => if w then zrun (i + 1) t (if snd cur =? 0 then (i, 1) else (fst cur, snd cur + 1)) best
              else zrun (i + 1) t (0, 0) better
  end.
Lemma zero_run_zrun ws : forall i cur best, zero_run i ws cur best = zrun i (map (fun w => w =? 0) ws) cur best.
Proof. induction ws as [|w t IH]; intros i cur best; cbn [zero_run zrun map]; [reflexivity|]. destruct (w =? 0); apply IH. Qed.
Definition render (ws tail : list Z) : list Z :=
  let '(base, len) := zrun 0 (map (fun w => w =? 0) ws) (0, 0) (0, 0) in
  let run := if len <? 2 then (0, 0) else (base, len) in
  let dotted := (fst run =? 0) && ((snd run =? 6) || ((snd run =? 5) && (nth 5 ws 0 =? 65535))) in
  ntop_words 0 ws run dotted tail.
Lemma ntop6_render b : ntop6 b = render (words_of b) (ntop4 (skipn 12 b)).
Proof. unfold ntop6, render. now rewrite zero_run_zrun. Qed.

(** ** reading a name back *)
Definition unstripped (n : list Z) : list Z := if starts ([58; 58] ++ FFFF) n then skipn 7 n else n.


Lemma starts_cc r : starts ([58; 58] ++ FFFF) (58 :: 58 :: r) = starts FFFF r.
Proof. reflexivity. Qed.
Lemma starts_no x r : 58 =? x = false -> starts ([58; 58] ++ FFFF) (x :: r) = false.
Proof. intros H. cbn [app starts]. now rewrite H. Qed.
Lemma starts_f x r : 102 =? x = false -> starts FFFF (x :: r) = false.
Proof. intros H. unfold FFFF. cbn [starts]. now rewrite H. Qed.
Lemma tok_0 : tok_words [48] = [0]. Proof. reflexivity. Qed.
Lemma tok_f : tok_words [102; 102; 102; 102] = [65535]. Proof. reflexivity. Qed.
Lemma hex_0 : hex16 0 = [48]. Proof. reflexivity. Qed.
Lemma hex_f : hex16 65535 = [102; 102; 102; 102]. Proof. reflexivity. Qed.
Lemma pieces_hex x t r : lacks 58 (x :: t) = true -> pieces 58 (x :: t ++ 58 :: r) = (x :: t) :: pieces 58 r.
Proof. exact (pieces_app 58 (x :: t) r). Qed.
Lemma pieces_0 r : pieces 58 (48 :: 58 :: r) = [48] :: pieces 58 r.
Proof. exact (pieces_app 58 [48] r eq_refl). Qed.
Lemma pieces_f r : pieces 58 (102 :: 102 :: 102 :: 102 :: 58 :: r) = [102; 102; 102; 102] :: pieces 58 r.
Proof. exact (pieces_app 58 [102; 102; 102; 102] r eq_refl). Qed.
Lemma unstrip_1 n : starts ([58; 58] ++ FFFF) n = false -> unstripped n = n.
Proof. unfold unstripped. now intros ->. Qed.
Lemma unstrip_2 r : unstripped (58 :: 58 :: 102 :: 102 :: 102 :: 102 :: 58 :: r) = r.
Proof. reflexivity. Qed.
Lemma decode_1 s toks : pieces 58 s = toks -> decode' s = if negb (existsb is_empty toks) && (length toks <? 8)%nat then decode ([58; 58] ++ FFFF ++ s) else decode s.
Proof. now intros <-. Qed.
Definition of_toks (toks : list (list Z)) : list Z :=
  if existsb is_empty toks then
    let a := flat_map tok_words (upto_empty toks) in
    let b := flat_map tok_words (List.rev (upto_empty (List.rev toks))) in
    a ++ repeat 0 (8 - length a - length b) ++ b
  else flat_map tok_words toks.
Lemma decode_2 s toks : pieces 58 s = toks -> decode s = of_toks toks.
Proof. now intros <-. Qed.

Ltac word_cases w H x t E :=
  let N := fresh "N" in destruct (Z.eq_dec w 0) as [->|N];
  [clear H|apply Z.eqb_neq in N; let F := fresh "F" in let L := fresh "L" in let V := fresh "V" in
    let P := fresh "P" in let S := fresh "S" in
    destruct (hexw w H) as (x & t & E & F & L & V & _ & P & S); clear H].
Ltac toks := repeat first [rewrite pieces_cons | rewrite pieces_0 | rewrite pieces_f | rewrite pieces_hex by assumption]; try (rewrite pieces_one by first [assumption|reflexivity]); reflexivity.
Ltac final := cbn [app FFFF]; erewrite decode_2 by toks; unfold of_toks; cbn [existsb is_empty orb upto_empty List.rev app flat_map];
  rewrite ?tok_0, ?tok_f; repeat match goal with H : tok_words _ = _ |- _ => rewrite H; clear H end; reflexivity.
Ltac back := erewrite decode_1 by toks; cbn [existsb is_empty orb negb andb length Nat.ltb Nat.leb]; final.
Ltac one_case :=
  unfold render; cbn [map]; repeat match goal with H : (_ =? 0) = false |- _ => rewrite H; clear H end; change (0 =? 0) with true;
  match goal with |- context [zrun ?a ?b ?c ?d] =>
    let v := eval vm_compute in (zrun a b c d) in change (zrun a b c d) with v; cbv beta iota; cbn [nth];
    match v with
    | (0, 5) => match goal with E : hex16 ?w = _ |- context [?w =? 65535] => destruct (Z.eqb_spec w 65535); [subst w; rewrite hex_f in E; injection E as <- <-|] end
    | _ => idtac
    end
  end;
  cbv beta iota zeta delta [ntop_words Z.leb Z.ltb Z.eqb Z.compare Pos.compare Pos.compare_cont Z.add Pos.add Pos.succ Z.pos_sub Pos.eqb fst snd andb orb CompOpp];
  repeat match goal with H : hex16 _ = _ :: _ |- _ => rewrite H end; rewrite ?hex_0, ?hex_f; cbn [app]; rewrite ?app_nil_r.

Ltac finish :=
  first [rewrite unstrip_1 by (apply starts_no; first [assumption|reflexivity]); back
        |rewrite unstrip_1 by (rewrite starts_cc; first [assumption|reflexivity|apply starts_f; first [assumption|reflexivity]|match goal with H : _ |- _ => apply H end]); back
        |rewrite unstrip_2; back
        |match goal with E : hex16 ?w = ?x :: ?t, H : ?w = 65535 \/ _ |- context [unstripped (58 :: 58 :: ?x :: ?t ++ _)] =>
           destruct H as [->|H];
           [rewrite hex_f in E; injection E as <- <-; cbn [app]; rewrite unstrip_2; back
           |rewrite unstrip_1 by (rewrite starts_cc; apply H); back] end].

Lemma read_back w0 w1 w2 w3 w4 w5 w6 w7 xd td :
  0 <= w0 < 65536 -> 0 <= w1 < 65536 -> 0 <= w2 < 65536 -> 0 <= w3 < 65536 -> 0 <= w4 < 65536 -> 0 <= w5 < 65536 -> 0 <= w6 < 65536 -> 0 <= w7 < 65536 ->
  102 =? xd = false -> lacks 58 (xd :: td) = true -> tok_words (xd :: td) = [w6; w7] ->
  let ws := [w0; w1; w2; w3; w4; w5; w6; w7] in
  decode' (unstripped (render ws (xd :: td))) = ws.
Proof.
  intros H0 H1 H2 H3 H4 H5 H6 H7 Fd Ld Vd ws. subst ws.
  word_cases w0 H0 x0 t0 E0; word_cases w1 H1 x1 t1 E1; word_cases w2 H2 x2 t2 E2; word_cases w3 H3 x3 t3 E3; word_cases w4 H4 x4 t4 E4;
    word_cases w5 H5 x5 t5 E5; word_cases w6 H6 x6 t6 E6; word_cases w7 H7 x7 t7 E7; one_case.
  all: finish.
Qed.
