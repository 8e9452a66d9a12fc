(** Lemmas about the printed section, the listening sockets, the users, the
    background process and main. *)
From Coq Require Import String.
From Verif Require Import Base M_Const M_Acl M_Nego M_Conf M_Main S_Root S_Acl S_Conf S_Main L_Acl L_Conf L_Main L_Main2.
Open Scope list_scope.
Open Scope Z_scope.

(** * The printed section *)
Lemma lld_dec f : forall n, lld_digits f n = dec f n.
Proof. induction f as [|f IH]; intros n; [reflexivity|]. cbn [lld_digits dec]. rewrite IH. reflexivity. Qed.
Lemma after_digits_all s : Forall (fun c => 48 <= c <= 57) s -> after_digits s = [].
Proof.
  induction 1 as [|c t Hc _ IH]; [reflexivity|]. cbn [after_digits]. replace (isdigit c) with true; [exact IH|].
  symmetry. unfold isdigit. rewrite andb_true_iff, !Z.leb_le. lia.
Qed.
Lemma number_decimal n : 0 <= n < 10 ^ 20 -> number (decimal n) = Some (n, []) /\ number (45 :: decimal n) = Some (- n, []).
Proof.
  intros H. destruct (dec_cons 19 n ltac:(lia)) as (c & t & E & Hc). change (dec 20 n) with (decimal n) in E.
  pose proof (dec_digits 20 n ltac:(lia)) as F. change (dec 20 n) with (decimal n) in F.
  pose proof (digits_decimal n [] H I) as D. rewrite app_nil_r in D.
  assert (Dc : isdigit c = true) by (unfold isdigit; rewrite andb_true_iff, !Z.leb_le; lia).
  assert (M : (match c :: t with 45 :: t => (true, t) | 43 :: t => (false, t) | _ => (false, c :: t) end) = (false, c :: t)).
  { clear - Hc. assert (forall k, c <> Z.neg k) by (intros; lia). destruct c as [|p|p]; [reflexivity| |exfalso; apply (H p); reflexivity].
    do 6 (destruct p as [p|p|]; try reflexivity; try lia). }
  split.
  - unfold number. rewrite E, skip_digit by exact Hc. rewrite M, Dc. rewrite <- E, D, after_digits_all by exact F. reflexivity.
  - unfold number. change (skip_space (45 :: decimal n)) with (45 :: decimal n). cbv iota beta zeta. rewrite E, Dc.
    rewrite <- E, D, after_digits_all by exact F. reflexivity.
Qed.
Lemma as_int64_lld n : -9223372036854775808 <= n < 9223372036854775808 -> as_int64 (lld n) = Some n.
Proof.
  intros H. unfold as_int64, lld. 
  destruct (Z.ltb_spec n 0).
  - rewrite lld_dec. change (dec 20 (- n)) with (decimal (- n)). rewrite (proj2 (number_decimal (- n) ltac:(lia))). f_equal. lia.
  - rewrite lld_dec. change (dec 20 n) with (decimal n). rewrite (proj1 (number_decimal n ltac:(lia))). f_equal. lia.
Qed.

(** what the command line does not touch *)
Definition untouched (s : server) : Prop :=
  s_name s = [] /\ s_virt s = VirtIplit /\ s_cidr s = 0 /\ s_prerun s = None /\ s_postrun s = None /\ s_log s = None
  /\ s_cow s = None /\ s_listen s = None /\ 0 <= s_flags s < 8 /\ s_auth s <> None /\ is_u64 (s_size s).
Lemma lor8 f g : 0 <= f < 8 -> g = 1 \/ g = 2 \/ g = 4 -> 0 <= Z.lor f g < 8.
Proof.
  intros Hf Hg. assert (f = 0 \/ f = 1 \/ f = 2 \/ f = 3 \/ f = 4 \/ f = 5 \/ f = 6 \/ f = 7) as F by lia.
  repeat (destruct F as [-> | F]); try subst f; repeat (destruct Hg as [-> | Hg]); try subst g; vm_compute; split; congruence.
Qed.
Lemma size_arg_u64 s n : size_arg s = Some n -> is_u64 n.
Proof.
  unfold size_arg. destruct s; [discriminate|].
  match goal with |- match ?m with _ => _ end = _ -> _ => destruct m end; [|discriminate].
  intros K. injection K as <-. apply u64_range.
Qed.
Lemma do_opt_untouched c a c' : do_opt c a = ClGo c' -> untouched (c_serve c) -> untouched (c_serve c').
Proof.
  intros K (E1 & E2 & E3 & E4 & E5 & E6 & E7 & E8 & E9 & E10 & E11). unfold is_u64 in E11. destruct a as [s|o s].
  - cbn [do_opt] in K. destruct (c_words c =? 0).
    { destruct (addr_port s) as [[a p]|]; [|discriminate K]. injection K as <-. unfold untouched. cbn. repeat apply conj; auto; lia. }
    destruct (c_words c =? 1).
    { assert (X : c' = on_serve (set_export s) (set_words (c_words c + 1) c)).
      { destruct s as [|x t]; [discriminate K|]. revert K.
        destruct x as [|x|x]; try discriminate; repeat (destruct x as [x|x|]; try discriminate). intros K. injection K as <-. reflexivity. }
      rewrite X. unfold untouched. cbn. repeat apply conj; auto; lia. }
    destruct (c_words c =? 2).
    { destruct (size_arg s) as [n|] eqn:Es; [|discriminate K]. injection K as <-. unfold untouched. cbn.
      pose proof (size_arg_u64 _ _ Es) as U. unfold is_u64 in U. repeat apply conj; auto; lia. }
    injection K as <-. unfold untouched. cbn. repeat apply conj; auto; lia.
  - assert (L1 := lor8 (s_flags (c_serve c)) 1 E9 ltac:(auto)). assert (L2 := lor8 (s_flags (c_serve c)) 2 E9 ltac:(auto)).
    assert (L4 := lor8 (s_flags (c_serve c)) 4 E9 ltac:(auto)).
    one_opt K; unfold untouched; cbn [c_serve on_serve add_flag set_auth set_max set_out set_pid set_modes set_file
      s_name s_virt s_cidr s_prerun s_postrun s_log s_cow s_listen s_flags s_auth s_size];
      repeat apply conj; auto; try discriminate; try lia; try apply L1; try apply L2; try apply L4.
Qed.
Lemma opts_untouched l : forall c c', opts l c = ClGo c' -> untouched (c_serve c) -> untouched (c_serve c').
Proof.
  induction l as [|a t IH]; intros c c' K U; [cbn in K; injection K as <-; exact U|].
  destruct (opts_cons _ _ _ _ K) as (c1 & K1 & K2). exact (IH _ _ K2 (do_opt_untouched _ _ _ K1 U)).
Qed.
Lemma untouched0 : untouched (c_serve cmd0).
Proof. unfold untouched. cbn. unfold is_u64. repeat apply conj; try reflexivity; try lia; discriminate. Qed.

Lemma u64_i64 n : is_u64 n -> u64 (i64 n) = n /\ -9223372036854775808 <= i64 n < 9223372036854775808.
Proof.
  unfold is_u64, u64, i64. intros H.
  pose proof (Z.mod_pos_bound (n + 9223372036854775808) 18446744073709551616 ltac:(lia)) as B.
  split; [|lia].
  rewrite Zminus_mod_idemp_l. replace (n + 9223372036854775808 - 9223372036854775808) with n by lia.
  apply Z.mod_small. lia.
Qed.

Lemma dump_parse h s e a : untouched s -> s_export s = Some e -> s_auth s = Some a ->
  parse_export (mkG h (dump_section s)) =
  Some (mkS h (Some e) (Some a) (s_size s) VirtIplit 0 None None None None (Some (text "(null)")) 0 (s_flags s)).
Proof.
  intros (E1 & E2 & E3 & E4 & E5 & E6 & E7 & E8 & E9 & E10 & E11) Ee Ea.
  destruct (u64_i64 _ E11) as (U & R). pose proof (as_int64_lld _ R) as A.
  unfold dump_section. rewrite Ee, Ea, E8. cbn [pr_str].
  set (v := lld (i64 (s_size s))) in *. clearbody v.
  assert (F : s_flags s = 0 \/ s_flags s = 1 \/ s_flags s = 2 \/ s_flags s = 3 \/ s_flags s = 4 \/ s_flags s = 5
              \/ s_flags s = 6 \/ s_flags s = 7) by lia.
  set (nul := text "(null)"). clearbody nul.
  generalize dependent (s_size s). intros sz. intros.
  generalize dependent (i64 sz). intros n. intros. clear E9.
  generalize dependent (s_flags s). intros fl. intros.
  unfold parse_export. cbn [g_keys g_name].
  assert (RP : read_params lp
     ([("exportname"%string, e); ("listenaddr"%string, nul)]
      ++ (if flag fl F_READONLY then [("readonly"%string, text "true")] else [])
      ++ (if flag fl F_MULTIFILE then [("multifile"%string, text "true")] else [])
      ++ (if flag fl F_TREEFILES then [("treefiles"%string, text "true")] else [])
      ++ (if flag fl F_COPYONWRITE then [("copyonwrite"%string, text "true")] else [])
      ++ (if sz =? 0 then [] else [("filesize"%string, v)]) ++ [("authfile"%string, a)]) draft0
     = Some (mkDr (Some e) (Some a) sz None None None None None (Some nul) 0 fl)).
  { assert (ST : forall d, store_param TSize v d = Some (mkDr (d_export d) (d_auth d) (u64 n) (d_virt d) (d_prerun d) (d_postrun d) (d_log d) (d_cow d) (d_listen d) (d_max d) (d_flags d))).
    { intros d. cbn [store_param]. rewrite A. reflexivity. }
    destruct (Z.eqb_spec sz 0) as [Ez|Ez]; repeat (destruct F as [F|F]); rewrite F in *; unfold lp;
    lazy - [as_int64 u64]; rewrite ?A; lazy - [u64]; rewrite ?U, ?Ez; reflexivity. }
  rewrite RP. cbn [d_virt virt_of d_flags d_export d_auth d_size d_prerun d_postrun d_log d_cow d_listen d_max]. 
  replace (contradictory fl) with false; [reflexivity|]. symmetry.
  repeat (destruct F as [F|F]); rewrite F; reflexivity.
Qed.

(** * Listening *)
Lemma is_sep_iff c : is_sep c = true <-> sep c.
Proof. unfold is_sep, sep. rewrite !orb_true_iff, !Z.eqb_eq. tauto. Qed.
Lemma split_set_clean w s : Forall (fun c => ~ sep c) w ->
  split_set (w ++ s) = match split_set s with [] => [w] | x :: r => (w ++ x) :: r end.
Proof.
  induction 1 as [|c w Hc _ IH].
  - cbn [app]. destruct (split_set s) eqn:E; [|reflexivity]. destruct s as [|c t]; [discriminate E|].
    cbn [split_set] in E. destruct (is_sep c); [discriminate E|]. destruct (split_set t); discriminate E.
  - cbn [app split_set]. replace (is_sep c) with false by (destruct (is_sep c) eqn:E; [apply is_sep_iff in E; contradiction|reflexivity]).
    rewrite IH. destruct (split_set s); reflexivity.
Qed.
Definition filled (w : list Z) : bool := match w with [] => false | _ => true end.
Lemma filled_ne w : w <> [] -> filled w = true.
Proof. destruct w; [congruence|reflexivity]. Qed.
Lemma listed_split s l : listed s l -> filter filled (split_set s) = l.
Proof.
  induction 1 as [|c s l Hc _ IH|w Hn Hw|w c s l Hn Hw Hc _ IH].
  - reflexivity.
  - cbn [split_set]. rewrite (proj2 (is_sep_iff c) Hc). exact IH.
  - replace w with (w ++ []) at 1 by apply app_nil_r. rewrite split_set_clean by exact Hw. cbn [split_set]. rewrite app_nil_r.
    cbn [filter]. rewrite filled_ne by exact Hn. reflexivity.
  - rewrite split_set_clean by exact Hw. cbn [split_set]. rewrite (proj2 (is_sep_iff c) Hc).
    cbn [filter]. rewrite app_nil_r, filled_ne by exact Hn. rewrite IH. reflexivity.
Qed.
Lemma tcp_app a b : tcp (a ++ b) = tcp a ++ tcp b.
Proof. unfold tcp. apply flat_map_app. Qed.

Section Listen.
Context (gai : list Z -> option (list (list Z))) (k : nat -> sres).
Definition answers (n : list Z) : list (list Z) := match gai n with Some l => l | None => [] end.

Lemma entries_all ais : forall s s', open_entries k ais s = inl s' -> (forall i, k i <> BindInUse) ->
  l_socks s' = l_socks s ++ map LTcp ais /\ l_lost s' = l_lost s.
Proof.
  induction ais as [|a t IH]; intros s s' K N; cbn [open_entries] in K.
  - injection K as ->. rewrite app_nil_r. split; reflexivity.
  - destruct (k (l_tick s)) eqn:Ek; try discriminate K; [exfalso; exact (N _ Ek)|].
    destruct (IH _ _ K N) as (A & B). cbn in A, B. rewrite A, B, <- app_assoc. split; reflexivity.
Qed.
Lemma entries_each ais : forall s s', open_entries k ais s = inl s' ->
  (exists l, l_socks s' = l_socks s ++ map LTcp l /\ incl l ais /\ (forall a, In a ais -> In a l \/ exists i, k i = BindInUse)
     /\ zlen l + l_lost s' = zlen ais + l_lost s)
  /\ (l_socks s = [] -> ais <> [] -> l_socks s' <> []).
Proof.
  induction ais as [|a t IH]; intros s s' K; cbn [open_entries] in K.
  - injection K as ->. split; [|congruence]. exists []. rewrite app_nil_r. repeat apply conj; auto; intros x [].
  - destruct (k (l_tick s)) eqn:Ek; try discriminate K.
    + destruct (l_socks s) as [|x r] eqn:El; [discriminate K|]. destruct (IH _ _ K) as ((l & A & B & C & D) & _).
      cbn in A, D. split; [|congruence]. exists l. rewrite A. unfold zlen in *. cbn [length]. repeat apply conj; auto; [| |lia].
      * intros y Hy. right. apply B. exact Hy.
      * intros y [->|Hy]; [right; exists (l_tick s); exact Ek|apply C; exact Hy].
    + destruct (IH _ _ K) as ((l & A & B & C & D) & _). cbn in A, D. split.
      * exists (a :: l). rewrite A, <- app_assoc. unfold zlen in *. cbn [length]. repeat apply conj; auto; [| |lia].
        -- intros y [->|Hy]; [left; reflexivity|right; apply B; exact Hy].
        -- intros y [->|Hy]; [left; left; reflexivity|]. destruct (C _ Hy); [left; right; assumption|right; assumption].
      * intros Es _. rewrite A, Es. discriminate.
Qed.
Lemma names_all names : forall s s', open_names gai k names s = inl s' ->
  (forall i, k i <> BindInUse) ->
  l_socks s' = l_socks s ++ map LTcp (flat_map answers (filter filled names)) /\ l_lost s' = l_lost s.
Proof.
  induction names as [|n t IH]; intros s s' K N; cbn [open_names] in K.
  - injection K as ->. cbn. rewrite app_nil_r. split; reflexivity.
  - destruct n as [|x r].
    + cbn [filter filled]. exact (IH _ _ K N).
    + cbn [filter filled flat_map]. set (n := x :: r) in *. unfold answers at 1. destruct (gai n) as [ais|] eqn:Eg.
      * destruct (open_entries k ais s) as [s1|s1] eqn:Ee; [|discriminate K].
        destruct (entries_all _ _ _ Ee N) as (A & B). destruct (IH _ _ K N) as (C & D).
        rewrite C, A, D, B, map_app, <- app_assoc. split; reflexivity.
      * cbn [app].
        assert (Q : open_names gai k t s = inl s').
        { destruct t as [|y t']; [destruct (l_socks s); [discriminate K|exact K]|exact K]. }
        exact (IH _ _ Q N).
Qed.
Lemma names_each names : forall s s', open_names gai k names s = inl s' ->
  exists l, l_socks s' = l_socks s ++ map LTcp l /\ incl l (flat_map answers (filter filled names))
    /\ (forall a, In a (flat_map answers (filter filled names)) -> In a l \/ exists i, k i = BindInUse)
    /\ zlen l + l_lost s' = zlen (flat_map answers (filter filled names)) + l_lost s.
Proof.
  induction names as [|n t IH]; intros s s' K; cbn [open_names] in K.
  - injection K as ->. exists []. cbn. rewrite app_nil_r. repeat apply conj; auto; intros x [].
  - destruct n as [|x r].
    + cbn [filter filled]. exact (IH _ _ K).
    + cbn [filter filled flat_map]. set (n := x :: r) in *. unfold answers at 1 3 5. destruct (gai n) as [ais|] eqn:Eg.
      * destruct (open_entries k ais s) as [s1|s1] eqn:Ee; [|discriminate K].
        destruct (entries_each _ _ _ Ee) as ((l1 & A & B & C & D) & _). destruct (IH _ _ K) as (l2 & A2 & B2 & C2 & D2).
        exists (l1 ++ l2). rewrite A2, A, map_app, <- app_assoc. unfold zlen in *. rewrite !app_length.
        repeat apply conj; auto; [| |lia].
        -- apply incl_app; [apply incl_appl; exact B|apply incl_appr; exact B2].
        -- intros a Ha. apply in_app_or in Ha. destruct Ha as [Ha|Ha].
           ++ destruct (C _ Ha); [left; apply in_or_app; left; assumption|right; assumption].
           ++ destruct (C2 _ Ha); [left; apply in_or_app; right; assumption|right; assumption].
      * cbn [app].
        assert (Q : open_names gai k t s = inl s').
        { destruct t as [|y t']; [destruct (l_socks s); [discriminate K|exact K]|exact K]. }
        exact (IH _ _ Q).
Qed.
Lemma names_some names : (forall n l, gai n = Some l -> l <> []) -> last names [] <> [] ->
  forall s s', open_names gai k names s = inl s' -> l_socks s' <> [].
Proof.
  intros G L s s' K.
  destruct (l_socks s) as [|x0 r0] eqn:Es.
  2: { destruct (names_each _ _ _ K) as (l & A & _). rewrite A, Es. discriminate. }
  revert s s' K Es. induction names as [|n t IH]; intros s s' K Es; [cbn in L; congruence|].
  cbn [open_names] in K. destruct n as [|x r].
  - destruct t as [|y t']; [cbn in L; congruence|]. exact (IH L _ _ K Es).
  - destruct (gai (x :: r)) as [ais|] eqn:Eg.
    + destruct (open_entries k ais s) as [s1|s1] eqn:Ee; [|discriminate K].
      destruct (entries_each _ _ _ Ee) as (_ & N). specialize (N Es (G _ _ Eg)).
      destruct (names_each _ _ _ K) as (l & A & _). rewrite A. destruct (l_socks s1); [congruence|discriminate].
    + destruct t as [|y t']; [rewrite Es in K; discriminate K|]. exact (IH L _ _ K Es).
Qed.
End Listen.

(** the last name of a list that does not end in a separator *)
Lemma last_split s : s <> [] -> ~ sep (last s 0) -> last (split_set s) [] <> [].
Proof.
  induction s as [|c t IH]; intros Hn Hl; [congruence|]. cbn [split_set].
  destruct t as [|d t'].
  - cbn [last] in Hl. cbn [split_set]. destruct (is_sep c) eqn:E; [apply is_sep_iff in E; contradiction|]. cbn. discriminate.
  - change (last (c :: d :: t') 0) with (last (d :: t') 0) in Hl. specialize (IH ltac:(discriminate) Hl).
    destruct (is_sep c).
    + destruct (split_set (d :: t')) as [|x r] eqn:E; [cbn in IH; congruence|]. exact IH.
    + destruct (split_set (d :: t')) as [|x [|y r]] eqn:E; [cbn in IH; congruence|cbn; discriminate|exact IH].
Qed.
