(** Lemmas about the client model. *)
From Coq Require Import String.
From Verif Require Import Base M_Const M_Io M_Nego M_Client S_Client L_Wire L_Io.
Local Open Scope list_scope.
Local Open Scope k_scope.

Lemma end_bind {A B} (m : K A) (f : A -> K B) s :
  match m s with
  | KRet a s1 => kbind m f s = f a s1
  | KFail s1 => kbind m f s = KFail s1
  | KExit0 s1 => kbind m f s = KExit0 s1
  | KUb s1 => kbind m f s = KUb s1
  | KMore s1 => kbind m f s = KMore s1
  end.
Proof. unfold kbind. destruct (m s); reflexivity. Qed.

(** ** what is sent *)
Definition grows (s s' : kst) : Prop :=
  (k_sec s = true -> k_sec s' = true) /\
  exists ext, k_out s' = k_out s ++ ext /\ (k_sec s = true -> Forall (fun p : bool * list Z => fst p = true) ext).
Lemma grows_refl s : grows s s.
Proof. split; [auto|]. exists []. rewrite app_nil_r. auto. Qed.
Lemma grows_trans a b c : grows a b -> grows b c -> grows a c.
Proof.
  intros [H1 (x & Hx & F1)] [H2 (y & Hy & F2)]. split; [auto|]. exists (x ++ y). split; [now rewrite Hy, Hx, app_assoc|].
  intros Hs. apply Forall_app. auto.
Qed.
Definition gr {A} (m : K A) : Prop := forall s, grows s (end_of (m s)).
Lemma gr_bind {A B} (m : K A) (f : A -> K B) : gr m -> (forall a, gr (f a)) -> gr (kbind m f).
Proof.
  intros Hm Hf s. specialize (Hm s). generalize (end_bind m f s). destruct (m s); intros ->; cbn [end_of] in *; auto.
  eapply grows_trans; [exact Hm|apply Hf].
Qed.
Lemma gr_ret {A} (a : A) : gr (kret a).
Proof. intros s. apply grows_refl. Qed.
Lemma gr_fail {A} : gr (@kerr A).
Proof. intros s. apply grows_refl. Qed.
Lemma gr_ub {A} : gr (@KUb A). Proof. intros s. apply grows_refl. Qed.
Lemma gr_more {A} : gr (@KMore A). Proof. intros s. apply grows_refl. Qed.
Lemma gr_exit {A} : gr (fun s => @KExit0 A s). Proof. intros s. apply grows_refl. Qed.
Lemma gr_exit' {A} : gr (@KExit0 A). Proof. intros s. apply grows_refl. Qed.
Lemma gr_same {A} (m : K A) : (forall s, k_sec (end_of (m s)) = k_sec s /\ k_out (end_of (m s)) = k_out s) -> gr m.
Proof. intros H s. destruct (H s) as [H1 H2]. split; [now rewrite H1|]. exists []. rewrite app_nil_r. auto. Qed.
Lemma gr_readit_on old n : gr (kreadit_on old n).
Proof. apply gr_same. intros s. unfold kreadit_on. destruct (_ <=? _); auto. Qed.
Lemma gr_readit E n : gr (kreadit E n).
Proof. intros s. exact (gr_readit_on _ n s). Qed.
Lemma gr_read_on E old n : gr (kread_on E old n).
Proof. apply gr_same. intros s. unfold kread_on. destruct (e_read E _); auto. Qed.
Lemma gr_read E n : gr (kread E n).
Proof. intros s. exact (gr_read_on E _ n s). Qed.
Lemma gr_set a b : gr (kset a b).
Proof. apply gr_same. auto. Qed.
Lemma gr_send b : gr (ksend b).
Proof. intros s. split; [auto|]. exists [(k_sec s, b)]. split; [reflexivity|]. intros H. constructor; auto. Qed.
Lemma gr_secure : gr ksecure.
Proof. intros s. split; [auto|]. exists []. cbn. rewrite app_nil_r. auto. Qed.

Ltac gr := repeat first
  [ apply gr_ret | apply gr_fail | apply gr_ub | apply gr_more | apply gr_exit | apply gr_exit' | apply gr_readit_on | apply gr_readit
  | apply gr_read_on | apply gr_read | apply gr_set | apply gr_send | apply gr_secure
  | apply gr_bind; [|intros] | match goal with |- context [if ?b then _ else _] => destruct b
  | |- context [match ?o with Some _ => _ | None => _ end] => destruct o end ].

Lemma gr_exportname E b name gf : gr (send_opt_exportname E b name gf).
Proof. unfold send_opt_exportname, parse_sizes. gr. Qed.
Lemma gr_read_reply E : gr (read_reply E).
Proof. unfold read_reply. gr. Qed.
Lemma gr_said E p r : gr (server_said E p r).
Proof. unfold server_said. gr. Qed.
Lemma gr_go fuel : forall E name gf, gr (go_loop fuel E name gf).
Proof.
  induction fuel as [|fuel IH]; intros E name gf; cbn [go_loop]; [apply gr_more|].
  apply gr_bind; [apply gr_read_reply|]. intros [r|]; [|apply gr_fail].
  unfold parse_sizes. repeat first [apply IH | apply gr_said | apply gr_exportname | progress gr].
Qed.
Lemma gr_round E : gr (list_round E).
Proof. unfold list_round. gr. Qed.
Lemma gr_ask fuel E : gr (ask_list fuel E).
Proof.
  unfold ask_list, send_request. apply gr_bind; [gr|]. intros _. apply gr_bind; [|intros; gr].
  induction fuel as [|fuel IH]; cbn [ask_loop]; [apply gr_more|].
  apply gr_bind; [apply gr_round|]. intros [|]; [exact IH|apply gr_ret].
Qed.

(** what follows STARTTLS *)
Definition after_tls (fuel : nat) (E : kenv) (g : kcfg) (gf : Z) : K unit :=
  if g_list g then ask_list fuel E ;;; (fun s => KExit0 s)
  else if g_no_optgo g then send_opt_exportname E true (g_name g) gf
  else send_info_request OPT_GO (g_name g) ;;; go_loop fuel E (g_name g) gf.
Lemma gr_after fuel E g gf : gr (after_tls fuel E g gf).
Proof.
  unfold after_tls, send_info_request, send_request.
  destruct (g_list g); [apply gr_bind; [apply gr_ask|intros; apply gr_exit]|].
  destruct (g_no_optgo g); [apply gr_exportname|]. apply gr_bind; [gr|]. intros _. apply gr_go.
Qed.

(** STARTTLS: sends its request in clear and nothing else; returns only on the
    TLS socket *)
Lemma read_on_spec E old n s : exists r l, kread_on E old n s = KRet r (mkK l (k_tin s) (k_sec s) (k_out s) (S (k_reads s)) (k_size s) (k_flags s)) /\
  (fst r < 0 -> l = k_in s) /\
  (0 <= fst r -> 0 <= n -> fst r <= n /\ exists a, k_in s = a ++ l /\ zlen a = fst r /\ snd r = a ++ skipn (Z.to_nat (fst r)) old).
Proof.
  unfold kread_on. destruct (e_read E (k_reads s)) as [|m].
  - exists (-1, old), (k_in s). split; [reflexivity|]. cbn [fst snd]. split; [reflexivity|]. lia.
  - set (m' := Z.max 0 _). exists (m', firstn (Z.to_nat m') (k_in s) ++ skipn (Z.to_nat m') old), (skipn (Z.to_nat m') (k_in s)).
    split; [reflexivity|]. cbn [fst snd]. split; [subst m'; lia|]. intros Hm Hn.
    assert (Hl := zlen_nonneg (k_in s)). assert (m' <= zlen (k_in s)) by (subst m'; lia).
    split; [subst m'; lia|]. exists (firstn (Z.to_nat m') (k_in s)). split; [now rewrite firstn_skipn|].
    split; [|reflexivity]. unfold zlen in *. rewrite firstn_length. lia.
Qed.

Ltac rd := match goal with |- context [kbind (kread ?E ?n) ?f ?s] =>
      let r := fresh "r" in let l := fresh "l" in let H := fresh "H" in
      destruct (read_on_spec E (junk E s n) n s) as (r & l & H & _); unfold kbind at 1; unfold kread at 1; rewrite H; clear H; cbv beta iota
    | |- context [kbind (kread_on ?E ?o ?n) ?f ?s] =>
      let r := fresh "r" in let l := fresh "l" in let H := fresh "H" in
      destruct (read_on_spec E o n s) as (r & l & H & _); unfold kbind at 1; rewrite H; clear H; cbv beta iota end.
Definition tls_end (E : kenv) (s : kst) (r : kout unit) : Prop :=
  k_out (end_of r) = k_out s ++ [(false, starttls_request)] /\
  match r with KRet _ s' => k_sec s' = true /\ k_in s' = k_tin s /\ e_tls E = true | KFail s' => k_sec s' = false | _ => False end.
Lemma starttls_spec E s : k_sec s = false -> tls_end E s (kstarttls E s).
Proof.
  intros Hs. unfold kstarttls, send_request.
  assert (Hr : opt_head OPT_STARTTLS 0 = starttls_request) by (vm_compute; reflexivity). rewrite Hr.
  unfold kbind at 1. unfold ksend. rewrite Hs.
  set (s1 := mkK _ _ _ _ _ _ _).
  rd. destruct (fst r <? 0); [split; cbn; auto|]. destruct (negb _); [split; cbn; auto|].
  rd. destruct (fst r0 <? 0); [split; cbn; auto|]. destruct (negb _); [split; cbn; auto|].
  rd. destruct (fst r1 <? 0); [split; cbn; auto|]. destruct (negb _); [split; cbn; auto|].
  rd. destruct (fst r2 <? 0); [split; cbn; auto|]. destruct (negb _); [split; cbn; auto|].
  destruct (e_tls E) eqn:Et; split; cbn; auto.
Qed.

Lemma clear_app a b : clear_bytes (a ++ b) = clear_bytes a ++ clear_bytes b.
Proof. unfold clear_bytes. now rewrite map_app, concat_app. Qed.
Lemma clear_secret l : Forall (fun p : bool * list Z => fst p = true) l -> clear_bytes l = [].
Proof. induction 1 as [|p l Hp _ IH]; [reflexivity|]. unfold clear_bytes in *. cbn. now rewrite Hp, IH. Qed.

(** the start of the negotiation: greeting, flags *)
Definition kgreeted (E : kenv) (g : kcfg) (rest : Z -> K unit) : K unit :=
  p <- kreadit_on (repeat 0 8) 8 ;;
  (if negb (forallb (fun x => fst x =? snd x) (combine (snd p) (text "NBDMAGIC"))) then kerr else
  m <- kreadit E 8 ;;
  (if unbe (snd m) =? CLISERV_MAGIC then kerr else
  f <- kreadit E 2 ;;
  if negb (Z.land (g_needed g) (unbe (snd f)) =? g_needed g) then kerr
  else
    ksend (be 4 (if flag (unbe (snd f)) FLAG_NO_ZEROES then Z.lor (g_cflags g) 2 else g_cflags g)) ;;;
    rest (unbe (snd f)))).
Lemma negotiate_eq fuel E g : knegotiate fuel E g =
  kgreeted E g (fun gf => (if g_tls g then kstarttls E else kret tt) ;;; after_tls fuel E g gf).
Proof. reflexivity. Qed.

Definition greet_end (rest : Z -> K unit) (s : kst) (r : kout unit) : Prop :=
  exists s1, k_out s1 = k_out s /\ k_sec s1 = k_sec s /\ k_tin s1 = k_tin s /\
  (r = KFail s1 \/ exists cf gf, r = (ksend (be 4 cf) ;;; rest gf) s1).
Lemma greeted_spec E g rest s : greet_end rest s (kgreeted E g rest s).
Proof.
  unfold kgreeted.
  Ltac rdi := match goal with |- context [kbind (kreadit_on ?o ?n) ?f ?s] =>
      let r := fresh "r" in let l := fresh "l" in let H := fresh "H" in
      assert (H : exists r l, kreadit_on o n s = KRet r (mkK l (k_tin s) (k_sec s) (k_out s) (S (k_reads s)) (k_size s) (k_flags s)))
        by (unfold kreadit_on; destruct (_ <=? _); eauto);
      destruct H as (r & l & H); unfold kbind at 1; rewrite H; clear H; cbv beta iota
    | |- context [kbind (kreadit ?E ?n) ?f ?s] => change (kbind (kreadit E n) f s) with (kbind (kreadit_on (junk E s n) n) f s); rdi end.
  rdi. destruct (negb _); [eexists; split; [|split; [|split; [|left; reflexivity]]]; reflexivity|].
  rdi. destruct (_ =? _); [eexists; split; [|split; [|split; [|left; reflexivity]]]; reflexivity|].
  rdi. destruct (negb _); [eexists; split; [|split; [|split; [|left; reflexivity]]]; reflexivity|].
  eexists. split; [|split; [|split; [|right; eexists; eexists; reflexivity]]]; reflexivity.
Qed.

Lemma tls_client fuel E g plain tls : g_tls g = true ->
  let o := knegotiate fuel E g (kstart plain tls) in
  (exists cf, prefix (clear_bytes (k_out (end_of o))) (be 4 cf ++ starttls_request)) /\
  (succeeded o -> k_sec (end_of o) = true /\ e_tls E = true).
Proof.
  intros Hg. cbn zeta. rewrite negotiate_eq, Hg.
  destruct (greeted_spec E g (fun gf => kstarttls E ;;; after_tls fuel E g gf) (kstart plain tls)) as (s1 & Ho & Hs & Hti & [->|(cf & gf & ->)]).
  - cbn [end_of]. rewrite Ho. cbn. split; [|intros []]. exists 0. exists (be 4 0 ++ starttls_request). reflexivity.
  - set (s2 := mkK (k_in s1) (k_tin s1) (k_sec s1) (k_out s1 ++ [(k_sec s1, be 4 cf)]) (k_reads s1) (k_size s1) (k_flags s1)).
    assert (Hgo : (ksend (be 4 cf) ;;; kstarttls E ;;; after_tls fuel E g gf) s1 = kbind (kstarttls E) (fun _ => after_tls fuel E g gf) s2) by reflexivity.
    rewrite Hgo. assert (H2 : k_sec s2 = false) by exact Hs.
    destruct (starttls_spec E s2 H2) as (Hout & Hend). remember (kstarttls E s2) as r eqn:Hr. symmetry in Hr.
    assert (Hout' : clear_bytes (k_out (end_of r)) = be 4 cf ++ starttls_request).
    { rewrite Hout. subst s2. cbn [k_out]. rewrite Ho, Hs. cbn [kstart k_out k_sec].
      unfold clear_bytes. cbn [map concat app fst snd]. now rewrite app_nil_r. }
    generalize (end_bind (kstarttls E) (fun _ => after_tls fuel E g gf) s2). rewrite Hr.
    destruct r as [[] s3|s3|s3|s3|s3]; cbn [end_of] in *; try contradiction; intros ->.
    + destruct Hend as (Hsec & Hin & Ht).
      destruct (gr_after fuel E g gf s3) as [G1 (ext & G2 & G3)].
      split; [|auto]. exists cf. rewrite G2, clear_app, Hout', (clear_secret ext) by auto. exists []. now rewrite !app_nil_r.
    + cbn [end_of succeeded]. split; [|intros []]. exists cf. rewrite Hout'. exists []. now rewrite app_nil_r.
Qed.

(** ** what the server must have sent for STARTTLS to be accepted *)
Lemma full_read E old n s : full_reads E -> 0 <= n <= 1024 -> exists a l,
  kread_on E old n s = KRet (zlen a, a ++ skipn (length a) old) (mkK l (k_tin s) (k_sec s) (k_out s) (S (k_reads s)) (k_size s) (k_flags s)) /\
  k_in s = a ++ l /\ zlen a <= n /\ (zlen a < n -> l = []).
Proof.
  intros F Hn. destruct (F (k_reads s)) as (m & Hm & Hm'). unfold kread_on. rewrite Hm.
  set (m' := Z.max 0 _). assert (Hl := zlen_nonneg (k_in s)).
  assert (Hm2 : m' = Z.min n (zlen (k_in s))) by (subst m'; lia).
  exists (firstn (Z.to_nat m') (k_in s)), (skipn (Z.to_nat m') (k_in s)).
  assert (Hz : zlen (firstn (Z.to_nat m') (k_in s)) = m') by (unfold zlen in *; rewrite firstn_length; lia).
  rewrite Hz. replace (length (firstn (Z.to_nat m') (k_in s))) with (Z.to_nat m') by (unfold zlen in Hz; lia).
  split; [reflexivity|]. split; [now rewrite firstn_skipn|]. split; [lia|]. intros H. apply skipn_all2. unfold zlen in *; lia.
Qed.

Lemma be_of_unbe n l v : length l = n -> Forall is_byte l -> unbe l = v -> l = be n v.
Proof. intros H F <-. subst n. symmetry. now apply be_unbe. Qed.
Lemma byte_cons x l : Forall is_byte (x :: l) -> 0 <= x < 256 /\ Forall is_byte l.
Proof. intros H. inversion H; subst. split; assumption. Qed.

Lemma ack_needs_four a old : Forall is_byte a -> zlen a <= 4 -> old = le 4 5 -> unbe (a ++ skipn (length a) old) = 1 -> a = [0; 0; 0; 1].
Proof.
  intros F Hl -> H.
  assert (Ho : le 4 5 = [5; 0; 0; 0]) by (vm_compute; reflexivity). rewrite Ho in H. clear Ho.
  destruct a as [|x [|y [|z [|t [|u a]]]]]; cbn [length skipn app] in H;
    unfold unbe in H; cbn [unbe_acc] in H;
    repeat match goal with F : Forall is_byte (_ :: _) |- _ => apply byte_cons in F; destruct F as [? F] end; try lia.
  - assert (x = 0) by lia. assert (y = 0) by lia. assert (z = 0) by lia. assert (t = 1) by lia. now subst.
  - exfalso. unfold zlen in Hl. cbn [length] in Hl. lia.
Qed.

Definition accepted_end (s : kst) (r : kout unit) : Prop :=
  forall s', r = KRet tt s' -> exists rest, k_in s = REPLY_MAGIC ++ [0; 0; 0; 5] ++ [0; 0; 0; 1] ++ rest /\
    prefix (firstn 4 rest) [0; 0; 0; 0].
Lemma starttls_accepted E s : full_reads E -> Forall is_byte (k_in s) -> accepted_end s (kstarttls E s).
Proof.
  intros F B. unfold kstarttls, send_request.
  set (cont := kbind (kread E 8) _).
  change ((ksend (opt_head OPT_STARTTLS 0) ;;; cont) s) with (cont (mkK (k_in s) (k_tin s) (k_sec s) (k_out s ++ [(k_sec s, opt_head OPT_STARTTLS 0)]) (k_reads s) (k_size s) (k_flags s))).
  subst cont. set (s1 := mkK _ _ _ _ _ _ _). assert (Hin : k_in s1 = k_in s) by reflexivity. clearbody s1.
  change (kbind (kread E 8) ?f s1) with (kbind (kread_on E (junk E s1 8) 8) f s1).
  destruct (full_read E (junk E s1 8) 8 s1 F) as (a & l1 & Ha & Ea & La & Na); [lia|]. unfold kbind at 1. rewrite Ha. cbv beta iota. cbn [fst snd].
  destruct (zlen a <? 0); [intros s' H; discriminate|]. destruct (unbe _ =? NBD_OPT_REPLY_MAGIC) eqn:Em; cbn [negb]; [|intros s' H; discriminate].
  set (s2 := mkK l1 _ _ _ _ _ _). change (kbind (kread E 4) ?f s2) with (kbind (kread_on E (junk E s2 4) 4) f s2).
  destruct (full_read E (junk E s2 4) 4 s2 F) as (b & l2 & Hb & Eb & Lb & Nb); [lia|]. unfold kbind at 1. rewrite Hb. cbv beta iota. cbn [fst snd].
  destruct (zlen b <? 0); [intros s' H; discriminate|]. destruct (unbe _ =? OPT_STARTTLS) eqn:Eo; cbn [negb]; [|intros s' H; discriminate].
  set (s3 := mkK l2 _ _ _ _ _ _).
  match goal with |- context [kread_on E ?o 4] => destruct (full_read E o 4 s3 F) as (c & l3 & Hc & Ec & Lc & Nc); [lia|] end.
  unfold kbind at 1. rewrite Hc. cbv beta iota. cbn [fst snd].
  destruct (zlen c <? 0); [intros s' H; discriminate|]. destruct (unbe _ =? REP_ACK) eqn:Et; cbn [negb]; [|intros s' H; discriminate].
  set (s4 := mkK l3 _ _ _ _ _ _).
  match goal with |- context [kread_on E ?o 4] => destruct (full_read E o 4 s4 F) as (d & l4 & Hd & Ed & Ld & Nd); [lia|] end.
  unfold kbind at 1. rewrite Hd. cbv beta iota. cbn [fst snd].
  destruct (zlen d <? 0); [intros s' H; discriminate|]. destruct (unbe _ =? 0) eqn:El; cbn [negb]; [|intros s' H; discriminate].
  intros s' _. clear Ha Hb Hc Hd.
  cbn [k_in s2 s3 s4] in *. apply Z.eqb_eq in Em, Eo, Et, El. rewrite <- Hin in *. rewrite Ea in *. subst l1 l2 l3.
  rewrite !Forall_app in B. destruct B as (Ba & Bb & Bc & Bd & Bl).
  rewrite Eo in Et. assert (Hc4 := ack_needs_four c _ Bc Lc eq_refl Et). subst c.
  assert (Hb4 : length b = 4%nat).
  { destruct (Z.lt_ge_cases (zlen b) 4) as [Hlt|]; [specialize (Nb Hlt); discriminate|]. unfold zlen in *. lia. }
  assert (Ha8 : length a = 8%nat).
  { destruct (Z.lt_ge_cases (zlen a) 8) as [Hlt|]; [specialize (Na Hlt); destruct b; discriminate|]. unfold zlen in *. lia. }
  rewrite skipn_all2, app_nil_r in Em by (unfold junk; rewrite map_length, seq_length; lia).
  rewrite skipn_all2, app_nil_r in Eo by (unfold junk; rewrite map_length, seq_length; lia).
  apply be_of_unbe with (n := 8%nat) in Em; auto. apply be_of_unbe with (n := 4%nat) in Eo; auto.
  exists (d ++ l4). split.
  - rewrite Em, Eo. reflexivity.
  - destruct (Z.lt_ge_cases (zlen d) 4) as [Hlt|Hge].
    + specialize (Nd Hlt). subst l4. rewrite app_nil_r, firstn_all2 by (unfold zlen in *; lia).
      assert (Hd0 : d = repeat 0 (length d)).
      { assert (Ht1 : le 4 (unbe ([0; 0; 0; 1] ++ skipn (length [0; 0; 0; 1]) (le 4 (unbe (b ++ skipn (length b) (junk E s2 4)))))) = [1; 0; 0; 0]).
        { change (length [0; 0; 0; 1]) with 4%nat. rewrite (skipn_all2 (le 4 _)) by (now rewrite le_length).
          vm_compute. reflexivity. }
        rewrite Ht1 in El. clear - El Bd Hlt.
        destruct d as [|x [|y [|z [|t d]]]]; cbn [length skipn app repeat] in *; unfold unbe in El; cbn [unbe_acc] in El;
          repeat match goal with F : Forall is_byte (_ :: _) |- _ => apply byte_cons in F; destruct F as [? F] end; try lia; try reflexivity.
        - f_equal; lia.
        - f_equal; [lia|]. f_equal; lia.
        - f_equal; [lia|]. f_equal; [lia|]. f_equal; lia.
        - unfold zlen in Hlt. cbn [length] in Hlt. lia. }
      exists (repeat 0 (4 - length d)). rewrite Hd0 at 1. rewrite <- repeat_app.
      replace (length d + (4 - length d))%nat with 4%nat by (unfold zlen in *; lia). reflexivity.
    + assert (Hd4 : length d = 4%nat) by (unfold zlen in *; lia).
      rewrite (skipn_all2 (le 4 _)), app_nil_r in El by (rewrite le_length; lia).
      apply be_of_unbe with (n := 4%nat) in El; auto. exists []. rewrite app_nil_r.
      replace 4%nat with (length d + 0)%nat by lia. rewrite firstn_app_2. cbn [firstn]. rewrite app_nil_r, El. reflexivity.
Qed.

(** reading moves along the stream *)
Definition along (s s' : kst) : Prop := exists a, k_in s = a ++ k_in s'.
Lemma readit_on_along old n s : exists r l a, kreadit_on old n s = KRet r (mkK l (k_tin s) (k_sec s) (k_out s) (S (k_reads s)) (k_size s) (k_flags s)) /\
  k_in s = a ++ l /\ (l <> [] -> fst r = true) /\ (fst r = true -> snd r = a /\ (0 <= n -> zlen a = n)).
Proof.
  unfold kreadit_on. destruct (n <=? zlen (k_in s)) eqn:En.
  - eexists _, _, (firstn (Z.to_nat n) (k_in s)). split; [reflexivity|]. rewrite firstn_skipn. cbn [fst snd]. repeat split; auto.
    intros Hn. apply Z.leb_le in En. unfold zlen in *. rewrite firstn_length. lia.
  - eexists _, _, (k_in s). split; [reflexivity|]. rewrite app_nil_r. cbn [fst snd]. split; [reflexivity|]. split; [congruence|discriminate].
Qed.

Definition accept_end (plain : list Z) (r : kout unit) : Prop := succeeded r -> exists pre rest, plain = pre ++ REPLY_MAGIC ++ [0; 0; 0; 5] ++ [0; 0; 0; 1] ++ rest /\
    zlen pre = 18 /\ prefix (firstn 4 rest) [0; 0; 0; 0].
Lemma tls_accepted fuel E g plain tls : g_tls g = true -> full_reads E -> Forall is_byte plain ->
  accept_end plain (knegotiate fuel E g (kstart plain tls)).
Proof.
  intros Hg F B. rewrite negotiate_eq, Hg. unfold kgreeted.
  assert (Hp : k_in (kstart plain tls) = plain) by reflexivity.
  assert (Hsec : k_sec (kstart plain tls) = false) by reflexivity. set (s := kstart plain tls) in *. clearbody s.
  destruct (readit_on_along (repeat 0 8) 8 s) as (r1 & l1 & a1 & H1 & E1 & N1 & Y1). unfold kbind at 1. rewrite H1. cbv beta iota. clear H1.
  destruct (negb _); [intros []|]. set (s1 := mkK _ _ _ _ _ _ _).
  change (kbind (kreadit E 8) ?f s1) with (kbind (kreadit_on (junk E s1 8) 8) f s1).
  destruct (readit_on_along (junk E s1 8) 8 s1) as (r2 & l2 & a2 & H2 & E2 & N2 & Y2). unfold kbind at 1. rewrite H2. cbv beta iota. clear H2.
  destruct (_ =? CLISERV_MAGIC); [intros []|]. set (s2 := mkK _ _ _ _ _ _ _).
  change (kbind (kreadit E 2) ?f s2) with (kbind (kreadit_on (junk E s2 2) 2) f s2).
  destruct (readit_on_along (junk E s2 2) 2 s2) as (r3 & l3 & a3 & H3 & E3 & N3 & Y3). unfold kbind at 1. rewrite H3. cbv beta iota. clear H3.
  destruct (negb _); [intros []|].
  set (cont := kbind (if true then kstarttls E else kret tt) _). set (s3 := mkK _ _ _ _ _ _ _). set (cf := be 4 _).
  change ((ksend cf ;;; cont) s3) with (cont (mkK (k_in s3) (k_tin s3) (k_sec s3) (k_out s3 ++ [(k_sec s3, cf)]) (k_reads s3) (k_size s3) (k_flags s3))).
  set (s4 := mkK _ _ _ _ _ _ _). subst cont. cbv beta iota.
  match goal with |- accept_end _ (kbind _ ?f s4) => generalize (end_bind (kstarttls E) f s4) end.
  cbn [k_in s1 s2 s3] in *. rewrite Hp in E1. clear Hp. subst plain l1 l2. rewrite !Forall_app in B. destruct B as (B1 & B2 & B3 & B4).
  assert (Hsp := starttls_spec E s4 Hsec).
  generalize (starttls_accepted E s4 F B4). cbn [s4 s3 k_in].
  destruct (kstarttls E s4) as [[] s5|s5|s5|s5|s5]; intros Ha ->; try (intros []; fail).
  - intros _. destruct (Ha s5 eq_refl) as (rest & Hr & Hz). cbn [s4 s3 k_in] in Hr.
    assert (Hl3 : l3 <> []) by (rewrite Hr; discriminate).
    destruct (Y3 (N3 Hl3)) as [_ L3]. assert (Hl2 : a3 ++ l3 <> []) by (destruct a3; [exact Hl3|discriminate]).
    destruct (Y2 (N2 Hl2)) as [_ L2]. assert (Hl1 : a2 ++ a3 ++ l3 <> []) by (destruct a2; [exact Hl2|discriminate]).
    destruct (Y1 (N1 Hl1)) as [_ L1].
    exists (a1 ++ a2 ++ a3), rest. rewrite <- !app_assoc, Hr. split; [reflexivity|]. split; [|exact Hz].
    unfold zlen in *. rewrite !app_length. lia.
  - destruct Hsp as [_ []].
Qed.

(** ** no access outside the buffers *)
Definition noub {A} (m : K A) : Prop := forall s s', m s <> KUb s'.
Lemma noub_bind {A B} (m : K A) (f : A -> K B) : noub m -> (forall a, noub (f a)) -> noub (kbind m f).
Proof.
  intros Hm Hf s s'. generalize (end_bind m f s). destruct (m s) eqn:E; intros ->; try discriminate.
  - apply Hf.
  - intros _. exact (Hm _ _ E).
Qed.
Lemma noub_bind_ret {A B} (m : K A) (f : A -> K B) (P : A -> Prop) :
  (forall s, exists a s', m s = KRet a s' /\ P a) -> (forall a, P a -> noub (f a)) -> noub (kbind m f).
Proof.
  intros Hm Hf s s'. destruct (Hm s) as (a & s1 & H & Pa). unfold kbind. rewrite H. exact (Hf a Pa s1 s').
Qed.
Lemma noub_ret {A} (a : A) : noub (kret a). Proof. intros s s' H. discriminate. Qed.
Lemma noub_err {A} : noub (@kerr A). Proof. intros s s' H. discriminate. Qed.
Lemma noub_read_on E old n : noub (kread_on E old n).
Proof. intros s s'. unfold kread_on. destruct (e_read E _); discriminate. Qed.
Lemma noub_read E n : noub (kread E n). Proof. intros s s'. exact (noub_read_on E _ n s s'). Qed.
Lemma noub_readit_on old n : noub (kreadit_on old n).
Proof. intros s s'. unfold kreadit_on. destruct (_ <=? _); discriminate. Qed.
Lemma noub_readit E n : noub (kreadit E n). Proof. intros s s'. exact (noub_readit_on _ n s s'). Qed.
Lemma noub_send b : noub (ksend b). Proof. intros s s' H. discriminate. Qed.
Lemma noub_set a b : noub (kset a b). Proof. intros s s' H. discriminate. Qed.
Lemma read_bounded E n : 0 <= n -> forall s, exists r s', kread E n s = KRet r s' /\ fst r <= n.
Proof.
  intros Hn s. destruct (read_on_spec E (junk E s n) n s) as (r & l & H & _ & H2). exists r. eexists. split; [exact H|].
  destruct (Z.lt_ge_cases (fst r) 0); [lia|]. now apply H2.
Qed.
Ltac nu := repeat first
  [ apply noub_ret | apply noub_err | apply noub_read | apply noub_readit | apply noub_read_on | apply noub_readit_on | apply noub_send | apply noub_set ].
Lemma round_no_ub E : noub (list_round E).
Proof.
  unfold list_round.
  apply noub_bind; [nu|]. intros m. destruct (fst m <? 0); [nu|].
  apply noub_bind; [nu|]. intros o. destruct (fst o <? 0); [nu|].
  apply noub_bind; [nu|]. intros t. destruct (fst t <? 0); [nu|].
  apply noub_bind; [nu|]. intros l. destruct (fst l <? 0); [nu|].
  destruct (negb _); [nu|]. destruct (flag _ _).
  - destruct (andb _ _) eqn:Ea; [|nu]. apply andb_prop in Ea. destruct Ea as [E1 E2]. apply Z.ltb_lt in E1, E2.
    apply noub_bind_ret with (P := fun r => fst r <= unbe (snd l)); [apply read_bounded; lia|].
    intros r Hr. destruct (fst r <? 0); [nu|]. destruct (1024 <=? fst r) eqn:E3; [apply Z.leb_le in E3; lia|nu].
  - destruct (_ =? REP_ACK); [nu|]. destruct (negb _); [nu|].
    apply noub_bind; [nu|]. intros n. destruct (fst n <? 0); [nu|].
    destruct (1024 <=? unbe (snd n)) eqn:En; [nu|].
    apply noub_bind; [nu|]. intros x. destruct (fst x <? 0); [nu|].
    destruct (0 <? _); [|nu]. destruct (1024 <=? u32 _) eqn:Er; [nu|].
    apply noub_bind; [nu|]. intros y. destruct (fst y <? 0); nu.
Qed.
Lemma ask_no_ub fuel E : noub (ask_list fuel E).
Proof.
  unfold ask_list, send_request. apply noub_bind; [nu|]. intros _. apply noub_bind; [|intros; nu].
  induction fuel as [|fuel IH]; cbn [ask_loop]; [intros s s' H; discriminate|].
  apply noub_bind; [apply round_no_ub|]. intros [|]; [exact IH|nu].
Qed.
Lemma exportname_no_ub E b name gf : noub (send_opt_exportname E b name gf).
Proof.
  unfold send_opt_exportname, parse_sizes. apply noub_bind; [nu|]. intros _. apply noub_bind; [nu|]. intros _.
  apply noub_bind; [nu|]. intros r. destruct (_ && _); [nu|]. apply noub_bind; [nu|]. intros _. destruct (flag _ _); [nu|].
  apply noub_bind; [nu|intros; nu].
Qed.
Lemma starttls_no_ub E : noub (kstarttls E).
Proof.
  unfold kstarttls, send_request. apply noub_bind; [nu|]. intros _.
  apply noub_bind; [nu|]. intros m. destruct (fst m <? 0); [nu|]. destruct (negb _); [nu|].
  apply noub_bind; [nu|]. intros o. destruct (fst o <? 0); [nu|]. destruct (negb _); [nu|].
  apply noub_bind; [nu|]. intros t. destruct (fst t <? 0); [nu|]. destruct (negb _); [nu|].
  apply noub_bind; [nu|]. intros l. destruct (fst l <? 0); [nu|]. destruct (negb _); [nu|].
  destruct (e_tls E); [intros s s' H; discriminate|nu].
Qed.
