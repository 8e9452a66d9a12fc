(** C79: the command line of nbd-client.  C80: the device is what the server
    announced.  C81: connecting and checking. *)
From Coq Require Import String.
From Verif Require Import Base M_Acl M_Nego M_Conf M_Tab M_Dev S_Tab L_Tab L_TabP S_Dev L_Dev L_Dev2.
Local Open Scope list_scope.
Ltac conj := repeat match goal with |- _ /\ _ => split end.

(** ** C79 *)
Lemma tls_if (x f k a h : option (list Z)) :
  (match x with Some _ => true | None => false end = true \/ match f with Some s => Some s | None => None end <> None
   \/ match k with Some s => Some s | None => None end <> None \/ match a with Some s => Some s | None => None end <> None
   \/ match h with Some s => Some s | None => None end <> None)
  <-> x <> None \/ f <> None \/ k <> None \/ a <> None \/ h <> None.
Proof.
  assert (X : match x with Some _ => true | None => false end = true <-> x <> None) by (destruct x; split; congruence).
  assert (Y : forall o : option (list Z), match o with Some s => Some s | None => None end = o) by (intros []; reflexivity).
  rewrite !Y, X. reflexivity.
Qed.
Theorem C79_as_given : forall file nl l v h d n,
  Forall (fun a => forall s, a <> AOpt "l" s /\ a <> AOpt "d" s) l ->
  host_and_device strtol0 (words l) h d -> last_opt "N" l = Some n -> main file nl l = MGo v ->
  t_host (v_cl v) = Some h /\ t_dev (v_cl v) = Some d /\ t_name (v_cl v) = Some n
  /\ t_bs (v_cl v) = or_num (fun s => i32 (strtol0 s)) (last_set "b" "bs=" l) 512
  /\ t_timeout (v_cl v) = or_num (fun s => i32 (strtol0 s)) (last_set "t" "timeout=" l) 0
  /\ t_nconn (v_cl v) = or_num (fun s => i32 (strtol0 s)) (last_opt "C" l) 1
  /\ t_force (v_cl v) = or_num strtoull0 (last_opt "B" l) 0
  /\ (t_no_optgo (v_cl v) = true <-> given "g" l) /\ (t_preinit (v_cl v) = true <-> given "P" l)
  /\ (t_ro (v_cl v) = true <-> given "R" l) /\ (t_swap (v_cl v) = true <-> given "s" l)
  /\ (t_unix (v_cl v) = true <-> given "u" l) /\ (v_cont v = true <-> given "p" l)
  /\ (t_tls (v_cl v) = true <-> given "x" l \/ given "F" l \/ given "K" l \/ given "A" l \/ given "H" l)
  /\ t_cert (v_cl v) = or_else (last_opt "F" l) (last_opt "K" l) /\ t_key (v_cl v) = last_opt "K" l
  /\ t_cacert (v_cl v) = last_opt "A" l /\ t_prio (v_cl v) = last_opt "y" l
  /\ t_tlshost (v_cl v) = (match last_opt "H" l with Some x => Some x | None => if t_unix (v_cl v) then None else Some h end)
  /\ v_ident v = last_opt "i" l /\ v_netlink v = (match last_opt "L" l with Some _ => false | None => nl end).
Proof.
  intros file nl l v h d n Hp W N H. destruct (main_direct _ _ _ _ _ _ _ Hp W N H) as (v0 & E & P).
  destruct (host_dev _ _ _ _ _ Hp E eq_refl W) as (Hh & Hd).
  destruct (prepare_more _ _ P) as (Q1 & _).
  destruct (prepare_go _ _ P) as (P1 & P2 & P3 & P4 & P5 & P6 & P7 & P8 & P9 & P10 & P11 & P12 & P13 & P14 & P15 & P16 & P17 & P18 & P19 & P20 & P21 & P22 & P23).
  pose proof (f_name _ _ _ E) as F1. rewrite N in F1.
  pose proof (f_cert _ _ _ E) as Fc. pose proof (f_key _ _ _ E) as Fk. pose proof (f_cacert _ _ _ E) as Fa. pose proof (f_tlshost _ _ _ E) as Fh.
  pose proof (f_tls _ _ _ E) as Fx. cbn in Fc, Fk, Fa, Fh, Fx.
  conj; try apply flag_given; rewrite ?P1, ?P2, ?P3, ?P5, ?P6, ?P8, ?P9, ?P10, ?P12, ?P13, ?P14, ?P15, ?P16, ?P17, ?P18, ?P19, ?P20, ?P21, ?P22, ?Q1.
  - exact Hh.
  - exact Hd.
  - rewrite F1. reflexivity.
  - exact (f_bs _ _ _ E).
  - exact (f_timeout _ _ _ E).
  - exact (f_nconn _ _ _ E).
  - exact (f_force _ _ _ E).
  - exact (f_no_optgo _ _ _ E).
  - exact (f_preinit _ _ _ E).
  - exact (f_ro _ _ _ E).
  - exact (f_swap _ _ _ E).
  - exact (f_unix _ _ _ E).
  - exact (f_cont _ _ _ E).
  - rewrite P23, Fx, Fc, Fk, Fa, Fh, <- !last_given.
    exact (tls_if (last_opt "x" l) (last_opt "F" l) (last_opt "K" l) (last_opt "A" l) (last_opt "H" l)).
  - rewrite Fc, Fk. destruct (last_opt "F" l), (last_opt "K" l); reflexivity.
  - rewrite Fk. destruct (last_opt "K" l); reflexivity.
  - rewrite Fa. destruct (last_opt "A" l); reflexivity.
  - pose proof (f_prio _ _ _ E) as Fy. cbn in Fy. rewrite Fy. destruct (last_opt "y" l); reflexivity.
  - rewrite Fh, Hh. destruct (last_opt "H" l); reflexivity.
  - pose proof (f_ident _ _ _ E) as Fi. cbn in Fi. rewrite Fi. destruct (last_opt "i" l); reflexivity.
  - exact (f_netlink _ _ _ E).
Qed.
Print Assumptions C79_as_given.
Definition full_args : list arg :=
  [AOpt "N" (text "data"); AOpt "b" (text "1024"); AWord (text "server"); AWord (text "bs=4096"); AWord (text "2000"); AOpt "R" [];
   AWord (text "/dev/nbd3"); AOpt "C" (text "2"); AOpt "K" (text "/etc/key"); AOpt "t" (text "30"); AOpt "L" []].
Example C79_as_given_ex : exists v, main None true full_args = MGo v
  /\ host_and_device strtol0 (words full_args) (text "server") (text "/dev/nbd3") /\ last_opt "N" full_args = Some (text "data")
  /\ t_bs (v_cl v) = 4096 /\ t_nconn (v_cl v) = 2 /\ t_tls (v_cl v) = true /\ t_cert (v_cl v) = Some (text "/etc/key") /\ v_netlink v = false.
Proof.
  eexists. split; [vm_compute; reflexivity|]. split; [right; exists (text "2000"); split; [reflexivity|vm_compute; discriminate]|].
  repeat split; vm_compute; reflexivity.
Qed.

(** sizes and block sizes that go on to the kernel *)
Theorem C79_sizes : forall file nl l v, main file nl l = MGo v ->
  t_bs (v_cl v) <> 0 /\ (0 < t_bs (v_cl v) < 2 ^ 31 -> t_force (v_cl v) mod t_bs (v_cl v) = 0)
  /\ (t_preinit (v_cl v) = true -> t_tls (v_cl v) = false /\ t_force (v_cl v) <> 0)
  /\ (v_netlink v = false -> v_ident v = None)
  /\ (Z.rem (t_bs (v_cl v)) 512 = 0 \/ exists v0 h c, t_host (v_cl v0) = Some h /\ names_device h /\ get_from_config file (set_dev h (v_cl v0)) = Some c).
Proof.
  intros file nl l v H.
  assert (G : forall v0, prepare v0 = MGo v ->
    t_bs (v_cl v) <> 0 /\ (0 < t_bs (v_cl v) < 2 ^ 31 -> t_force (v_cl v) mod t_bs (v_cl v) = 0)
    /\ (t_preinit (v_cl v) = true -> t_tls (v_cl v) = false /\ t_force (v_cl v) <> 0) /\ (v_netlink v = false -> v_ident v = None)).
  { intros v0 P. destruct (prepare_more _ _ P) as (_ & Q2 & Q3 & Q4).
    destruct (prepare_go _ _ P) as (P1 & P2 & P3 & P4 & P5 & P6 & P7 & P8 & P9 & P10 & P11 & P12 & P13 & P14 & P15 & P16 & P17 & P18 & P19 & P20 & _).
    rewrite P10, P20, P16, P2, P3. conj; auto. intros B. rewrite (u64_pos _ B) in Q2. exact Q2. }
  pose proof (main_inv file nl l) as I. rewrite H in I. destruct I as [v0 [E [[P _]|[h [c [A [B [C D]]]]]]]].
  - destruct (G _ P) as (G1 & G2 & G3 & G4). conj; auto. left.
    destruct (prepare_go _ _ P) as (_ & _ & _ & _ & _ & _ & _ & _ & _ & P10 & _). rewrite P10.
    exact (do_args_bs _ _ _ E eq_refl).
  - destruct (G _ D) as (G1 & G2 & G3 & G4). conj; auto. right. exists v0, h, c. auto.
Qed.
Print Assumptions C79_sizes.
Example C79_sizes_ex : exists v, main None false [AOpt "N" (text "x"); AOpt "B" (text "8192"); AWord (text "h"); AWord (text "/dev/nbd0"); AOpt "P" []] = MGo v
  /\ t_force (v_cl v) = 8192 /\ t_bs (v_cl v) = 512 /\ t_preinit (v_cl v) = true
  /\ main None false [AOpt "N" (text "x"); AOpt "B" (text "8000"); AWord (text "h"); AWord (text "/dev/nbd0"); AOpt "P" []] = MExit.
Proof. eexists. split; [vm_compute; reflexivity|]. repeat split; vm_compute; reflexivity. Qed.

(** a negative block size passes the check; one over 2^32 is cut *)
Definition bs_args (b : string) : list arg := [AOpt "N" (text "x"); AOpt "b" (text b); AWord (text "h"); AWord (text "/dev/nbd0")].
Theorem C79_block_size_refuted : exists v1 v2, main None false (bs_args "-512") = MGo v1 /\ t_bs (v_cl v1) = -512
  /\ main None false (bs_args "4294967808") = MGo v2 /\ t_bs (v_cl v2) = 512.
Proof. eexists. eexists. split; [vm_compute; reflexivity|]. split; [vm_compute; reflexivity|]. split; [vm_compute; reflexivity|]. vm_compute; reflexivity. Qed.
Print Assumptions C79_block_size_refuted.

(** ** C80 *)
(** what the server announced or -B says, and -R *)
Theorem C80_device_partial : forall file nl l v neg k sz fl,
  main file nl l = MGo v -> v_netlink v = false -> 0 < t_nconn (v_cl v) -> 0 < t_bs (v_cl v) < 2 ^ 31 ->
  t_preinit (v_cl v) = false -> neg O = (sz, fl) -> 0 <= sz ->
  let size := if t_force (v_cl v) =? 0 then sz else t_force (v_cl v) in
  let k' := kcalls k (fst (ioctl_calls (v_cl v) neg)) in
  kd_bs k' = t_bs (v_cl v) /\ kd_size k' <= size < kd_size k' + t_bs (v_cl v)
  /\ (size mod t_bs (v_cl v) = 0 -> kd_size k' = size) /\ (t_force (v_cl v) <> 0 -> kd_size k' = t_force (v_cl v))
  /\ kd_fl k' = (if t_ro (v_cl v) then Z.lor fl 2 else fl) /\ (kd_ro k' = true <-> t_ro (v_cl v) = true \/ flag fl 2 = true)
  /\ (t_timeout (v_cl v) <> 0 -> kd_timeout k' = t_timeout (v_cl v)) /\ kd_socks k' = seq 0 (Z.to_nat (t_nconn (v_cl v))).
Proof.
  intros file nl l v neg k sz fl H Hn Hc Hb Hp N Hs. cbv zeta.
  destruct (ioctl_device (v_cl v) neg k Hc Hb) as (A & B & C & D & E & F). rewrite A, B, C, D, F. rewrite N, (turn_value _ _ _ _ Hp). cbn [fst snd].
  destruct (C79_sizes _ _ _ _ H) as (_ & G & _). specialize (G Hb).
  set (size := if t_force (v_cl v) =? 0 then sz else t_force (v_cl v)).
  assert (X : forall z, z mod t_bs (v_cl v) = 0 -> t_bs (v_cl v) * (z / t_bs (v_cl v)) = z).
  { intros z Z0. pose proof (Z.div_mod z (t_bs (v_cl v)) ltac:(lia)). lia. }
  pose proof (Z.div_mod size (t_bs (v_cl v)) ltac:(lia)). pose proof (Z.mod_pos_bound size (t_bs (v_cl v)) ltac:(lia)).
  split; [reflexivity|]. split; [lia|]. split; [apply X|]. split.
  { intros Hf. unfold size. rewrite (proj2 (Z.eqb_neq _ _) Hf). apply X. exact G. }
  split; [reflexivity|]. split.
  - destruct (t_ro (v_cl v)); [rewrite flag_lor2; intuition congruence|]. intuition congruence.
  - split; [exact E|reflexivity].
Qed.
Print Assumptions C80_device_partial.
Definition nodev : kdev := mkKd 0 0 0 false 0 [].
Example C80_device_partial_ex : exists v, main None true full_args = MGo v /\ v_netlink v = false
  /\ kcalls nodev (fst (ioctl_calls (v_cl v) (fun _ => (1048576, 1)))) = mkKd 4096 1048576 3 true 30 [0%nat; 1%nat].
Proof. eexists. split; [vm_compute; reflexivity|]. split; vm_compute; reflexivity. Qed.

(** a preinitialised connection *)
Theorem C80_preinit : forall file nl l v neg k,
  main file nl l = MGo v -> v_netlink v = false -> 0 < t_nconn (v_cl v) -> 0 < t_bs (v_cl v) < 2 ^ 31 -> t_preinit (v_cl v) = true ->
  let k' := kcalls k (fst (ioctl_calls (v_cl v) neg)) in
  kd_size k' = t_force (v_cl v) /\ kd_size k' <> 0 /\ kd_fl k' = (if t_ro (v_cl v) then 2 else 0) /\ kd_ro k' = t_ro (v_cl v).
Proof.
  intros file nl l v neg k H Hn Hc Hb Hp. cbv zeta.
  destruct (ioctl_device (v_cl v) neg k Hc Hb) as (A & B & C & D & E & F). rewrite B, C, D.
  destruct (C79_sizes _ _ _ _ H) as (_ & G & G2 & _). specialize (G Hb). destruct (G2 Hp) as (_ & Nz).
  unfold turn. rewrite Hp, (proj2 (Z.eqb_neq _ _) Nz). cbn [fst snd].
  pose proof (Z.div_mod (t_force (v_cl v)) (t_bs (v_cl v)) ltac:(lia)).
  conj; try lia; destruct (t_ro (v_cl v)); reflexivity.
Qed.
Print Assumptions C80_preinit.
Example C80_preinit_ex : exists v, main None false [AOpt "N" (text "x"); AOpt "B" (text "8192"); AWord (text "h"); AWord (text "/dev/nbd0"); AOpt "P" []] = MGo v
  /\ kcalls nodev (fst (ioctl_calls (v_cl v) (fun _ => (5, 7)))) = mkKd 512 8192 0 false 0 [0%nat].
Proof. eexists. split; [vm_compute; reflexivity|]. vm_compute; reflexivity. Qed.

(** with netlink the size is told in bytes *)
Theorem C80_netlink_partial : forall v i sz fl,
  device_of v = VIndex i -> 0 < t_nconn (v_cl v) -> t_preinit (v_cl v) = false -> 0 < t_bs (v_cl v) < 2 ^ 31 ->
  exists m, netlink_setup v (fun _ => (sz, fl)) = Some m
    /\ nl_size m = (if t_force (v_cl v) =? 0 then sz else t_force (v_cl v)) /\ nl_bs m = t_bs (v_cl v)
    /\ nl_fl m = (if t_ro (v_cl v) then Z.lor fl 2 else fl) /\ Z.of_nat (nl_socks m) = t_nconn (v_cl v)
    /\ (0 <= i -> nl_index m = Some i) /\ nl_ident m = v_ident v
    /\ (0 < t_timeout (v_cl v) < 2 ^ 31 -> nl_timeout m = Some (t_timeout (v_cl v))).
Proof.
  intros v i sz fl D N P B. unfold netlink_setup. rewrite (proj2 (Z.ltb_ge _ _)) by lia. rewrite D. eexists. split; [reflexivity|].
  cbn [nl_size nl_bs nl_fl nl_socks nl_index nl_ident nl_timeout]. unfold connections.
  destruct (Z.to_nat (t_nconn (v_cl v))) as [|n] eqn:En; [lia|]. rewrite (turns_same _ _ _ _ P), (turn_value _ _ _ _ P). cbn [fst snd].
  rewrite (u64_pos _ B). conj; auto.
  - lia.
  - intros Hi. rewrite (proj2 (Z.ltb_ge _ _)) by lia. reflexivity.
  - intros Ht. rewrite (proj2 (Z.eqb_neq _ _)) by lia. rewrite (u64_pos _ Ht). reflexivity.
Qed.
Print Assumptions C80_netlink_partial.
Example C80_netlink_partial_ex : exists v, main None true (removelast full_args) = MGo v /\ device_of v = VIndex 3
  /\ netlink_setup v (fun _ => (1000, 1)) = Some (mkNl (Some 3) 1000 4096 3 (Some 30) None 2).
Proof. eexists. split; [vm_compute; reflexivity|]. split; vm_compute; reflexivity. Qed.

(** without netlink the end of an export that is not in whole blocks is lost *)
Theorem C80_size_cut_refuted : exists v, main None false [AOpt "N" (text "x"); AWord (text "h"); AWord (text "/dev/nbd0")] = MGo v
  /\ kd_size (kcalls nodev (fst (ioctl_calls (v_cl v) (fun _ => (1000, 1))))) = 512.
Proof. eexists. split; [vm_compute; reflexivity|]. vm_compute; reflexivity. Qed.
Print Assumptions C80_size_cut_refuted.
(** connections that announce different exports make one device: the size of the
    first without netlink, that of the last with it *)
Definition two_exports (i : nat) : Z * Z := match i with O => (8192, 1) | _ => (4096, 3) end.
Theorem C80_different_exports_refuted : exists v m,
  main None true full_args = MGo v /\ kcalls nodev (fst (ioctl_calls (v_cl v) two_exports)) = mkKd 4096 8192 3 true 30 [0%nat; 1%nat]
  /\ main None true (removelast full_args) = MGo m
  /\ netlink_setup m two_exports = Some (mkNl (Some 3) 4096 4096 3 (Some 30) None 2).
Proof. eexists. eexists. split; [vm_compute; reflexivity|]. split; [vm_compute; reflexivity|]. split; [vm_compute; reflexivity|]. vm_compute; reflexivity. Qed.
Print Assumptions C80_different_exports_refuted.
(** -C 0 (or a number that cannot be read) sets up a device of size 0 without any
    connection *)
Theorem C80_no_connection_refuted : exists v, main None true [AOpt "N" (text "x"); AOpt "C" (text "two"); AWord (text "h"); AWord (text "/dev/nbd0")] = MGo v
  /\ netlink_setup v (fun _ => (8192, 1)) = Some (mkNl (Some 0) 0 512 0 None None 0).
Proof. eexists. split; [vm_compute; reflexivity|]. vm_compute; reflexivity. Qed.
Print Assumptions C80_no_connection_refuted.
(** a reconnect makes one connection, however many there were *)
Theorem C80_again_partial : forall c old neg k l, 0 < t_bs c < 2 ^ 31 -> again_calls c old neg = Some l ->
  let k' := kcalls k l in
  kd_bs k' = t_bs c /\ kd_size k' = t_bs c * (old / t_bs c) /\ kd_fl k' = snd neg /\ kd_ro k' = flag (snd neg) 2 /\ length (kd_socks k') = 1%nat.
Proof.
  intros c old neg k l B. unfold again_calls. destruct (old =? fst neg) eqn:E; [|discriminate]. apply Z.eqb_eq in E. intros H. injection H as <-. cbv zeta.
  unfold setsizes, set_timeout_calls. rewrite (u64_pos _ B), <- E. destruct (t_timeout c =? 0); cbn; repeat split.
Qed.
Print Assumptions C80_again_partial.
Example C80_again_partial_ex : exists l, again_calls initial 8192 (8192, 3) = Some l /\ kcalls nodev l = mkKd 512 8192 3 true 0 [0%nat].
Proof. eexists. split; [vm_compute; reflexivity|]. vm_compute; reflexivity. Qed.
Theorem C80_connections_lost_refuted : exists v l, main None true (AOpt "p" [] :: full_args) = MGo v /\ reconnects v = true
  /\ again_calls (v_cl v) 8192 (8192, 3) = Some l
  /\ kd_socks (kcalls nodev (fst (ioctl_calls (v_cl v) (fun _ => (8192, 1))))) = [0%nat; 1%nat]
  /\ kd_socks (kcalls (kcalls nodev (fst (ioctl_calls (v_cl v) (fun _ => (8192, 1))))) l) = [0%nat].
Proof. eexists. eexists. split; [vm_compute; reflexivity|]. split; [vm_compute; reflexivity|]. split; [vm_compute; reflexivity|]. split; vm_compute; reflexivity. Qed.
Print Assumptions C80_connections_lost_refuted.

(** ** C81 *)
(** the first address that accepts is used and no other socket is left open *)
Theorem C81_first_address : forall l r o, opennet (Some l) = (r, o) ->
  match r with
  | None => o = [] /\ forall x, In x l -> snd x <> TConnected
  | Some (a, i) => o = [i] /\ exists pre post, l = pre ++ (a, TConnected) :: post /\ forall x, In x pre -> snd x <> TConnected
  end.
Proof. intros l. exact (open_first_spec l 0). Qed.
Print Assumptions C81_first_address.
Example C81_first_address_ex : opennet (Some [(text "::1", TRefused); (text "a", TNoSocket); (text "127.0.0.1", TConnected); (text "b", TConnected)])
  = (Some (text "127.0.0.1", 1), [1]).
Proof. reflexivity. Qed.
(** a Unix path is used whole or not at all *)
Theorem C81_unix_path : forall path ok r, openunix path ok = Some r -> r = path /\ zlen path < 108.
Proof. exact openunix_spec. Qed.
Print Assumptions C81_unix_path.
Example C81_unix_path_ex : openunix (text "/run/nbd.sock") (fun _ => true) = Some (text "/run/nbd.sock") /\ openunix (repeat 97 108) (fun _ => true) = None.
Proof. split; reflexivity. Qed.
(** -c looks at the device itself, also for a partition of it *)
Theorem C81_check : forall sys d n part print, ~ In 47 n -> ~ In 112 n -> ~ In 47 part -> zlen n <= 240 ->
  (d = n \/ d = n ++ 112 :: part \/ exists dir, d = dir ++ 47 :: n \/ d = dir ++ 47 :: n ++ 112 :: part) ->
  (fst (check_conn sys d print) = 0 <-> exists s, sys (text "/sys/block/" ++ n ++ text "/pid") = SysText s)
  /\ (fst (check_conn sys d print) = 1 <-> sys (text "/sys/block/" ++ n ++ text "/pid") = SysAbsent)
  /\ (forall s, sys (text "/sys/block/" ++ n ++ text "/pid") = SysText s -> zlen s <= 255 -> print = true -> snd (check_conn sys d print) = Some s).
Proof.
  intros sys d n part print N1 N2 N3 L H. unfold check_conn. rewrite (sys_path_spec _ _ _ N1 N2 N3 L H).
  destruct (sys (text "/sys/block/" ++ n ++ text "/pid")) as [| | |s]; cbn [fst snd]; conj;
    try (split; [intros; try discriminate; eauto | intros; try discriminate; eauto]);
    try (match goal with X : exists _, _ |- _ => destruct X; discriminate end); try (intros; discriminate); auto.
  intros s' Es Hl ->. injection Es as <-. unfold zlen in Hl. rewrite !firstn_all2; [reflexivity|lia|rewrite firstn_length; lia].
Qed.
Print Assumptions C81_check.
Example C81_check_ex : check_conn (fun p => if list_eq_dec Z.eq_dec p (text "/sys/block/nbd3/pid") then SysText (text "4711") else SysAbsent) (text "/dev/nbd3p1") true
  = (0, Some (text "4711")).
Proof. reflexivity. Qed.
(** any other device is cut at a 'p' in its name *)
Theorem C81_name_cut_refuted : exists sys, sys (text "/sys/block/loop0/pid") = SysText (text "1") /\ check_conn sys (text "/dev/loop0") true = (1, None).
Proof. exists (fun p => if list_eq_dec Z.eq_dec p (text "/sys/block/loop0/pid") then SysText (text "1") else SysAbsent). split; reflexivity. Qed.
Print Assumptions C81_name_cut_refuted.
