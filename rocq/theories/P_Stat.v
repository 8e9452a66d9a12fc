(** C89: nbd-client -d and nbd-get-status. *)
From Coq Require Import String.
From Verif Require Import Base M_Acl M_Nego M_Tab S_Acl S_Dev L_Dev M_Stat S_Stat L_Stat.
Local Open Scope list_scope.

Definition ready : dsys := mkDs (fun _ => true) (fun _ _ => true) (fun _ => true). (* nbd-client.c:218-247, 902-915 *)

(** with netlink the device named by the last -d is the one disconnected *)
Theorem C89_netlink_partial : forall y l n r, only_options l -> last_opt "d" l = Some (dev_name n) -> last_opt "L" l = None -> 0 <= n < 2 ^ 31 ->
  run_disconnect y true l = Some r -> r = if d_nl y n then DNetlink n else DError.
Proof.
  intros y l n r Ho Hd HL Hn. unfold run_disconnect. destruct (do_args _ l) as [v|] eqn:E; [|discriminate]. pose proof (f_disc _ _ _ E) as Fd. rewrite Hd in Fd. rewrite Fd.
  pose proof (f_netlink _ _ _ E) as Fn. rewrite HL in Fn. cbn [v_netlink] in Fn. rewrite Fn. pose proof (f_dev _ _ _ Ho E) as Fv. rewrite Hd in Fv. rewrite Fv.
  intros [= <-]. unfold netlink_disconnect. rewrite sscanf_name by exact Hn. destruct (Z.ltb_spec n 0); [lia|reflexivity].
Qed.
Print Assumptions C89_netlink_partial.
Example C89_netlink_partial_ex : run_disconnect ready true [AOpt "t" (text "3"); AOpt "d" (text "/dev/nbd12")] = Some (DNetlink 12) /\ dev_name 12 = text "/dev/nbd12".
Proof. split; vm_compute; reflexivity. Qed.

(** whatever is on the command line: a number that the kernel is told to disconnect
    is not negative, is the one in the name of a device, and the kernel accepted it *)
Theorem C89_netlink_number : forall y nl l i, run_disconnect y nl l = Some (DNetlink i) ->
  0 <= i < 2 ^ 31 /\ d_nl y i = true /\ exists d, sscanf_nbd d = Some i /\ exists rest, d = text "/dev/nbd" ++ rest.
Proof.
  intros y nl l i. unfold run_disconnect. destruct (do_args _ l) as [v|]; [|discriminate]. destruct (v_disc v); [|discriminate]. intros [= H].
  destruct (v_netlink v).
  - unfold netlink_disconnect in H. destruct (t_dev (v_cl v)) as [d|]; [|discriminate]. destruct (sscanf_nbd d) as [n|] eqn:E; [|discriminate].
    destruct (Z.ltb_spec n 0); [discriminate|]. destruct (d_nl y n) eqn:En; [|discriminate]. injection H as <-. split; [|split; [exact En|exists d; split; [exact E|]]].
    + unfold sscanf_nbd in E. destruct (M_Conf.starts _ d); [|discriminate]. cbv zeta in E.
      match type of E with match ?r with _ => _ end = _ => destruct r as [|x t]; [discriminate|] end. destruct (isdigit x); [|discriminate]. injection E as <-.
      split; [assumption|]. unfold i32. change (2 ^ 31) with 2147483648. pose proof (Z.mod_pos_bound (strtol (skip_space (skipn 8 d)) + 2147483648) 4294967296 ltac:(lia)). lia.
    + unfold sscanf_nbd in E. destruct (M_Conf.starts (text "/dev/nbd") d) eqn:Es; [|discriminate]. clear -Es.
      assert (G : forall p d, M_Conf.starts p d = true -> exists rest, d = p ++ rest).
      { induction p as [|x p IH]; intros e He; [exists e; reflexivity|]. destruct e as [|y e]; [discriminate|]. cbn in He. apply andb_true_iff in He as [H1 H2].
        apply Z.eqb_eq in H1 as ->. destruct (IH _ H2) as [rest ->]. exists rest. reflexivity. }
      apply G. exact Es.
  - unfold disconnect in H. destruct (t_dev (v_cl v)) as [d|]; [|discriminate]. destruct (negb (d_open y d)); [discriminate|].
    destruct (negb (d_ioctl y d IDisconnect)); [discriminate|]. destruct (negb (d_ioctl y d IClearSock)); discriminate.
Qed.
Print Assumptions C89_netlink_number.
Example C89_netlink_number_ex : run_disconnect ready true [AOpt "d" (text "/dev/nbd-1")] = Some DError /\ run_disconnect ready true [AOpt "d" (text "/dev/nbd4294967295")] = Some DError
  /\ run_disconnect ready true [AOpt "d" (text "/dev/nbd2147483647")] = Some (DNetlink 2147483647).
Proof. split; [|split]; vm_compute; reflexivity. Qed.

(** without it the file named is the one worked on, and success means that both
    calls were made and worked *)
Theorem C89_ioctl_partial : forall y nl l d r, only_options l -> last_opt "d" l = Some d -> nl = false \/ last_opt "L" l <> None ->
  run_disconnect y nl l = Some r ->
  (r = DError /\ d_open y d = false) \/
  exists c ok, r = DIoctls d c ok /\ d_open y d = true /\ (ok = true <-> d_ioctl y d IDisconnect = true /\ d_ioctl y d IClearSock = true) /\ (ok = true <-> c = [IDisconnect; IClearSock]).
Proof.
  intros y nl l d r Ho Hd HL. unfold run_disconnect. destruct (do_args _ l) as [v|] eqn:E; [|discriminate]. pose proof (f_disc _ _ _ E) as Fd. rewrite Hd in Fd. rewrite Fd.
  pose proof (f_netlink _ _ _ E) as Fn. cbn [v_netlink] in Fn. assert (N : v_netlink v = false) by (destruct (last_opt "L" l); [exact Fn|destruct HL as [->|X]; [exact Fn|now destruct X]]).
  rewrite N. pose proof (f_dev _ _ _ Ho E) as Fv. rewrite Hd in Fv. rewrite Fv. intros [= <-]. unfold disconnect. destruct (d_open y d) eqn:Eo; cbn [negb]; [right|now left].
  destruct (d_ioctl y d IDisconnect) eqn:E1; cbn [negb]; [destruct (d_ioctl y d IClearSock) eqn:E2; cbn [negb]|]; do 2 eexists; (split; [reflexivity|]); (split; [reflexivity|]);
    (split; [split; [intros X; first [discriminate X|auto]|intros [X1 X2]; first [discriminate X1|discriminate X2|reflexivity]]|split; intros X; first [discriminate X|reflexivity]]).
Qed.
Print Assumptions C89_ioctl_partial.
Example C89_ioctl_partial_ex : run_disconnect ready true [AOpt "L" []; AOpt "d" (text "/dev/nbd12")] = Some (DIoctls (text "/dev/nbd12") [IDisconnect; IClearSock] true).
Proof. vm_compute. reflexivity. Qed.

(** nothing is disconnected without -d *)
Theorem C89_only_with_d : forall y nl l r, run_disconnect y nl l = Some r -> last_opt "d" l <> None.
Proof.
  intros y nl l r. unfold run_disconnect. destruct (do_args _ l) as [v|] eqn:E; [|discriminate]. pose proof (f_disc _ _ _ E) as Fd. cbn [v_disc] in Fd. destruct (last_opt "d" l); [discriminate|].
  rewrite Fd. discriminate.
Qed.
Print Assumptions C89_only_with_d.
Example C89_only_with_d_ex : run_disconnect ready true [AOpt "N" (text "d"); AWord (text "h"); AWord (text "/dev/nbd0")] = None.
Proof. vm_compute. reflexivity. Qed.

(** a word that follows replaces the device of -d *)
Theorem C89_other_device_refuted : exists l, last_opt "d" l = Some (dev_name 0) /\ run_disconnect ready true l = Some (DNetlink 1).
Proof. exists [AOpt "d" (text "/dev/nbd0"); AWord (text "h"); AWord (text "/dev/nbd1")]. split; vm_compute; reflexivity. Qed.
Print Assumptions C89_other_device_refuted.
(** what is not the name of a device disconnects one: text after the number is
    ignored, numbers wrap, spaces are skipped *)
Theorem C89_names_refuted : run_disconnect ready true [AOpt "d" (text "/dev/nbd0p1")] = Some (DNetlink 0)
  /\ run_disconnect ready true [AOpt "d" (text "/dev/nbd4294967297")] = Some (DNetlink 1) /\ run_disconnect ready true [AOpt "d" (text "/dev/nbd 7x")] = Some (DNetlink 7).
Proof. split; [|split]; vm_compute; reflexivity. Qed.
Print Assumptions C89_names_refuted.

(** ** nbd-get-status *)
Theorem C89_status_ask_partial : status_ask None = Some None /\ forall n, 0 <= n < 2 ^ 31 -> status_ask (Some (dev_name n)) = Some (Some n).
Proof.
  split; [reflexivity|]. intros n H. unfold status_ask. rewrite sscanf_name by exact H. destruct (Z.leb_spec 0 n); [reflexivity|lia].
Qed.
Print Assumptions C89_status_ask_partial.
Example C89_status_ask_partial_ex : status_ask (Some (text "/dev/nbd15")) = Some (Some 15) /\ status_ask (Some (text "/dev/sda")) = None.
Proof. split; vm_compute; reflexivity. Qed.
(** a negative number, or one that becomes negative, asks for all *)
Theorem C89_status_all_refuted : status_ask (Some (text "/dev/nbd-1")) = Some None /\ status_ask (Some (text "/dev/nbd4294967295")) = Some None.
Proof. split; vm_compute; reflexivity. Qed.
Print Assumptions C89_status_all_refuted.
(** what is printed for the answer: one line per device, in order, with its state *)
Theorem C89_status_lines_partial : forall l : list (Z * Z), Forall (fun x => 0 <= fst x < 2 ^ 31) l ->
  status_callback (mkReply true (Some (map (fun x => mkItem 1 true (Some (fst x)) (Some (snd x))) l))) = SDone (map (fun x => says (fst x) (negb (snd x =? 0))) l).
Proof.
  intros l H. unfold status_callback. cbn [r_ok r_list negb]. induction H as [|[i c] l Hi Hl IH]; [reflexivity|]. cbn [map status_items it_type it_ok it_index it_conn fst snd negb].
  change (1 =? 1) with true. cbn [negb]. rewrite IH. cbn [scons fst] in *. now rewrite line_says.
Qed.
Print Assumptions C89_status_lines_partial.
Example C89_status_lines_partial_ex : status_callback (mkReply true (Some [mkItem 1 true (Some 0) (Some 1); mkItem 1 true (Some 10) (Some 0)])) =
  SDone [text "/dev/nbd0: connected"; text "/dev/nbd10: disconnected"].
Proof. vm_compute. reflexivity. Qed.
(** an answer without the list, or without one of the two attributes, is undefined
    behaviour; nbd-client reports it in the same place *)
Theorem C89_status_missing_refuted : status_callback (mkReply true None) = SUb /\ status_callback (mkReply true (Some [mkItem 1 true (Some 3) None])) = SUb
  /\ connect_callback true None = SErr [].
Proof. split; [|split]; reflexivity. Qed.
Print Assumptions C89_status_missing_refuted.
Theorem C89_connected : forall ok i, (forall n, i = Some n -> 0 <= n < 2 ^ 31) ->
  match connect_callback ok i with
  | SDone l => exists n, ok = true /\ i = Some n /\ l = [text "Connected " ++ dev_name n]
  | SErr l => l = [] /\ (ok = false \/ i = None)
  | SUb => False
  end.
Proof.
  intros [|] [n|] H; cbn; auto. specialize (H n eq_refl). exists n. split; [reflexivity|]. split; [reflexivity|]. rewrite show_decimal by exact H. reflexivity.
Qed.
Print Assumptions C89_connected.
Example C89_connected_ex : connect_callback true (Some 4) = SDone [text "Connected /dev/nbd4"].
Proof. vm_compute. reflexivity. Qed.
