(** C104: a request that is spliced fits in its pipe. *)
From Verif Require Import Base M_Pipe S_Pipe L_Pipe.
Local Open Scope list_scope.

(** A spliced read goes through, or waits for ever, according to the pages it touches. *)
Theorem C104_read_exact : forall a len, 0 <= a -> (read_fill a len = Blocks <-> 256 < pages a len) /\ read_fill a len <> Waits.
Proof. intros a len Ha. split; [exact (read_exact a len Ha)|exact (read_done a len Ha)]. Qed.
Print Assumptions C104_read_exact.
Example C104_read_exact_cases : read_fill 4095 2 = Done 254 /\ pages 4095 2 = 2 /\ read_fill 4096 1048576 = Done 0 /\ read_fill 4097 1048576 = Blocks /\ pages 4097 1048576 = 257.
Proof. vm_compute. repeat split. Qed.

(** Reads that begin with a page, and all reads up to 1044481 bytes, go through. *)
Theorem C104_read_partial : forall a len, 0 <= a -> takes_pipe len = true -> a mod 4096 = 0 \/ len <= 1044481 -> exists n, read_fill a len = Done n.
Proof. intros a len Ha T H. apply read_fits; [exact Ha|apply Z.leb_le; exact T|exact H]. Qed.
Print Assumptions C104_read_partial.
Example C104_read_partial_cases : takes_pipe 1044481 = true /\ read_fill 4095 1044481 = Done 0 /\ read_fill 8192 1048576 = Done 0.
Proof. vm_compute. repeat split. Qed.

(** A read of 1 MiB that does not begin with a page, as mkpipe lets through, waits for ever. *)
Theorem C104_read_full : forall a, 0 <= a -> a mod 4096 <> 0 -> takes_pipe 1048576 = true /\ read_fill a 1048576 = Blocks.
Proof. intros a Ha H. split; [reflexivity|exact (read_full a Ha H)]. Qed.
Print Assumptions C104_read_full.
Theorem C104_read_refuted : exists a len, 0 <= a /\ takes_pipe len = true /\ read_fill a len = Blocks.
Proof. exists 512, 1048576. vm_compute. repeat split; discriminate. Qed.
Print Assumptions C104_read_refuted.

(** A spliced write does not wait for a slot if the pieces that come are large enough: 256
    of them hold the data. *)
Theorem C104_write_partial : forall m len ps, 0 < m -> Forall (fun p => m <= p) ps -> len <= 256 * m -> write_fill len ps <> Blocks.
Proof. intros m len ps Hm F H. apply (sock_fits m SLOTS); auto. Qed.
Print Assumptions C104_write_partial.
Example C104_write_partial_case : Forall (fun p => 4096 <= p) (repeat 4096 256) /\ write_fill 1048576 (repeat 4096 256) = Done 0.
Proof. split; [apply Forall_forall; intros x H; apply repeat_spec in H; subst; discriminate|vm_compute; reflexivity]. Qed.

(** With smaller pieces it waits for ever. *)
Theorem C104_write_small_pieces : forall m len ps, 0 < m -> Forall (fun p => 0 < p <= m) ps -> (256 <= length ps)%nat -> 256 * m < len -> write_fill len ps = Blocks.
Proof. intros m len ps Hm F L H. apply (sock_blocks m SLOTS); auto. Qed.
Print Assumptions C104_write_small_pieces.
(** Half a MiB in pieces of 1448 bytes, what one Ethernet frame brings. *)
Theorem C104_write_refuted : exists len ps, takes_pipe len = true /\ Forall (fun p => 0 < p) ps /\ fold_right Z.add 0 ps >= len /\ write_fill len ps = Blocks.
Proof.
  exists 524288, (repeat 1448 363). split; [reflexivity|]. split; [apply Forall_forall; intros x H; apply repeat_spec in H; subst; reflexivity|]. split; [vm_compute; discriminate|vm_compute; reflexivity].
Qed.
Print Assumptions C104_write_refuted.
