(** C63: the file each client is served. *)
From Coq Require Import String.
From Verif Require Import Base M_Acl M_Nego M_Conf M_Virt S_Acl S_Virt L_Virt L_VirtP.
Local Open Scope list_scope.

(** example clients: 10.0.1.1, the same behind a dual-stack socket, 10.0.1.2,
    2001:db8::1 and ::ffff:1:2:3 (not a mapped address) *)
Definition cl1 : sa := V4 [10; 0; 1; 1].
Definition cl1m : sa := V6 [0; 0; 0; 0; 0; 0; 0; 0; 0; 0; 255; 255; 10; 0; 1; 1].
Definition cl2 : sa := V4 [10; 0; 1; 2].
Definition cl6 : sa := V6 [32; 1; 13; 184; 0; 0; 0; 0; 0; 0; 0; 0; 0; 0; 0; 1].
Definition cl6f : sa := V6 [0; 0; 0; 0; 0; 0; 0; 0; 255; 255; 0; 1; 0; 2; 0; 3].
Definition srv : list Z := text "/srv/%s.img".

(** ** ipliteral, the default *)
Theorem C63_literal_path : forall pre post cidr a port, free_of 37 pre -> free_of 37 post -> good_addr a ->
  exists name, set_peername (pre ++ text "%s" ++ post) VirtIplit cidr (Some (a, port)) = PSet (Some (pre ++ name ++ post)) name /\
    plain_name name.
Proof. intros pre post cidr a port H1 H2 Ha. exists (peername a). split; [exact (lit_path pre post cidr a port H1 H2)|exact (name_plain a Ha)]. Qed.
Print Assumptions C63_literal_path.
Theorem C63_literal_apart : forall pre post cidr a b pa pb s n1 n2, free_of 37 pre -> free_of 37 post -> good_addr a -> good_addr b ->
  set_peername (pre ++ text "%s" ++ post) VirtIplit cidr (Some (a, pa)) = PSet (Some s) n1 ->
  set_peername (pre ++ text "%s" ++ post) VirtIplit cidr (Some (b, pb)) = PSet (Some s) n2 ->
  host a = host b.
Proof. exact lit_apart. Qed.
Print Assumptions C63_literal_apart.
Example C63_demo1 :
  set_peername srv VirtIplit 0 (Some (cl1, [200; 1])) = PSet (Some (text "/srv/10.0.1.1.img")) (text "10.0.1.1") /\
  set_peername srv VirtIplit 0 (Some (cl1m, [200; 2])) = PSet (Some (text "/srv/10.0.1.1.img")) (text "10.0.1.1") /\
  set_peername srv VirtIplit 0 (Some (cl6, [200; 2])) = PSet (Some (text "/srv/2001:db8::1.img")) (text "2001:db8::1") /\
  set_peername srv VirtIplit 0 (Some (cl6f, [200; 2])) = PSet (Some (text "/srv/1:2:3.img")) (text "1:2:3").
Proof. vm_compute. auto. Qed.
Example C63_demo2 : free_of 37 (text "/srv/") /\ free_of 37 (text ".img") /\ good_addr cl1 /\ good_addr cl1m /\ good_addr cl6 /\ host cl1 = host cl1m /\ host cl1 <> host cl2.
Proof.
  split; [intros H; vm_compute in H; intuition discriminate|]. split; [intros H; vm_compute in H; intuition discriminate|].
  split; [|split; [|split; [|split; [reflexivity|discriminate]]]]; (split; [reflexivity|]); repeat constructor; unfold is_byte; lia.
Qed.

(** ** none, and names without a place for the client *)
Theorem C63_none : forall template cidr a port, exists name,
  set_peername template VirtNone cidr (Some (a, port)) = PSet (Some template) name.
Proof. intros. eexists. reflexivity. Qed.
Print Assumptions C63_none.
Theorem C63_no_place : forall template cidr a port style, free_of 37 template -> style = VirtIplit \/ style = VirtCidr -> exists name,
  set_peername template style cidr (Some (a, port)) = PSet (Some template) name.
Proof. intros template cidr a port style H [-> | ->]; eexists; unfold set_peername; rewrite sprintf_plain by exact H; reflexivity. Qed.
Print Assumptions C63_no_place.
Example C63_demo3 : set_peername (text "/srv/100%.img") VirtNone 0 (Some (cl1, [0; 0])) = PSet (Some (text "/srv/100%.img")) (text "10.0.1.1") /\
  set_peername (text "/srv/a") VirtCidr 24 (Some (cl1, [0; 0])) = PSet (Some (text "/srv/a")) (text "10.0.1.1").
Proof. vm_compute. auto. Qed.

(** A second %s takes an argument nobody passed. *)
Theorem C63_two_places_refuted : exists template a port, good_addr a /\ set_peername template VirtIplit 0 (Some (a, port)) = PUb.
Proof.
  exists (text "/srv/%s/%s"), cl1, [0; 0]. split; [|vm_compute; reflexivity]. split; [reflexivity|]. repeat constructor; unfold is_byte; lia.
Qed.
Print Assumptions C63_two_places_refuted.

(** ** cidrhash *)
Theorem C63_cidr_path_partial : forall pre post cidr a port, free_of 37 pre -> free_of 37 post -> good_addr a -> good_port port ->
  exists net name, set_peername (pre ++ text "%s" ++ post) VirtCidr cidr (Some (a, port)) = PSet (Some (pre ++ net ++ text "/" ++ name ++ post)) name /\
    free_of 47 net /\ plain_name name.
Proof.
  intros pre post cidr a port H1 H2 Ha [Pl Pb]. exists (netname a port cidr), (peername a).
  split; [exact (cidr_path pre post cidr a port H1 H2 Ha)|]. split; [apply lacks_spec; now apply net_lacks|exact (name_plain a Ha)].
Qed.
Print Assumptions C63_cidr_path_partial.
Theorem C63_cidr_apart : forall pre post cidr a b pa pb s n1 n2, free_of 37 pre -> free_of 37 post -> good_addr a -> good_addr b -> good_port pa -> good_port pb ->
  set_peername (pre ++ text "%s" ++ post) VirtCidr cidr (Some (a, pa)) = PSet (Some s) n1 ->
  set_peername (pre ++ text "%s" ++ post) VirtCidr cidr (Some (b, pb)) = PSet (Some s) n2 ->
  host a = host b.
Proof. exact cidr_apart. Qed.
Print Assumptions C63_cidr_apart.
Example C63_demo4 : good_port [0; 80] /\
  set_peername srv VirtCidr 32 (Some (cl1, [200; 1])) = PSet (Some (text "/srv/10.0.1.1/10.0.1.1.img")) (text "10.0.1.1").
Proof. split; [|vm_compute; reflexivity]. split; [reflexivity|]. repeat constructor; unfold is_byte; lia. Qed.

(** The mask is applied from the port on, not from the address: for every mask
    length under 32 there are two clients of one subnet whose files are in
    different directories. *)
Theorem C63_cidr_subnet_refuted : forall n, 0 <= n < 32 -> exists a b port d1 d2 f1 f2,
  length a = 4%nat /\ length b = 4%nat /\ same_prefix n a b /\
  set_peername (text "%s") VirtCidr n (Some (V4 a, port)) = PSet (Some (d1 ++ text "/" ++ f1)) f1 /\
  set_peername (text "%s") VirtCidr n (Some (V4 b, port)) = PSet (Some (d2 ++ text "/" ++ f2)) f2 /\
  d1 <> d2.
Proof.
  intros n Hn. exists [10; 0; 0; 0], [10; 0; 0; 1], [0; 80], (netname (V4 [10; 0; 0; 0]) [0; 80] n), (netname (V4 [10; 0; 0; 1]) [0; 80] n), (text "10.0.0.0"), (text "10.0.0.1").
  split; [reflexivity|]. split; [reflexivity|]. split; [now apply same_subnet|].
  assert (P : forall a, good_addr a -> forall f, peername a = f -> set_peername (text "%s") VirtCidr n (Some (a, [0; 80])) = PSet (Some (netname a [0; 80] n ++ text "/" ++ f)) f).
  { intros a Ha f Hf. pose proof (cidr_path [] [] n a [0; 80] (fun x => x) (fun x => x) Ha) as H. cbn [app] in H. rewrite app_nil_r in H. rewrite Hf in H. exact H. }
  split; [apply P; [split; [reflexivity|repeat constructor; unfold is_byte; lia]|reflexivity]|].
  split; [apply P; [split; [reflexivity|repeat constructor; unfold is_byte; lia]|reflexivity]|]. now apply subnets_apart.
Qed.
Print Assumptions C63_cidr_subnet_refuted.
(** and clients of different networks whose files are in one *)
Theorem C63_cidr_networks_refuted : exists a b port d f1 f2,
  good_addr (V4 a) /\ good_addr (V4 b) /\ ~ same_prefix 8 a b /\
  set_peername (text "%s") VirtCidr 8 (Some (V4 a, port)) = PSet (Some (d ++ text "/" ++ f1)) f1 /\
  set_peername (text "%s") VirtCidr 8 (Some (V4 b, port)) = PSet (Some (d ++ text "/" ++ f2)) f2.
Proof.
  exists [10; 0; 1; 1], [11; 0; 1; 1], [0; 80], (text "0.0.1.1"), (text "10.0.1.1"), (text "11.0.1.1").
  split; [split; [reflexivity|repeat constructor; unfold is_byte; lia]|]. split; [split; [reflexivity|repeat constructor; unfold is_byte; lia]|].
  split; [intros H; specialize (H 7 ltac:(lia)); vm_compute in H; discriminate|]. vm_compute. auto.
Qed.
Print Assumptions C63_cidr_networks_refuted.

(** ** iphash *)
(** No client gets a file at all. *)
Theorem C63_iphash_refuted : forall template cidr a port, exists name,
  set_peername template VirtIphash cidr (Some (a, port)) = PSet None name.
Proof. intros. eexists. reflexivity. Qed.
Print Assumptions C63_iphash_refuted.
Example C63_demo5 : set_peername srv VirtIphash 0 (Some (cl1, [200; 1])) = PSet None (text "10/0/1/1").
Proof. vm_compute. reflexivity. Qed.
