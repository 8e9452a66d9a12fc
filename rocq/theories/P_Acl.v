(** Properties of client authorization: C34 to C36. *)
From Verif Require Import Base M_Acl S_Acl L_Acl L_AclFile.

(** ** C34: masks *)
(** Entry text [host/n], for every text [host] without a slash and whatever
    addresses it denotes: the client is admitted exactly if one of them agrees
    with it on the first [n] bits ([admits], S_Acl.v; for an IPv6 client and an
    IPv4 entry, if the client is the mapped form of such an IPv4 address). *)
Theorem C34_mask_matches_prefix_partial :
  forall gai host client res n,
    ~ In 47 host -> gai host = Some res -> good_addr client ->
    Forall (fun r => good_addr r /\ ~ v6_for_v4 client r /\ 0 <= n <= addr_bits r) res ->
    0 <= n <= addr_bits client ->
    (address_matches gai (host ++ 47 :: decimal n) client = AYes /\ Exists (fun r => admits client r n) res) \/
    (address_matches gai (host ++ 47 :: decimal n) client = ANo /\ ~ Exists (fun r => admits client r n) res).
Proof. exact address_matches_mask. Qed.
Print Assumptions C34_mask_matches_prefix_partial.

(** an entry without a mask admits exactly the address it names *)
Theorem C34_no_mask_is_equality :
  forall gai host client res,
    ~ In 47 host -> gai host = Some res -> good_addr client ->
    Forall (fun r => good_addr r /\ same_family client r) res ->
    (address_matches gai host client = AYes /\ In client res) \/
    (address_matches gai host client = ANo /\ ~ In client res).
Proof. exact address_matches_plain. Qed.
Print Assumptions C34_no_mask_is_equality.

(** texts "a" and "b" denoting 10.1.2.0 and ::ffff:10.0.0.0 *)
Definition demo_gai (h : list Z) : option (list sa) :=
  match h with
  | [97] => Some [V4 [10;1;2;0]]
  | [98] => Some [V6 (v4mapped [10;0;0;0])]
  | [48;46;48;46;48;46;48] => Some [V4 [0;0;0;0]]
  | _ => None
  end.
Ltac good := cbn; repeat split; try (repeat constructor; lia).
Example C34_demo :
  ~ In 47 [97] /\ demo_gai [97] = Some [V4 [10;1;2;0]] /\ good_addr (V4 [10;1;3;77]) /\ good_addr (V4 [10;1;2;0]) /\
  good_addr (V6 (v4mapped [10;1;3;77])) /\
  address_matches demo_gai ([97] ++ 47 :: decimal 23) (V4 [10;1;3;77]) = AYes /\
  address_matches demo_gai ([97] ++ 47 :: decimal 24) (V4 [10;1;3;77]) = ANo /\
  address_matches demo_gai ([97] ++ 47 :: decimal 23) (V6 (v4mapped [10;1;3;77])) = AYes /\
  address_matches demo_gai [97] (V4 [10;1;2;0]) = AYes /\
  same_prefix 23 [10;1;3;77] [10;1;2;0].
Proof.
  split; [intros [K|[]]; discriminate|]. split; [reflexivity|]. split; [good|]. split; [good|]. split; [good|].
  repeat (split; [vm_compute; reflexivity|]).
  intros i Hi.
  assert (K : forallb (fun k => Bool.eqb (addr_bit [10;1;3;77] (Z.of_nat k)) (addr_bit [10;1;2;0] (Z.of_nat k))) (seq 0 23) = true)
    by (vm_compute; reflexivity).
  rewrite forallb_forall in K. specialize (K (Z.to_nat i)). rewrite in_seq, Z2Nat.id in K by lia.
  apply Bool.eqb_prop. apply K. lia.
Qed.

(** Missing above: an IPv6 entry and an IPv4 client.  The mask number then
    counts from bit 96, and numbers above 32 are refused: ::ffff:10.0.0.0/104
    does not admit 10.1.2.3, although the mapped address agrees on 104 bits;
    ::ffff:10.0.0.0/8 does not admit 11.0.0.1, although the mapped address
    agrees on 8 bits. *)
Theorem C34_ipv6_entry_ipv4_client_refuted :
  exists gai host e client n,
    gai host = Some [V6 e] /\ good_addr (V6 e) /\ good_addr (V4 client) /\ 0 <= n <= 128 /\
    same_prefix n (v4mapped client) e /\
    address_matches gai (host ++ 47 :: decimal n) (V4 client) = ANo.
Proof.
  exists demo_gai, [98], (v4mapped [10;0;0;0]), [10;1;2;3], 104.
  split; [reflexivity|]. split; [good|]. split; [good|]. split; [lia|]. split; [|vm_compute; reflexivity].
  intros i Hi.
  assert (K : forallb (fun k => Bool.eqb (addr_bit (v4mapped [10;1;2;3]) (Z.of_nat k)) (addr_bit (v4mapped [10;0;0;0]) (Z.of_nat k))) (seq 0 104) = true)
    by (vm_compute; reflexivity).
  rewrite forallb_forall in K. specialize (K (Z.to_nat i)). rewrite in_seq, Z2Nat.id in K by lia.
  apply Bool.eqb_prop. apply K. lia.
Qed.
Print Assumptions C34_ipv6_entry_ipv4_client_refuted.

(** What such an entry does: with a number of at most 32, or without one, the
    client is admitted exactly if its mapped address agrees with the entry on
    that many bits after the first 96, and on those. *)
Theorem C34_ipv6_entry_counts_from_bit_96 :
  forall gai host a res n entry,
    ~ In 47 host -> gai host = Some (map V6 res) -> good_addr (V4 a) -> Forall (fun b => good_addr (V6 b)) res ->
    (entry = host ++ 47 :: decimal n /\ 0 <= n <= 32) \/ (entry = host /\ n = 32) ->
    (address_matches gai entry (V4 a) = AYes /\ Exists (fun b => same_prefix (96 + n) (v4mapped a) b) res) \/
    (address_matches gai entry (V4 a) = ANo /\ Forall (fun b => ~ same_prefix (96 + n) (v4mapped a) b) res).
Proof. exact v6_entry_v4_client. Qed.
Print Assumptions C34_ipv6_entry_counts_from_bit_96.
Example C34_demo96 :
  ~ In 47 [98] /\ demo_gai [98] = Some (map V6 [v4mapped [10;0;0;0]]) /\ good_addr (V4 [10;9;8;7]) /\ good_addr (V6 (v4mapped [10;0;0;0])) /\
  address_matches demo_gai ([98] ++ 47 :: decimal 8) (V4 [10;9;8;7]) = AYes /\
  address_matches demo_gai ([98] ++ 47 :: decimal 8) (V4 [11;9;8;7]) = ANo /\
  address_matches demo_gai [98] (V4 [10;0;0;0]) = AYes /\ address_matches demo_gai [98] (V4 [10;0;0;1]) = ANo.
Proof.
  split; [intros [K|[]]; discriminate|]. split; [reflexivity|]. split; [good|]. split; [good|].
  repeat split; vm_compute; reflexivity.
Qed.

(** ** C35: the authorization file *)
(** For a file of ordinary text ([plain_text], S_Acl.v) whose entries can be
    compared with the client's address at all (C36), the client is admitted
    exactly if an entry matches. *)
Theorem C35_file_is_enforced_partial :
  forall gai client content, plain_text content ->
    Forall (fun e => address_matches gai e client = AYes \/ address_matches gai e client = ANo) (entries content) ->
    (authorized_client gai (Some (Some content)) client = AYes /\
       Exists (fun e => address_matches gai e client = AYes) (entries content)) \/
    (authorized_client gai (Some (Some content)) client = ANo /\
       Forall (fun e => address_matches gai e client = ANo) (entries content)).
Proof. exact file_entries. Qed.
Print Assumptions C35_file_is_enforced_partial.

(** without the file everybody is admitted; an empty one admits nobody *)
Theorem C35_missing_and_empty_file :
  forall gai client, authorized_client gai None client = AYes /\ authorized_client gai (Some None) client = AYes /\
    authorized_client gai (Some (Some [])) client = ANo.
Proof. intros. repeat split. Qed.
Print Assumptions C35_missing_and_empty_file.

(** comment, blank line, " a/24 x # c", newline missing on the last line *)
Definition demo_acl : list Z := [35;97;10] ++ [32;10] ++ [32;97;47;50;52;32;120;32;35;99;10] ++ [98].
Example C35_demo :
  plain_text demo_acl /\ entries demo_acl = [[97;47;50;52]; [98]] /\
  Forall (fun e => address_matches demo_gai e (V4 [10;1;2;9]) = AYes \/ address_matches demo_gai e (V4 [10;1;2;9]) = ANo) (entries demo_acl) /\
  authorized_client demo_gai (Some (Some demo_acl)) (V4 [10;1;2;9]) = AYes /\
  authorized_client demo_gai (Some (Some demo_acl)) (V4 [10;1;3;9]) = ANo.
Proof.
  split; [split; [intros K; cbn in K; intuition discriminate|vm_compute; repeat constructor]|].
  split; [reflexivity|]. split; [|split; reflexivity].
  change (entries demo_acl) with [[97;47;50;52]; [98]]. constructor; [left; reflexivity|].
  constructor; [right; reflexivity|constructor].
Qed.

(** A comment line of 255 bytes or more is cut in pieces, and its second piece
    is read as an entry: the file below has no entries, yet admits everybody. *)
Theorem C35_long_comment_admits_refuted :
  exists gai content client, good_addr client /\ ~ In 0 content /\ entries content = [] /\
    authorized_client gai (Some (Some content)) client = AYes.
Proof.
  exists demo_gai, (35 :: repeat 120 254 ++ [48;46;48;46;48;46;48;47;48;10]), (V4 [1;2;3;4]).
  split; [good|]. split; [|split; vm_compute; reflexivity].
  intros [K|K]; [discriminate|]. apply in_app_iff in K. destruct K as [K|K]; [apply repeat_spec in K; discriminate|].
  cbn in K. intuition discriminate.
Qed.
Print Assumptions C35_long_comment_admits_refuted.

(** ** C36: malformed entries *)
(** whatever the file contains, deciding about an IPv4 client stays inside the
    address structures *)
Theorem C36_ipv4_clients_are_safe_partial :
  forall gai authfile b, gai_ok gai -> good_addr (V4 b) ->
    authorized_client gai authfile (V4 b) = AYes \/ authorized_client gai authfile (V4 b) = ANo.
Proof. exact ipv4_client_safe. Qed.
Print Assumptions C36_ipv4_clients_are_safe_partial.

(** for IPv6 clients, an entry is safe if it names no IPv4 address or has a mask
    number of at most 32 ([narrow], S_Acl.v) *)
Theorem C36_ipv6_clients_partial :
  forall gai mask client, gai_ok gai -> good_addr client ->
    (match client with V6 _ => narrow gai mask | _ => True end) ->
    address_matches gai mask client = AYes \/ address_matches gai mask client = ANo.
Proof. exact address_safe. Qed.
Print Assumptions C36_ipv6_clients_partial.

Example C36_demo :
  gai_ok demo_gai /\ good_addr (V4 [10;1;2;9]) /\ good_addr (V6 (v4mapped [10;1;2;0])) /\
  narrow demo_gai [97;47;51;50] /\
  address_matches demo_gai [97;47;51;50] (V6 (v4mapped [10;1;2;0])) = AYes.
Proof.
  split.
  { intros h res. unfold demo_gai.
    repeat (match goal with |- (match ?x with _ => _ end) = _ -> _ => destruct x; try discriminate end);
      intros H; injection H as <-; repeat constructor; lia. }
  split; [good|]. split; [good|]. split; [|vm_compute; reflexivity].
  left. exists [97], [51;50]. split; [intros [K|[]]; discriminate|]. split; [reflexivity|]. vm_compute. split; discriminate.
Qed.

(** An entry that is just an IPv4 address is read past its end when the client
    connects from that address over IPv6 (as it does on a dual-stack socket). *)
Theorem C36_unmasked_ipv4_entry_over_reads :
  forall gai host a b rest, ~ In 47 host -> gai host = Some (V4 b :: rest) -> length b = 4%nat -> a = v4mapped b ->
    address_matches gai host (V6 a) = AUb.
Proof. exact unmasked_over_read. Qed.
Print Assumptions C36_unmasked_ipv4_entry_over_reads.

Theorem C36_over_read_refuted :
  exists gai content client, good_addr client /\ authorized_client gai (Some (Some content)) client = AUb.
Proof. exists demo_gai, [97;10], (V6 (v4mapped [10;1;2;0])). split; [good|vm_compute; reflexivity]. Qed.
Print Assumptions C36_over_read_refuted.

(** a client on a socket of another family (AF_UNIX) trips the assertion *)
Theorem C36_unix_client_aborts_refuted :
  exists gai content, authorized_client gai (Some (Some content)) VOther = AAbort.
Proof. exists demo_gai, [97;10]. vm_compute. reflexivity. Qed.
Print Assumptions C36_unix_client_aborts_refuted.

(** "address/abc" admits every client of the family *)
Theorem C36_word_as_mask_admits_everybody :
  forall gai host client r rest, ~ In 47 host -> gai host = Some (r :: rest) -> good_addr client -> same_family client r ->
    address_matches gai (host ++ 47 :: [97; 98; 99]) client = AYes.
Proof. exact bad_mask_admits_family. Qed.
Print Assumptions C36_word_as_mask_admits_everybody.

(** and a huge mask number is cut to 32 bits: /4294967304 acts as /8 *)
Theorem C36_mask_number_truncated_refuted :
  exists gai mask client, good_addr client /\ mask = [97] ++ 47 :: decimal 4294967304 /\
    gai [97] = Some [V4 [10;1;2;0]] /\ client = V4 [10;200;0;1] /\ address_matches gai mask client = AYes.
Proof.
  eexists demo_gai, _, (V4 [10;200;0;1]). split; [good|]. split; [reflexivity|]. repeat (split; [reflexivity|]). vm_compute. reflexivity.
Qed.
Print Assumptions C36_mask_number_truncated_refuted.
