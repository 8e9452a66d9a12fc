(** Who may change what on a machine with several exports. *)
From Verif Require Import Base M_Const M_Disk M_Acl M_Nego M_Conn.

(** the client may use export [j]: it is configured, the client's address is
    authorized for it, and TLS is in place if the server or the export demands it *)
Definition may_use (E : nenv) (l : list export) (glob : Z) (tr : list nev) (j : nat) (e : export) : Prop :=
  nth_error l j = Some e /\ authorized_client (e_gai E) (x_auth e) (e_peer E) = AYes /\
  (flag glob F_FORCEDTLS = true \/ flag (x_flags e) F_FORCEDTLS = true -> In NTls tr).

(** an export whose stored files requests may change *)
Definition writable (e : export) : Prop :=
  flag (x_flags e) F_READONLY = false /\
  (flag (x_flags e) F_COPYONWRITE = false \/ flag (x_flags e) F_SPLICE = true \/ flag (x_flags e) F_TREEFILES = true).

(** [f'] is what opening an export of configured size makes of [f]: nothing but
    zeroes in place of an empty or temporary file *)
Definition grown (e : export) (f f' : file) : Prop :=
  (fsize f = 0 \/ flag (x_flags e) F_TEMPORARY = true) /\
  fsize f' = x_expected e /\ forall k, fdata f' k = 0.

(** the tree of export [j] is as before *)
Definition kept (D D' : disks) (j : nat) : Prop :=
  (forall p, d_block D' j p = d_block D j p) /\ (forall p, d_there D' j p = d_there D j p).

Definition same_file (f f' : file) : Prop := fsize f = fsize f' /\ forall k, fdata f k = fdata f' k.

(** the unnamed file of a temporary export is no file of another export *)
Definition private (place : nat -> nat -> nat) (l : list export) : Prop :=
  forall j e j' k, nth_error l j = Some e -> flag (x_flags e) F_TEMPORARY = true ->
    place j' k = place j 0%nat -> j' = j.

(** two machines that agree on export [i]: its files [fs] and its tree *)
Definition same_export (place : nat -> nat -> nat) (i : nat) (fs : option (list (nat * Z))) (D D' : disks) : Prop :=
  (forall a k o, fs = Some a -> In (k, o) a -> same_file (d_file D (place i k)) (d_file D' (place i k))) /\
  (forall p, same_file (d_block D i p) (d_block D' i p) /\ d_there D i p = d_there D' i p).
(** and where system calls turn out the same; memory need be the same only if
    [memory] is set *)
Definition same_machine (memory : bool) (w w' : world) : Prop :=
  (forall k, w_orc w k = w_orc w' k) /\ (w_tick w = w_tick w' /\ w_errno w = w_errno w') /\
  (memory = true -> forall k, w_heap w k = w_heap w' k) /\ same_file (w_file w FDummy) (w_file w' FDummy).
