(** Specification vocabulary for client and server talking to each other. *)
From Verif Require Import Base M_Nego M_Client S_Nego S_Client.
Local Open Scope list_scope.

(** the bytes the server sent in clear, and inside TLS *)
Definition sent_on (tls : bool) (tr : list nev) : list Z :=
  concat (map (fun v => match v with NSend t b => if Bool.eqb t tls then b else [] | _ => [] end) tr).

(** what the server gets from a client that asks with [request], in clear and
    inside TLS *)
Definition to_server (g : kcfg) (request : list Z) : list Z * list Z :=
  if g_tls g then (hello g 3, request) else (hello g 3 ++ request, []).

(** The network and the memory of the server do not fail, and a handshake
    succeeds for both or for neither.  (The third number of each is that of the
    call in the run: malloc of the name, handshake.) *)
Definition connected (Es : nenv) (Ec : kenv) (g : kcfg) : Prop :=
  (forall k, e_write Es k = true) /\ full_reads Ec /\
  if g_tls g then e_ok Es 4 = e_tls Ec /\ e_ok Es 5 = true else e_ok Es 3 = true.

(** a user who asks for one export, not for a listing, and needs no more than
    what this server offers *)
Definition asks (g : kcfg) : Prop :=
  g_list g = false /\ Z.land (g_needed g) 3 = g_needed g /\ 0 <= g_cflags g < 2 ^ 32 /\ zlen (g_name g) <= 4096.
