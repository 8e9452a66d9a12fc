(** Who TLS lets in: certificates on both sides.  Definitions only. *)
From Coq Require Import String.
From Verif Require Import Base M_Nego M_Tab.
Local Open Scope list_scope.

(** What GnuTLS answers about the other side during one handshake.  [y_verify]:
    result and status of gnutls_certificate_verify_peers2 when the trusted CAs are
    those of the file given ([None]: none were loaded); [y_x509]: it is an X.509
    certificate; [y_init], [y_list], [y_import]: gnutls_x509_crt_init succeeds,
    there is a list of certificates, its first can be read; [y_names]:
    gnutls_x509_crt_check_hostname; [y_from], [y_until]: its times; [y_rest]: the
    handshake succeeds as far as it does not depend on the certificate. *)
Record peer := mkPeer {
  y_verify : option (list Z) -> Z * Z; y_x509 : bool; y_init : bool; y_list : bool; y_import : bool;
  y_names : list Z -> bool; y_from : Z; y_until : Z; y_rest : bool }. (* crypto-gnutls.c:144-193, nbd-server.c:2434-2460 *)
(** what GnuTLS makes of the files and settings it is given *)
Record lib := mkLib {
  h_creds : bool; h_trust : option (list Z) -> bool; h_key : list Z -> list Z -> bool; h_session : bool;
  h_default : bool; h_prio : option (list Z) -> bool; h_set : bool }. (* crypto-gnutls.c:237-319, nbd-server.c:2488-2495 *)
Definition CERTIFICATE_ERROR : Z := -43. (* gnutls.h GNUTLS_E_CERTIFICATE_ERROR; crypto-gnutls.c:148 *)

(** verify_certificate_callback (crypto-gnutls.c:126-207); debug output left out *)
Definition verify_callback (trust host : option (list Z)) (p : peer) : Z :=
  let '(ret, status) := y_verify p trust in
  if ret <? 0 then CERTIFICATE_ERROR else
  if negb (status =? 0) then CERTIFICATE_ERROR else
  if negb (y_x509 p) then CERTIFICATE_ERROR else
  if negb (y_init p) then CERTIFICATE_ERROR else
  if negb (y_list p) then CERTIFICATE_ERROR else
  if negb (y_import p) then CERTIFICATE_ERROR else
  match host with
  | Some (x :: t) => if y_names p (x :: t) then 0 else CERTIFICATE_ERROR
  | _ => 0
  end.

(** A session of nbd-client: name to check, trusted CAs, whether the callback is
    set, own certificate and key, priorities (crypto-gnutls.c:56-66). *)
Record session := mkSess {
  z_host : option (list Z); z_trust : option (list Z); z_check : bool; z_own : option (list Z * list Z); z_prio : option (list Z) }.
(** tlssession_new for a client (crypto-gnutls.c:209-339), [None] is NULL.
    Simplification: calloc and strdup succeed. *)
Definition tlssession_new (g : lib) (keyfile certfile cacertfile hostname priority : option (list Z)) (insecure : bool) : option session :=
  if negb (h_creds g) then None else
  if (match cacertfile with Some _ => negb (h_trust g cacertfile) | None => false end) then None else
  let check := match cacertfile with Some _ => negb insecure | None => false end in
  let certfile := match keyfile, certfile with Some k, None => Some k | _, _ => certfile end in
  let own := match certfile, keyfile with Some c, Some k => Some (c, k) | _, _ => None end in
  if (match own with Some (c, k) => negb (h_key g c k) | None => false end) then None else
  if negb (h_session g) then None else
  if negb (h_default g) then None else
  if negb (h_prio g (match priority with Some x => Some x | None => Some (text "NORMAL:-VERS-TLS-ALL:+VERS-TLS1.2") end)) then None else
  if negb (h_set g) then None else
  Some (mkSess hostname cacertfile check own priority).
(** gnutls_handshake as called in tlssession_mainloop (crypto-gnutls.c:382-387):
    GnuTLS calls the callback, if set, and fails unless it returns 0 *)
Definition handshake (s : session) (p : peer) : bool :=
  y_rest p && (negb (z_check s) || (verify_callback (z_trust s) (z_host s) p =? 0)).

(** The TLS part of negotiate (nbd-client.c:598-681) after the server has accepted
    STARTTLS: the connection goes on in clear, the client ends, the proxy closes
    the socket, or the session is open. *)
Inductive tls_end := InClear | Ended | Closed | Open (s : session). (* nbd-client.c:598, 646, 672, 679 *)
Definition start_tls (c : tcl) (g : lib) (p : peer) : tls_end := (* nbd-client.c:598-681 *)
  if negb (t_tls c) then InClear else
  match tlssession_new g (t_key c) (t_cert c) (t_cacert c) (t_tlshost c) (t_prio c)
          (negb (is_set (t_cacert c)) || negb (is_set (t_tlshost c))) with
  | None => Ended
  | Some s => if handshake s p then Open s else Closed
  end.

(** ** the server *)
(** verify_cert (nbd-server.c:2431-2467) *)
Definition verify_cert (trust : option (list Z)) (now : Z) (p : peer) : Z :=
  let '(ret, status) := y_verify p trust in
  if (ret <? 0) || negb (status =? 0) || negb (y_x509 p) then CERTIFICATE_ERROR else
  if negb (y_init p) then CERTIFICATE_ERROR else
  if negb (y_list p) then CERTIFICATE_ERROR else
  if negb (y_import p) then CERTIFICATE_ERROR else
  if now <? y_from p then CERTIFICATE_ERROR else
  if y_until p <? now then CERTIFICATE_ERROR else 0.
(** the TLS files of the configuration (nbd-server.c:295-298), [None] is NULL *)
Record tls_conf := mkTlsC { k_cert : option (list Z); k_key : option (list Z); k_cacert : option (list Z); k_prio : option (list Z) }.
(** handle_starttls after its reply (nbd-server.c:2488-2519), and the test before
    it (2729): refused by policy, a NULL file name handed to GnuTLS, failed, or TLS
    in effect.  GnuTLS calls verify_cert in every handshake, because a certificate
    is requested (2497), and fails unless it returns 0. *)
Inductive tls_srv := Refused | NullName | Failed | InEffect. (* nbd-server.c:2493-2519, 2729 *)
Definition server_tls (k : tls_conf) (g : lib) (now : Z) (p : peer) : tls_srv := (* nbd-server.c:2488-2519, 2729 *)
  match k_key k with
  | None => Refused
  | Some key =>
      if negb (h_creds g) then Failed else
      if negb (h_trust g (k_cacert k)) then Failed else
      match k_cert k with
      | None => NullName
      | Some cert =>
          if negb (h_key g cert key) then Failed else
          if negb (h_prio g (k_prio k)) then Failed else
          if negb (h_session g) then Failed else
          if negb (h_set g) then Failed else
          if y_rest p && (verify_cert (k_cacert k) now p =? 0) then InEffect else Failed
      end
  end.
