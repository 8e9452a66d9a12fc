(** Whom TLS should let in, stated on certificates. *)
From Verif Require Import Base M_Tab M_Tls.
Local Open Scope list_scope.

(** The other side proved who it is by an X.509 certificate that goes back to a CA
    of the file [ca]. *)
Definition certified (ca : list Z) (p : peer) : Prop :=
  0 <= fst (y_verify p (Some ca)) /\ snd (y_verify p (Some ca)) = 0 /\ y_x509 p = true /\ y_list p = true.
(** ... and the certificate is for [name] *)
Definition is_for (name : list Z) (p : peer) : Prop := y_names p name = true.
(** ... and it is its time *)
Definition valid_at (now : Z) (p : peer) : Prop := y_from p <= now <= y_until p.
(** the other side has no certificate (gnutls.h: GNUTLS_E_NO_CERTIFICATE_FOUND is -49) *)
Definition no_certificate (p : peer) : Prop := y_list p = false /\ forall ca, fst (y_verify p ca) = -49.
(** everything works that does not depend on certificates *)
Definition works (g : lib) (p : peer) : Prop :=
  h_creds g = true /\ (forall f, h_trust g f = true) /\ (forall c k, h_key g c k = true) /\ h_session g = true /\
  h_default g = true /\ (forall x, h_prio g x = true) /\ h_set g = true /\ y_rest p = true /\ y_init p = true /\
  (y_list p = true -> y_import p = true).
