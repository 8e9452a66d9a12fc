(** Specification vocabulary for the negotiation phase. *)
From Coq Require Import String.
From Verif Require Import Base M_Const M_Disk M_Tree M_Raw M_Setup M_Acl M_Nego.
Open Scope list_scope.

(** the constant texts a server may put in an option reply *)
Definition reply_texts : list string := [
  "NBD_OPT_LIST with nonzero data length is not a valid request";
  "Listing of exports denied by server configuration";
  "Sending a STARTTLS command with data is invalid";
  "NBD_OPT_STRUCTURED_REPLY with nonzero data length is not a valid request";
  "NBD_OPT_STRUCTURED_REPLY has already been called";
  "An OPT_INFO request cannot be smaller than the length of the name + 6";
  "The name for this OPT_INFO request is too long";
  "nbd server out of memory"; "TLS is required for that export"; "Export unknown";
  "Access denied by server configuration"; "TLS is required on this server";
  "Invalid STARTTLS request: TLS has already been negotiated!"; "TLS not allowed on this server";
  "The given option is unknown to this server implementation"]%string.

(** an export that may be shown to a client without TLS *)
Definition visible (l : list export) (e : export) : Prop := In e l /\ flag (x_flags e) F_FORCEDTLS = false.

(** [f] is the flag word of [e], possibly demoted to read-only when it was opened *)
Definition demoted (f0 f : Z) : Prop := f = f0 \/ f = Z.lor (Z.lor f0 F_AUTOREADONLY) F_READONLY.

(** Pieces of messages that may be sent in clear.  They say nothing about any
    export: *)
Inductive neutral : list Z -> Prop :=
| nt_hello : neutral (be 8 0x4e42444d41474943)
| nt_magic : neutral (be 8 OPTS_MAGIC)
| nt_flags : neutral (be 2 3)
| nt_error opt type size : 2147483648 <= type -> neutral (optreply opt type size)
| nt_starttls type : neutral (optreply OPT_STARTTLS type 0)
| nt_text t : In t reply_texts -> neutral (text t).

(** ... or only about exports that are not restricted to TLS: *)
Inductive about_visible (l : list export) : list Z -> Prop :=
| av_neutral b : neutral b -> about_visible l b
| av_header opt type size : about_visible l (optreply opt type size)
| av_name e : visible l e -> about_visible l (be 4 (zlen (x_name e)) ++ x_name e)
| av_kind : about_visible l (be 2 INFO_EXPORT)
| av_nosize v : v = 0 \/ v = OFFT_MAX -> about_visible l (be 8 v)
| av_size e f su : visible l e -> setupexport f (x_expected e) (x_files e) = SetupOk su -> about_visible l (be 8 (su_size su))
| av_bits e f st : visible l e -> demoted (x_flags e) f -> about_visible l (be 2 (export_flags f st))
| av_zeroes : about_visible l (repeat 0 124).

(** messages of a trace that left in clear, complete or not *)
Definition in_clear (v : nev) (b : list Z) : Prop := v = NSend false b \/ v = NCut false b.

(** whatever the end, this holds of the trace *)
Definition trace_of {A} (r : nout A) : option (list nev) :=
  match r with NRet _ s | NUb s | NDie s => Some (n_tr s) | NStuck => None end.

(** the events of a successful commitment to export [i], in order; [parent]
    is what happened about the connection limit *)
Definition granted (i : nat) (e : export) (parent : list nev) (seg : list nev) : Prop :=
  exists pre cow, seg = parent ++ [NPeer true] ++ pre ++ [NOpen i true] ++ cow /\
    pre = (if x_prerun e then [NPrerun i true] else []) /\
    Forall (fun v => v = NCow i true) cow.

(** the parent was asked about this export and did not refuse *)
Definition asked (E : nenv) (e : export) (parent : list nev) : Prop :=
  if e_dontfork E then parent = []
  else exists v, parent = [NParent (x_name e) v] /\ v <> 78 /\ v <> 88.

Definition is_send (v : nev) : Prop := exists t b, v = NSend t b.

(** the bytes of one option, after the option magic, that ask for the export called
    [name]: EXPORT_NAME, or GO with its information requests; [junk] is only there
    if the length fields of the GO contradict each other or the name is too long *)
Inductive selects (name : list Z) : list Z -> Prop :=
| sel_name : zlen name <= 4096 -> selects name (be 4 OPT_EXPORT_NAME ++ be 4 (zlen name) ++ name)
| sel_go len junk n2 infos : zlen len = 4 -> zlen n2 = 2 -> zlen infos = 2 * unbe n2 ->
    (zlen name <= u32 (unbe len - 6) -> zlen name <= 4096 -> junk = []) ->
    selects name (be 4 OPT_GO ++ len ++ be 4 (zlen name) ++ junk ++ name ++ n2 ++ infos).

(** the announcement of an export of that size with transmission flags [w]: what
    closes the reply to an option that selects it; [zeroes] says whether the
    124 reserved bytes are due *)
Inductive announces (tls : bool) (size w : Z) (zeroes : bool) : list Z -> list nev -> Prop :=
| an_name rest : announces tls size w zeroes (be 4 OPT_EXPORT_NAME ++ rest)
    ([NSend tls (be 8 size); NSend tls (be 2 w)] ++ (if zeroes then [NSend tls (repeat 0 124)] else []))
| an_go rest k : k <> O -> announces tls size w zeroes (be 4 OPT_GO ++ rest)
    (concat (repeat [NSend tls (optreply OPT_GO REP_INFO 12); NSend tls (be 2 INFO_EXPORT); NSend tls (be 8 size); NSend tls (be 2 w)] k) ++
     [NSend tls (optreply OPT_GO REP_ACK 0)]).

(** Option replies.  A reply is a header giving its option, type and length, and
    that much data.  An option is answered by any number of intermediate replies
    and one final one: an acknowledgement or an error. *)
Definition reply_msg (opt type : Z) (data : list Z) : list Z := optreply opt type (zlen data) ++ data.
Definition answered (opt : Z) (b : list Z) : Prop :=
  exists l ft fd, b = concat (map (fun x => reply_msg opt (fst x) (snd x)) l) ++ reply_msg opt ft fd /\
    Forall (fun x => fst x = REP_SERVER \/ fst x = REP_INFO) l /\ (ft = REP_ACK \/ 2147483648 <= ft < 4294967296).
Definition sent_bytes (tr : list nev) : list Z := concat (map (fun v => match v with NSend _ b => b | _ => [] end) tr).

(** the payload an option should have (doc/proto.md of the protocol): LIST,
    STRUCTURED_REPLY and STARTTLS have none, INFO and GO a name and a list of
    16-bit information requests *)
Definition info_payload (name infos : list Z) (n : Z) : list Z := be 4 (zlen name) ++ name ++ be 2 n ++ infos.
Definition proper (opt : Z) (payload : list Z) : Prop :=
  (opt = OPT_LIST -> payload = []) /\
  (opt = OPT_INFO \/ opt = OPT_GO -> exists name infos n, payload = info_payload name infos n /\
     zlen name <= 4096 /\ 0 <= n < 65536 /\ zlen infos = 2 * n).

(** an environment and exports that let every answer be sent: writes succeed, the
    authorization files and the files of the exports are well behaved, names can
    be listed *)
Definition healthy (E : nenv) (l : list export) : Prop :=
  (forall k, e_write E k = true) /\
  Forall (fun e => authorized_client (e_gai E) (x_auth e) (e_peer E) <> AUb /\
                   authorized_client (e_gai E) (x_auth e) (e_peer E) <> AAbort /\
                   setupexport (x_flags e) (x_expected e) (x_files e) <> SetupUb /\ zlen (x_name e) <= 1020) l.

(** what the data path (M_Raw) gets to work with when export [i] is served:
    client->server->flags and client->exportsize are those of the negotiation *)
Definition client_of (i : nat) (s : nst) (files : option (list finfo)) (namelen : Z) : client :=
  mkC (x_flags (nth_export i s)) (n_size s) files namelen (n_struct s) (n_tls s).

(** connections served one after the other by a process that does not fork
    (handle_modern_connection returns only if negotiation failed and the process
    did not exit): the exports and global flags carried over *)
Fixpoint serve_all (E : nenv) (l : list export) (glob : Z) (cs : list (list Z * list Z)) : option (list export * Z) :=
  match cs with
  | [] => Some (l, glob)
  | (plain, secure) :: t =>
      match negotiate E (fresh l glob plain secure) with
      | NRet None s => serve_all E (n_exports s) (n_glob s) t
      | _ => None
      end
  end.
