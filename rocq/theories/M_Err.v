(** The report of an error: err_nonfatal, byte by byte, and the texts it is given
    that are not fixed.  Definitions only. *)
From Coq Require Import String Ascii.
From Verif Require Import Base M_Const M_Nego M_Setup.
Open Scope list_scope.

(** sizeof(s1) (cliserv.c:50) *)
Definition S1 : Z := 150.

(** strncpy(s1 + off, src, n) on the buffer [b] of 150 bytes (cliserv.c:52, 54, 56,
    61, 63): the bytes of [src], cut at [n], and zero bytes up to [n]; [None] if a
    byte outside of the buffer is written.  [n] is a size_t. *)
Definition put (off : Z) (src : list Z) (n : Z) (b : list Z) : option (list Z) :=
  if n =? 0 then Some b
  else if S1 <? off + n then None
  else Some (firstn (Z.to_nat off) b ++ firstn (Z.to_nat n) (src ++ repeat 0 (Z.to_nat n)) ++ skipn (Z.to_nat (off + n)) b).
(** strlen(s1) (cliserv.c:56, 63); [None]: there is no zero byte in the buffer *)
Fixpoint length0 (b : list Z) : option Z :=
  match b with
  | [] => None
  | c :: t => if c =? 0 then Some 0 else option_map Z.succ (length0 t)
  end.
(** strstr(s, "%x") (cliserv.c:53, 60): the offset of the first one *)
Fixpoint find (x : Z) (s : list Z) : option Z :=
  match s with
  | a :: ((b :: _) as t) => if (a =? 37) && (b =? x) then Some 0 else option_map Z.succ (find x t)
  | _ => None
  end.
(** [sizeof(s1) - k] is of type size_t (cliserv.c:54, 56) *)
Definition room (k : Z) : Z := u64 (S1 - k).

(** lines 54-56, 61-63: put the text [e] in place of the %-sequence at [p] *)
Definition insert (s e : list Z) (p : Z) (b : list Z) : option (list Z) :=
  match put p e (room p) b with
  | None => None
  | Some b =>
      match length0 b with
      | None => None
      | Some k => put k (skipn (Z.to_nat (p + 2)) s) (room k) b
      end
  end.
(** what syslog and stderr get of the buffer (cliserv.c:69, 72) *)
Fixpoint until0 (b : list Z) : list Z :=
  match b with [] => [] | c :: t => if c =? 0 then [] else c :: until0 t end.
(** err_nonfatal (cliserv.c:49-73): [s] is the text given (a C string), [em] and
    [eh] are strerror(errno) and hstrerror(h_errno), [b] is what the buffer held
    before.  [None]: undefined behaviour (a byte outside of the buffer is written
    or read). *)
Definition err_nonfatal (em eh s b : list Z) : option (list Z) :=
  let b0 := match put 0 s S1 b with Some b => b | None => b end in
  let r := match find 109 s with
           | Some p => insert s em p b0
           | None => match find 104 s with
                     | Some p => insert s eh p b0
                     | None => Some b0
                     end
           end in
  match r with
  | None => None
  | Some b => Some (until0 (firstn 149 b ++ [0]))                    (* s1[sizeof(s1)-1] = 0 *)
  end.

(** ** texts that are not fixed *)
(** a file of an export cannot be opened (nbd-server.c:2083-2086) *)
Definition open_failed (name : list Z) : list Z := text "Could not open exported file " ++ name ++ text ": %m".
(** the name opened first: the export name, NAME.0 of a multi-file export
    (nbd-server.c:2063-2067) *)
Definition first_name (multifile : bool) (name : list Z) : list Z := if multifile then name ++ text ".0" else name.
(** no such group or user (nbd-server.c:3850, 3860) *)
Definition bad_group (name : list Z) : list Z := text "Invalid group name: " ++ name.
Definition bad_user (name : list Z) : list Z := text "Invalid user name: " ++ name.
(** what the TLS library says (nbd-server.c:310-313, 330-333) *)
Definition tls_said (receiving fatal : bool) (e : list Z) : list Z :=
  text (match receiving, fatal return string with
        | false, false => "issue while sending data: "
        | false, true => "could not send data: "
        | true, false => "issue while receiving data: "
        | true, true => "could not receive data: "
        end) ++ e.

(** Opening an export: setupexport (M_Setup.v) with what it says when it fails
    (nbd-server.c:2082-2088, 2105-2108, 2122-2126). *)
Inductive start := StOk (s : setup) | StNo (said : list Z) | StUb. (* nbd-server.c:2018 *)
(** the first file could be opened (nbd-server.c:2058-2082) *)
Definition first_opened (flags expected : Z) (ms : list member) : bool :=
  if flag flags F_MULTIFILE
  then match ms with
       | [] => false
       | m :: _ => match open_member flags false m with Some _ => true | None => false end
       end
  else match open_single flags expected ms with Some _ => true | None => false end.
(** the file could be opened and has to be extended (nbd-server.c:2103) *)
Definition extends (flags expected : Z) (ms : list member) : bool :=
  negb (flag flags F_MULTIFILE) &&
  match open_single flags expected ms with Some (_, _, sz) => (sz =? 0) && negb (expected =? 0) | None => false end.
(** what is said when setupexport returns false (nbd-server.c:2083-2086, 2106, 2124) *)
Definition complaint (flags expected : Z) (ms : list member) (name : list Z) : list Z :=
  if negb (first_opened flags expected ms) then open_failed (first_name (flag flags F_MULTIFILE) name)
  else if extends flags expected ms then text "Could not expand file: %m"
  else text "Size of exported file is too big" ++ [10].
Definition begin_export (em eh b : list Z) (flags expected : Z) (ms : list member) (name : list Z) : start :=
  match setupexport flags expected ms with
  | SetupOk s => StOk s
  | SetupUb => StUb
  | SetupFail =>
      match err_nonfatal em eh (complaint flags expected ms name) b with
      | Some t => StNo t
      | None => StUb
      end
  end. (* nbd-server.c:2018-2140 *)

(** ** fixed texts
    The string given to err, err_nonfatal, err_code and nbd_err in each source
    file, with the line of the call. *)
(* cliserv.c, at the line given with each text *)
Definition cliserv_texts : list (Z * list Z) := [
  (129, text "Read failed: %m");
  (157, text "Send failed: %m")].
(* nbd-client.c, at the line given with each text *)
Definition client_texts : list (Z * list Z) := [
  (142, text "Invalid response from the kernel" ++ [10]);
  (144, text "Did not receive index from the kernel" ++ [10]);
  (155, text "Couldn't allocate netlink socket" ++ [10]);
  (158, text "Couldn't connect to the generic netlink socket" ++ [10]);
  (161, text "Couldn't resolve the nbd netlink family, make sure the nbd module is loaded and your nbd driver supports the netlink interface." ++ [10]);
  (179, text "Couldn't allocate netlink message" ++ [10]);
  (194, text "Couldn't nest the sockets for our connection" ++ [10]);
  (199, text "Couldn't nest the sockets for our connection" ++ [10]);
  (208, text "Failed to setup device. Are you root?" ++ [10]);
  (210, text "Failed to setup device, check dmesg" ++ [10]);
  (215, text "Failed to create netlink message" ++ [10]);
  (227, text "Invalid nbd device target" ++ [10]);
  (230, text "Invalid nbd device target" ++ [10]);
  (236, text "Couldn't allocate netlink message" ++ [10]);
  (242, text "Failed to disconnect device, check dmsg" ++ [10]);
  (246, text "Failed to create netlink message" ++ [10]);
  (327, text "Socket failed: %m");
  (346, text "UNIX socket path too long");
  (353, text "SOCKET failed");
  (358, text "CONNECT failed");
  (453, text "Reading magic from server: %m");
  (456, text "Reading option: %m");
  (459, text "Reading reply from server: %m");
  (462, text "Reading length from server: %m");
  (468, text "Not enough magic from server");
  (491, text "Server sent us a reply we don't understand!");
  (539, text "Exported device is too big for me. Get 64-bit machine :-(" ++ [10]);
  (550, text "E: server does not support NBD_OPT_GO and dropped connection after sending NBD_OPT_EXPORT_NAME. Try -g.");
  (569, text "INIT_PASSWD bad");
  (575, text "It looks like you're trying to connect to an oldstyle server. This is no longer supported since nbd 3.10.");
  (594, text "Failed/2.1: %m");
  (608, text "Could not read cliserv_magic: %m");
  (611, text "reply magic does not match");
  (614, text "Could not read option type: %m");
  (617, text "Reply to wrong option");
  (619, text "Could not read option reply type: %m");
  (622, text "Option reply type != NBD_REP_ACK");
  (624, text "Could not read option data length: %m");
  (628, text "Option reply data length != 0");
  (647, text "Cannot establish TLS session");
  (650, text "Cannot get socket pair");
  (657, text "Cannot set socket options");
  (662, text "Could not fork");
  (684, text "TLS requested but support not compiled in");
  (706, text "Unable to read reply.");
  (724, text "Connection not allowed by server policy.");
  (735, text "Unknown error returned by server.");
  (758, text "Unknown reply to NBD_OPT_GO received, ignoring");
  (799, text "Device too large." ++ [10]);
  (807, text "Ioctl/1.1a failed: %m" ++ [10]);
  (811, text "Ioctl/1.1b failed: %m" ++ [10]);
  (816, text "Ioctl/1.1c failed: %m" ++ [10]);
  (828, text "Unable to set read-only attribute for device");
  (834, text "Ioctl NBD_SET_TIMEOUT failed: %m" ++ [10]);
  (842, text "Kernel doesn't support multiple connections" ++ [10]);
  (844, text "Ioctl NBD_SET_SOCK failed: %m" ++ [10]);
  (906, text "Cannot open NBD: %m" ++ [10] ++ text "Please ensure the 'nbd' module is loaded.");
  (909, text "Ioctl failed: %m" ++ [10]);
  (912, text "Ioctl failed: %m" ++ [10]);
  (1151, text "swap option unsupported on Android because mlockall is unsupported.");
  (1213, text "Cannot open NBD: %m" ++ [10] ++ text "Please ensure the 'nbd' module is loaded.");
  (1219, text "Cannot allocate the socket fd's array");
  (1261, text "Invalid nbd device target" ++ [10]);
  (1273, text "Cannot detach from terminal");
  (1349, text "Cannot open NBD: %m");
  (1352, text "Size of the device changed. Bye")].
(* nbd-get-status.c, at the line given with each text *)
Definition status_texts : list (Z * list Z) := [
  (23, text "Couldn't allocate netlink socket" ++ [10]);
  (26, text "Couldn't connect to the generic netlink socket" ++ [10]);
  (29, text "Couldn't resolve the nbd netlink family, make sure the nbd module is loaded and your nbd driver supports the netlink interface." ++ [10]);
  (45, text "Invalid response from get status?" ++ [10]);
  (53, text "Invalid attr type in the device list" ++ [10]);
  (57, text "Invalid attr device attr" ++ [10]);
  (76, text "Invalid nbd device target" ++ [10]);
  (84, text "Couldn't allocate netlink message" ++ [10]);
  (90, text "Failed to get status" ++ [10]);
  (93, text "Failed to create netlink message" ++ [10])].
(* nbd-server.c, at the line given with each text *)
Definition server_texts : list (Z * list Z) := [
  (337, text "TLS End of data: Remote connection closed.");
  (411, text "Negotiation failed: %m");
  (468, text "Connection dropped: %m");
  (488, text "Splice failed: %m");
  (1357, text "Could not allocate memory for request");
  (2106, text "Could not expand file: %m");
  (2124, text "Size of exported file is too big" ++ [10]);
  (2157, text "Could not create diff file (%m)");
  (2161, text "Could not allocate memory");
  (2397, text "Negotiation failed/8a: Requested export not found, or is TLS-only and client did not negotiate TLS");
  (2413, text "Client tried disallowed list option");
  (2681, text "Negotiation failed/5a: magic mismatch");
  (2758, text "Session terminated by client");
  (2761, text "Weird things happened: reached end of negotiation without success");
  (2902, text "Could not allocate memory for request");
  (3124, text "Protocol error: not enough magic.");
  (3212, text "Failed to accept socket connection: %m");
  (3309, text "Error reading from acl socket: %m");
  (3317, text "Value out of range");
  (3434, text "failed to initialize blocking_mask: %m");
  (3437, text "failed to add SIGCHLD to blocking_mask: %m");
  (3440, text "failed to add SIGHUP to blocking_mask: %m");
  (3443, text "failed to add SIGTERM to blocking_mask: %m");
  (3446, text "failed to block signals: %m");
  (3760, text "sigaction: %m");
  (3767, text "sigaction: %m");
  (3773, text "sigaction: %m");
  (3779, text "sigaction: %m");
  (3789, text "fork");
  (3794, text "setsid");
  (3798, text "chdir");
  (3805, text "open");
  (3808, text "dup2 stdin");
  (3811, text "dup2 stdout");
  (3814, text "dup2 stderr");
  (3818, text "fork");
  (3854, text "Could not set GID: %m");
  (3864, text "Could not set groups: %m");
  (3867, text "Could not set UID: %m");
  (3977, text "inetd mode requires syslog")].
(* treefiles.c, at the line given with each text *)
Definition tree_texts : list (Z * list Z) := [
  (19, text "Char buffer overflow. This is likely a bug.");
  (54, text "Path access error! %m");
  (81, text "Error opening tree block file %m");
  (93, text "Error opening tree block file %m");
  (98, text "Could not create tree file!" ++ [10]);
  (102, text "Error setting tree block file size %m")].
