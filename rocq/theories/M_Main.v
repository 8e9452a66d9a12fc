(** Starting nbd-server: the command line (cmdline and dump_section,
    nbd-server.c:521-698), the strings of the generic section (840-876), the
    listening sockets (3549-3757), going to the background (3789-3831), changing
    user and group (3845-3873), and main (3907-3989).  Definitions only. *)
From Coq Require Import String.
From Verif Require Import Base M_Const M_Acl M_Nego M_Conf.
Open Scope list_scope.
Open Scope Z_scope.

(** * The command line *)
(** What getopt_long delivers (nbd-server.c:584): a word that is no option
    (value 1), or an option with its argument (empty when it takes none). *)
Inductive sarg := SWord (s : list Z) | SOpt (c : string) (s : list Z).

(** the strings of generic_conf (nbd-server.c:289-301); [None] is NULL.
    modernaddr and modernport are [gs_addr] and [gs_port] *)
Record gstr := mkGs {
  gs_user : option (list Z); gs_group : option (list Z); gs_addr : option (list Z);
  gs_port : option (list Z); gs_unix : option (list Z); gs_cert : option (list Z);
  gs_key : option (list Z); gs_ca : option (list Z); gs_prio : option (list Z)
}.
(** memset in main (nbd-server.c:3913) *)
Definition gs0 : gstr := mkGs None None None None None None None None None.

(** What cmdline works on (nbd-server.c:572-578) and the globals it sets
    (175-202): the SERVER, the generic configuration, pidfname, nodaemon,
    dontfork, config_file_pos, the section name of -o, and nonspecial. *)
Record cmd := mkCmd {
  c_serve : server; c_gs : gstr; c_pid : list Z; c_nodaemon : bool; c_dontfork : bool;
  c_file : list Z; c_out : option (list Z); c_words : Z
}.
(** nbd-server.c:581-583, 202, 3924; built with SYSCONFDIR /etc *)
Definition cmd0 : cmd :=
  mkCmd (mkS [] None (Some (text "/etc/nbd-server/allow")) 0 VirtIplit 0 None None None None None 0 0)
        gs0 [] false false (text "/etc/nbd-server/config") None 0.

(** field updates (assignments in nbd-server.c:588-681) *)
Definition on_serve (f : server -> server) (c : cmd) : cmd := (* nbd-server.c:611-670 *)
  mkCmd (f (c_serve c)) (c_gs c) (c_pid c) (c_nodaemon c) (c_dontfork c) (c_file c) (c_out c) (c_words c).
Definition on_gs (f : gstr -> gstr) (c : cmd) : cmd := (* nbd-server.c:602-608 *)
  mkCmd (c_serve c) (f (c_gs c)) (c_pid c) (c_nodaemon c) (c_dontfork c) (c_file c) (c_out c) (c_words c).
Definition set_words (n : Z) (c : cmd) : cmd := (* nbd-server.c:588 *)
  mkCmd (c_serve c) (c_gs c) (c_pid c) (c_nodaemon c) (c_dontfork c) (c_file c) (c_out c) n.
Definition set_pid (p : list Z) (c : cmd) : cmd := (* nbd-server.c:649-650 *)
  mkCmd (c_serve c) (c_gs c) p (c_nodaemon c) (c_dontfork c) (c_file c) (c_out c) (c_words c).
Definition set_modes (n d : bool) (c : cmd) : cmd := (* nbd-server.c:656-660 *)
  mkCmd (c_serve c) (c_gs c) (c_pid c) (n || c_nodaemon c) (d || c_dontfork c) (c_file c) (c_out c) (c_words c).
Definition set_file (p : list Z) (c : cmd) : cmd := (* nbd-server.c:663-664 *)
  mkCmd (c_serve c) (c_gs c) (c_pid c) (c_nodaemon c) (c_dontfork c) p (c_out c) (c_words c).
Definition set_out (h : list Z) (c : cmd) : cmd := (* nbd-server.c:645-646 *)
  mkCmd (c_serve c) (c_gs c) (c_pid c) (c_nodaemon c) (c_dontfork c) (c_file c) (Some h) (c_words c).
Definition set_export (p : list Z) (s : server) : server := (* nbd-server.c:611 *)
  mkS (s_name s) (Some p) (s_auth s) (s_size s) (s_virt s) (s_cidr s) (s_prerun s) (s_postrun s) (s_log s) (s_cow s) (s_listen s) (s_max s) (s_flags s).
Definition set_auth (p : list Z) (s : server) : server := (* nbd-server.c:667-668 *)
  mkS (s_name s) (s_export s) (Some p) (s_size s) (s_virt s) (s_cidr s) (s_prerun s) (s_postrun s) (s_log s) (s_cow s) (s_listen s) (s_max s) (s_flags s).
Definition set_size (n : Z) (s : server) : server := (* nbd-server.c:631 *)
  mkS (s_name s) (s_export s) (s_auth s) n (s_virt s) (s_cidr s) (s_prerun s) (s_postrun s) (s_log s) (s_cow s) (s_listen s) (s_max s) (s_flags s).
Definition set_max (n : Z) (s : server) : server := (* nbd-server.c:671 *)
  mkS (s_name s) (s_export s) (s_auth s) (s_size s) (s_virt s) (s_cidr s) (s_prerun s) (s_postrun s) (s_log s) (s_cow s) (s_listen s) n (s_flags s).
Definition add_flag (f : Z) (s : server) : server := (* nbd-server.c:639, 642, 653 *)
  mkS (s_name s) (s_export s) (s_auth s) (s_size s) (s_virt s) (s_cidr s) (s_prerun s) (s_postrun s) (s_log s) (s_cow s) (s_listen s) (s_max s) (Z.lor (s_flags s) f).

(** strchr(s, ':') == strrchr(s, ':') (nbd-server.c:590): at most one *)
Definition one_colon (s : list Z) : bool := zlen (filter (fun c => c =? 58) s) <=? 1.
(** address and port (nbd-server.c:590-609).  [None]: for an empty word
    g_strsplit returns an array of one element and addr_port[1] is past it. *)
Definition addr_port (s : list Z) : option (option (list Z) * list Z) :=
  match s with
  | [] => None
  | _ =>
      let p := if one_colon s
               then match split_at 58 s with
                    | (a, Some b) => (a, Some b)
                    | (_, None) => split_at 64 s
                    end
               else split_at 64 s in
      Some (match p with (a, Some b) => (Some a, b) | (a, None) => (None, a) end)
  end.

(** es <<= 10 (nbd-server.c:626, 628); [None]: signed overflow or a negative
    number, undefined in C *)
Definition shl10 (es : Z) : option Z :=
  if (es <? 0) || (9223372036854775807 <? es * 1024) then None else Some (es * 1024).
(** the size argument (nbd-server.c:617-632).  [None] is undefined behaviour:
    for an empty word optarg[-1] is read. *)
Definition size_arg (s : list Z) : option Z :=
  match s with
  | [] => None
  | _ =>
      let suffix := last s 0 in
      let k := (suffix =? 107) || (suffix =? 75) in
      let m := (suffix =? 109) || (suffix =? 77) in
      let es := strtol (if k || m then removelast s else s) in
      match match (if m then shl10 es else Some es) with
            | None => None
            | Some es => if k || m then shl10 es else Some es
            end with
      | None => None
      | Some es => Some (u64 es)
      end
  end.

(** one round of the loop: goes on, exits with failure (or, for -V, success),
    undefined behaviour (nbd-server.c:584-681) *)
Inductive clres := ClGo (c : cmd) | ClExit (ok : bool) | ClUb.
Definition do_opt (c : cmd) (a : sarg) : clres :=
  match a with
  | SWord s =>
      let c' := set_words (c_words c + 1) c in
      if c_words c =? 0 then
        match addr_port s with
        | None => ClUb
        | Some (a, p) =>
            ClGo (on_gs (fun g => mkGs (gs_user g) (gs_group g) a (Some p) (gs_unix g) (gs_cert g) (gs_key g) (gs_ca g) (gs_prio g)) c')
        end
      else if c_words c =? 1 then
        match s with
        | 47 :: _ => ClGo (on_serve (set_export s) c')
        | _ => ClExit false
        end
      else if c_words c =? 2 then
        match size_arg s with
        | None => ClUb
        | Some n => ClGo (on_serve (set_size n) c')
        end
      else ClGo c'
  | SOpt o s =>
      if (o =? "r")%string then ClGo (on_serve (add_flag F_READONLY) c)
      else if (o =? "m")%string then ClGo (on_serve (add_flag F_MULTIFILE) c)
      else if (o =? "o")%string then ClGo (set_out s c)
      else if (o =? "p")%string then ClGo (set_pid (firstn 255 s) c)
      else if (o =? "c")%string then ClGo (on_serve (add_flag F_COPYONWRITE) c)
      else if (o =? "n")%string then ClGo (set_modes true false c)
      else if (o =? "d")%string then ClGo (set_modes true true c)
      else if (o =? "C")%string then ClGo (set_file s c)
      else if (o =? "l")%string then ClGo (on_serve (set_auth s) c)
      else if (o =? "M")%string then ClGo (on_serve (set_max (i32 (strtol0 s))) c)
      else if (o =? "V")%string then ClExit true
      else ClExit false                       (* default: usage, 677-680 *)
  end.
Fixpoint opts (l : list sarg) (c : cmd) : clres := (* nbd-server.c:584-682 *)
  match l with
  | [] => ClGo c
  | a :: t => match do_opt c a with
              | ClGo c' => opts t c'
              | r => r
              end
  end.

(** %lld (nbd-server.c:539) *)
Fixpoint lld_digits (fuel : nat) (n : Z) : list Z :=
  match fuel with
  | O => []
  | S fuel => if n <? 10 then [48 + n] else lld_digits fuel (n / 10) ++ [48 + n mod 10]
  end.
Definition lld (n : Z) : list Z := (* nbd-server.c:539 *)
  if n <? 0 then 45 :: lld_digits 20 (- n) else lld_digits 20 n.
(** printf("%s", s) (nbd-server.c:523-544); glibc prints "(null)" for NULL *)
Definition pr_str (s : option (list Z)) : list Z := match s with Some s => s | None => text "(null)" end.

(** dump_section (nbd-server.c:522-546): the lines "key = value" it prints under
    the section header.  Simplification: the text is not modelled, GLib reads a
    printed value back as it is (so it has no backslash, newline, or blank at
    either end). *)
Definition dump_section (s : server) : list (string * list Z) :=
  [("exportname"%string, pr_str (s_export s)); ("listenaddr"%string, pr_str (s_listen s))]
  ++ (if flag (s_flags s) F_READONLY then [("readonly"%string, text "true")] else [])
  ++ (if flag (s_flags s) F_MULTIFILE then [("multifile"%string, text "true")] else [])
  ++ (if flag (s_flags s) F_TREEFILES then [("treefiles"%string, text "true")] else [])
  ++ (if flag (s_flags s) F_COPYONWRITE then [("copyonwrite"%string, text "true")] else [])
  ++ (if s_size s =? 0 then [] else [("filesize"%string, lld (i64 (s_size s)))])
  ++ match s_auth s with Some a => [("authfile"%string, a)] | None => [] end.

(** outcome of cmdline: it returns (with the SERVER or NULL), prints a section
    and exits, exits, or undefined behaviour (nbd-server.c:552-698) *)
Inductive cmdres := CRun (c : cmd) (serve : option server) | CPrint (g : group) | CExit (ok : bool) | CUb.
Definition cmdline (l : list sarg) : cmdres := (* nbd-server.c:552-698 *)
  match l with
  | [] => CRun cmd0 None                                   (* argc == 1, 578-580 *)
  | _ =>
      match opts l cmd0 with
      | ClUb => CUb
      | ClExit ok => CExit ok
      | ClGo c =>
          let serve := if c_words c <? 2 then None else Some (c_serve c) in
          match c_out c, serve with
          | Some h, Some s => CPrint (mkG h (dump_section s))
          | Some _, None => CExit false
          | None, _ => CRun c serve
          end
      end
  end.

(** * The strings of the generic section *)
(** a string parameter: the written value, or what was there before
    (nbd-server.c:934-942) *)
Definition str_param (k : string) (g : group) (old : option (list Z)) : option (list Z) :=
  match lookup k (g_keys g) with Some v => Some v | None => old end.
(** the initial genconftmp (nbd-server.c:874-883): zero, a default for tlsprio,
    then a copy of *genconf over all of it.  [gen] is NULL or the generic_conf. *)
Definition genconftmp (gen : option gstr) : gstr :=
  let d := mkGs None None None None None None None None
             (Some (text "NORMAL:+VERS-TLS-ALL:-VERS-TLS1.0:+VERS-TLS1.1:%SERVER_PRECEDENCE")) in
  match gen with Some g => g | None => d end.
(** the table gp, strings (nbd-server.c:842-858) *)
Definition read_strings (g : group) (s : gstr) : gstr :=
  mkGs (str_param "user" g (gs_user s)) (str_param "group" g (gs_group s)) (str_param "listenaddr" g (gs_addr s))
       (str_param "port" g (gs_port s)) (str_param "unixsock" g (gs_unix s)) (str_param "certfile" g (gs_cert s))
       (str_param "keyfile" g (gs_key s)) (str_param "cacertfile" g (gs_ca s)) (str_param "tlsprio" g (gs_prio s)).
(** the generic strings after parse_cfile: copied back only when it reaches its
    end (nbd-server.c:891-900, 1064-1068) *)
Definition strings_after (file : option (list group)) (r : cfile) (s : gstr) : gstr :=
  match file, cf_list r with
  | Some (g :: _), Some _ => read_strings g (genconftmp (Some s))
  | _, _ => s
  end.

(** * Listening sockets *)
(** what happens to one entry of the address list (nbd-server.c:3661-3707):
    socket, setsockopt, bind, listen fail; bind fails with EADDRINUSE; all
    succeed *)
Inductive sres := SockFail | OptFail | BindInUse | BindFail | ListenFail | SockOk.
(** a listening socket: a Unix socket with its path, a TCP socket with its
    address (modernsocks, nbd-server.c:3619, 3708) *)
Inductive lsock := LUnix (path : list Z) | LTcp (addr : list Z).
(** The sockets opened so far, the descriptors lost (sockets that are neither in
    modernsocks nor closed), and the number of entries tried (nbd-server.c:3627-3710) *)
Record lst := mkL { l_socks : list lsock; l_lost : Z; l_tick : nat }.

(** the loop over the entries for one name (nbd-server.c:3660-3711); [inr] is
    "goto out" with the last socket closed *)
Fixpoint open_entries (k : nat -> sres) (ais : list (list Z)) (s : lst) : lst + lst :=
  match ais with
  | [] => inl s
  | a :: t =>
      let s' := mkL (l_socks s) (l_lost s) (S (l_tick s)) in
      match k (l_tick s) with
      | SockOk => open_entries k t (mkL (l_socks s ++ [LTcp a]) (l_lost s) (S (l_tick s)))
      | BindInUse =>
          match l_socks s with
          | [] => inr s'
          | _ => open_entries k t (mkL (l_socks s) (l_lost s + 1) (S (l_tick s)))
          end
      | _ => inr s'
      end
  end.
(** g_strsplit_set(l_addr, ", \t", -1) (nbd-server.c:3643) *)
Definition is_sep (c : Z) : bool := (c =? 44) || (c =? 32) || (c =? 9).
Fixpoint split_set (s : list Z) : list (list Z) := (* nbd-server.c:3643 *)
  match s with
  | [] => [[]]
  | c :: t =>
      if is_sep c then [] :: split_set t
      else match split_set t with
           | [] => [[c]]
           | w :: r => (c :: w) :: r
           end
  end.
(** the loop over the names (nbd-server.c:3645-3717); [gai] is getaddrinfo:
    [None] is an error, which leaves ai NULL *)
Fixpoint open_names (gai : list Z -> option (list (list Z))) (k : nat -> sres) (names : list (list Z)) (s : lst) : lst + lst :=
  match names with
  | [] => inl s
  | [] :: t => open_names gai k t s
  | n :: t =>
      match gai n with
      | None =>
          match t, l_socks s with
          | [], [] => inr s
          | _, _ => open_names gai k t s
          end
      | Some ais =>
          match open_entries k ais s with
          | inr s' => inr s'
          | inl s' => open_names gai k t s'
          end
      end
  end.
(** open_modern (nbd-server.c:3627-3729).  [gai] has the port built in. *)
Definition open_modern (gai : list Z -> option (list (list Z))) (k : nat -> sres) (addr : option (list Z)) (s : lst) : lst + lst :=
  let l_addr := match addr with
                | None | Some [] => text "::, 0.0.0.0"
                | Some a => a
                end in
  match l_addr with
  | [] => inl s                                            (* g_strsplit_set("") is empty *)
  | _ => open_names gai k (split_set l_addr) s
  end.
(** open_unix (nbd-server.c:3583-3625): the path is cut to 107 bytes *)
Definition open_unix (k : nat -> sres) (name : list Z) (s : lst) : lst + lst :=
  let s' := mkL (l_socks s) (l_lost s) (S (l_tick s)) in
  match k (l_tick s) with
  | SockOk => inl (mkL (l_socks s ++ [LUnix (firstn 107 name)]) (l_lost s) (S (l_tick s)))
  | _ => inr s'
  end.
(** setup_servers (nbd-server.c:3734-3749); [None]: exit.  The signal handlers
    are part of M_Root. *)
Definition setup_servers (gai : list Z -> option (list (list Z))) (k : nat -> sres) (g : gstr) (flags : Z) : option lst :=
  let s0 := mkL [] 0 0 in
  match match gs_unix g with
        | None => inl s0
        | Some u => open_unix k u s0
        end with
  | inr _ => None
  | inl s =>
      if flag flags F_DUAL_LISTEN || match gs_unix g with None => true | Some _ => false end
      then match open_modern gai k (gs_addr g) s with
           | inl s' => Some s'
           | inr _ => None
           end
      else Some s
  end.

(** * Going to the background *)
(** The process: what its descriptors refer to, its directory, the PID file it
    wrote (nbd-server.c:3789-3831) *)
Record dproc := mkDp { dp_fds : list (option (list Z)); dp_cwd : list Z; dp_pid : option (list Z) }.
(** the path a name denotes (nbd-server.c:3797: chdir changes it) *)
Definition resolve (cwd p : list Z) : list Z :=
  match p with
  | 47 :: _ => p
  | _ => match cwd with [47] => 47 :: p | _ => cwd ++ 47 :: p end
  end.
(** open (nbd-server.c:3804): the lowest free descriptor *)
Fixpoint open_fd (o : list Z) (l : list (option (list Z))) : nat * list (option (list Z)) :=
  match l with
  | [] => (O, [Some o])
  | None :: t => (O, Some o :: t)
  | x :: t => let '(n, t') := open_fd o t in (S n, x :: t')
  end.
Fixpoint set_fd (n : nat) (v : option (list Z)) (l : list (option (list Z))) : list (option (list Z)) := (* nbd-server.c:3807-3815 *)
  match n, l with
  | O, _ :: t => v :: t
  | S n, x :: t => x :: set_fd n v t
  | _, [] => []
  end.
(** dup2(old, new) (nbd-server.c:3807-3815); [None]: -1 *)
Definition dup2 (old new : nat) (l : list (option (list Z))) : option (list (option (list Z))) :=
  match nth old l None with
  | None => None
  | Some o => Some (set_fd new (Some o) l)
  end.
(** daemonize (nbd-server.c:3789-3831), as seen by the process that goes on;
    [None]: exit.  Simplification: fork, setsid and chdir succeed. *)
Definition daemonize (pidfname : list Z) (p : dproc) : option (list Z * dproc) :=
  let pidfname := match pidfname with [] => text "/var/run/nbd-server.pid" | _ => pidfname end in
  let '(newfd, l) := open_fd (text "/dev/null") (dp_fds p) in
  match dup2 0 newfd l with
  | None => None
  | Some l =>
      match dup2 1 newfd l with
      | None => None
      | Some l =>
          match dup2 2 newfd l with
          | None => None
          | Some l => Some (pidfname, mkDp l (text "/") (Some (resolve (text "/") pidfname)))
          end
      end
  end.

(** * User and group *)
(** the user and group ids of the process: real, effective, saved, and the
    supplementary groups (nbd-server.c:3854, 3864, 3867) *)
Record cred := mkCr { cr_u : Z * Z * Z; cr_g : Z * Z * Z; cr_groups : list Z }.
(** privileged: effective user id 0 (Linux, nbd-server.c:3854-3867) *)
Definition root_like (c : cred) : bool := let '(_, e, _) := cr_u c in e =? 0.
(** setgid, setuid, setgroups of Linux (nbd-server.c:3854, 3867, 3864); [None]: -1 *)
Definition setgid (g : Z) (c : cred) : option cred :=
  let '(r, _, s) := cr_g c in
  if root_like c then Some (mkCr (cr_u c) (g, g, g) (cr_groups c))
  else if (g =? r) || (g =? s) then Some (mkCr (cr_u c) (r, g, s) (cr_groups c))
  else None.
Definition setuid (u : Z) (c : cred) : option cred := (* nbd-server.c:3867 *)
  let '(r, _, s) := cr_u c in
  if root_like c then Some (mkCr (u, u, u) (cr_g c) (cr_groups c))
  else if (u =? r) || (u =? s) then Some (mkCr (r, u, s) (cr_g c) (cr_groups c))
  else None.
Definition setgroups (l : list Z) (c : cred) : option cred := (* nbd-server.c:3864 *)
  if root_like c then Some (mkCr (cr_u c) (cr_g c) l) else None.
(** dousers (nbd-server.c:3845-3873); [grnam] and [pwnam] are getgrnam and
    getpwnam; [None]: exit *)
Definition dousers (grnam pwnam : list Z -> option Z) (user grp : option (list Z)) (c : cred) : option cred :=
  match match grp with
        | None => Some c
        | Some n => match grnam n with None => None | Some g => setgid g c end
        end with
  | None => None
  | Some c =>
      match user with
      | None => Some c
      | Some n =>
          match pwnam n with
          | None => None
          | Some u => match setgroups [] c with
                      | None => None
                      | Some c => setuid u c
                      end
          end
      end
  end.

(** * main *)
(** What main finds: the files and directories, its own process, getaddrinfo
    (for a port), the outcome of each socket, the users and groups
    (nbd-server.c:3907-3989) *)
Record menv := mkEnv {
  me_file : list Z -> option (list group); me_dir : list Z -> option (list dirent);
  me_proc : dproc; me_cred : cred; me_gai : option (list Z) -> list Z -> option (list (list Z));
  me_sock : nat -> sres; me_grnam : list Z -> option Z; me_pwnam : list Z -> option Z
}.
(** A server that runs: its exports, its configuration, its listening sockets,
    its process, and whether it serves standard input (nbd-server.c:3973-3988) *)
Record running := mkRun {
  ru_exports : list server; ru_gen : genconf; ru_gs : gstr; ru_cmd : cmd; ru_pid : list Z;
  ru_listen : lst; ru_proc : dproc; ru_cred : cred; ru_inetd : bool
}.
(** outcome of main up to serving (nbd-server.c:3907-3989) *)
Inductive mainres := MServe (r : running) | MPrint (g : group) | MExit (ok : bool) | MUb.
(** main (nbd-server.c:3907-3989).  g_array_append_val on a NULL array
    (3935) is undefined. *)
Definition main (args : list sarg) (e : menv) : mainres :=
  match cmdline args with
  | CUb => MUb
  | CExit ok => MExit ok
  | CPrint g => MPrint g
  | CRun c serve =>
      let file := me_file e (resolve (dp_cwd (me_proc e)) (c_file c)) in
      match parse_cfile (me_dir e) file (mkGen 0 4 None) with
      | PcfUb => MUb
      | PcfRet r =>
          let gs := strings_after file r (c_gs c) in
          match serve, cf_list r with
          | Some _, None => MUb
          | _, _ =>
              let l := match cf_list r with Some l => l | None => [] end
                       ++ match serve with Some s => [s] | None => [] end in
              match l with
              | [] => MExit false
              | _ =>
                  match (if c_nodaemon c then Some (c_pid c, me_proc e) else daemonize (c_pid c) (me_proc e)) with
                  | None => MExit false
                  | Some (pid, p) =>
                      match setup_servers (me_gai e (gs_port gs)) (me_sock e) gs (gc_flags (cf_gen r)) with
                      | None => MExit false
                      | Some ls =>
                          match dousers (me_grnam e) (me_pwnam e) (gs_user gs) (gs_group gs) (me_cred e) with
                          | None => MExit false
                          | Some cr =>
                              MServe (mkRun l (cf_gen r) gs c pid ls p cr
                                        match gs_port gs with Some p => is_text p "0" | None => false end)
                          end
                      end
                  end
              end
          end
      end
  end.
(** SIGHUP: the file that is read again (append_new_servers, nbd-server.c:3380) *)
Definition reload_path (r : running) : list Z := resolve (dp_cwd (ru_proc r)) (c_file (ru_cmd r)).
(** SIGTERM: the file that is removed (nbd-server.c:3453); [None]: unlink("") fails *)
Definition unlinked (r : running) : option (list Z) :=
  match ru_pid r with [] => None | p => Some (resolve (dp_cwd (ru_proc r)) p) end.
