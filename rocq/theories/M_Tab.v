(** nbdtab and the command line of nbd-client: nbdtab_lexer.l, nbdtab_parser.y,
    nbd-client.c:66-121, 764-792, 926-1266, 1324-1360.  Definitions only. *)
From Coq Require Import String.
From Verif Require Import Base M_Acl M_Nego M_Conf.
Local Open Scope list_scope.

(** ** tokens *)
(** SPACE, STRING, newline, ',' and '=' (nbdtab_lexer.l:9-13) *)
Inductive tok := TSpace | TStr (s : list Z) | TNl | TComma | TEq.

(** character classes of the patterns (nbdtab_lexer.l:10-11) *)
Definition blank (c : Z) : bool := (c =? 32) || (c =? 9).
Definition stringy (c : Z) : bool := negb (blank c || (c =? 10) || (c =? 44) || (c =? 61)).
(** longest prefix of a class, and the rest (nbdtab_lexer.l:9-11) *)
Fixpoint span (p : Z -> bool) (s : list Z) : list Z * list Z :=
  match s with
  | c :: t => if p c then let '(a, b) := span p t in (c :: a, b) else ([], s)
  | [] => ([], [])
  end.
(** strdup(yytext) ends at a NUL (nbdtab_lexer.l:11) *)
Definition cut0 (s : list Z) : list Z := fst (span (fun c => negb (c =? 0)) s).
(** yylex until the end of the file (nbdtab_lexer.l:9-13).  A comment is matched
    with the newline that ends it, so it needs one: without, '#' starts a STRING.
    [fuel] is the length of the text. *)
Fixpoint lex (fuel : nat) (s : list Z) : list tok :=
  match fuel with
  | O => []
  | S fuel =>
      match s with
      | [] => []
      | c :: t =>
          match (if c =? 35 then snd (span (fun x => negb (x =? 10)) t) else []) with
          | _ :: t' => lex fuel t'
          | [] =>
              if blank c then TSpace :: lex fuel (snd (span blank t))
              else if c =? 10 then TNl :: lex fuel t
              else if c =? 44 then TComma :: lex fuel t
              else if c =? 61 then TEq :: lex fuel t
              else TStr (cut0 (fst (span stringy s))) :: lex fuel (snd (span stringy s))
          end
      end
  end.

(** ** grammar (nbdtab_parser.y:18-41) *)
(** A mountdef: its options in order and device, host, export.  The actions only
    set members of [cur_client], so carrying them out after the parse (and not at
    all after a syntax error, when get_from_config fails) makes no difference.
    The stack of the parser (YYMAXDEPTH) is taken as unlimited. *)
Inductive opt := OFlag (f : list Z) | OProp (p v : list Z). (* nbdtab_parser.y:38-41 *)
Record line := mkLine { l_dev : list Z; l_host : list Z; l_name : list Z; l_opts : list opt }. (* nbdtab_parser.y:24-26 *)

(** option (nbdtab_parser.y:38-41) *)
Definition p_option (ts : list tok) : option (opt * list tok) :=
  match ts with
  | TStr p :: TEq :: TStr v :: t => Some (OProp p v, t)
  | TStr _ :: TEq :: _ => None
  | TStr f :: t => Some (OFlag f, t)
  | _ => None
  end.
(** options (nbdtab_parser.y:33-36) *)
Fixpoint p_options (fuel : nat) (ts : list tok) : option (list opt * list tok) :=
  match fuel with
  | O => None
  | S fuel =>
      match p_option ts with
      | Some (o, TComma :: t) =>
          match p_options fuel t with Some (os, t') => Some (o :: os, t') | None => None end
      | Some (o, t) => Some ([o], t)
      | None => None
      end
  end.
(** optlist (nbdtab_parser.y:28-31) *)
Definition p_optlist (ts : list tok) : option (list opt * list tok) :=
  match ts with
  | TSpace :: t => p_options (length t) t
  | _ => Some ([], ts)
  end.
(** nbdtab, mountdef (nbdtab_parser.y:18-26) *)
Fixpoint p_nbdtab (fuel : nat) (ts : list tok) : option (list line) :=
  match fuel with
  | O => None
  | S fuel =>
      match ts with
      | [] => Some []
      | TNl :: t => p_nbdtab fuel t
      | TStr d :: TSpace :: TStr h :: TSpace :: TStr n :: t =>
          match p_optlist t with
          | Some (os, t') => match p_nbdtab fuel t' with Some ls => Some (mkLine d h n os :: ls) | None => None end
          | None => None
          end
      | _ => None
      end
  end.
(** yyparse (nbd-client.c:777); [None] is a syntax error *)
Definition yyparse (file : list Z) : option (list line) :=
  let ts := lex (length file) file in p_nbdtab (S (length ts)) ts.

(** ** CLIENT (nbdclt.h:4-28) *)
(** strings are [None] when NULL *)
Record tcl := mkT {
  t_name : option (list Z); t_dev : option (list Z); t_host : option (list Z); t_port : option (list Z);
  t_cert : option (list Z); t_key : option (list Z); t_cacert : option (list Z); t_tlshost : option (list Z);
  t_prio : option (list Z); t_bs : Z; t_timeout : Z; t_nconn : Z; t_force : Z;
  t_no_optgo : bool; t_persist : bool; t_swap : bool; t_unix : bool; t_preinit : bool; t_ro : bool; t_tls : bool }.
(** memset 0, then bs = 512 and nconn = 1 (nbd-client.c:114-117) *)
Definition wiped (dev : option (list Z)) : tcl :=
  mkT None dev None None None None None None None 512 0 1 0 false false false false false false false.
(** as main sets it up (nbd-client.c:984-987) *)
Definition initial : tcl :=
  mkT None None None (Some (text "10809")) None None None None None 512 0 1 0 false false false false false false false.

(** assignments to single members (nbd-client.c:74-82, 92-97, 109-110, 1008-1125) *)
Definition set_name v c := mkT (Some v) (t_dev c) (t_host c) (t_port c) (t_cert c) (t_key c) (t_cacert c) (t_tlshost c) (t_prio c) (t_bs c) (t_timeout c) (t_nconn c) (t_force c) (t_no_optgo c) (t_persist c) (t_swap c) (t_unix c) (t_preinit c) (t_ro c) (t_tls c). (* nbd-client.c:110, 1084 *)
Definition set_dev v c := mkT (t_name c) (Some v) (t_host c) (t_port c) (t_cert c) (t_key c) (t_cacert c) (t_tlshost c) (t_prio c) (t_bs c) (t_timeout c) (t_nconn c) (t_force c) (t_no_optgo c) (t_persist c) (t_swap c) (t_unix c) (t_preinit c) (t_ro c) (t_tls c). (* nbd-client.c:1017, 1025, 1156 *)
Definition set_host v c := mkT (t_name c) (t_dev c) (Some v) (t_port c) (t_cert c) (t_key c) (t_cacert c) (t_tlshost c) (t_prio c) (t_bs c) (t_timeout c) (t_nconn c) (t_force c) (t_no_optgo c) (t_persist c) (t_swap c) (t_unix c) (t_preinit c) (t_ro c) (t_tls c). (* nbd-client.c:109, 1011 *)
Definition set_port v c := mkT (t_name c) (t_dev c) (t_host c) (Some v) (t_cert c) (t_key c) (t_cacert c) (t_tlshost c) (t_prio c) (t_bs c) (t_timeout c) (t_nconn c) (t_force c) (t_no_optgo c) (t_persist c) (t_swap c) (t_unix c) (t_preinit c) (t_ro c) (t_tls c). (* nbd-client.c:74 *)
Definition set_cert v c := mkT (t_name c) (t_dev c) (t_host c) (t_port c) (Some v) (t_key c) (t_cacert c) (t_tlshost c) (t_prio c) (t_bs c) (t_timeout c) (t_nconn c) (t_force c) (t_no_optgo c) (t_persist c) (t_swap c) (t_unix c) (t_preinit c) (t_ro c) (t_tls c). (* nbd-client.c:75, 1113 *)
Definition set_key v c := mkT (t_name c) (t_dev c) (t_host c) (t_port c) (t_cert c) (Some v) (t_cacert c) (t_tlshost c) (t_prio c) (t_bs c) (t_timeout c) (t_nconn c) (t_force c) (t_no_optgo c) (t_persist c) (t_swap c) (t_unix c) (t_preinit c) (t_ro c) (t_tls c). (* nbd-client.c:76, 1116 *)
Definition set_cacert v c := mkT (t_name c) (t_dev c) (t_host c) (t_port c) (t_cert c) (t_key c) (Some v) (t_tlshost c) (t_prio c) (t_bs c) (t_timeout c) (t_nconn c) (t_force c) (t_no_optgo c) (t_persist c) (t_swap c) (t_unix c) (t_preinit c) (t_ro c) (t_tls c). (* nbd-client.c:77, 1119 *)
Definition set_tlshost v c := mkT (t_name c) (t_dev c) (t_host c) (t_port c) (t_cert c) (t_key c) (t_cacert c) (Some v) (t_prio c) (t_bs c) (t_timeout c) (t_nconn c) (t_force c) (t_no_optgo c) (t_persist c) (t_swap c) (t_unix c) (t_preinit c) (t_ro c) (t_tls c). (* nbd-client.c:78, 1122 *)
Definition set_prio v c := mkT (t_name c) (t_dev c) (t_host c) (t_port c) (t_cert c) (t_key c) (t_cacert c) (t_tlshost c) (Some v) (t_bs c) (t_timeout c) (t_nconn c) (t_force c) (t_no_optgo c) (t_persist c) (t_swap c) (t_unix c) (t_preinit c) (t_ro c) (t_tls c). (* nbd-client.c:79, 1125 *)
Definition set_bs v c := mkT (t_name c) (t_dev c) (t_host c) (t_port c) (t_cert c) (t_key c) (t_cacert c) (t_tlshost c) (t_prio c) (i32 v) (t_timeout c) (t_nconn c) (t_force c) (t_no_optgo c) (t_persist c) (t_swap c) (t_unix c) (t_preinit c) (t_ro c) (t_tls c). (* nbd-client.c:80, 1034 *)
Definition set_timeout v c := mkT (t_name c) (t_dev c) (t_host c) (t_port c) (t_cert c) (t_key c) (t_cacert c) (t_tlshost c) (t_prio c) (t_bs c) (i32 v) (t_nconn c) (t_force c) (t_no_optgo c) (t_persist c) (t_swap c) (t_unix c) (t_preinit c) (t_ro c) (t_tls c). (* nbd-client.c:81, 1100 *)
Definition set_nconn v c := mkT (t_name c) (t_dev c) (t_host c) (t_port c) (t_cert c) (t_key c) (t_cacert c) (t_tlshost c) (t_prio c) (t_bs c) (t_timeout c) (i32 v) (t_force c) (t_no_optgo c) (t_persist c) (t_swap c) (t_unix c) (t_preinit c) (t_ro c) (t_tls c). (* nbd-client.c:82, 1050 *)
Definition set_force v c := mkT (t_name c) (t_dev c) (t_host c) (t_port c) (t_cert c) (t_key c) (t_cacert c) (t_tlshost c) (t_prio c) (t_bs c) (t_timeout c) (t_nconn c) v (t_no_optgo c) (t_persist c) (t_swap c) (t_unix c) (t_preinit c) (t_ro c) (t_tls c). (* nbd-client.c:1041 *)
Definition set_no_optgo c := mkT (t_name c) (t_dev c) (t_host c) (t_port c) (t_cert c) (t_key c) (t_cacert c) (t_tlshost c) (t_prio c) (t_bs c) (t_timeout c) (t_nconn c) (t_force c) true (t_persist c) (t_swap c) (t_unix c) (t_preinit c) (t_ro c) (t_tls c). (* nbd-client.c:92, 1057 *)
Definition set_persist c := mkT (t_name c) (t_dev c) (t_host c) (t_port c) (t_cert c) (t_key c) (t_cacert c) (t_tlshost c) (t_prio c) (t_bs c) (t_timeout c) (t_nconn c) (t_force c) (t_no_optgo c) true (t_swap c) (t_unix c) (t_preinit c) (t_ro c) (t_tls c). (* nbd-client.c:93 *)
Definition set_swap c := mkT (t_name c) (t_dev c) (t_host c) (t_port c) (t_cert c) (t_key c) (t_cacert c) (t_tlshost c) (t_prio c) (t_bs c) (t_timeout c) (t_nconn c) (t_force c) (t_no_optgo c) (t_persist c) true (t_unix c) (t_preinit c) (t_ro c) (t_tls c). (* nbd-client.c:94, 1096 *)
Definition set_unix c := mkT (t_name c) (t_dev c) (t_host c) (t_port c) (t_cert c) (t_key c) (t_cacert c) (t_tlshost c) (t_prio c) (t_bs c) (t_timeout c) (t_nconn c) (t_force c) (t_no_optgo c) (t_persist c) (t_swap c) true (t_preinit c) (t_ro c) (t_tls c). (* nbd-client.c:95, 1103 *)
Definition set_preinit c := mkT (t_name c) (t_dev c) (t_host c) (t_port c) (t_cert c) (t_key c) (t_cacert c) (t_tlshost c) (t_prio c) (t_bs c) (t_timeout c) (t_nconn c) (t_force c) (t_no_optgo c) (t_persist c) (t_swap c) (t_unix c) true (t_ro c) (t_tls c). (* nbd-client.c:96, 1090 *)
Definition set_ro c := mkT (t_name c) (t_dev c) (t_host c) (t_port c) (t_cert c) (t_key c) (t_cacert c) (t_tlshost c) (t_prio c) (t_bs c) (t_timeout c) (t_nconn c) (t_force c) (t_no_optgo c) (t_persist c) (t_swap c) (t_unix c) (t_preinit c) true (t_tls c). (* nbd-client.c:1093 *)
Definition set_tls c := mkT (t_name c) (t_dev c) (t_host c) (t_port c) (t_cert c) (t_key c) (t_cacert c) (t_tlshost c) (t_prio c) (t_bs c) (t_timeout c) (t_nconn c) (t_force c) (t_no_optgo c) (t_persist c) (t_swap c) (t_unix c) (t_preinit c) (t_ro c) true. (* nbd-client.c:97, 1110, 1175 *)

(** ** actions *)
Definition is (a : list Z) (b : string) : bool := if list_eq_dec Z.eq_dec a (text b) then true else false. (* strcmp, nbd-client.c:71, 89 *)
(** nbdtab_set_property (nbd-client.c:72-86); strtol to base 10 *)
Definition set_property (p v : list Z) (c : tcl) : tcl :=
  if is p "port" then set_port v c
  else if is p "certfile" then set_cert v c
  else if is p "keyfile" then set_key v c
  else if is p "cacertfile" then set_cacert v c
  else if is p "tlshostname" then set_tlshost v c
  else if is p "priority" then set_prio v c
  else if is p "bs" then set_bs (strtol v) c
  else if is p "timeout" then set_timeout (strtol v) c
  else if is p "conns" then set_nconn (strtol v) c
  else c.
(** nbdtab_set_flag (nbd-client.c:90-101) *)
Definition set_flag (f : list Z) (c : tcl) : tcl :=
  if is f "no_optgo" then set_no_optgo c
  else if is f "persist" then set_persist c
  else if is f "swap" then set_swap c
  else if is f "unix" then set_unix c
  else if is f "preinit" then set_preinit c
  else if is f "tls" then set_tls c
  else c.
Definition set_opt (c : tcl) (o : opt) : tcl := (* nbdtab_parser.y:38-41 *)
  match o with OFlag f => set_flag f c | OProp p v => set_property p v c end.
(** devn without "/dev/" (nbd-client.c:104-106, 769-771) *)
Definition strip_dev (d : list Z) : list Z := if starts (text "/dev/") d then skipn 5 d else d.
(** nbdtab_commit_line after the options of the line (nbd-client.c:73, 91,
    103-121); the flag is found_config *)
Definition do_line (s : tcl * bool) (l : line) : tcl * bool :=
  let '(c, found) := s in
  let c := if found : bool then c else fold_left set_opt (l_opts l) c in
  if (match t_dev c with Some d => if list_eq_dec Z.eq_dec d (strip_dev (l_dev l)) then true else false | None => false end)
  then (set_name (l_name l) (set_host (l_host l) c), true)
  else if found then (c, found) else (wiped (t_dev c), false).
(** get_from_config (nbd-client.c:764-792); [file] is [None] when nbdtab cannot be
    opened *)
Definition get_from_config (file : option (list Z)) (c : tcl) : option tcl :=
  let c := match t_dev c with Some d => set_dev (strip_dev d) c | None => c end in
  match file with
  | None => None
  | Some f =>
      match yyparse f with
      | None => None
      | Some ls => let '(c, found) := fold_left do_line ls (c, false) in if found then Some c else None
      end
  end.

(** ** main (nbd-client.c:926-1266) *)
(** What getopt_long_only delivers (nbd-client.c:989): a word that is no option
    (value 1), or an option with its argument (empty when it takes none).
    -i and -L are there only in a build with netlink, TLS is compiled in. *)
Inductive arg := AWord (s : list Z) | AOpt (c : string) (s : list Z). (* nbd-client.c:989-992 *)
(** Variables of main: [v_cont] (-p), [v_list] (-l), [v_netlink], [v_ident] and
    the counter nonspecial; [v_port], which is set and not used
    (nbd-client.c:927-944). *)
Record mvars := mkV { v_cl : tcl; v_nonspecial : Z; v_port : list Z; v_cont : bool; v_list : bool; v_netlink : bool; v_ident : option (list Z); v_disc : bool }.
(** outcome of the option loop and of main up to the connections: exit with
    failure or an answer for -h, -c, -V ([MExit]), -d ([MDisconnect]), division by
    zero ([MUb]), or the connections are made ([MGo]) (nbd-client.c:989-1204) *)
Inductive mres := MExit | MDisconnect (dev : option (list Z)) | MUb | MGo (v : mvars).
Definition with_cl (v : mvars) (c : tcl) : mvars := (* nbd-client.c:989-1140 *)
  mkV c (v_nonspecial v) (v_port v) (v_cont v) (v_list v) (v_netlink v) (v_ident v) (v_disc v).
(** -b, bs= (nbd-client.c:1032-1039); the remainder is that of C *)
Definition do_bs (s : list Z) (v : mvars) : option mvars :=
  let c := set_bs (strtol0 s) (v_cl v) in
  if (t_bs c =? 0) || negb (Z.rem (t_bs c) 512 =? 0) then None else Some (with_cl v c).
(** strtoull (nbd-client.c:1041), base 0; negative texts wrap *)
Definition strtoull0 (s : list Z) : Z :=
  let s := skip_space s in
  let '(neg, s) := match s with 45 :: t => (true, t) | 43 :: t => (false, t) | _ => (false, s) end in
  let x := match s with
           | 48 :: 120 :: t | 48 :: 88 :: t => digits_base 16 t 0
           | 48 :: t => digits_base 8 t 0
           | _ => digits_base 10 s 0
           end in
  if 18446744073709551615 <? x then 18446744073709551615 else if neg : bool then u64 (- x) else x.
(** one option (nbd-client.c:990-1139); [None] is an exit *)
Definition do_arg (v : mvars) (a : arg) : option mvars :=
  let c := v_cl v in
  match a with
  | AWord s =>
      if existsb (fun x => x =? 61) s then
        if starts (text "bs=") s then do_bs (skipn 3 s) v
        else if starts (text "timeout=") s then Some (with_cl v (set_timeout (strtol0 (skipn 8 s)) c))
        else None
      else
        let step n v := mkV (v_cl v) n (v_port v) (v_cont v) (v_list v) (v_netlink v) (v_ident v) (v_disc v) in
        if v_nonspecial v =? 0 then Some (step 1 (with_cl v (set_host s c)))
        else if v_nonspecial v =? 1 then
          if strtol0 s =? 0 then Some (step 3 (with_cl v (set_dev s c)))
          else Some (mkV c 2 s (v_cont v) (v_list v) (v_netlink v) (v_ident v) (v_disc v))
        else if v_nonspecial v =? 2 then Some (step 3 (with_cl v (set_dev s c)))
        else None
  | AOpt o s =>
      if (o =? "b")%string then do_bs s v
      else if (o =? "B")%string then
        let c := set_force (strtoull0 s) c in if t_force c =? 0 then None else Some (with_cl v c)
      else if (o =? "C")%string then Some (with_cl v (set_nconn (strtol0 s) c))
      else if (o =? "d")%string then
        Some (mkV (set_dev s c) (v_nonspecial v) (v_port v) (v_cont v) (v_list v) (v_netlink v) (v_ident v) true)
      else if (o =? "g")%string then Some (with_cl v (set_no_optgo c))
      else if (o =? "i")%string then
        Some (mkV c (v_nonspecial v) (v_port v) (v_cont v) (v_list v) (v_netlink v) (Some s) (v_disc v))
      else if (o =? "l")%string then
        Some (mkV (set_dev [] c) (v_nonspecial v) (v_port v) (v_cont v) true (v_netlink v) (v_ident v) (v_disc v))
      else if (o =? "L")%string then
        Some (mkV c (v_nonspecial v) (v_port v) (v_cont v) (v_list v) false (v_ident v) (v_disc v))
      else if (o =? "m")%string || (o =? "n")%string then Some v
      else if (o =? "N")%string then Some (with_cl v (set_name s c))
      else if (o =? "p")%string then
        Some (mkV c (v_nonspecial v) (v_port v) true (v_list v) (v_netlink v) (v_ident v) (v_disc v))
      else if (o =? "P")%string then Some (with_cl v (set_preinit c))
      else if (o =? "R")%string then Some (with_cl v (set_ro c))
      else if (o =? "s")%string then Some (with_cl v (set_swap c))
      else if (o =? "t")%string then Some (with_cl v (set_timeout (strtol0 s) c))
      else if (o =? "u")%string then Some (with_cl v (set_unix c))
      else if (o =? "x")%string then Some (with_cl v (set_tls c))
      else if (o =? "F")%string then Some (with_cl v (set_cert s c))
      else if (o =? "K")%string then Some (with_cl v (set_key s c))
      else if (o =? "A")%string then Some (with_cl v (set_cacert s c))
      else if (o =? "H")%string then Some (with_cl v (set_tlshost s c))
      else if (o =? "y")%string then Some (with_cl v (set_prio s c))
      else None
  end.
Fixpoint do_args (v : mvars) (l : list arg) : option mvars := (* nbd-client.c:989-1140 *)
  match l with
  | [] => Some v
  | a :: l => match do_arg v a with Some v => do_args v l | None => None end
  end.
(** nbd-client.c:1171-1205: certificates, preinit, tlshostname, the name of the
    server, size against block size *)
Definition is_set {A} (o : option A) : bool := match o with Some _ => true | None => false end. (* nbd-client.c:1174 *)
Definition prepare (v : mvars) : mres :=
  let c := v_cl v in
  let c := match t_key c, t_cert c with Some k, None => set_cert k c | _, _ => c end in
  let c := if is_set (t_cert c) || is_set (t_key c) || is_set (t_cacert c) || is_set (t_tlshost c) then set_tls c else c in
  if t_preinit c && (t_tls c || (t_force c =? 0)) then MExit else
  let c := match t_tlshost c, t_host c with None, Some h => if t_unix c then c else set_tlshost h c | _, _ => c end in
  if negb (v_netlink v) && is_set (v_ident v) then MExit else
  if t_bs c =? 0 then MUb else
  if negb (t_force c mod u64 (t_bs c) =? 0) then MExit else
  MGo (with_cl v (match t_name c with None => set_name [] c | Some _ => c end)).
(** nbd-client.c:1142-1169: where the settings come from *)
Definition main (file : option (list Z)) (netlink : bool) (l : list arg) : mres :=
  match do_args (mkV initial 0 (text "10809") false false netlink None false) l with
  | None => MExit
  | Some v =>
      let c := v_cl v in
      if v_disc v then MDisconnect (t_dev c) else
      match t_host c with
      | None => MExit
      | Some h =>
          if negb (is_set (t_name c) && is_set (t_dev c)) && negb (v_list v) then
            if starts (text "nbd") h || starts (text "/dev/nbd") h then
              match get_from_config file (set_dev h c) with
              | None => MExit
              | Some c => prepare (with_cl v c)
              end
            else if negb (v_netlink v) then MExit else prepare v
          else prepare v
      end
  end.

(** ** the connection and the device *)
(** where main connects to (opennet, openunix, nbd-client.c:306, 340, 1223-1226):
    a path, or host and port; the port is [None] for a NULL service, which is
    port 0 *)
Inductive dest := DUnix (path : option (list Z)) | DNet (host port : option (list Z)).
(** nbd-client.c:1223-1226, 1339-1342 *)
Definition destination (c : tcl) : dest := if t_unix c then DUnix (t_host c) else DNet (t_host c) (t_port c).
(** the device (nbd-client.c:1210-1214, 1257-1262): opened by name, or given to
    the kernel by number (-1: the kernel chooses); [VNone] is the error exit after
    the connections were made *)
Inductive device := VOpen (path : option (list Z)) | VIndex (n : Z) | VNone.
(** nbd-client.c:1260, "%d" with at least one digit *)
Definition sscanf_nbd (d : list Z) : option Z :=
  if starts (text "/dev/nbd") d then
    let r := skip_space (skipn 8 d) in
    let r' := match r with 45 :: t | 43 :: t => t | _ => r end in
    match r' with x :: _ => if isdigit x then Some (i32 (strtol r)) else None | [] => None end
  else None.
(** nbd-client.c:1210-1214, 1257-1262 *)
Definition device_of (v : mvars) : device :=
  if v_netlink v then
    match t_dev (v_cl v) with
    | Some d => match sscanf_nbd d with Some n => VIndex n | None => VNone end
    | None => VIndex (-1)
    end
  else VOpen (t_dev (v_cl v)).

(** ** reconnecting (nbd-client.c:1324-1360) *)
(** What the kernel is told of the device: size and flags, with bit 1 of the
    flags for read-only (setsizes, nbd-client.c:794-829). *)
Record told_kernel := mkTold { k_sz : Z; k_fl : Z }.
(** the first connection (nbd-client.c:1230-1242); [neg] is what the server
    announced, and without negotiation (preinit) size and flags are 0 *)
Definition first_told (c : tcl) (neg : Z * Z) : told_kernel :=
  let '(sz, fl) := if t_preinit c then (0, 0) else neg in
  mkTold (if t_force c =? 0 then sz else t_force c) (if t_ro c then Z.lor fl 2 else fl).
(** a reconnect (nbd-client.c:1350-1355): [None] is "Size of the device changed" *)
Definition again_told (c : tcl) (old : told_kernel) (neg : Z * Z) : option told_kernel :=
  let '(sz, fl) := neg in if k_sz old =? sz then Some (mkTold sz fl) else None.
(** whether a lost connection is made again: -p and not with netlink, where main
    has returned (nbd-client.c:1086-1088, 1257-1267, 1332) *)
Definition reconnects (v : mvars) : bool := v_cont v && negb (v_netlink v).
