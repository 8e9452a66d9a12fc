(** Reading the configuration (parse_cfile and do_cfile_dir,
    nbd-server.c:716-775, 806-1071).  Definitions only. *)
From Coq Require Import String Ascii.
From Verif Require Import Base M_Const M_Acl M_Nego.
Open Scope list_scope.
Open Scope Z_scope.

(* nbd-server.c:195 *) Definition F_OLDSTYLE := 1.
(* nbd-server.c:198 *) Definition F_DUAL_LISTEN := 8.

(** * The key file (GLib's GKeyFile as used at nbd-server.c:889-953)
    A group: its name and its keys with their values, in file order.
    Simplification: values are already unescaped and valid UTF-8. *)
Record group := mkG { g_name : list Z; g_keys : list (string * list Z) }.

(** value of a key; of several lines with the same key the last counts
    (g_key_file_get_value, used through nbd-server.c:916-945) *)
Fixpoint lookup (k : string) (l : list (string * list Z)) : option (list Z) :=
  match l with
  | [] => None
  | (k', v) :: t =>
      match lookup k t with
      | Some v' => Some v'
      | None => if String.eqb k k' then Some v else None
      end
  end.

(** outcome of a typed lookup: no such key, value of the wrong form, value
    (nbd-server.c:919, 955-968) *)
Inductive kval (A : Type) := KMissing | KBad | KOk (a : A).
Arguments KMissing {A}. Arguments KBad {A}. Arguments KOk {A}.

(** is this value the text [s]? (comparisons inside GLib, nbd-server.c:943) *)
Definition is_text (v : list Z) (s : string) : bool :=
  if list_eq_dec Z.eq_dec v (text s) then true else false.

(** trailing white space is ignored in booleans (g_key_file_get_boolean,
    nbd-server.c:943) *)
Fixpoint rtrim (v : list Z) : list Z :=
  match v with
  | [] => []
  | c :: t => match rtrim t with
              | [] => if isspace c then [] else [c]
              | t' => c :: t'
              end
  end.

(** g_key_file_get_boolean (nbd-server.c:943-945): true and 1, false and 0 *)
Definition as_bool (v : list Z) : option bool :=
  let v := rtrim v in
  if is_text v "true" || is_text v "1" then Some true
  else if is_text v "false" || is_text v "0" then Some false
  else None.

(** what follows the digits of a number (strtol inside GLib, nbd-server.c:916, 925) *)
Fixpoint after_digits (s : list Z) : list Z :=
  match s with
  | c :: t => if isdigit c then after_digits t else s
  | [] => []
  end.
(** decimal number at the start of a string: its value and what follows, [None]
    without digits (nbd-server.c:916, 925) *)
Definition number (v : list Z) : option (Z * list Z) :=
  let s := skip_space v in
  let '(neg, s) := match s with
                   | 45 :: t => (true, t)
                   | 43 :: t => (false, t)
                   | _ => (false, s)
                   end in
  match s with
  | c :: _ => if isdigit c then Some ((if neg : bool then - digits s 0 else digits s 0), after_digits s) else None
  | [] => None
  end.
(** g_key_file_get_integer (nbd-server.c:916-919): may be followed by white
    space, must fit an int *)
Definition as_int (v : list Z) : option Z :=
  match number v with
  | Some (n, rest) =>
      if match rest with [] => true | c :: _ => isspace c end
         && (-2147483648 <=? n) && (n <=? 2147483647)
      then Some n else None
  | None => None
  end.
(** g_key_file_get_int64 (nbd-server.c:925-928): nothing may follow; saturates *)
Definition as_int64 (v : list Z) : option Z :=
  match number v with
  | Some (n, []) => Some (Z.max (-9223372036854775808) (Z.min 9223372036854775807 n))
  | _ => None
  end.

(** strtol(s, NULL, 0) (nbd-server.c:986): hexadecimal after 0x, octal after 0 *)
Definition xdigit (c : Z) : option Z := (* nbd-server.c:986 *)
  if isdigit c then Some (c - 48)
  else if (97 <=? c) && (c <=? 102) then Some (c - 87)
  else if (65 <=? c) && (c <=? 70) then Some (c - 55)
  else None.
Fixpoint digits_base (b : Z) (s : list Z) (acc : Z) : Z := (* nbd-server.c:986 *)
  match s with
  | c :: t => match xdigit c with
              | Some d => if d <? b then digits_base b t (acc * b + d) else acc
              | None => acc
              end
  | [] => acc
  end.
Definition strtol0 (s : list Z) : Z := (* nbd-server.c:986 *)
  let s := skip_space s in
  let '(neg, s) := match s with
                   | 45 :: t => (true, t)
                   | 43 :: t => (false, t)
                   | _ => (false, s)
                   end in
  let v := match s with
           | 48 :: 120 :: t | 48 :: 88 :: t => digits_base 16 t 0
           | 48 :: t => digits_base 8 t 0
           | _ => digits_base 10 s 0
           end in
  if neg : bool then Z.max (- v) (-9223372036854775808) else Z.min v 9223372036854775807.

(** * Export sections *)
(** virtualisation styles (nbdsrv.h:20-26) *)
Inductive virt := VirtNone | VirtIplit | VirtIphash | VirtCidr.

(** SERVER as filled in by parse_cfile (nbdsrv.h:31-51); strings are [None] when
    NULL *)
Record server := mkS {
  s_name : list Z; s_export : option (list Z); s_auth : option (list Z); s_size : Z;
  s_virt : virt; s_cidr : Z; s_prerun : option (list Z); s_postrun : option (list Z);
  s_log : option (list Z); s_cow : option (list Z); s_listen : option (list Z);
  s_max : Z; s_flags : Z
}.

(** the variables written while a section is read: the SERVER [s] and
    [virtstyle] (nbd-server.c:810-811) *)
Record draft := mkDr {
  d_export : option (list Z); d_auth : option (list Z); d_size : Z; d_virt : option (list Z);
  d_prerun : option (list Z); d_postrun : option (list Z); d_log : option (list Z);
  d_cow : option (list Z); d_listen : option (list Z); d_max : Z; d_flags : Z
}.
(** memset (nbd-server.c:903) *)
Definition draft0 : draft := mkDr None None 0 None None None None None None 0 0.

(** where a parameter is stored (column target of nbd-server.c:813-838) *)
Inductive target := TExport | TAuth | TSize | TVirt | TPrerun | TPostrun | TLog | TCow | TListen | TMax | TFlag (f : Z).
(** one row: name, required, target (nbd-server.c:812-839); the type follows
    from the target *)
Record param := mkPar { p_name : string; p_required : bool; p_target : target }.
(** the table lp (nbd-server.c:812-839) *)
Definition lp : list param := [
  mkPar "exportname" true TExport; mkPar "authfile" false TAuth; mkPar "filesize" false TSize;
  mkPar "virtstyle" false TVirt; mkPar "prerun" false TPrerun; mkPar "postrun" false TPostrun;
  mkPar "transactionlog" false TLog; mkPar "cowdir" false TCow;
  mkPar "readonly" false (TFlag F_READONLY); mkPar "multifile" false (TFlag F_MULTIFILE);
  mkPar "treefiles" false (TFlag F_TREEFILES); mkPar "copyonwrite" false (TFlag F_COPYONWRITE);
  mkPar "waitfile" false (TFlag F_WAIT); mkPar "sparse_cow" false (TFlag F_SPARSE);
  mkPar "sdp" false (TFlag F_SDP); mkPar "sync" false (TFlag F_SYNC);
  mkPar "flush" false (TFlag F_FLUSH); mkPar "fua" false (TFlag F_FUA);
  mkPar "rotational" false (TFlag F_ROTATIONAL); mkPar "temporary" false (TFlag F_TEMPORARY);
  mkPar "trim" false (TFlag F_TRIM); mkPar "datalog" false (TFlag F_DATALOG);
  mkPar "listenaddr" false TListen; mkPar "maxconnections" false TMax;
  mkPar "force_tls" false (TFlag F_FORCEDTLS); mkPar "splice" false (TFlag F_SPLICE)
].

(** "|= flagval" or "&= ~flagval" (nbd-server.c:947-951) *)
Definition put_flag (w f : Z) (b : bool) : Z := if b then Z.lor w f else Z.ldiff w f.

(** store the value of one parameter (nbd-server.c:914-954); [None] when it has
    the wrong form *)
Definition store_param (t : target) (v : list Z) (d : draft) : option draft :=
  match t with
  | TExport => Some (mkDr (Some v) (d_auth d) (d_size d) (d_virt d) (d_prerun d) (d_postrun d) (d_log d) (d_cow d) (d_listen d) (d_max d) (d_flags d))
  | TAuth => Some (mkDr (d_export d) (Some v) (d_size d) (d_virt d) (d_prerun d) (d_postrun d) (d_log d) (d_cow d) (d_listen d) (d_max d) (d_flags d))
  | TSize => match as_int64 v with
             | Some n => Some (mkDr (d_export d) (d_auth d) (u64 n) (d_virt d) (d_prerun d) (d_postrun d) (d_log d) (d_cow d) (d_listen d) (d_max d) (d_flags d))
             | None => None
             end
  | TVirt => Some (mkDr (d_export d) (d_auth d) (d_size d) (Some v) (d_prerun d) (d_postrun d) (d_log d) (d_cow d) (d_listen d) (d_max d) (d_flags d))
  | TPrerun => Some (mkDr (d_export d) (d_auth d) (d_size d) (d_virt d) (Some v) (d_postrun d) (d_log d) (d_cow d) (d_listen d) (d_max d) (d_flags d))
  | TPostrun => Some (mkDr (d_export d) (d_auth d) (d_size d) (d_virt d) (d_prerun d) (Some v) (d_log d) (d_cow d) (d_listen d) (d_max d) (d_flags d))
  | TLog => Some (mkDr (d_export d) (d_auth d) (d_size d) (d_virt d) (d_prerun d) (d_postrun d) (Some v) (d_cow d) (d_listen d) (d_max d) (d_flags d))
  | TCow => Some (mkDr (d_export d) (d_auth d) (d_size d) (d_virt d) (d_prerun d) (d_postrun d) (d_log d) (Some v) (d_listen d) (d_max d) (d_flags d))
  | TListen => Some (mkDr (d_export d) (d_auth d) (d_size d) (d_virt d) (d_prerun d) (d_postrun d) (d_log d) (d_cow d) (Some v) (d_max d) (d_flags d))
  | TMax => match as_int v with
            | Some n => Some (mkDr (d_export d) (d_auth d) (d_size d) (d_virt d) (d_prerun d) (d_postrun d) (d_log d) (d_cow d) (d_listen d) n (d_flags d))
            | None => None
            end
  | TFlag f => match as_bool v with
               | Some b => Some (mkDr (d_export d) (d_auth d) (d_size d) (d_virt d) (d_prerun d) (d_postrun d) (d_log d) (d_cow d) (d_listen d) (d_max d) (put_flag (d_flags d) f b))
               | None => None
               end
  end.

(** the loop over the parameters of an export section (nbd-server.c:911-971);
    [None]: a required one is missing or a value has the wrong form *)
Fixpoint read_params (ps : list param) (keys : list (string * list Z)) (d : draft) : option draft :=
  match ps with
  | [] => Some d
  | p :: t =>
      match lookup (p_name p) keys with
      | None => if p_required p then None else read_params t keys d
      | Some v => match store_param (p_target p) v d with
                  | None => None
                  | Some d' => read_params t keys d'
                  end
      end
  end.

(** strncmp(s, prefix, strlen(prefix)) == 0 (nbd-server.c:973-979) *)
Fixpoint starts (p s : list Z) : bool :=
  match p, s with
  | [], _ => true
  | x :: p, y :: s => (x =? y) && starts p s
  | _, _ => false
  end.

(** the virtstyle value (nbd-server.c:972-994): style and cidrlen (a uint8_t);
    [None] is an error *)
Definition virt_of (v : option (list Z)) : option (virt * Z) :=
  match v with
  | None => Some (VirtIplit, 0)
  | Some v =>
      if starts (text "none") v then Some (VirtNone, 0)
      else if starts (text "ipliteral") v then Some (VirtIplit, 0)
      else if starts (text "iphash") v then Some (VirtIphash, 0)
      else if starts (text "cidrhash") v then
        if zlen v <? 10 then None else Some (VirtCidr, u8 (strtol0 (skipn 8 v)))
      else None
  end.

(** options that may not be combined (nbd-server.c:1007-1029), and SDP without
    support for it (nbd-server.c:1039-1045; a build with splice and without SDP
    is modelled) *)
Definition contradictory (flags : Z) : bool :=
  (flag flags F_COPYONWRITE && flag flags F_SPLICE)
  || (flag flags F_COPYONWRITE && flag flags F_WAIT)
  || (flag flags F_DATALOG && flag flags F_SPLICE)
  || flag flags F_SDP.

(** one export section (nbd-server.c:903-1045) *)
Definition parse_export (g : group) : option server :=
  match read_params lp (g_keys g) draft0 with
  | None => None
  | Some d =>
      match virt_of (d_virt d) with
      | None => None
      | Some (vs, cidr) =>
          if contradictory (d_flags d) then None
          else Some (mkS (g_name g) (d_export d) (d_auth d) (d_size d) vs cidr (d_prerun d) (d_postrun d)
                         (d_log d) (d_cow d) (d_listen d) (d_max d) (d_flags d))
      end
  end.

(** * The [generic] section and the whole file *)
(** generic_conf as far as modelled (nbd-server.c:289-301): flags, threads,
    includedir.  Simplification: the other members are strings, which are
    always accepted. *)
Record genconf := mkGen { gc_flags : Z; gc_threads : Z; gc_dir : option (list Z) }.

(** the boolean parameters of gp (nbd-server.c:842-858) *)
Definition gp_flags : list (string * Z) :=
  [("oldstyle"%string, F_OLDSTYLE); ("allowlist"%string, F_LIST); ("duallisten"%string, F_DUAL_LISTEN);
   ("force_tls"%string, F_FORCEDTLS)].

(** nbd-server.c:911-971 for those *)
Fixpoint read_flags (ps : list (string * Z)) (keys : list (string * list Z)) (w : Z) : option Z :=
  match ps with
  | [] => Some w
  | (k, f) :: t =>
      match lookup k keys with
      | None => read_flags t keys w
      | Some v => match as_bool v with
                  | None => None
                  | Some b => read_flags t keys (put_flag w f b)
                  end
      end
  end.

(** the [generic] section (nbd-server.c:911-971 with the table gp).
    Simplification: whether an error is reported does not depend on the order
    of the table. *)
Definition parse_generic (g : group) (c : genconf) : option genconf :=
  match read_flags gp_flags (g_keys g) (gc_flags c) with
  | None => None
  | Some w =>
      match match lookup "max_threads" (g_keys g) with
            | None => Some (gc_threads c)
            | Some v => as_int v
            end with
      | None => None
      | Some n => Some (mkGen w n (match lookup "includedir" (g_keys g) with Some v => Some v | None => gc_dir c end))
      end
  end.

(** What parse_cfile returns: the array ([None] is NULL) and whether an error was
    stored through [e] (nbd-server.c:806), and the generic configuration. *)
Record cfile := mkCf { cf_list : option (list server); cf_err : bool; cf_gen : genconf }.

(** the sections of a file without [generic] (nbd-server.c:902-1046).  [inl err]:
    return NULL, with or without an error.  F_OLDSTYLE is looked at in every
    round (995-999). *)
Fixpoint parse_exports (gs : list group) (flags : Z) (acc : list server) : bool + list server :=
  match gs with
  | [] => inr acc
  | g :: t =>
      match read_params lp (g_keys g) draft0 with
      | None => inl true
      | Some d =>
          match virt_of (d_virt d) with
          | None => inl true
          | Some _ =>
              if flag flags F_OLDSTYLE then inl false
              else match parse_export g with
                   | None => inl true
                   | Some s => parse_exports t flags (acc ++ [s])
                   end
          end
      end
  end.

(** parse_cfile without a generic section (expect_generic false), called for the
    files of includedir; [None]: the file cannot be loaded (nbd-server.c:891-895) *)
Definition parse_included (file : option (list group)) (c : genconf) : cfile :=
  match file with
  | None => mkCf (Some []) true c
  | Some gs => match parse_exports gs (gc_flags c) [] with
               | inl e => mkCf None e c
               | inr l => mkCf (Some l) false c
               end
  end.

(** one entry of a directory: name, regular file, contents (nbd-server.c:730-749) *)
Record dirent := mkDe { de_name : list Z; de_regular : bool; de_file : option (list group) }.
(** strcmp(d_name + strlen - 5, ".conf") == 0 (nbd-server.c:747).
    Simplification: for shorter names the code looks at the bytes before d_name,
    which in struct dirent are never those of this suffix. *)
Definition conf_name (n : list Z) : bool :=
  (5 <=? zlen n) && is_text (skipn (Z.to_nat (zlen n - 5)) n) ".conf".

(** result of do_cfile_dir: the array or NULL, whether an error was stored; a
    NULL array used (nbd-server.c:716-775, 757) *)
Inductive dirres := DirOk (l : option (list server)) (err : bool) | DirUb.
(** do_cfile_dir (nbd-server.c:716-775).  Simplification: readdir reports the
    type and does not fail. *)
Fixpoint do_cfile_dir (es : list dirent) (c : genconf) (acc : option (list server)) : dirres :=
  match es with
  | [] => DirOk acc false
  | e :: t =>
      if de_regular e && conf_name (de_name e) then
        let r := parse_included (de_file e) c in
        if cf_err r then DirOk None true
        else match cf_list r with
             | None => DirUb
             | Some l => do_cfile_dir t c (Some (match acc with None => [] | Some a => a end ++ l))
             end
      else do_cfile_dir t c acc
  end.

(** outcome of parse_cfile: normal, or undefined behaviour (nbd-server.c:757) *)
Inductive pcf := PcfRet (r : cfile) | PcfUb.

(** parse_cfile with expect_generic (nbd-server.c:806-1071); [dir] tells what a
    directory contains ([None]: opendir fails, nbd-server.c:724-727) *)
Definition parse_cfile (dir : list Z -> option (list dirent)) (file : option (list group)) (c0 : genconf) : pcf :=
  let c0 := mkGen (gc_flags c0) (gc_threads c0) None in
  match file with
  | None => PcfRet (mkCf (Some []) true c0)                                     (* 891-895 *)
  | Some [] => PcfRet (mkCf None true c0)                                       (* 896-900 *)
  | Some (g :: gs) =>
      if negb (is_text (g_name g) "generic") then PcfRet (mkCf None true c0)
      else match parse_generic g c0 with
      | None => PcfRet (mkCf None true c0)
      | Some c =>
          if flag (gc_flags c) F_OLDSTYLE then PcfRet (mkCf None false c0)      (* 995-999 *)
          else match parse_exports gs (gc_flags c) [] with
          | inl e => PcfRet (mkCf None e c0)
          | inr l =>
              match gc_dir c with
              | None => PcfRet (mkCf (Some l) (match gs with [] => true | _ => false end) c)
              | Some d =>
                  match dir d with
                  | None => PcfRet (mkCf None true c0)                          (* 1053-1056 *)
                  | Some es =>
                      match do_cfile_dir es c None with
                      | DirUb => PcfUb
                      | DirOk None true => PcfRet (mkCf None true c0)
                      | DirOk None false => PcfRet (mkCf (Some l) (match gs with [] => true | _ => false end) c)
                      | DirOk (Some x) e =>
                          PcfRet (mkCf (Some (l ++ x)) (match gs, x with [], [] => true | _, _ => false end) c)
                      end
                  end
              end
          end
      end
  end.
