(** The root process of nbd-server: export records and their reference counts,
    the connection limit, re-reading the configuration (nbdsrv.c:315-336,
    nbd-server.c:2283-2312, 3298-3537).  Definitions only. *)
From Verif Require Import Base M_Const M_Acl M_Io M_Conf.

(** A SERVER in memory (nbdsrv.h:31-51): what the configuration says, numclients,
    refcnt, and whether it has been freed. *)
Record srec := mkRec { r_conf : server; r_num : Z; r_ref : Z; r_freed : bool }.

(** A process: the records ever allocated (a pointer is an index), the array
    [servers] (nbd-server.c:3910), the generic configuration, and
    client->server of the connection being handled, if any (nbdsrv.h:64). *)
Record proc := mkProc {
  pr_heap : list srec; pr_servers : list nat; pr_gen : genconf; pr_client : option nat
}.

(** one record replaced (nbdsrv.c:319, 326) *)
Fixpoint set_rec (i : nat) (r : srec) (l : list srec) : list srec :=
  match l, i with
  | [], _ => []
  | _ :: t, O => r :: t
  | x :: t, S i => x :: set_rec i r t
  end.

(** a record reached through a pointer; [None] when there is none or it has been
    freed (any use of it, e.g. nbd-server.c:3320) *)
Definition deref (h : list srec) (p : nat) : option srec :=
  match nth_error h p with
  | Some r => if r_freed r then None else Some r
  | None => None
  end.

(* largest int (nbdsrv.h:46, 50: numclients and refcnt are int) *)
Definition INT_MAX := 2147483647.

(** serve_inc_ref (nbdsrv.c:317-322); [None] is undefined behaviour *)
Definition serve_inc_ref (h : list srec) (p : nat) : option (list srec) :=
  match deref h p with
  | None => None
  | Some r => if r_ref r =? INT_MAX then None
              else Some (set_rec p (mkRec (r_conf r) (r_num r) (r_ref r + 1) false) h)
  end.
(** serve_dec_ref (nbdsrv.c:324-332) *)
Definition serve_dec_ref (h : list srec) (p : nat) : option (list srec) :=
  match deref h p with
  | None => None
  | Some r => Some (set_rec p (mkRec (r_conf r) (r_num r) (r_ref r - 1) (r_ref r - 1 =? 0)) h)
  end.
(** serve_clear_element for each element of an array that is freed
    (nbdsrv.c:334-336, nbd-server.c:3398) *)
Fixpoint clear_all (h : list srec) (l : list nat) : option (list srec) :=
  match l with
  | [] => Some h
  | p :: t => match serve_dec_ref h p with
              | None => None
              | Some h' => clear_all h' t
              end
  end.

(** first element of the array with that name (get_index_by_servename,
    nbd-server.c:3349-3361, and the loop of handle_childname 3319-3330): [None]
    is undefined behaviour, [Some None] not found *)
Fixpoint find_name (h : list srec) (l : list nat) (n : list Z) : option (option nat) :=
  match l with
  | [] => Some None
  | p :: t => match deref h p with
              | None => None
              | Some r => if list_eq_dec Z.eq_dec (s_name (r_conf r)) n then Some (Some p)
                          else find_name h t n
              end
  end.

(** What a process does or experiences: a message from a child arrives
    (nbd-server.c:3527-3532); a child has ended (3458-3475); SIGHUP, with what is
    then found on disk (3485-3504); in the process handling a connection,
    commit_client is entered for the i-th export (2287); the connection has been
    served and ends (finalize_client, 461), in a forked process after the list
    was given up without releasing its elements (3276). *)
Inductive rev :=
| EvAsk (m : list Z)
| EvChild
| EvHup (dir : list Z -> option (list dirent)) (file : option (list group))
| EvCommit (i : nat)
| EvEnd (forked : bool).

(** outcome: goes on, with the byte written to the child if any; exits;
    undefined behaviour (e.g. nbd-server.c:3495) *)
Inductive rout := RGo (s : proc) (ans : option Z) | RExit (s : proc) | RUb.

(** the message a child sends (nbd-server.c:2303-2305; the length in host order) *)
Definition ask_msg (name : list Z) : list Z := le 4 (zlen name) ++ name.

(** handle_childname (nbd-server.c:3298-3338).  Without an answer the parent
    closes the socket.  readit may give less than announced, the result is not
    looked at (3317). *)
Definition handle_childname (s : proc) (m : list Z) : rout :=
  if zlen m <? 4 then RGo s None                                     (* 3304-3308 *)
  else
    let len := unle (firstn 4 m) in
    if 4294967294 <=? len then RGo s None                            (* 3313-3315 *)
    else
      let name := cstr (firstn (Z.to_nat len) (skipn 4 m)) in
      match find_name (pr_heap s) (pr_servers s) name with
      | None => RUb
      | Some None => RGo s (Some 88)                                 (* "X", 3334 *)
      | Some (Some p) =>
          match deref (pr_heap s) p with
          | None => RUb
          | Some r =>
              if (s_max (r_conf r) =? 0) || (r_num r <? s_max (r_conf r)) then
                if r_num r =? INT_MAX then RUb
                else RGo (mkProc (set_rec p (mkRec (r_conf r) (r_num r + 1) (r_ref r) false) (pr_heap s))
                                 (pr_servers s) (pr_gen s) (pr_client s)) (Some 89)   (* "Y", 3323-3325 *)
              else RGo s (Some 78)                                   (* "N", 3327 *)
          end
      end.

(** records made by parse_cfile: one reference each (nbd-server.c:1036) *)
Definition new_recs (l : list server) : list srec := map (fun s => mkRec s 0 1 false) l.
(** their pointers (nbd-server.c:1036-1037) *)
Definition new_ptrs (h : list srec) (l : list server) : list nat := seq (length h) (length l).

(** the loop of append_new_servers (nbd-server.c:3385-3394) *)
Fixpoint append_loop (h : list srec) (servers : list nat) (new : list nat) : option (list srec * list nat) :=
  match new with
  | [] => Some (h, servers)
  | p :: t =>
      match deref h p with
      | None => None
      | Some r =>
          match find_name h servers (s_name (r_conf r)) with
          | None => None
          | Some (Some _) => append_loop h servers t
          | Some None =>
              match serve_inc_ref h p with
              | None => None
              | Some h' => append_loop h' (servers ++ [p]) t
              end
          end
      end
  end.

(** SIGHUP: append_new_servers (nbd-server.c:3374-3401) and the use of its result
    in serveloop (3494-3497).  When parse_cfile returns NULL without an error the
    message of a NULL GError is used. *)
Definition reload (dir : list Z -> option (list dirent)) (file : option (list group)) (s : proc) : rout :=
  match parse_cfile dir file (pr_gen s) with
  | PcfUb => RUb
  | PcfRet r =>
      match cf_list r with
      | None => if cf_err r then RGo s None else RUb
      | Some l =>
          let h := pr_heap s ++ new_recs l in
          let new := new_ptrs (pr_heap s) l in
          match append_loop h (pr_servers s) new with
          | None => RUb
          | Some (h1, servers) =>
              match clear_all h1 new with
              | None => RUb
              | Some h2 => RGo (mkProc h2 servers (cf_gen r) (pr_client s)) None
              end
          end
      end
  end.

(** one event *)
Definition root_step (e : rev) (s : proc) : rout := (* serveloop nbd-server.c:3407-3537, commit_client 2287, finalize_client 452-462 *)
  match e with
  | EvAsk m => handle_childname s m
  | EvChild => RGo s None                                            (* the child's slot is not given back, 3458-3475 *)
  | EvHup dir file => reload dir file s
  | EvCommit i =>
      match nth_error (pr_servers s) i with
      | None => RGo s None
      | Some p =>
          match serve_inc_ref (pr_heap s) p with
          | None => RUb
          | Some h => RGo (mkProc h (pr_servers s) (pr_gen s) (Some p)) None
          end
      end
  | EvEnd forked =>
      match pr_client s with
      | None => RGo s None
      | Some p => match serve_dec_ref (pr_heap s) p with
                  | None => RUb
                  | Some h => RExit (mkProc h (if forked : bool then [] else pr_servers s) (pr_gen s) None)
                  end
      end
  end.

(** a history; the answers given are collected with the message they answer *)
Fixpoint root_run (es : list rev) (s : proc) (log : list (list Z * Z)) : rout * list (list Z * Z) := (* nbd-server.c:3446-3536 *)
  match es with
  | [] => (RGo s None, log)
  | e :: t =>
      match root_step e s with
      | RGo s' a =>
          root_run t s' (match e, a with EvAsk m, Some x => log ++ [(m, x)] | _, _ => log end)
      | o => (o, log)
      end
  end.

(** start: the exports found at start-up, one reference each (nbd-server.c:3928-3936) *)
Definition root_init (l : list server) (c : genconf) : proc :=
  mkProc (new_recs l) (seq 0 (length l)) c None.
