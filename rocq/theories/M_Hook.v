(** What one connection leaves behind outside its export: the prerun and postrun
    commands and the diff file (nbd-server.c:441-469, 2142-2167, 2283-2360,
    3095-3152).  Definitions only. *)
From Coq Require Import String.
From Verif Require Import Base M_Const M_Nego M_Conf M_Virt.
Local Open Scope list_scope.

(** ** dirname and basename (nbd-server.c:84, 2149, 2151) *)
(** These are the functions of libgen.h in the C library; both may cut their
    argument, which here is client->exportname.  Paths are handled from their
    end. *)
Fixpoint drop_slashes (r : list Z) : list Z := (* nbd-server.c:2149 *)
  match r with 47 :: t => drop_slashes t | _ => r end.
Fixpoint drop_part (r : list Z) : list Z := (* nbd-server.c:2149 *)
  match r with [] => [] | c :: t => if c =? 47 then r else drop_part t end.
Fixpoint take_part (r : list Z) : list Z := (* nbd-server.c:2151 *)
  match r with [] => [] | c :: t => if c =? 47 then [] else c :: take_part t end.
(** nothing but slashes is left: "/", or "//" when there are exactly two
    (nbd-server.c:2149) *)
Definition root_of (slashes : list Z) : list Z := if (length slashes =? 2)%nat then [47; 47] else [47].
(** dirname: the text returned and the argument afterwards (nbd-server.c:2149) *)
Definition dirname (p : list Z) : list Z * list Z :=
  match drop_slashes (List.rev p) with
  | [] => match p with [] => ([46], p) | _ => let d := root_of p in (d, d) end
  | r1 =>
      match drop_part r1 with
      | [] => ([46], p)
      | r2 =>
          match drop_slashes r2 with
          | [] => let d := root_of r2 in (d, d)
          | r3 => (List.rev r3, List.rev r3)
          end
      end
  end.
(** basename: the text returned and the argument afterwards (nbd-server.c:2151) *)
Definition basename (p : list Z) : list Z * list Z :=
  match drop_slashes (List.rev p) with
  | [] => match p with [] => ([46], p) | _ => ([47], p) end
  | r1 => (List.rev (take_part r1), List.rev r1)
  end.

(** ** one export, as far as hooks are concerned (nbdsrv.h:27-52) *)
(** An absent command is the empty text (nbd-server.c:445). *)
Record hconf := mkHconf {
  h_flags : Z; h_prerun : list Z; h_postrun : list Z; h_cowdir : option (list Z)
}. (* nbdsrv.h:27-52 *)

(** what can be seen from outside: commands handed to system, the diff file
    made and removed (nbd-server.c:447, 459, 2155) *)
Inductive hev :=
| HPre (cmd : list Z) (ok : bool)
| HPost (cmd : list Z)
| HMake (file : list Z)
| HRemove (file : list Z). (* nbd-server.c:447, 459, 2155 *)

(** client->server, client->exportname, client->difffilename, whether
    client->socket_closed is socket_closed_transmission (nbd-server.c:2340), and
    what has happened *)
Record hst := mkHst {
  s_conf : option hconf; s_name : list Z; s_diff : option (list Z); s_closed : bool; s_tr : list hev
}. (* nbdsrv.h:54-99 *)
Definition hst0 : hst := mkHst None [] None false []. (* negotiate, nbd-server.c:2657-2663 *)
Definition hlog (l : list hev) (s : hst) : hst := (* nbd-server.c:447 *)
  mkHst (s_conf s) (s_name s) (s_diff s) (s_closed s) (s_tr s ++ l).

(** do_run (nbd-server.c:441-450): nothing to do, a command, a second %s taking
    an argument that was not passed, or a conversion that is not modelled *)
Inductive hcmd := CNone | CCmd (cmd : list Z) | CUb | COther. (* nbd-server.c:441-450 *)
Definition do_run (command file : list Z) : hcmd :=
  match command with
  | [] => CNone
  | _ => match sprintf command (Some file) with FText c => CCmd c | FUb => CUb | FOther => COther end
  end.

(** ** commit_client (nbd-server.c:2283-2360) *)
(** One attempt to get at an export.  [a_named]: set_peername was reached and
    gave the client's exportname and name (2318, [a_name], [a_client]);
    [a_allowed]: nothing up to the access list refused (2290-2329); [a_pre]: the
    command ended with status 0 (2335); [a_setup]: setupexport (2341);
    [a_make]: the diff file could be made and the map allocated (2155-2163). *)
Record attempt := mkAtt {
  a_conf : hconf; a_name : list Z; a_client : list Z;
  a_named : bool; a_allowed : bool; a_pre : bool; a_setup : bool; a_make : bool
}. (* nbd-server.c:2283-2360 *)

(** the process goes on, has gone, or undefined behaviour *)
Inductive hout := HGo (ok : bool) (s : hst) | HGone (s : hst) | HUb | HOther. (* nbd-server.c:2283 *)

(** copyonwrite_prepare (nbd-server.c:2142-2167); [pid] is the text of getpid().
    A failure is err(), which ends the process (2157, 2161). *)
Definition diff_name (dir base client pid : list Z) : list Z := (* nbd-server.c:2152-2153 *)
  dir ++ [47] ++ base ++ [45] ++ client ++ [45] ++ pid ++ text ".diff".
Definition prepare_diff (pid : list Z) (a : attempt) (s : hst) : hout :=
  let '(dir, n1) := match h_cowdir (a_conf a) with
                    | Some d => (d, s_name s)
                    | None => dirname (s_name s)
                    end in
  let '(base, n2) := basename n1 in
  let f := diff_name dir base (a_client a) pid in
  let s' := mkHst (s_conf s) n2 (Some f) (s_closed s) (s_tr s) in
  if a_make a then HGo true (hlog [HMake f] s') else HGone s'.

(** the last part of commit_client (nbd-server.c:2340-2359) *)
Definition open_export (pid : list Z) (a : attempt) (s : hst) : hout :=
  let c := a_conf a in
  let s3 := mkHst (s_conf s) (s_name s) (s_diff s) true (s_tr s) in
  if negb (a_setup a) then HGo false s3 else
  if flag (h_flags c) F_COPYONWRITE || flag (h_flags c) F_WAIT then prepare_diff pid a s3 else HGo true s3.
(** commit_client (nbd-server.c:2283-2360) *)
Definition commit (pid : list Z) (a : attempt) (s : hst) : hout :=
  let c := a_conf a in
  let s1 := mkHst (Some c) (if a_named a then a_name a else s_name s) (s_diff s) (s_closed s) (s_tr s) in
  if negb (a_named a && a_allowed a) then HGo false s1 else
  match do_run (h_prerun c) (s_name s1) with
  | CNone => open_export pid a s1
  | CCmd cmd => if a_pre a then open_export pid a (hlog [HPre cmd true] s1) else HGo false (hlog [HPre cmd false] s1)
  | CUb => HUb
  | COther => HOther
  end.

(** ** finalize_client (nbd-server.c:452-462) *)
(** unlink(NULL) fails without effect (459); closing the transaction log and the
    reference count have no outside effect here. *)
Definition remove_diff (c : hconf) (s : hst) : hout := (* nbd-server.c:458-460 *)
  HGone (if flag (h_flags c) F_COPYONWRITE
         then match s_diff s with Some f => hlog [HRemove f] s | None => s end
         else s).
Definition finalize (s : hst) : hout := (* nbd-server.c:452-462 *)
  match s_conf s with
  | None => HUb
  | Some c =>
      match do_run (h_postrun c) (s_name s) with
      | CNone => remove_diff c s
      | CCmd cmd => remove_diff c (hlog [HPost cmd] s)
      | CUb => HUb
      | COther => HOther
      end
  end.

(** ** negotiation (nbd-server.c:2652-2765, 3250-3296) *)
(** An option that gets at an export: NBD_OPT_EXPORT_NAME, whose failure ends
    the process (2708), or NBD_OPT_GO, after whose failure the client may go on
    (2611-2616).  The other options have no part in this. *)
Inductive nstep :=
| NName (a : attempt)
| NGo (a : attempt)
| NQuit   (* NBD_OPT_ABORT, a wrong magic: handler_err, exit (2756-2764, 3289-3296) *)
| NLost.  (* socket_read or socket_write fails: socket_closed (392, 402) *)
Fixpoint negotiate_hooks (pid : list Z) (l : list nstep) (s : hst) : hout :=
  match l with
  | [] => HGo false s
  | NQuit :: _ => HGone s
  | NLost :: _ => if s_closed s then finalize s else HGone s
  | NName a :: _ =>
      match commit pid a s with HGo false s' => HGone s' | o => o end
  | NGo a :: t =>
      match commit pid a s with HGo false s' => negotiate_hooks pid t s' | o => o end
  end.

(** ** the transmission phase and its end (nbd-server.c:3095-3152) *)
(** The thread that reads requests is "main"; the threads of the pool write
    replies, one at a time since client->lock is held meanwhile (1313-1338).
    g_thread_pool_free waits for all threads of the pool the first time it is
    called (453) and returns at once, with a warning, after that. *)
Inductive fev :=
| FDisc    (* main reads NBD_CMD_DISC (3145) *)
| FEof     (* reading fails, in main (3104) *)
| FMagic   (* main reads a wrong magic: err (3121-3122) *)
| FDone    (* all threads of the pool have finished their work (453) *)
| FWrite   (* a thread of the pool finds that the connection is gone when it writes (404-406) *)
| FKill.   (* a signal ends the process: serveloop passes SIGTERM on to the children (3450-3456, 3195) *)
(** [TServe]: serving; [TWait]: main waits for the pool to finish; [TStuck]: a
    thread of the pool waits for the pool, itself included, while it holds
    client->lock (1313, 404, 465, 453) *)
Inductive tst := TServe | TWait | TStuck. (* nbd-server.c:453 *)
(** [sigpipe]: SIGPIPE was ignored when the server was started; nbd-server never
    sets it.  Otherwise writing to a lost connection ends the process. *)
Definition end_step (sigpipe : bool) (e : fev) (t : tst) (s : hst) : tst * hout :=
  let on t' := (t', HGo true s) in
  match e, t with
  | FKill, _ => (t, HGone s)
  | FMagic, TWait => on t
  | FMagic, _ => (t, HGone s)
  | FDisc, TServe | FEof, TServe => on TWait
  | FDisc, TStuck | FEof, TStuck => (t, finalize s)
  | FDisc, TWait | FEof, TWait => on t
  | FDone, TWait => (t, finalize s)
  | FDone, _ => on t
  | FWrite, TStuck => on t
  | FWrite, TServe => if sigpipe then on TStuck else (t, HGone s)
  | FWrite, TWait => if sigpipe then (t, finalize s) else (t, HGone s)
  end.
Fixpoint transmission (sigpipe : bool) (l : list fev) (t : tst) (s : hst) : hout :=
  match l with
  | [] => HGo true s
  | e :: l' => match end_step sigpipe e t s with
               | (t', HGo _ s') => transmission sigpipe l' t' s'
               | (_, o) => o
               end
  end.

(** one connection (handle_modern_connection, nbd-server.c:3218-3296) *)
Definition connection (sigpipe : bool) (pid : list Z) (l : list nstep) (evs : list fev) : hout :=
  match negotiate_hooks pid l hst0 with
  | HGo true s => transmission sigpipe evs TServe s
  | o => o
  end.
