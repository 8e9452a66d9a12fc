(** The root process, its children and signals.  Definitions only. *)
From Verif Require Import Base.
Local Open Scope list_scope.

(** A child process: serving, or ended and not waited for yet. *)
Inductive life := Serving | Zombie. (* nbd-server.c:3173, 3465 *)
(** Where the root process is in serveloop (nbd-server.c:3446-3536): at the top of
    the loop, in the waitpid loop, at pselect, or ended by SIGTERM. *)
Inductive place := Top | Reap | Wait | Gone. (* nbd-server.c:3448, 3465, 3515, 3455 *)
(** [s_procs]: the children there are, by process number; [s_table]: the hash table
    children (nbd-server.c:200); [s_pterm], [s_pchld], [s_phup]: signals that came
    while blocked, which is always except in pselect (3430-3444, 3515);
    [s_term], [s_chld], [s_hup]: the flags of the handlers (1082-1124);
    [s_pidfile]: whether the pid file is there; [s_killed]: whom SIGTERM was sent to;
    [s_loads]: how often the configuration was read again. *)
Record sroot := mkSr {
  s_at : place; s_procs : list (Z * life); s_table : list Z;
  s_pterm : bool; s_pchld : bool; s_phup : bool; s_term : bool; s_chld : bool; s_hup : bool;
  s_pidfile : bool; s_killed : list Z; s_loads : nat }. (* nbd-server.c:200, 229-241, 3407-3537 *)

(** What happens: a child ends by itself (disconnect, error); the root process is
    sent SIGTERM or SIGHUP; the root process goes on.  In pselect the kernel may find
    a descriptor ready, whether signals wait or not: something else than a new child
    comes of it, or fork gives a process number. *)
Inductive sev := ChildEnds (pid : Z) | SendTerm | SendHup | Goes (ready : option (option Z)). (* nbd-server.c:3173, 3465, 3515 *)

(** the processes after SIGTERM to [pid]: its disposition and mask are the default
    in children (nbd-server.c:3193-3199), so a serving child ends.  Simplification:
    what a child does before its mask is set (3173-3199) is not seen by others. *)
Definition send_term (pid : Z) (l : list (Z * life)) : list (Z * life) := (* nbd-server.c:1094-1098 *)
  map (fun x => if fst x =? pid then (pid, Zombie) else x) l.
Definition first_zombie (l : list (Z * life)) : option Z := (* waitpid(-1, WNOHANG), nbd-server.c:3465 *)
  option_map fst (find (fun x => match snd x with Zombie => true | Serving => false end) l).
Definition drop (pid : Z) (l : list (Z * life)) : list (Z * life) := filter (fun x => negb (fst x =? pid)) l. (* nbd-server.c:3465 *)

Definition s_step (e : sev) (s : sroot) : sroot :=
  let 'mkSr at_ procs table pt pc ph t c h pf k n := s in
  match e with
  | ChildEnds pid =>
      if existsb (fun x => (fst x =? pid) && (match snd x with Serving => true | Zombie => false end)) procs
      then mkSr at_ (map (fun x => if fst x =? pid then (pid, Zombie) else x) procs) table pt true ph t c h pf k n
      else s
  | SendTerm => mkSr at_ procs table true pc ph t c h pf k n
  | SendHup => mkSr at_ procs table pt pc true t c h pf k n
  | Goes ready =>
      match at_ with
      | Gone => s
      | Top =>
          if t then (* 3449-3456: killchild for each, unlink(pidfname), exit *)
            mkSr Gone (fold_left (fun l p => send_term p l) table procs) table pt pc ph false c h false (k ++ table) n
          else if c then mkSr Reap procs table pt pc ph t false h pf k n (* 3458-3463 *)
          else if h then mkSr Wait procs table pt pc ph t c false pf k (S n) (* 3485-3508; append_new_servers is C48 *)
          else mkSr Wait procs table pt pc ph t c h pf k n
      | Reap =>
          match first_zombie procs with (* 3465-3477 *)
          | Some pid => mkSr Reap (drop pid procs) (filter (fun p => negb (p =? pid)) table) pt pc ph t c h pf k n
          | None => if h then mkSr Wait procs table pt pc ph t c false pf k (S n) else mkSr Wait procs table pt pc ph t c h pf k n
          end
      | Wait =>
          match ready with
          | None => (* no descriptor is ready: the handlers run and pselect returns -1 (EINTR), or it goes on waiting *)
              if pt || pc || ph then mkSr Top procs table false false false (t || pt) (c || pc) (h || ph) pf k n else s
          | Some None => mkSr Top procs table pt pc ph t c h pf k n (* accept or fork failed, or a child asks: handle_childname *)
          | Some (Some pid) => (* 3179-3188; process numbers in use are not given again *)
              if existsb (fun x => fst x =? pid) procs then mkSr Top procs table pt pc ph t c h pf k n
              else mkSr Top ((pid, Serving) :: procs) (pid :: table) pt pc ph t c h pf k n
          end
      end
  end.
Definition s_run (l : list sev) (s : sroot) : sroot := fold_left (fun s e => s_step e s) l s. (* nbd-server.c:3446-3536 *)
Definition s_init : sroot := mkSr Top [] [] false false false false false false true [] 0. (* nbd-server.c:3446, 3753 *)
