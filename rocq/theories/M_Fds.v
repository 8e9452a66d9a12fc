(** The descriptors of the root process: accepting connections and the sockets
    to the children (nbd-server.c:3162-3296, 3407-3537).  Definitions only. *)
From Verif Require Import Base.
Local Open Scope list_scope.

(** ** descriptors *)
(** The kernel hands out the lowest descriptor that is not open, and fails when
    that one is not below the limit of the process (accept 3210, socketpair
    3172). *)
Definition is_open (fd : Z) (l : list Z) : bool := existsb (fun x => x =? fd) l. (* nbd-server.c:3172 *)
Fixpoint lowest_from (n : nat) (fd : Z) (l : list Z) : Z := (* nbd-server.c:3172 *)
  match n with
  | O => fd
  | S n' => if is_open fd l then lowest_from n' (fd + 1) l else fd
  end.
Definition lowest (l : list Z) : Z := lowest_from (length l) 0 l. (* nbd-server.c:3172 *)
Definition new_fd (limit : Z) (l : list Z) : option Z := (* nbd-server.c:3172, 3210 *)
  let fd := lowest l in if fd <? limit then Some fd else None.
Definition close_fd (fd : Z) (l : list Z) : list Z := filter (fun x => negb (x =? fd)) l. (* nbd-server.c:3178, 3188, 3239 *)

(** open descriptors and childsocks (nbd-server.c:253) *)
Record rootp := mkRoot { o_fds : list Z; o_child : list Z }. (* nbd-server.c:253 *)
(** [FdUb]: a descriptor that was never set is closed or kept (3172-3189), or
    FD_SET or FD_ISSET is given a descriptor outside the set (3511, 3528) *)
Inductive fdout := FdOk (r : rootp) (taken : bool) | FdUb. (* nbd-server.c:3172, 3511 *)

(** one connection that is waiting (handle_modern_connection in the parent,
    nbd-server.c:3218-3243, with spawn_child 3162-3202); [fork_ok]: fork
    succeeds.  The result of socketpair is not looked at (3172). *)
Definition accept_one (limit : Z) (fork_ok : bool) (r : rootp) : fdout :=
  match new_fd limit (o_fds r) with
  | None => FdOk r false
  | Some net =>
      let f1 := net :: o_fds r in
      match new_fd limit f1 with
      | None => FdUb
      | Some s0 =>
          let f2 := s0 :: f1 in
          match new_fd limit f2 with
          | None => FdUb
          | Some s1 =>
              let f3 := s1 :: f2 in
              if fork_ok then FdOk (mkRoot (close_fd net (close_fd s0 f3)) (o_child r ++ [s1])) true
              else FdOk (mkRoot (close_fd net (close_fd s1 (close_fd s0 f3))) (o_child r)) false
          end
      end
  end.

(** what one round of serveloop (nbd-server.c:3507-3535) finds: the listening
    sockets with a connection waiting, one entry each, and the sockets of
    children that have committed to an export or gone (2307, 3304-3309) *)
Record round := mkRound { w_conns : list bool; w_gone : list Z }. (* nbd-server.c:3515-3534 *)

(** FD_SET and FD_ISSET (nbd-server.c:3511, 3528): an fd_set holds FD_SETSIZE = 1024 descriptors *)
Definition can_set (fd : Z) : bool := (0 <=? fd) && (fd <? 1024). (* nbd-server.c:3511, 3528 *)

Fixpoint accept_all (limit : Z) (l : list bool) (r : rootp) (n : nat) : option (rootp * nat) := (* nbd-server.c:3517-3524 *)
  match l with
  | [] => Some (r, n)
  | ok :: t => match accept_one limit ok r with
               | FdOk r' taken => accept_all limit t r' (if taken then S n else n)
               | FdUb => None
               end
  end.
(** closing the sockets of children that are done (nbd-server.c:3525-3534) *)
Definition close_one (r : rootp) (fd : Z) : rootp :=
  if is_open fd (o_child r) then mkRoot (close_fd fd (o_fds r)) (close_fd fd (o_child r)) else r.
(** one round (nbd-server.c:3507-3535): the number of connections handed to a
    child.  The sockets of the children accepted in it are looked up too (3525-3528). *)
Definition one_round (limit : Z) (w : round) (r : rootp) : option (rootp * nat) :=
  if forallb can_set (o_child r) then
    match accept_all limit (w_conns w) r 0 with
    | Some (r', n) => if forallb can_set (o_child r') then Some (fold_left close_one (w_gone w) r', n) else None
    | None => None
    end
  else None.
(** serveloop (nbd-server.c:3447-3537); [None] is undefined behaviour *)
Fixpoint rounds (limit : Z) (l : list round) (r : rootp) : option rootp :=
  match l with
  | [] => Some r
  | w :: t => match one_round limit w r with Some (r', _) => rounds limit t r' | None => None end
  end.
(** at the start [n] descriptors are open: standard input, output and error, the
    log, the listening sockets (nbd-server.c:3627-3729, 3789-3831) *)
Definition root0 (n : nat) : rootp := mkRoot (map Z.of_nat (seq 0 n)) []. (* nbd-server.c:3447 *)
