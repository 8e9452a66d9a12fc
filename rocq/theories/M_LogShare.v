(** Connections that log to the same file: the file, and the named semaphore they lock
    it with.  Definitions only.  Simplifications: a record is written in one piece
    (writeit puts all of it, C30); between lock_logsem and unlock_logsem a connection
    counts as one, whichever of its threads it is; opening the log works. *)
From Verif Require Import Base.
Local Open Scope list_scope.

(** one connection: its semaphore, its position in the file, whether one of its
    threads is between lock_logsem and unlock_logsem (nbd-server.c:427-432, 2216, 2259) *)
Record lconn := mkL { l_sem : nat; l_pos : nat; l_hold : bool }.
(** connections; the semaphore of the name made of device and inode
    (nbd-server.c:2256-2258), if there is one; semaphores made so far; their values; the
    file *)
Record lstate := mkLS { ls_conn : nat -> option lconn; ls_name : option nat; ls_next : nat; ls_val : nat -> Z; ls_file : list Z }.

Inductive lev :=
| LOpen (c : nat) (hdr : list Z) (* setup_transactionlog, with what it writes (nbd-server.c:2211-2266) *)
| LLock (c : nat) (* lock_logsem comes back (nbd-server.c:427-429, 1292, 1300, 3107) *)
| LWrite (c : nat) (bs : list Z) (* writeit (nbd-server.c:1293, 1301, 3108, 3140) *)
| LUnlock (c : nat) (* unlock_logsem (nbd-server.c:430-432, 1294, 1302, 3115, 3141) *)
| LClose (c : nat) (* cleanup_transactionlog, by finalize_client (nbd-server.c:414-425, 455-456) *)
| LDie (c : nat). (* the process ends in another way: err, or a signal (nbd-server.c:3124) *)

(** write at a position; a gap reads as zeroes (nbd-server.c:2237, 3108) *)
Definition put (pos : nat) (bs f : list Z) : list Z :=
  firstn pos (f ++ repeat 0 pos) ++ bs ++ skipn (pos + length bs) f.
Definition set_conn (s : lstate) (c : nat) (l : option lconn) : nat -> option lconn := (* nbd-server.c:2216, 416-418 *)
  fun d => if Nat.eqb d c then l else ls_conn s d.
Definition set_val (s : lstate) (n : nat) (v : Z) : nat -> Z := (* sem_wait, sem_post, nbd-server.c:428, 431 *)
  fun m => if Nat.eqb m n then v else ls_val s m.
Definition is_open (s : lstate) (n : nat) : bool := match ls_conn s n with Some _ => true | None => false end. (* nbd-server.c:2331 *)

(** one step; [None]: it cannot happen now *)
Definition lstep (s : lstate) (e : lev) : option lstate :=
  match e with
  | LOpen c hdr =>
      if is_open s c then None
      else
        (* open without O_TRUNC and O_APPEND, the header, sem_open with O_CREAT and value 1 (nbd-server.c:2216-2219, 2237, 2259) *)
        let f := put 0 hdr (ls_file s) in
        match ls_name s with
        | Some n => Some (mkLS (set_conn s c (Some (mkL n (length hdr) false))) (Some n) (ls_next s) (ls_val s) f)
        | None => Some (mkLS (set_conn s c (Some (mkL (ls_next s) (length hdr) false))) (Some (ls_next s)) (S (ls_next s)) (set_val s (ls_next s) 1) f)
        end
  | LLock c =>
      match ls_conn s c with
      | Some l => if 0 <? ls_val s (l_sem l)
                  then Some (mkLS (set_conn s c (Some (mkL (l_sem l) (l_pos l) true))) (ls_name s) (ls_next s) (set_val s (l_sem l) (ls_val s (l_sem l) - 1)) (ls_file s))
                  else None
      | None => None
      end
  | LWrite c bs =>
      match ls_conn s c with
      | Some l => if l_hold l
                  then Some (mkLS (set_conn s c (Some (mkL (l_sem l) (l_pos l + length bs) true))) (ls_name s) (ls_next s) (ls_val s) (put (l_pos l) bs (ls_file s)))
                  else None
      | None => None
      end
  | LUnlock c =>
      match ls_conn s c with
      | Some l => if l_hold l
                  then Some (mkLS (set_conn s c (Some (mkL (l_sem l) (l_pos l) false))) (ls_name s) (ls_next s) (set_val s (l_sem l) (ls_val s (l_sem l) + 1)) (ls_file s))
                  else None
      | None => None
      end
  | LClose c =>
      (* close, sem_close, sem_unlink: the semaphore stays for those who have it open *)
      if is_open s c then Some (mkLS (set_conn s c None) None (ls_next s) (ls_val s) (ls_file s)) else None
  | LDie c =>
      if is_open s c then Some (mkLS (set_conn s c None) (ls_name s) (ls_next s) (ls_val s) (ls_file s)) else None
  end. (* nbd-server.c:414-432, 2211-2266 *)
Fixpoint lrun (s : lstate) (es : list lev) : option lstate := (* any order of the connections, nbd-server.c:3101-3154 *)
  match es with [] => Some s | e :: t => match lstep s e with Some s' => lrun s' t | None => None end end.
(** no connection, no semaphore, a file left by earlier runs (nbd-server.c:2216) *)
Definition linit (old : list Z) : lstate := mkLS (fun _ => None) None 0 (fun _ => 0) old.
