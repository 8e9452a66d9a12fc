(** Tree exports with several connections when system calls fail or are cut short
    and processes end (over M_TreeMulti).  Definitions only. *)
From Verif Require Import Base M_Const M_Disk M_TreeMulti.
Local Open Scope list_scope.

(** the processes, and the pieces that failed because a call did *)
Record fsys := mkFs { f_sys : tsys; f_failed : list (nat * top) }. (* nbd-server.c:1213, 1457 *)

(** What may happen next.
    - [FStep k]: process [k] does its next step, all well.
    - [FShort k m]: the piece process [k] is at is cut short by the system after [m]
      bytes; the loop goes on with the rest, opening the file anew
      (nbd-server.c:1268-1282, 1473-1481).  As a step this makes two pieces of it.
    - [FFail k]: opening an existing block file fails, and then the transfer with
      descriptor -1 (treefiles.c:72, 106, nbd-server.c:1213, 1457), or the transfer
      itself does; the client gets an error for the request.
    - [FEnd k]: the process ends, through err (treefiles.c:55, 81, 98, 102), a signal
      or since the client is gone.
    Simplification: unlink (treefiles.c:43) fails only if there is no such file. *)
Inductive fchoice := FStep (k : nat) | FShort (k : nat) (m : Z) | FFail (k : nat) | FEnd (k : nat).

(** the piece in two (nbd-server.c:1271-1279, 1474-1480) *)
Definition halves (m : Z) (o : top) : option (top * top) :=
  match o with
  | TWrite p off d => if (0 <? m) && (m <? zlen d) then Some (TWrite p off (firstn (Z.to_nat m) d), TWrite p (off + m) (skipn (Z.to_nat m) d)) else None
  | TRead p off n => if (0 <? m) && (m <? n) then Some (TRead p off m, TRead p (off + m) (n - m)) else None
  | TTrim _ => None
  end.
Definition f_step (x : fchoice) (f : fsys) : fsys := (* nbd-server.c:1200-1282, 1444-1482 *)
  let t := f_sys f in
  match x with
  | FStep k => mkFs (t_step k t) (f_failed f)
  | FShort k m =>
      match nth_error (t_conns t) k with
      | Some (mkTc (o :: rest) pc []) =>
          match halves m o with
          | Some (o1, o2) => mkFs (mkTs (t_blk t) (put_conn (t_conns t) k (mkTc (o1 :: o2 :: rest) pc [])) (t_log t)) (f_failed f)
          | None => f
          end
      | _ => f
      end
  | FFail k =>
      match nth_error (t_conns t) k with
      | Some (mkTc (o :: rest) pc _) =>
          match o, pc with
          | TTrim _, _ | _, AtMissing | _, AtMade _ => f
          | _, _ => mkFs (mkTs (t_blk t) (put_conn (t_conns t) k (mkTc rest AtStart [])) (t_log t)) (f_failed f ++ [(k, o)])
          end
      | _ => f
      end
  | FEnd k =>
      match nth_error (t_conns t) k with
      | Some _ => mkFs (mkTs (t_blk t) (put_conn (t_conns t) k (mkTc [] AtStart [])) (t_log t)) (f_failed f)
      | None => f
      end
  end.
Definition f_run (l : list fchoice) (f : fsys) : fsys := fold_left (fun f x => f_step x f) l f. (* nbd-server.c:3187 *)
Definition f_init (b : blocks) (qs : list (list top)) : fsys := mkFs (t_init b qs) []. (* nbd-server.c:3095 *)
