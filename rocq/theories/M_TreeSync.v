(** FLUSH on tree exports with several connections: sync() of the whole system
    (nbd-server.c:1743-1749), over the processes of M_TreeMulti.  Definitions only. *)
From Verif Require Import Base M_Disk M_TreeMulti.
Local Open Scope list_scope.

(** The processes, all block files there have been (the newest first), how many of
    these a crash may bring back, and the same for each connection that is just in
    sync().  Simplifications: sync() returns when everything that was there when it
    was called is on the disk (so on Linux, sync(2)); it cannot fail; FLUSH may come
    at any moment of a connection. *)
Record vsys := mkVs { v_sys : tsys; v_hist : list blocks; v_n : nat; v_sync : nat -> option nat }. (* nbd-server.c:1747 *)

(** process [k] does a step of a request, calls sync(), or sync() returns (nbd-server.c:1747) *)
Inductive vchoice := VStep (k : nat) | VBegin (k : nat) | VEnd (k : nat).
Definition v_step (c : vchoice) (v : vsys) : vsys := (* nbd-server.c:1743-1749, 2960-2972 *)
  match c with
  | VStep k =>
      let t := t_step k (v_sys v) in
      mkVs t (t_blk t :: v_hist v) (S (v_n v)) (fun j => option_map S (v_sync v j))
  | VBegin k => mkVs (v_sys v) (v_hist v) (v_n v) (fun j => if Nat.eqb j k then Some 1%nat else v_sync v j)
  | VEnd k =>
      match v_sync v k with
      | Some n => mkVs (v_sys v) (v_hist v) (Nat.min n (v_n v)) (fun j => if Nat.eqb j k then None else v_sync v j)
      | None => v
      end
  end.
Definition v_run (l : list vchoice) (v : vsys) : vsys := fold_left (fun v c => v_step c v) l v. (* nbd-server.c:3187 *)
Definition v_init (b : blocks) (qs : list (list top)) : vsys := mkVs (t_init b qs) [b] 1 (fun _ => None). (* nbd-server.c:3095 *)

(** a byte of a page as the block files give it; missing files and what lies behind
    the end are zeroes (nbd-server.c:1444-1462) *)
Definition page_byte (b : blocks) (p i : Z) : Z :=
  match d_dir b p with Some n => frd (d_ino b n) i | None => 0 end.
