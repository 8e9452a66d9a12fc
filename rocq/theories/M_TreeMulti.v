(** Tree exports with several connections: the processes share the block files
    of the tree, and the mutex of open_treefile (treefiles.c:71, 105) is
    client->lock, which every process has for itself (nbdsrv.h:83,
    nbd-server.c:1155, 2290).  Definitions only. *)
From Verif Require Import Base M_Const M_Disk.
Local Open Scope list_scope.

(** The block files.  [d_dir]: the file that the path of a page leads to
    (treefiles.c:65-67; distinct pages have distinct paths, C12);
    [d_ino]: the files themselves, which stay as long as they are open even if
    unlinked (treefiles.c:43); [d_next]: the next new file. *)
Record blocks := mkBlk { d_dir : Z -> option nat; d_ino : nat -> file; d_next : nat }. (* treefiles.c:61-107 *)
Definition set_dir (p : Z) (o : option nat) (b : blocks) : blocks := (* treefiles.c:43, 79 *)
  mkBlk (fun q => if q =? p then o else d_dir b q) (d_ino b) (d_next b).
Definition set_ino (i : nat) (f : file) (b : blocks) : blocks := (* treefiles.c:100, nbd-server.c:1213 *)
  mkBlk (d_dir b) (fun j => if Nat.eqb j i then f else d_ino b j) (d_next b).

(** What a connection does to one page: the part of a WRITE
    (rawexpwrite, nbd-server.c:1200-1261) or READ (rawexpread 1444-1462) within
    it, or its removal by TRIM (nbdsrv.c:285-288).  The export is writable, so
    READ opens with O_RDWR as well (nbd-server.c:1155). *)
Inductive top :=
| TWrite (p off : Z) (d : list Z)
| TRead (p off n : Z)
| TTrim (p : Z). (* nbd-server.c:1200, 1444, nbdsrv.c:287 *)
Inductive tres := TDone | TData (d : list Z) | TFail. (* nbd-server.c:1213, 1457 *)

(** Where a process is: before the first open (treefiles.c:72); the file was
    missing (73); it has been made or opened with O_CREAT (79) but its last byte
    is not written yet (97-103); opened. *)
Inductive tpc := AtStart | AtMissing | AtMade (i : nat) | AtOpened (i : nat). (* treefiles.c:72-105 *)
(** A process: what it still has to do, one after the other, and what it has read
    of the present piece so far (nbd-server.c:1473-1481).  Simplification: one
    thread per connection; within a connection the mutex makes open_treefile one
    step anyway (M_Par.v). *)
Record tconn := mkTc { q_ops : list top; q_pc : tpc; q_acc : list Z }. (* nbd-server.c:3232 *)

(** All processes, the block files, and the pieces finished, in the order they
    were finished, with their connection and outcome. *)
Record tsys := mkTs { t_blk : blocks; t_conns : list tconn; t_log : list (nat * top * tres) }. (* nbd-server.c:3187 *)

Definition page_of (o : top) : Z := match o with TWrite p _ _ | TRead p _ _ | TTrim p => p end. (* nbd-server.c:1153 *)
Definition put_conn (l : list tconn) (k : nat) (c : tconn) : list tconn := firstn k l ++ c :: skipn (S k) l. (* nbd-server.c:3232 *)

(** one step of process [k].  Simplification: no system call fails or is cut
    short by the system; the pread of a file that is too short is short. *)
Definition t_step (k : nat) (s : tsys) : tsys :=
  match nth_error (t_conns s) k with
  | None => s
  | Some c =>
      match q_ops c with
      | [] => s
      | o :: rest =>
          let b := t_blk s in
          let p := page_of o in
          let go b' c' := mkTs b' (put_conn (t_conns s) k c') (t_log s) in
          let finish b' r := mkTs b' (put_conn (t_conns s) k (mkTc rest AtStart [])) (t_log s ++ [(k, o, r)]) in
          match o, q_pc c with
          | TTrim _, _ => finish (set_dir p None b) TDone
          | _, AtStart =>
              go b (mkTc (q_ops c) (match d_dir b p with Some i => AtOpened i | None => AtMissing end) (q_acc c))
          | _, AtMissing =>
              match d_dir b p with
              | Some i => go b (mkTc (q_ops c) (AtMade i) (q_acc c))
              | None =>
                  let i := d_next b in
                  go (mkBlk (fun q => if q =? p then Some i else d_dir b q)
                            (fun j => if Nat.eqb j i then mkFile 0 (fun _ => 0) else d_ino b j) (S i))
                     (mkTc (q_ops c) (AtMade i) (q_acc c))
              end
          | _, AtMade i =>
              go (set_ino i (fwrite (d_ino b i) (TREEPAGESIZE - 1) 1 (fun _ => 0)) b) (mkTc (q_ops c) (AtOpened i) (q_acc c))
          | TWrite _ off d, AtOpened i =>
              finish (set_ino i (fwrite (d_ino b i) off (zlen d) (fun j => znth 0 d j)) b) TDone
          | TRead _ off n, AtOpened i =>
              let done := zlen (q_acc c) in
              let f := d_ino b i in
              let m := Z.max 0 (Z.min (n - done) (fsize f - (off + done))) in
              if n - done <=? 0 then finish b (TData (q_acc c))
              else if m <=? 0 then finish b TFail
              else if m =? n - done then finish b (TData (q_acc c ++ slice (frd f) (off + done) m))
              else go b (mkTc (q_ops c) AtStart (q_acc c ++ slice (frd f) (off + done) m))
          end
      end
  end.
(** a schedule *)
Definition t_run (l : list nat) (s : tsys) : tsys := fold_left (fun s k => t_step k s) l s. (* nbd-server.c:3187 *)
(** connections at the start of their transmission phases *)
Definition t_init (b : blocks) (qs : list (list top)) : tsys := (* nbd-server.c:3095 *)
  mkTs b (map (fun q => mkTc q AtStart []) qs) [].
