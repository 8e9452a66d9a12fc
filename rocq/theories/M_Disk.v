(** The serving process' view of the operating system: backing files, the
    copy-on-write bookkeeping of one connection, and the system calls of the
    data path.  Definitions only. *)
From Verif Require Import Base M_Const.

(** A regular file: size and contents (only offsets below [fsize] matter).
    Stands for whatever nbdsrv.h:89 [fhandle] refers to. *)
Record file := mkFile { fsize : Z; fdata : Z -> Z }.

(** File descriptors of the data path, by role:
    - [FExp i]: [client->export[i].fhandle] (nbdsrv.h:61, nbd-server.c:2066);
    - [FTree p]: a block file of a tree export opened by path
      (treefiles.c:72,79);
    - [FDummy]: the unlinked temporary file opened for reading a missing block
      (treefiles.c:88-91);
    - [FDiff]: [client->difffile] (nbd-server.c:2155);
    - [FBad]: descriptor -1 (failed open, treefiles.c:72).
    Simplification: distinct descriptors denote distinct files. *)
Inductive fref :=
| FExp (i : nat)
| FTree (p : list Z)
| FDummy
| FDiff
| FBad.

(** Decidable equality of descriptors (for updating the table of
    nbdsrv.h:61 and treefiles.c:72). *)
Definition fref_eq_dec : forall a b : fref, {a = b} + {a <> b}.
Proof. decide equality; [apply Nat.eq_dec|apply (list_eq_dec Z.eq_dec)]. Defined.

(** Outcome of one system call, chosen by an oracle: complete, short (at most
    the given amount) or failed with an errno.  nbd-server.c:1213, 1457, 1582,
    1650, 1672 are the calls concerned. *)
Inductive sysres := RFull | RShort (n : Z) | RErr (e : Z).

(** Observable events of the process, newest first in the trace:
    data written to a file (nbd-server.c:1213,1650,1672), a successful
    fsync/fdatasync of one file (nbd-server.c:1215,1253,1680,1685,1753), a
    successful sync() (nbd-server.c:1747), a hole punched (nbd-server.c:1766),
    a block file created or unlinked (treefiles.c:79,44), one message sent on
    the socket under the socket lock (nbd-server.c:1313-1318,1423-1428). *)
Inductive event :=
| EWrite (h : fref) (off n : Z) (d : Z -> Z)
| ESync (h : fref)
| ESyncAll
| EPunch (h : fref) (off n : Z)
| ECreate (p : list Z)
| EUnlink (p : list Z)
| ESend (m : list Z).

(** State of the serving process.
    [w_file]: current contents per descriptor; [w_exists]: block files present
    in the tree (treefiles.c:72); [w_orc]/[w_tick]: oracle for system call
    outcomes and the number of calls made; [w_errno]: errno;
    [w_heap]: contents of freshly malloc'ed or uninitialised memory
    (nbd-server.c:1355,1625,2900); [w_dpos]: file position of the diff file
    (nbd-server.c:1672); [w_map]/[w_mapsz]: [client->difmap] and its number of
    entries (nbd-server.c:2160); [w_dlen]: [client->difffilelen]
    (nbdsrv.h:70); [w_tr]: trace. *)
Record world := mkW {
  w_file : fref -> file;
  w_exists : list Z -> bool;
  w_orc : nat -> sysres;
  w_tick : nat;
  w_errno : Z;
  w_heap : Z -> Z;
  w_dpos : Z;
  w_map : Z -> Z;
  w_mapsz : Z;
  w_dlen : Z;
  w_tr : list event
}.

(** Outcomes of a piece of code: normal return, undefined behaviour, process
    exit through err() (cliserv.c:75-79), loop bound exhausted (not a
    behaviour of the code; every theorem excludes it). *)
Inductive out (A : Type) :=
| Ret (a : A) (w : world)
| Ub
| Die (w : world)
| Stuck.
Arguments Ret {A}. Arguments Ub {A}. Arguments Die {A}. Arguments Stuck {A}.

(** Sequencing of effects (the C statement sequence; e.g. nbd-server.c:1206-1213). *)
Definition M (A : Type) := world -> out A.
(** [return e] (nbd-server.c:1260) *)
Definition ret {A} (a : A) : M A := fun w => Ret a w.
(** statement sequence (nbd-server.c:1206-1213) *)
Definition bind {A B} (m : M A) (k : A -> M B) : M B := fun w =>
  match m w with
  | Ret a w' => k a w'
  | Ub => Ub
  | Die w' => Die w'
  | Stuck => Stuck
  end.
Notation "x <- m ;; k" := (bind m (fun x => k)) (at level 61, m at next level, right associativity).
Notation "m ;;; k" := (bind m (fun _ => k)) (at level 61, right associativity).

(** reading the state (field accesses such as nbd-server.c:1214) *)
Definition get {A} (f : world -> A) : M A := fun w => Ret (f w) w.
(** state update (assignments such as nbd-server.c:1652) *)
Definition modify (f : world -> world) : M unit := fun w => Ret tt (f w).
(** err(): exit (cliserv.c:75-79) *)
Definition die {A} : M A := fun w => Die w.
(** undefined behaviour reached, e.g. nbd-server.c:1578 with a bad index *)
Definition ub {A} : M A := fun _ => Ub.
(** assert() (nbd-server.c:1175, nbdsrv.c:272-273): abort, a form of exit *)
Definition assert_ (b : bool) : M unit := if b then ret tt else die.

(** One iteration of a C loop on the state (nbd-server.c:1276-1280 etc.). *)
Definition mstep {S R} (body : S -> M (S + R)) (sw : S * world) : (S * world) + out R :=
  match body (fst sw) (snd sw) with
  | Ret (inl s') w' => inl (s', w')
  | Ret (inr r) w' => inr (Ret r w')
  | Ub => inr Ub
  | Die w' => inr (Die w')
  | Stuck => inr Stuck
  end.

(** A C [while]/[for] loop (nbd-server.c:1276, 1473, 1571, 1639, 1711, 1943)
    with an iteration bound that the theorems show to be sufficient. *)
Definition mloop {S R} (bound : Z) (body : S -> M (S + R)) (s : S) : M R := fun w =>
  match loopP (mstep body) (Z.to_pos (bound + 1)) (s, w) with
  | inl _ => Stuck
  | inr o => o
  end.

(** ** Field updates (plain assignments) *)
(** contents of one file replaced: effect of nbd-server.c:1213 *)
Definition upd_file (fs : fref -> file) (h : fref) (f : file) : fref -> file :=
  fun h' => if fref_eq_dec h' h then f else fs h'.
(** nbd-server.c:1213 *)
Definition set_file (h : fref) (f : file) (w : world) : world :=
  mkW (upd_file (w_file w) h f) (w_exists w) (w_orc w) (w_tick w) (w_errno w) (w_heap w)
      (w_dpos w) (w_map w) (w_mapsz w) (w_dlen w) (w_tr w).
(** treefiles.c:44,79 *)
Definition set_exists (p : list Z) (b : bool) (w : world) : world :=
  mkW (w_file w) (fun q => if list_eq_dec Z.eq_dec q p then b else w_exists w q)
      (w_orc w) (w_tick w) (w_errno w) (w_heap w)
      (w_dpos w) (w_map w) (w_mapsz w) (w_dlen w) (w_tr w).
(** errno set by a failing call, e.g. nbd-server.c:2908 reads it *)
Definition set_errno (e : Z) (w : world) : world :=
  mkW (w_file w) (w_exists w) (w_orc w) (w_tick w) e (w_heap w)
      (w_dpos w) (w_map w) (w_mapsz w) (w_dlen w) (w_tr w).
(** one more system call made (oracle position; nbd-server.c:1213 etc.) *)
Definition tick (w : world) : world :=
  mkW (w_file w) (w_exists w) (w_orc w) (S (w_tick w)) (w_errno w) (w_heap w)
      (w_dpos w) (w_map w) (w_mapsz w) (w_dlen w) (w_tr w).
(** file position of the diff file after write(), nbd-server.c:1672 *)
Definition set_dpos (p : Z) (w : world) : world :=
  mkW (w_file w) (w_exists w) (w_orc w) (w_tick w) (w_errno w) (w_heap w)
      p (w_map w) (w_mapsz w) (w_dlen w) (w_tr w).
(** difmap[i] = v, nbd-server.c:1652,1964 *)
Definition set_map (i v : Z) (w : world) : world :=
  mkW (w_file w) (w_exists w) (w_orc w) (w_tick w) (w_errno w) (w_heap w)
      (w_dpos w) (fun j => if j =? i then v else w_map w j) (w_mapsz w) (w_dlen w) (w_tr w).
(** difffilelen++, nbd-server.c:1652 *)
Definition set_dlen (n : Z) (w : world) : world :=
  mkW (w_file w) (w_exists w) (w_orc w) (w_tick w) (w_errno w) (w_heap w)
      (w_dpos w) (w_map w) (w_mapsz w) n (w_tr w).
(** an observable event happens (nbd-server.c:1213,1316,...) *)
Definition emit (e : event) (w : world) : world :=
  mkW (w_file w) (w_exists w) (w_orc w) (w_tick w) (w_errno w) (w_heap w)
      (w_dpos w) (w_map w) (w_mapsz w) (w_dlen w) (e :: w_tr w).

(** ** System calls *)
(** next oracle answer (outcome of one system call, nbd-server.c:1213 etc.) *)
Definition pull : M sysres := fun w => Ret (w_orc w (w_tick w)) (tick w).

(** What a file reads as at an offset: past the end there is nothing; a later
    extension exposes zeroes (POSIX; used at nbd-server.c:1213,1457). *)
Definition frd (f : file) (i : Z) : Z :=
  if (0 <=? i) && (i <? fsize f) then fdata f i else 0.

(** Effect of writing [n] bytes of [d] at [off] (nbd-server.c:1213). *)
Definition fwrite (f : file) (off n : Z) (d : Z -> Z) : file :=
  mkFile (Z.max (fsize f) (off + n))
         (fun i => if (off <=? i) && (i <? off + n) then d (i - off) else frd f i).

(** Linux MAX_RW_COUNT: no single transfer (nbd-server.c:1213,1457) moves more. *)
Definition MAX_RW := 2147479552.

(** number of bytes a (possibly short) transfer of at most [n] moves
    (return value of nbd-server.c:1213,1457) *)
Definition moved (r : sysres) (n : Z) : Z :=
  match r with
  | RFull => Z.min n MAX_RW
  | RShort k => Z.min (Z.max 0 k) (Z.min n MAX_RW)
  | RErr _ => -1
  end.

(** pread (nbd-server.c:1457,1582,1950): returns -1, or the number of bytes and
    the bytes as a function of their index. *)
Definition sys_pread (h : fref) (off n : Z) : M (Z * (Z -> Z)) :=
  r <- pull ;;
  match h, r with
  | FBad, _ => modify (set_errno EBADF) ;;; ret (-1, fun _ => 0)
  | _, RErr e => modify (set_errno e) ;;; ret (-1, fun _ => 0)
  | _, _ =>
      if off <? 0 then modify (set_errno EINVAL) ;;; ret (-1, fun _ => 0)
      else
        f <- get (fun w => w_file w h) ;;
        let avail := Z.max 0 (Z.min n (fsize f - off)) in
        ret (moved r avail, fun i => fdata f (off + i))
  end.

(** pwrite (nbd-server.c:1213,1650,1957) *)
Definition sys_pwrite (h : fref) (off n : Z) (d : Z -> Z) : M Z :=
  r <- pull ;;
  match h, r with
  | FBad, _ => modify (set_errno EBADF) ;;; ret (-1)
  | _, RErr e => modify (set_errno e) ;;; ret (-1)
  | _, _ =>
      if off <? 0 then modify (set_errno EINVAL) ;;; ret (-1)
      else
        let k := moved r n in
        if k <=? 0 then ret k
        else
          f <- get (fun w => w_file w h) ;;
          modify (set_file h (fwrite f off k d)) ;;;
          modify (emit (EWrite h off k d)) ;;;
          ret k
  end.

(** write() on the diff file, i.e. at its file position (nbd-server.c:1672).
    Simplification: the position lives in the connection's state. *)
Definition sys_write_diff (n : Z) (d : Z -> Z) : M Z :=
  p <- get w_dpos ;;
  k <- sys_pwrite FDiff p n d ;;
  (if k <=? 0 then ret tt else modify (set_dpos (p + k))) ;;;
  ret k.

(** fsync/fdatasync (nbd-server.c:1215,1253,1680,1685,1736,1753). *)
Definition sys_fsync (h : fref) : M Z :=
  r <- pull ;;
  match h, r with
  | FBad, _ => modify (set_errno EBADF) ;;; ret (-1)
  | _, RErr e => modify (set_errno e) ;;; ret (-1)
  | _, _ => modify (emit (ESync h)) ;;; ret 0
  end.

(** sync() (nbd-server.c:1747): cannot report failure. *)
Definition sys_sync : M unit := modify (emit ESyncAll).

(** fallocate(PUNCH_HOLE|KEEP_SIZE) as called by punch_hole
    (nbd-server.c:1760-1793): a non-positive length or negative offset is
    refused by the kernel (EINVAL); otherwise it may succeed or not, punch_hole
    ignores the result.  Simplifications: the BLKDISCARD fallback behaves like
    fallocate; errno is not cleared first (1762). *)
Definition punch_hole (h : fref) (off n : Z) : M unit :=
  r <- pull ;;
  match r with
  | RErr e => modify (set_errno e)
  | _ =>
      if (off <? 0) || (n <=? 0) then modify (set_errno EINVAL)
      else
        f <- get (fun w => w_file w h) ;;
        modify (set_file h (mkFile (fsize f)
          (fun i => if (off <=? i) && (i <? off + n) then 0 else fdata f i))) ;;;
        modify (emit (EPunch h off n))
  end.

(** one message put on the socket while holding the socket lock
    (nbd-server.c:1313-1318, 1423-1428, 2955-2957, 3088-3090).
    Simplification: a failed send (connection lost) is not modelled here; see
    the negotiation and concurrency models. *)
Definition send (m : list Z) : M unit := modify (emit (ESend m)).
