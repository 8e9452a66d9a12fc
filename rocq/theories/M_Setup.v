(** Opening the backing files of an export.  Definitions only. *)
From Verif Require Import Base M_Const M_Disk M_Tree M_Raw.

(** One backing file as the open calls of nbd-server.c:2069-2073 see it: can it
    be opened read-write (or created, nbd-server.c:2055-2056), can it be opened
    read-only, and what size_autodetect (nbdsrv.c:229-268) returns for it
    (2^64-1 when no size can be found).  Files that do not exist are not in
    the list. *)
Record member := mkMem { mb_rdwr : bool; mb_rdonly : bool; mb_size : Z }.

(** The open and its read-only retry (nbd-server.c:2055-2084): resulting export
    flags and whether the descriptor is writable. *)
Definition open_member (flags : Z) (cancreate : bool) (m : member) : option (Z * bool) :=
  if flag flags F_READONLY then if mb_rdonly m then Some (flags, false) else None
  else if mb_rdwr m then Some (flags, true)
  else if cancreate then None
  else if mb_rdonly m then
    Some (if flag flags F_COPYONWRITE then flags else Z.lor (Z.lor flags F_AUTOREADONLY) F_READONLY, false)
  else None.

(** What setupexport leaves behind (nbd-server.c:2034-2126): export flags, the
    export array, which descriptors are writable, the export size, and the size
    the (only) file was extended to, if it was (nbd-server.c:2105). *)
Record setup := mkSetup {
  su_flags : Z;
  su_export : option (list finfo);
  su_rw : list bool;
  su_size : Z;
  su_trunc : option Z
}.

(** [false] return, signed overflow of off_t, or success (nbd-server.c:2093,
    2098, 2107, 2139). *)
Inductive setup_out := SetupFail | SetupUb | SetupOk (s : setup).

(** off_t addition (nbd-server.c:2098,2119); overflow is undefined *)
Definition off_add (a b : Z) : option Z :=
  if (- 9223372036854775808 <=? a + b) && (a + b <? 9223372036854775808) then Some (a + b) else None.

(** The loop over the files of a multi-file export (nbd-server.c:2048-2116);
    [start] is laststartoff + lastsize.  [None]: overflow.  Returns flags,
    export array, writability and the final laststartoff + lastsize. *)
Fixpoint setup_multi (flags : Z) (ms : list member) (i : nat) (start : Z)
  : option (Z * list finfo * list bool * Z) :=
  match ms with
  | [] => Some (flags, [], [], start)
  | m :: t =>
      match open_member flags false m with
      | None => Some (flags, [], [], start)
      | Some (flags1, rw) =>
          match off_add start (i64 (mb_size m)) with
          | None => None
          | Some next =>
              match setup_multi flags1 t (S i) next with
              | None => None
              | Some (flags2, fis, rws, tot) =>
                  Some (flags2, mkFI (FExp i) start :: fis, rw :: rws, tot)
              end
          end
      end
  end.

(** Final size (nbd-server.c:2118-2130). *)
Definition setup_size (expected tot : Z) : option Z :=
  let size := u64 tot in
  if expected =? 0 then Some size
  else if size <? expected then None else Some expected.

(** The single file of an export that is not multi-file: flags, writability,
    detected size; a temporary file is created by mkstemp, always writable and
    empty (nbd-server.c:2058-2061). *)
Definition open_single (flags expected : Z) (ms : list member) : option (Z * bool * Z) :=
  if flag flags F_TEMPORARY then Some (flags, true, 0)
  else
    match ms with
    | [] => None
    | m :: _ =>
        match open_member flags (negb (expected =? 0)) m with
        | None => None
        | Some (flags1, rw) => Some (flags1, rw, mb_size m)
        end
    end.

(** setupexport (nbd-server.c:2018-2140).  Simplifications: ftruncate
    (nbd-server.c:2105) works exactly on writable descriptors, for every size;
    mkstemp (2061) and thread creation (2034) succeed; a failure of any of them
    only makes the function return false (2085, 2037). *)
Definition setupexport (flags expected : Z) (ms : list member) : setup_out :=
  if flag flags F_TREEFILES || flag flags F_WAIT
  then SetupOk (mkSetup flags None [] expected None)
  else if flag flags F_MULTIFILE then
    match setup_multi flags ms 0 0 with
    | None => SetupUb
    | Some (_, [], _, _) => SetupFail
    | Some (flags1, fis, rws, tot) =>
        match setup_size expected tot with
        | None => SetupFail
        | Some size => SetupOk (mkSetup flags1 (Some fis) rws size None)
        end
    end
  else
    match open_single flags expected ms with
    | None => SetupFail
    | Some (flags1, rw, sz) =>
        if (sz =? 0) && negb (expected =? 0)
        then
          if rw then SetupOk (mkSetup flags1 (Some [mkFI (FExp 0) 0]) [rw] expected (Some expected))
          else SetupFail
        else
          match setup_size expected (i64 sz) with
          | None => SetupFail
          | Some size => SetupOk (mkSetup flags1 (Some [mkFI (FExp 0) 0]) [rw] size None)
          end
    end.

(** copyonwrite_prepare (nbd-server.c:2142-2167): open (and empty) the diff
    file, allocate the page map with one entry per whole 4096 bytes, all
    unused.  difffilelen is 0 from g_new0 (nbd-server.c:2657).  Either step may
    fail, which ends the process (err, 2157, 2161).  Simplification: the name of
    the diff file is in M_Hook.v, not here. *)
Definition copyonwrite_prepare (c : client) : M bool :=
  r <- pull ;;
  match r with
  | RErr e => modify (set_errno e) ;;; die
  | _ =>
      modify (set_file FDiff (mkFile 0 (fun _ => 0))) ;;;
      modify (set_dpos 0) ;;;
      r2 <- pull ;;
      match r2 with
      | RErr e => modify (set_errno e) ;;; die
      | _ =>
          modify (set_dlen 0) ;;;
          modify (fun w => mkW (w_file w) (w_exists w) (w_orc w) (w_tick w) (w_errno w) (w_heap w)
                             (w_dpos w) (fun _ => NOPAGE) (c_size c / DIFFPAGESIZE) (w_dlen w) (w_tr w)) ;;;
          ret true
      end
  end.
