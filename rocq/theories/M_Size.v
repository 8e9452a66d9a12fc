(** The size of an opened file or device.  Definitions only. *)
From Verif Require Import Base.

(** size_autodetect (nbdsrv.c:229-268).  [blk]: the number ioctl(BLKGETSIZE64) stores,
    [None] if it fails; [st]: S_ISREG and st_size of fstat, [None] if it fails; [e]:
    what lseek(0, SEEK_END) returns.  Simplification: BLKGETSIZE64 is there (Linux). *)
Definition size_autodetect (blk : option Z) (st : option (bool * Z)) (e : Z) : Z :=
  let by_seek := if 0 <? e then u64 e else 18446744073709551615 in
  let by_stat := match st with
                 | Some (reg, sz) => if reg || (0 <? sz) then u64 sz else by_seek
                 | None => by_seek
                 end in
  match blk with
  | Some b => if b =? 0 then by_stat else b
  | None => by_stat
  end.
