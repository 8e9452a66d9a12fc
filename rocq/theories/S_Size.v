(** What can be exported, and how large it is. *)
From Verif Require Import Base.

(** a regular file or a block device of so many bytes; something else (a character
    device, a FIFO), and what it says of its size, if anything *)
Inductive thing := Regular (n : Z) | Block (n : Z) | Unseekable | Odd (n : Z).
Definition off_max : Z := 9223372036854775807.
Definition thing_ok (t : thing) : Prop :=
  match t with Regular n | Block n => 0 <= n <= off_max | Odd n => 0 < n <= off_max | Unseekable => True end.
(** the size in bytes, if the thing has one that is told *)
Definition size_of (t : thing) : option Z :=
  match t with Regular n => Some n | Block n => Some n | Odd n => Some n | Unseekable => None end.
(** what the system calls say of it on Linux: ioctl(BLKGETSIZE64), fstat, lseek to the
    end; a block device has st_size 0 *)
Definition told (t : thing) (blk : option Z) (st : option (bool * Z)) (e : Z) : Prop :=
  match t with
  | Regular n => blk = None /\ st = Some (true, n) /\ e = n
  | Block n => blk = Some n /\ st = Some (false, 0) /\ e = n
  | Unseekable => blk = None /\ st = Some (false, 0) /\ e <= 0
  | Odd n => blk = None /\ (st = Some (false, n) \/ (st = Some (false, 0) /\ e = n))
  end.
