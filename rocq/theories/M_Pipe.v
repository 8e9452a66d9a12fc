(** The pipe of a spliced request as Linux has it: 256 slots, each with at most a part of
    one page.  Definitions only.  Simplifications: the page size is 4096; offsets are
    those in the file; the file is long enough and the calls do not fail (failing and
    short calls are in M_Raw). *)
From Verif Require Import Base.
Local Open Scope list_scope.

Definition PAGE : Z := 4096. (* page size, MAX_PIPE_SIZE / 256, nbd-server.c:212 *)
Definition SLOTS : nat := 256. (* what F_SETPIPE_SZ with MAX_PIPE_SIZE gives, nbd-server.c:212, 2806 *)
Definition MAXPIPE : Z := 1048576. (* MAX_PIPE_SIZE, nbd-server.c:212 *)

(** how filling the pipe goes: done with so many slots left; waiting for a free slot of
    a pipe nobody empties meanwhile; waiting for data (nbd-server.c:486, 1508, 1539) *)
Inductive filled := Done (free : nat) | Blocks | Waits.

(** expsplice into the pipe (nbd-server.c:1534-1544, 1507-1509, 2852): splice takes one slot
    for each page it meets; with no slot free it waits, as SPLICE_F_NONBLOCK is not
    given *)
Fixpoint fill_file (free : nat) (a len : Z) : filled :=
  if len <=? 0 then Done free
  else match free with
       | O => Blocks
       | S f => let p := Z.min len (PAGE - a mod PAGE) in fill_file f (a + p) (len - p)
       end.

(** spliceit from the socket into the pipe (nbd-server.c:481-491, 3130-3134): one slot for
    each piece the network brings; [ps] are the sizes of those *)
Fixpoint fill_sock (free : nat) (len : Z) (ps : list Z) : filled :=
  if len <=? 0 then Done free
  else match free with
       | O => Blocks
       | S f => match ps with [] => Waits | p :: ps => fill_sock f (len - Z.min len p) ps end
       end.

(** mkpipe lets a request take this way (nbd-server.c:2800) *)
Definition takes_pipe (len : Z) : bool := len <=? MAXPIPE.
Definition read_fill (a len : Z) : filled := fill_file SLOTS a len. (* nbd-server.c:2849-2852 *)
Definition write_fill (len : Z) (ps : list Z) : filled := fill_sock SLOTS len ps. (* nbd-server.c:2829, 3130-3134 *)
