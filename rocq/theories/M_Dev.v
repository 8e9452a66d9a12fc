(** Setting up the device in nbd-client: connecting, the calls to the kernel, the
    netlink message, checking a device.  (nbd-client.c:165-363, 794-852,
    1210-1267, 1324-1366) *)
From Coq Require Import String.
From Verif Require Import Base M_Acl M_Nego M_Conf M_Tab.
Local Open Scope list_scope.

(** ** connecting *)
(** what happens at one address: socket fails, connect fails, connected
    (nbd-client.c:316-324) *)
Inductive tryres := TNoSocket | TRefused | TConnected.
(** The loop over the addresses (nbd-client.c:315-334): the socket of the first
    address that accepts; [n] counts the sockets made, the second result is those
    still open. *)
Fixpoint open_first (l : list (list Z * tryres)) (n : Z) : option (list Z * Z) * list Z :=
  match l with
  | [] => (None, [])
  | (a, TNoSocket) :: l => open_first l n
  | (a, TRefused) :: l => open_first l (n + 1)
  | (a, TConnected) :: l => (Some (a, n), [n])
  end.
(** opennet (nbd-client.c:293-336); [gai] is the answer of getaddrinfo *)
Definition opennet (gai : option (list (list Z * tryres))) : option (list Z * Z) * list Z :=
  match gai with None => (None, []) | Some l => open_first l 0 end.
(** openunix (nbd-client.c:338-363): the path connected to; sun_path has 108
    bytes; [ok] tells whether socket and connect succeed *)
Definition openunix (path : list Z) (ok : list Z -> bool) : option (list Z) :=
  if 108 <=? zlen path then None
  else let p := firstn 107 path in if ok p then Some p else None.

(** ** checking a device *)
(** strrchr(devname, '/'), nbd-client.c:265-267 *)
Fixpoint base_name (d : list Z) : list Z :=
  match d with
  | [] => []
  | x :: t => if existsb (fun c => c =? 47) (x :: t) then base_name t else x :: t
  end.
(** the name cut at the first 'p' (nbd-client.c:268-271) *)
Definition cut_p (d : list Z) : list Z := fst (split_at 112 d).
(** snprintf into 256 bytes (nbd-client.c:272) *)
Definition sys_path (d : list Z) : list Z := firstn 255 (text "/sys/block/" ++ cut_p (base_name d) ++ text "/pid").
(** what open and read of that file do (nbd-client.c:273-285) *)
Inductive sysres := SysAbsent | SysError | SysReadError | SysText (s : list Z).
(** check_conn (nbd-client.c:260-291): the value returned and the text printed *)
Definition check_conn (sys : list Z -> sysres) (d : list Z) (print : bool) : Z * option (list Z) :=
  match sys (sys_path d) with
  | SysAbsent => (1, None)
  | SysError | SysReadError => (2, None)
  | SysText s => (0, if print then Some (firstn 255 (firstn 256 s)) else None)
  end.

(** ** the device *)
(** calls to the kernel (nbd-client.c:805-828, 833, 840) *)
Inductive dcall := BlkSize (n : Z) | SizeBlocks (n : Z) | ClearSock | SetFlags (f : Z) | RoSet (b : bool) | SetTimeout (n : Z) | SetSock (i : nat).
(** setsizes (nbd-client.c:794-829) with 64-bit unsigned long: lines 798 and 802
    always find the size small enough; a call that fails ends the client *)
Definition setsizes (sz bs fl : Z) : list dcall :=
  [BlkSize bs; SizeBlocks (sz / u64 bs); ClearSock; SetFlags fl; RoSet (flag fl 2)].
Definition set_timeout_calls (t : Z) : list dcall := if t =? 0 then [] else [SetTimeout t]. (* nbd-client.c:831-837 *)
(** One turn of the loop over the connections (nbd-client.c:1222-1243); [st] is
    size64 and flags, [neg] what the server announced on this connection. *)
Definition turn (c : tcl) (neg st : Z * Z) : Z * Z :=
  let '(sz, fl) := if t_preinit c then st else neg in
  (if t_force c =? 0 then sz else t_force c, if t_ro c then Z.lor fl 2 else fl).
(** all connections without netlink (nbd-client.c:1222-1255) *)
Fixpoint conn_calls (c : tcl) (negs : list (Z * Z)) (i : nat) (st : Z * Z) : list dcall * (Z * Z) :=
  match negs with
  | [] => ([], st)
  | neg :: negs =>
      let st := turn c neg st in
      let '(r, st') := conn_calls c negs (S i) st in
      ((match i with O => setsizes (fst st) (t_bs c) (snd st) ++ set_timeout_calls (t_timeout c) | S _ => [] end) ++ SetSock i :: r, st')
  end.
(** The negotiations are given in order; the loop runs nconn times
    (nbd-client.c:1222). *)
Definition connections (c : tcl) (neg : nat -> Z * Z) : list (Z * Z) := map neg (seq 0 (Z.to_nat (t_nconn c))).
Definition ioctl_calls (c : tcl) (neg : nat -> Z * Z) : list dcall * (Z * Z) := conn_calls c (connections c neg) 0 (0, 0). (* nbd-client.c:1222-1255 *)
(** after a lost connection (nbd-client.c:1332-1360); [None] is "Size of the
    device changed" *)
Definition again_calls (c : tcl) (old : Z) (neg : Z * Z) : option (list dcall) :=
  if old =? fst neg then Some (setsizes (fst neg) (t_bs c) (snd neg) ++ set_timeout_calls (t_timeout c) ++ [SetSock 0]) else None.

(** The device as the kernel keeps it (drivers/block/nbd.c; trusted): block size,
    size in bytes, flags, read-only, timeout, sockets. *)
Record kdev := mkKd { kd_bs : Z; kd_size : Z; kd_fl : Z; kd_ro : bool; kd_timeout : Z; kd_socks : list nat }. (* nbd-client.c:794-852 *)
(** effect of one call (nbd-client.c:805-840, kernel side trusted) *)
Definition kcall (k : kdev) (d : dcall) : kdev :=
  match d with
  | BlkSize n => mkKd n (kd_size k) (kd_fl k) (kd_ro k) (kd_timeout k) (kd_socks k)
  | SizeBlocks n => mkKd (kd_bs k) (kd_bs k * n) (kd_fl k) (kd_ro k) (kd_timeout k) (kd_socks k)
  | ClearSock => mkKd (kd_bs k) (kd_size k) (kd_fl k) (kd_ro k) (kd_timeout k) []
  | SetFlags f => mkKd (kd_bs k) (kd_size k) f (kd_ro k) (kd_timeout k) (kd_socks k)
  | RoSet b => mkKd (kd_bs k) (kd_size k) (kd_fl k) b (kd_timeout k) (kd_socks k)
  | SetTimeout n => mkKd (kd_bs k) (kd_size k) (kd_fl k) (kd_ro k) n (kd_socks k)
  | SetSock i => mkKd (kd_bs k) (kd_size k) (kd_fl k) (kd_ro k) (kd_timeout k) (kd_socks k ++ [i])
  end.
Definition kcalls (k : kdev) (l : list dcall) : kdev := fold_left kcall l k. (* nbd-client.c:1222-1255 *)

(** The netlink message (nbd-client.c:165-205): index, size, block size, flags,
    timeout, identifier, number of sockets. *)
Record nlmsg := mkNl { nl_index : option Z; nl_size : Z; nl_bs : Z; nl_fl : Z; nl_timeout : option Z; nl_ident : option (list Z); nl_socks : nat }.
Definition turns (c : tcl) (negs : list (Z * Z)) (st : Z * Z) : Z * Z := fold_left (fun st neg => turn c neg st) negs st. (* nbd-client.c:1222-1238 *)
(** main with netlink (nbd-client.c:1216-1220, 1222-1238, 1257-1267);
    [None] is an error exit: no such device, or no memory for a negative number
    of sockets *)
Definition netlink_setup (v : mvars) (neg : nat -> Z * Z) : option nlmsg :=
  let c := v_cl v in
  if t_nconn c <? 0 then None else
  match device_of v with
  | VIndex i =>
      let st := turns c (connections c neg) (0, 0) in
      Some (mkNl (if i <? 0 then None else Some i) (fst st) (u64 (t_bs c)) (snd st)
                 (if t_timeout c =? 0 then None else Some (u64 (t_timeout c))) (v_ident v) (Z.to_nat (t_nconn c)))
  | _ => None
  end.
