(** nbd-client -d and nbd-get-status.  Definitions only. *)
From Coq Require Import String.
From Verif Require Import Base M_Acl M_Nego M_Tab.
Local Open Scope list_scope.

(** What -d comes to: an error exit, the kernel told by netlink to disconnect a
    device number, or ioctls on an opened file (nbd-client.c:218-247, 902-915). *)
Inductive dio := IDisconnect | IClearSock. (* nbd-client.c:908, 911 *)
Inductive ddone := DError | DNetlink (index : Z) | DIoctls (path : list Z) (l : list dio) (ok : bool). (* nbd-client.c:218-247, 902-915 *)
(** the system: which files can be opened, whether an ioctl on an opened file works,
    whether the message can be sent and the kernel accepts it *)
Record dsys := mkDs { d_open : list Z -> bool; d_ioctl : list Z -> dio -> bool; d_nl : Z -> bool }. (* nbd-client.c:240, 903, 908, 911 *)

Definition netlink_disconnect (y : dsys) (dev : option (list Z)) : ddone := (* nbd-client.c:218-247 *)
  match dev with
  | None => DError
  | Some d => match sscanf_nbd d with
              | None => DError
              | Some i => if i <? 0 then DError else if d_nl y i then DNetlink i else DError
              end
  end.
(** [None] cannot be opened: open(NULL) fails *)
Definition disconnect (y : dsys) (dev : option (list Z)) : ddone := (* nbd-client.c:902-915 *)
  match dev with
  | None => DError
  | Some d =>
      if negb (d_open y d) then DError
      else if negb (d_ioctl y d IDisconnect) then DIoctls d [] false
      else if negb (d_ioctl y d IClearSock) then DIoctls d [IDisconnect] false
      else DIoctls d [IDisconnect; IClearSock] true
  end.
(** main with -d (nbd-client.c:989-1149); [None]: main does something else *)
Definition run_disconnect (y : dsys) (netlink : bool) (l : list arg) : option ddone :=
  match do_args (mkV initial 0 (text "10809") false false netlink None false) l with
  | None => None
  | Some v => if v_disc v then Some (if v_netlink v then netlink_disconnect y (t_dev (v_cl v)) else disconnect y (t_dev (v_cl v))) else None
  end.

(** ** nbd-get-status *)
(** the message sent (nbd-get-status.c:72-90): [None] is an error exit, [Some None]
    asks for all devices *)
Definition status_ask (arg1 : option (list Z)) : option (option Z) := (* nbd-get-status.c:72-88 *)
  match arg1 with
  | None => Some None
  | Some d => match sscanf_nbd d with None => None | Some i => Some (if 0 <=? i then Some i else None) end
  end.
(** An attribute of the device list as it comes from the kernel: type, whether its
    contents parse against the policy, and the two attributes in it
    (nbd-get-status.c:11-14, 49-58). *)
Record item := mkItem { it_type : Z; it_ok : bool; it_index : option Z; it_conn : option Z }. (* nbd-get-status.c:49-58 *)
(** [r_ok]: nla_parse of the message works; [r_list]: the attribute
    NBD_ATTR_DEVICE_LIST, if there *)
Record reply := mkReply { r_ok : bool; r_list : option (list item) }. (* nbd-get-status.c:43-48 *)
(** how the callback ends; what was printed before is lost from the model on [SUb] *)
Inductive sres := SDone (lines : list (list Z)) | SErr (lines : list (list Z)) | SUb. (* nbd-get-status.c:36-64 *)
Fixpoint dec_of (f : nat) (n : Z) : list Z := (* %d, nbd-get-status.c:60 *)
  match f with O => [] | S f => if n <? 10 then [48 + n] else dec_of f (n / 10) ++ [48 + n mod 10] end.
Definition show_int (n : Z) : list Z := if n <? 0 then 45 :: dec_of 10 (- n) else dec_of 10 n. (* %d, nbd-get-status.c:60 *)
Definition status_line (i c : Z) : list Z := (* nbd-get-status.c:60-61 *)
  text "/dev/nbd" ++ show_int (i32 i) ++ text ": " ++ (if c =? 0 then text "disconnected" else text "connected").
Definition scons (l : list Z) (r : sres) : sres := match r with SDone x => SDone (l :: x) | SErr x => SErr (l :: x) | SUb => SUb end. (* nbd-get-status.c:48-62 *)
Fixpoint status_items (l : list item) : sres := (* nbd-get-status.c:48-62 *)
  match l with
  | [] => SDone []
  | a :: l =>
      if negb (it_type a =? 1) then SErr [] else
      if negb (it_ok a) then SErr [] else
      match it_index a, it_conn a with
      | Some i, Some c => scons (status_line i c) (status_items l)
      | _, _ => SUb (* nla_get_u32(NULL), nla_get_u8(NULL) *)
      end
  end.
Definition status_callback (r : reply) : sres := (* nbd-get-status.c:36-64 *)
  if negb (r_ok r) then SErr [] else match r_list r with None => SUb | Some l => status_items l end.
(** the callback of nbd-client for a new device (nbd-client.c:133-148) *)
Definition connect_callback (ok : bool) (index : option Z) : sres :=
  if negb ok then SErr [] else
  match index with None => SErr [] | Some i => SDone [text "Connected /dev/nbd" ++ show_int (i32 i)] end.
