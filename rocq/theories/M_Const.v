(** Constants of the code base (definitions only). *)
From Verif Require Import Base.

(* nbdsrv.h:153 *) Definition F_READONLY := 1.
(* nbdsrv.h:154 *) Definition F_MULTIFILE := 2.
(* nbdsrv.h:155 *) Definition F_COPYONWRITE := 4.
(* nbdsrv.h:157 *) Definition F_AUTOREADONLY := 8.
(* nbdsrv.h:158 *) Definition F_SPARSE := 16.
(* nbdsrv.h:159 *) Definition F_SDP := 32.
(* nbdsrv.h:160 *) Definition F_SYNC := 64.
(* nbdsrv.h:161 *) Definition F_FLUSH := 128.
(* nbdsrv.h:162 *) Definition F_FUA := 256.
(* nbdsrv.h:163 *) Definition F_ROTATIONAL := 512.
(* nbdsrv.h:164 *) Definition F_TEMPORARY := 1024.
(* nbdsrv.h:165 *) Definition F_TRIM := 2048.
(* nbdsrv.h:166 *) Definition F_FIXED := 4096.
(* nbdsrv.h:167 *) Definition F_TREEFILES := 8192.
(* nbdsrv.h:168 *) Definition F_FORCEDTLS := 16384.
(* nbdsrv.h:169 *) Definition F_SPLICE := 32768.
(* nbdsrv.h:170 *) Definition F_WAIT := 65536.
(* nbdsrv.h:171 *) Definition F_DATALOG := 131072.
(* nbdsrv.h:175 *) Definition F_STRUCTURED := 1.

(* nbd.h:33 *) Definition NBD_CMD_READ := 0.
(* nbd.h:34 *) Definition NBD_CMD_WRITE := 1.
(* nbd.h:35 *) Definition NBD_CMD_DISC := 2.
(* nbd.h:36 *) Definition NBD_CMD_FLUSH := 3.
(* nbd.h:37 *) Definition NBD_CMD_TRIM := 4.
(* nbd.h:38 *) Definition NBD_CMD_CACHE := 5.
(* nbd.h:39 *) Definition NBD_CMD_WRITE_ZEROES := 6.
(* nbd.h:44 *) Definition NBD_CMD_MASK_COMMAND := 65535.
(* nbd.h:46 *) Definition NBD_CMD_FLAG_FUA := 65536.
(* nbd.h:47 *) Definition NBD_CMD_FLAG_NO_HOLE := 131072.
(* nbd.h:48 *) Definition NBD_CMD_FLAG_DF := 262144.

(* nbd.h:51 *) Definition NBD_FLAG_HAS_FLAGS := 1.
(* nbd.h:52 *) Definition NBD_FLAG_READ_ONLY := 2.
(* nbd.h:53 *) Definition NBD_FLAG_SEND_FLUSH := 4.
(* nbd.h:54 *) Definition NBD_FLAG_SEND_FUA := 8.
(* nbd.h:55 *) Definition NBD_FLAG_ROTATIONAL := 16.
(* nbd.h:56 *) Definition NBD_FLAG_SEND_TRIM := 32.
(* nbd.h:57 *) Definition NBD_FLAG_SEND_WRITE_ZEROES := 64.
(* nbd.h:58 *) Definition NBD_FLAG_SEND_DF := 128.
(* nbd.h:59 *) Definition NBD_FLAG_CAN_MULTI_CONN := 256.

(* nbd.h:67 *) Definition NBD_REQUEST_MAGIC := 0x25609513.
(* nbd.h:68 *) Definition NBD_REPLY_MAGIC := 0x67446698.
(* nbd.h:69 *) Definition NBD_STRUCTURED_REPLY_MAGIC := 0x668e33ef.
(* nbd.h:72 *) Definition NBD_TRACELOG_MAGIC := 0x25609514.
(* nbd.h:74, cliserv.c:14 rep_magic *) Definition NBD_OPT_REPLY_MAGIC := 0x3e889045565a9.
(* nbd-helper.h:20 *) Definition NBD_TRACELOG_FROM_MAGIC := 0x4A93BA39A54F31B6.
(* cliserv.c:13 opts_magic *) Definition OPTS_MAGIC := 0x49484156454F5054.

(* nbd.h:76 *) Definition NBD_REPLY_TYPE_NONE := 0.
(* nbd.h:77 *) Definition NBD_REPLY_TYPE_OFFSET_DATA := 1.
(* nbd.h:81 *) Definition NBD_REPLY_TYPE_ERROR := 32769.
(* nbd.h:82 *) Definition NBD_REPLY_TYPE_ERROR_OFFSET := 32770.
(* nbd.h:84 *) Definition NBD_REPLY_FLAG_DONE := 1.

(* nbd.h:129 *) Definition NBD_EOVERFLOW := 75.

(* Linux errno values used symbolically by nbd-server.c:2767-2786 *)
(* nbd-server.c:2769 *) Definition EPERM := 1.
(* nbd-server.c:2771 *) Definition EIO := 5.
(* errno of an operation on descriptor -1, see treefiles.c:72 *) Definition EBADF := 9.
(* cliserv.c:154 *) Definition EAGAIN := 11.
(* nbd-server.c:2773 *) Definition ENOMEM := 12.
(* nbd-server.c:2775 *) Definition EINVAL := 22.
(* nbd-server.c:2777 *) Definition EFBIG := 27.
(* nbd-server.c:2778 *) Definition ENOSPC := 28.
(* nbd-server.c:2780 *) Definition EDQUOT := 122.

(* nbd-server.c:192 *) Definition DIFFPAGESIZE := 4096.
(* nbd-server.c:212 *) Definition MAX_PIPE_SIZE := 1048576.
(* treefiles.h:8 *) Definition TREEPAGESIZE := 4096.
(* treefiles.h:7 *) Definition TREEDIRSIZE := 1024.

(* nbdsrv.h:57, nbd-server.c:1652: the "not mapped" marker (u32)-1 *)
Definition NOPAGE := 4294967295.
