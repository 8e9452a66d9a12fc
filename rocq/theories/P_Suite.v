(** The cases of the project's own unit tests (tests/code, tests/parse), run on the
    model: a check of the model, not of the program. *)
From Coq Require Import String.
From Verif Require Import Base M_Acl M_Nego M_Tab M_Size M_Const M_Disk M_Raw X_Demo.
Local Open Scope list_scope.
Local Open Scope string_scope.

(** tests/code/mask.c:6-14 *)
Example suite_mask : List.map getmaskbyte [0; 1; 2; 3; 4; 5; 6; 7; 8] = [0; 0x80; 0xC0; 0xE0; 0xF0; 0xF8; 0xFC; 0xFE; 0xFF].
Proof. reflexivity. Qed.

(** tests/code/clientacl.c:51-69; getaddrinfo for the four masks used there *)
Definition suite_gai (s : list Z) : option (list sa) :=
  if list_eq_dec Z.eq_dec s (text "192.168.1.1") then Some [V4 [192; 168; 1; 1]]
  else if list_eq_dec Z.eq_dec s (text "192.168.0.1") then Some [V4 [192; 168; 0; 1]]
  else if list_eq_dec Z.eq_dec s (text "192.168.200.1") then Some [V4 [192; 168; 200; 1]]
  else if list_eq_dec Z.eq_dec s (text "192.168.100.1") then Some [V4 [192; 168; 100; 1]]
  else if list_eq_dec Z.eq_dec s (text "192.168.0.0") then Some [V4 [192; 168; 0; 0]]
  else None.
Example suite_clientacl :
  address_matches suite_gai (text "192.168.1.1/23") (V4 [192; 168; 0; 1]) = AYes /\
  address_matches suite_gai (text "192.168.0.1/24") (V4 [192; 168; 0; 1]) = AYes /\
  address_matches suite_gai (text "192.168.200.1/24") (V6 (mapped [192; 168; 200; 1])) = AYes /\
  address_matches suite_gai (text "192.168.100.1/24") (V6 (mapped [192; 168; 200; 1])) = ANo /\
  address_matches suite_gai (text "192.168.0.0/24") (V4 [192; 168; 200; 1]) = ANo /\
  address_matches suite_gai (text "192.168.0.0/23") (V4 [192; 168; 200; 1]) = ANo.
Proof. repeat split; vm_compute; reflexivity. Qed.

(** tests/code/size.c: a file of which byte 1023 was written; the ioctl fails *)
Example suite_size : forall e, size_autodetect None (Some (true, 1024)) e = 1024.
Proof. reflexivity. Qed.

(** tests/parse: what parser.c:48-68 expects of each file *)
Definition nl : list Z := [10].
Definition tab : list Z := [9].
Definition tabbed (l : list string) : list Z := List.concat (List.map (fun x => tab ++ text x)%list l).
Example suite_parse_empty : yyparse (text "# This file is empty, apart from the comments" ++ nl)%list = Some [].
Proof. vm_compute. reflexivity. Qed.
Example suite_parse_noopts :
  yyparse (text "# This file contains a definition without options. It does not have" ++ nl ++
           text "# ""/dev"" in front of the device name, and has a multiline comment." ++ nl ++
           text "nbd0" ++ tabbed ["localhost"; "test"] ++ nl)%list =
  Some [mkLine (text "nbd0") (text "localhost") (text "test") []].
Proof. vm_compute. reflexivity. Qed.
Example suite_parse_singleopt :
  yyparse (text "# This config file has a valid configuration with a single option." ++ nl ++
           text "nbd0" ++ tabbed ["localhost"; "test"; "bs=1024"] ++ nl)%list =
  Some [mkLine (text "nbd0") (text "localhost") (text "test") [OProp (text "bs") (text "1024")]].
Proof. vm_compute. reflexivity. Qed.
Example suite_parse_multiopt :
  yyparse (nl ++ nl ++ text "# This config file contains a few empty lines." ++ nl ++ nl ++
           text "# It also contains multiple options on the configuration line." ++ nl ++ nl ++
           text "nbd0" ++ tabbed ["localhost"; "test"; "bs=1024,no_optgo"] ++ nl)%list =
  Some [mkLine (text "nbd0") (text "localhost") (text "test") [OProp (text "bs") (text "1024"); OFlag (text "no_optgo")]].
Proof. vm_compute. reflexivity. Qed.
Example suite_parse_ipv6 :
  yyparse (nl ++ nl ++ text "# This config file contains a few empty lines." ++ nl ++ nl ++
           text "# It also contains an IPv6 address" ++ nl ++ nl ++
           text "nbd0" ++ tabbed ["2a01:4f8:200:91e8::2"; "test"] ++ nl)%list =
  Some [mkLine (text "nbd0") (text "2a01:4f8:200:91e8::2") (text "test") []].
Proof. vm_compute. reflexivity. Qed.
Example suite_parse_ipv4 : yyparse (text "nbd0 192.168.1.1 test" ++ nl)%list = Some [mkLine (text "nbd0") (text "192.168.1.1") (text "test") []].
Proof. vm_compute. reflexivity. Qed.

(** tests/code/trim.c:62-68: a TRIM of the first MiB of an export of one file *)
Example suite_trim :
  match exptrim (mkC 0 1073741824 (Some [mkFI (FExp 0) 0]) 5 false false) (mkReq NBD_CMD_TRIM cookie1 0 1048576) (demo_world [demo_file 1073741824 0] all_full) with
  | Ret _ w => w_tr w = [EPunch (FExp 0) 0 1048576]
  | _ => False
  end.
Proof. vm_compute. reflexivity. Qed.
