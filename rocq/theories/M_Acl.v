(** Client authorization (nbdsrv.c:32-180).  Definitions only. *)
From Verif Require Import Base.

(** A socket address: IPv4, IPv6 (bytes in network order), or another family
    (nbdsrv.c:37, 68; e.g. AF_UNIX). *)
Inductive sa := V4 (b : list Z) | V6 (b : list Z) | VOther.

(** result of address_matches and authorized_client: true, false, undefined
    behaviour, failed assertion (nbdsrv.c:32, 68) *)
Inductive aout := AYes | ANo | AUb | AAbort.

(** isspace in the C locale, on bytes; bytes above 127 are not space
    (nbdsrv.c:160, 170) *)
Definition isspace (c : Z) : bool := (c =? 32) || ((9 <=? c) && (c <=? 13)).
Definition isdigit (c : Z) : bool := (48 <=? c) && (c <=? 57). (* strtol, nbdsrv.c:50 *)

(** strtol(s, NULL, 10) (nbdsrv.c:50): optional space and sign, decimal digits,
    saturating at LONG_MAX / LONG_MIN, 0 without digits *)
Fixpoint digits (s : list Z) (acc : Z) : Z := (* nbdsrv.c:50 *)
  match s with
  | c :: t => if isdigit c then digits t (acc * 10 + (c - 48)) else acc
  | [] => acc
  end.
Fixpoint skip_space (s : list Z) : list Z := (* nbdsrv.c:50, 159-162 *)
  match s with
  | c :: t => if isspace c then skip_space t else s
  | [] => []
  end.
Definition strtol (s : list Z) : Z := (* nbdsrv.c:50 *)
  let s := skip_space s in
  let '(neg, s) := match s with
                   | 45 :: t => (true, t)
                   | 43 :: t => (false, t)
                   | _ => (false, s)
                   end in
  let v := digits s 0 in
  if neg then Z.max (- v) (-9223372036854775808) else Z.min v 9223372036854775807.

(** strchr(privmask, '/') and the split it makes (nbdsrv.c:48-50) *)
Fixpoint split_at (c : Z) (s : list Z) : list Z * option (list Z) :=
  match s with
  | [] => ([], None)
  | x :: t => if x =? c then ([], Some t)
              else let '(a, r) := split_at c t in (x :: a, r)
  end.

(** getmaskbyte (nbdsrv.c:125-135); the loop sets bits 7, 6, ... while
    [i + masklen > 7] *)
Fixpoint maskbits (n : nat) (i masklen retval : Z) : Z := (* nbdsrv.c:130-132 *)
  match n with
  | O => retval
  | S n => if 7 <? i + masklen then maskbits n (i - 1) masklen (Z.lor retval (Z.shiftl 1 i)) else retval
  end.
Definition getmaskbyte (masklen : Z) : Z := (* nbdsrv.c:125-135 *)
  if 8 <=? masklen then 255 else u8 (maskbits 9 7 masklen 0).

(** comparison loops (nbdsrv.c:100-112) on the two byte arrays; reading past the
    end of either is undefined behaviour *)
Fixpoint compare_bits (fuel : nat) (len_left : Z) (s t : list Z) : aout :=
  match fuel with
  | O => AUb
  | S fuel =>
      if 8 <=? len_left then
        match s, t with
        | x :: s', y :: t' => if x =? y then compare_bits fuel (len_left - 8) s' t' else ANo
        | _, _ => AUb
        end
      else if len_left =? 0 then AYes
      else
        let mask := getmaskbyte len_left in
        match s, t with
        | x :: _, y :: _ => if Z.land x mask =? Z.land y mask then AYes else ANo
        | _, _ => AUb
        end
  end.

(** prefix of IPv4-mapped addresses (nbdsrv.c:38-40) *)
Definition mapped (b : list Z) : list Z := [0;0;0;0;0;0;0;0;0;0;255;255] ++ b.

(** body of the loop over the getaddrinfo results (nbdsrv.c:67-113).  The number
    of comparison steps is at most 29 (224 bits). *)
Definition match_one (addr : sa) (masklen : Z) (res : sa) : aout :=
  match addr, res with
  | VOther, _ => AAbort
  | V4 a, V4 b => compare_bits 30 masklen a b
  | V6 a, V6 b => compare_bits 30 masklen a b
  | V4 a, V6 b => compare_bits 30 (masklen + 96) (mapped a) b
  | V6 a, V4 b => compare_bits 30 (masklen + 96) a (mapped b)
  | _, VOther => ANo (* not returned by getaddrinfo for numeric hosts *)
  end.

(** nbdsrv.c:67-122 *)
Fixpoint match_list (addr : sa) (masklen : Z) (res : list sa) : aout :=
  match res with
  | [] => ANo
  | r :: t => match match_one addr masklen r with
              | ANo => match_list addr masklen t
              | o => o
              end
  end.

(** address_matches (nbdsrv.c:32-123); [gai] is getaddrinfo with AI_NUMERICHOST,
    [None] an error *)
Definition address_matches (gai : list Z -> option (list sa)) (mask : list Z) (addr : sa) : aout :=
  let addrlen := match addr with V4 _ => 4 | _ => 16 end in
  let '(host, sep) := split_at 47 mask in
  let masklen := match sep with
                 | Some t => i32 (strtol t)
                 | None => addrlen * 8
                 end in
  if (addrlen * 8 <? masklen) || (masklen <? 0) then ANo
  else match gai host with
       | None => ANo
       | Some res => match_list addr masklen res
       end.

(** fgets(line, 256, f) (nbdsrv.c:152): up to 255 bytes, ending after a newline *)
Fixpoint fgets (n : nat) (s : list Z) : list Z * list Z :=
  match n, s with
  | O, _ => ([], s)
  | _, [] => ([], [])
  | S n, c :: t => if c =? 10 then ([c], t) else let '(l, r) := fgets n t in (c :: l, r)
  end.

(** the C string in the buffer: up to a NUL byte (nbdsrv.c:156) *)
Fixpoint cstr (s : list Z) : list Z :=
  match s with
  | [] => []
  | c :: t => if c =? 0 then [] else c :: cstr t
  end.

(** the entry on a line, empty if there is none (nbdsrv.c:155-171) *)
Fixpoint until_space (s : list Z) : list Z := (* nbdsrv.c:168-171 *)
  match s with
  | [] => []
  | c :: t => if isspace c then [] else c :: until_space t
  end.
Definition entry_of (line : list Z) : list Z := (* nbdsrv.c:155-171 *)
  until_space (skip_space (fst (split_at 35 (cstr line)))).

(** the reading loop (nbdsrv.c:152-177); [fuel] bounds the number of lines by the
    length of the file *)
Fixpoint auth_lines (gai : list Z -> option (list sa)) (fuel : nat) (content : list Z) (addr : sa) : aout :=
  match fuel, content with
  | _, [] => ANo
  | O, _ => AUb
  | S fuel, _ =>
      let '(line, rest) := fgets 255 content in
      match entry_of line with
      | [] => auth_lines gai fuel rest addr
      | e => match address_matches gai e addr with
             | ANo => auth_lines gai fuel rest addr
             | o => o
             end
      end
  end.

(** authorized_client (nbdsrv.c:137-180): [authfile] is [None] when no file is
    configured, [Some None] when it cannot be opened *)
Definition authorized_client (gai : list Z -> option (list sa)) (authfile : option (option (list Z))) (addr : sa) : aout :=
  match authfile with
  | None => AYes
  | Some None => AYes
  | Some (Some content) => auth_lines gai (length content) content addr
  end.
