(** The file a client is served: set_peername (nbd-server.c:1829-1935).
    Definitions only. *)
From Coq Require Import String.
From Verif Require Import Base M_Acl M_Nego M_Conf.
Local Open Scope list_scope.

(** ** the numeric text of an address *)
(** getnameinfo with NI_NUMERICHOST (nbd-server.c:1854-1855, 1914-1915) is
    modelled after inet_ntop of the C library: IPv4 as dotted decimal, IPv6 in
    lower case hexadecimal with the first longest run of two or more zero words
    written "::" and IPv4-compatible and IPv4-mapped addresses with a dotted
    tail.  Zones ("%eth0" after a link-local address) are not modelled. *)
Definition digit (n : Z) : Z := if n <? 10 then 48 + n else 87 + n. (* nbd-server.c:1854 *)
Definition dec8 (n : Z) : list Z := (* nbd-server.c:1854, a byte in decimal *)
  if n <? 10 then [digit n]
  else if n <? 100 then [digit (n / 10); digit (n mod 10)]
  else [digit (n / 100); digit (n / 10 mod 10); digit (n mod 10)].
Definition hex16 (n : Z) : list Z := (* nbd-server.c:1854, 16 bits in hexadecimal *)
  if n <? 16 then [digit n]
  else if n <? 256 then [digit (n / 16); digit (n mod 16)]
  else if n <? 4096 then [digit (n / 256); digit (n / 16 mod 16); digit (n mod 16)]
  else [digit (n / 4096); digit (n / 256 mod 16); digit (n / 16 mod 16); digit (n mod 16)].
Definition ntop4 (b : list Z) : list Z := (* nbd-server.c:1854, IPv4 *)
  match b with
  | [x; y; z; w] => dec8 x ++ [46] ++ dec8 y ++ [46] ++ dec8 z ++ [46] ++ dec8 w
  | _ => []
  end.
Fixpoint words_of (b : list Z) : list Z := (* nbd-server.c:1854, 16-bit words *)
  match b with
  | x :: y :: t => (256 * x + y) :: words_of t
  | _ => []
  end.
(** the first longest run of zeroes, as base and length: [cur] the run being
    read, [best] the best so far (nbd-server.c:1854) *)
Fixpoint zero_run (i : Z) (ws : list Z) (cur best : Z * Z) : Z * Z :=
  let better := if snd best <? snd cur then cur else best in
  match ws with
  | [] => better
  | w :: t => if w =? 0 then zero_run (i + 1) t (if snd cur =? 0 then (i, 1) else (fst cur, snd cur + 1)) best
              else zero_run (i + 1) t (0, 0) better
  end.
(** words and run to text (nbd-server.c:1854); [tail] is the text of the last
    four bytes *)
Fixpoint ntop_words (i : Z) (ws : list Z) (run : Z * Z) (dotted : bool) (tail : list Z) : list Z :=
  let '(base, len) := run in
  match ws with
  | [] => if (0 <? len) && (base + len =? 8) then [58] else []
  | w :: t =>
      if (base <=? i) && (i <? base + len) then
        (if i =? base then [58] else []) ++ ntop_words (i + 1) t run dotted tail
      else
        (if i =? 0 then [] else [58]) ++
        (if (i =? 6) && dotted then tail else hex16 w ++ ntop_words (i + 1) t run dotted tail)
  end.
Definition ntop6 (b : list Z) : list Z := (* nbd-server.c:1854, IPv6 *)
  let ws := words_of b in
  let '(base, len) := zero_run 0 ws (0, 0) (0, 0) in
  let run := if len <? 2 then (0, 0) else (base, len) in
  let dotted := (fst run =? 0) && ((snd run =? 6) || ((snd run =? 5) && (nth 5 ws 0 =? 65535))) in
  ntop_words 0 ws run dotted (ntop4 (skipn 12 b)).
Definition ntop (a : sa) : list Z := (* nbd-server.c:1854-1855 *)
  match a with V4 b => ntop4 b | V6 b => ntop6 b | VOther => text "unix" end.

(** ** peername (nbd-server.c:1845-1873) *)
(** A name starting with "::ffff:" loses these 7 bytes (nbd-server.c:1871-1873). *)
Definition peername (a : sa) : list Z :=
  let n := ntop a in
  if starts (text "::ffff:") n then skipn 7 n else n.

(** ** printf of the configured name (nbd-server.c:1890, 1920) *)
(** g_strdup_printf(template, arg).  [FUb]: a second %s takes an argument that
    was not passed.  Conversions other than %s and %% are not modelled
    ([FOther]). *)
Inductive fout := FText (s : list Z) | FUb | FOther. (* nbd-server.c:1890 *)
Definition fcons (l : list Z) (o : fout) : fout := (* nbd-server.c:1890 *)
  match o with FText s => FText (l ++ s) | o => o end.
Fixpoint sprintf (template : list Z) (arg : option (list Z)) : fout := (* nbd-server.c:1890 *)
  match template with
  | [] => FText []
  | 37 :: t =>
      match t with
      | 37 :: t' => fcons [37] (sprintf t' arg)
      | 115 :: t' => match arg with Some a => fcons a (sprintf t' None) | None => FUb end
      | _ => FOther
      end
  | c :: t => fcons [c] (sprintf t arg)
  end.

(** ** the virtual styles (nbd-server.c:1875-1926) *)
(** The mask of a cidrhash style is applied to the bytes of the socket address
    from its third on (sa_data, nbd-server.c:1905-1913): the port (2 bytes), for
    IPv6 the flow label (4 bytes), then the address. *)
Fixpoint mask_bytes (bytes : list Z) (n : nat) (cidrlen : Z) : list Z :=
  match n, bytes with
  | S n, x :: t => Z.land x (getmaskbyte (Z.max cidrlen 0)) :: mask_bytes t n (cidrlen - 8)
  | _, _ => bytes
  end.
(** netname (nbd-server.c:1895-1916); [port] are the two bytes of the port, the
    flow label is 0 (nbd-server.c:1895).  getaddrinfo of the numeric name gives
    the family the name was made from (nbd-server.c:1900-1906). *)
Definition netname (a : sa) (port : list Z) (cidrlen : Z) : list Z :=
  match a with
  | V4 b => ntop4 (skipn 2 (mask_bytes (port ++ b) 4 cidrlen))
  | V6 b => ntop6 (skipn 6 (mask_bytes (port ++ [0; 0; 0; 0] ++ b) 16 cidrlen))
  | VOther => []
  end.

(** '.' to '/' (nbd-server.c:1882-1886) *)
Definition slashes (s : list Z) : list Z := map (fun c => if c =? 46 then 47 else c) s.

(** outcome of set_peername (nbd-server.c:1829-1935): failed (-1), or exportname
    ([None]: never assigned, NULL) and clientname *)
Inductive pout := PFail | PUb | POther | PSet (exportname : option (list Z)) (clientname : list Z).
(** [peer] is what getsockname, getpeername, getnameinfo and getaddrinfo
    (nbd-server.c:1841-1868) tell: [None] when one of them fails *)
Definition set_peername (template : list Z) (style : virt) (cidrlen : Z) (peer : option (sa * list Z)) : pout :=
  match peer with
  | None => PFail
  | Some (a, port) =>
      let name := peername a in
      let named o := match o with FText s => PSet (Some s) name | FUb => PUb | FOther => POther end in
      match style with
      | VirtNone => PSet (Some template) name
      | VirtIphash => PSet None (slashes name)
      | VirtIplit => named (sprintf template (Some name))
      | VirtCidr =>
          let tmp := match a with VOther => name | _ => netname a port cidrlen ++ [47] ++ name end in
          named (sprintf template (Some tmp))
      end
  end.
