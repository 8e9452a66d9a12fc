(** The command line of nbd-trplay (main, nbd-trplay.c:256-327).  Definitions
    only; what it then does is in M_Log. *)
From Verif Require Import Base M_Const M_Acl M_Conf M_Log.

(** What getopt delivers for "i:l:m:b:hv" (nbd-trplay.c:263); [PHelp] is -h and
    everything getopt does not know or finds without its argument (271-275). *)
Inductive popt := PV | PHelp | PM (s : list Z) | PB (s : list Z) | PI (f : list Z) | PL (f : list Z).

(** strtoull and strtoul with base 0 (nbd-trplay.c:277, 284), both 64 bits wide:
    a minus sign negates modulo 2^64, a number too large gives 2^64-1 *)
Definition strtoull0 (s : list Z) : Z :=
  let s := skip_space s in
  let '(neg, s) := match s with
                   | 45 :: t => (true, t)
                   | 43 :: t => (false, t)
                   | _ => (false, s)
                   end in
  let v := match s with
           | 48 :: 120 :: t | 48 :: 88 :: t => digits_base 16 t 0
           | 48 :: t => digits_base 8 t 0
           | _ => digits_base 10 s 0
           end in
  if 18446744073709551615 <? v then 18446744073709551615
  else if neg : bool then u64 (- v) else v.

(** BUFSIZE (nbd-trplay.c:28), the size of g_tmpbuf *)
Definition TRBUFSIZE : Z := 131072.

(** g_blocksize, g_max_blocks (nbd-trplay.c:40-42), imagefd and logfd (258-259) by
    the name of the file *)
Record pset := mkP { p_bs : Z; p_max : Z; p_img : option (list Z); p_log : option (list Z) }.
(** nbd-trplay.c:40, 42, 258-259 *)
Definition pset0 : pset := mkP 512 18446744073709551615 None None.

(** The files: images that can be opened for writing, logs that can be opened for
    reading, with what they hold (nbd-trplay.c:295, 302).
    Simplification: the log is not the image. *)
Record pfiles := mkPF { pf_img : list Z -> option (Z -> Z); pf_log : list Z -> option (list Z) }.

(** the loop over the options (nbd-trplay.c:263-309); [inr]: main returns *)
Fixpoint popts (fs : pfiles) (os : list popt) (p : pset) : pset + Z :=
  match os with
  | [] => inl p
  | PV :: t => popts fs t p
  | PHelp :: _ => inr 0
  | PM s :: t =>
      let n := strtoull0 s in
      if n =? 0 then inr 1 else popts fs t (mkP (p_bs p) n (p_img p) (p_log p))
  | PB s :: t =>
      let n := strtoull0 s in
      if n =? 0 then inr 1
      else if TRBUFSIZE <? n then inr 1
      else popts fs t (mkP n (p_max p) (p_img p) (p_log p))
  | PI f :: t =>
      match pf_img fs f with
      | None => inr 1
      | Some _ => popts fs t (mkP (p_bs p) (p_max p) (Some f) (p_log p))
      end
  | PL f :: t =>
      match pf_log fs f with
      | None => inr 1
      | Some _ => popts fs t (mkP (p_bs p) (p_max p) (p_img p) (Some f))
      end
  end.

(** How nbd-trplay ends: the status, and the image it was writing with what it
    holds then; [None]: no image was touched (nbd-trplay.c:324). *)
Inductive pend := PEnd (code : Z) (img : option (list Z * (Z -> Z))) | PStuck.

(** main (nbd-trplay.c:256-327) *)
Definition trplay_main (fs : pfiles) (pw : nat -> Z) (os : list popt) : pend :=
  match popts fs os pset0 with
  | inr code => PEnd code None
  | inl p =>
      match p_log p, p_img p with
      | None, _ | _, None => PEnd 1 None                                     (* 311-318 *)
      | Some l, Some i =>
          match pf_log fs l, pf_img fs i with
          | Some log, Some img =>
              match trplay (p_bs p) (p_max p) pw log img with
              | TExit code s => PEnd code (Some (i, t_img s))
              | _ => PStuck
              end
          | _, _ => PStuck
          end
      end
  end.
