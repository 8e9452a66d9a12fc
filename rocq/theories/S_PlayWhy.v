(** Where the lines of nbd-trplay come from. *)
From Verif Require Import Base M_Log S_Play S_DumpText M_PlayText.

(** the values of a line are those of an entry in the log *)
Definition shown_in (log : list Z) (l : pline) : Prop :=
  match l with
  | QReq ck cmd off len => exists a b, log = a ++ be 4 0x25609513 ++ be 4 cmd ++ be 8 ck ++ be 8 off ++ be 4 len ++ b
  | QLine (LRep ck e) => exists a b, log = a ++ be 4 0x67446698 ++ be 4 e ++ be 8 ck ++ b
  | QLine (LOpt cmd off len) => exists a x b, zlen x = 8 /\ log = a ++ be 4 0x25609514 ++ be 4 cmd ++ x ++ be 8 off ++ be 4 len ++ b
  | QUnknown m => ~ In m [0x25609513; 0x67446698; 0x25609514] /\ exists a b, log = a ++ be 4 m ++ b
  | _ => True
  end.

(** the reason for a line, from the one before it *)
Definition because (bs max : Z) (before : option pline) (l : pline) : Prop :=
  match l with
  | QBadOffset off b => b = bs /\ off mod bs <> 0 /\ exists ck cmd len, before = Some (QReq ck cmd off len)
  | QBadLen len b => b = bs /\ len mod bs <> 0 /\ exists ck cmd off, before = Some (QReq ck cmd off len) /\ off mod bs = 0
  | QNoData => exists ck cmd off len, before = Some (QReq ck cmd off len) /\ cmd mod 65536 = 1
  | QBadCommand cmd => ~ In (cmd mod 65536) [0; 1; 2; 3; 4; 6] /\ exists ck off len, before = Some (QReq ck cmd off len)
  | QMax n => n = max /\ exists off, before = Some (QBlock (max - 1) off bs)
  | QLine (LData on) => exists len, before = Some (QLine (LOpt 1 0x4A93BA39A54F31B6 len)) /\ on = negb (len =? 0)
  | QLine LUnknownOpt => exists cmd len, before = Some (QLine (LOpt cmd 0x4A93BA39A54F31B6 len)) /\ cmd <> 1
  | QLine LUnknownFrom => exists cmd off len, before = Some (QLine (LOpt cmd off len)) /\ off <> 0x4A93BA39A54F31B6
  | _ => True
  end.
Fixpoint explained (bs max : Z) (before : option pline) (ls : list pline) : Prop :=
  match ls with
  | [] => True
  | l :: t => because bs max before l /\ explained bs max (Some l) t
  end.

(** how often -v is given *)
Fixpoint verbosity (l : list ask) : Z :=
  match l with [] => 0 | AVerbose :: t => 1 + verbosity t | _ :: t => verbosity t end.
