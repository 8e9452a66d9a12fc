(** What it means that a client sees nothing but its own export. *)
From Verif Require Import Base M_Const M_Disk M_Raw M_Par L_Wp.

(** the files that make up the export of [c]: the listed ones, or the block
    files of a tree (and the scratch file standing for absent blocks); for a
    copy-on-write export also the diff file *)
Definition own (c : client) (h : fref) : Prop :=
  (exists l fi, c_export c = Some l /\ In fi l /\ fi_h fi = h) \/
  match h with
  | FTree _ | FDummy => cflag c F_TREEFILES = true
  | FDiff => cflag c F_COPYONWRITE = true \/ cflag c F_WAIT = true
  | _ => False
  end.

(** Two machines on which the files [mine] and the answers of the operating
    system are the same; every other file may differ, and so may what happens
    to be in memory unless [memory] is set. *)
Record alike (mine : fref -> Prop) (memory : bool) (w w' : world) : Prop := mkAlike {
  al_files : forall h, mine h ->
    fsize (w_file w h) = fsize (w_file w' h) /\ forall i, fdata (w_file w h) i = fdata (w_file w' h) i;
  al_exists : forall p, mine (FTree p) -> w_exists w p = w_exists w' p;
  al_orc : forall n, w_orc w n = w_orc w' n;
  al_tick : w_tick w = w_tick w';
  al_errno : w_errno w = w_errno w';
  al_heap : memory = true -> forall i, w_heap w i = w_heap w' i;
  al_dpos : w_dpos w = w_dpos w';
  al_map : forall i, w_map w i = w_map w' i;
  al_mapsz : w_mapsz w = w_mapsz w';
  al_dlen : w_dlen w = w_dlen w';
  al_sent : sent w = sent w'
}.

(** the two sessions look the same from outside *)
Definition same_session (o o' : out ending) : Prop :=
  match o, o' with
  | Ret e w, Ret e' w' => e = e' /\ sent w = sent w'
  | Die w, Die w' => sent w = sent w'
  | Ub, Ub => True
  | Stuck, Stuck => True
  | _, _ => False
  end.

(** Two connections with worker threads look the same from outside: the bytes
    written to the socket and to the transaction log, and how far they got. *)
Definition same_traffic (o o' : sout) : Prop :=
  match o, o' with
  | SGo s, SGo s' | SExit s, SExit s' => y_out s = y_out s' /\ y_log s = y_log s' /\ y_in s = y_in s' /\ y_rd s = y_rd s'
  | SUb, SUb | SNot, SNot => True
  | _, _ => False
  end.

(** An event that writes to a file of the export of [c], or to none; block files
    come and go only on tree exports *)
Definition own_event (c : client) (e : event) : Prop :=
  match e with
  | EWrite h _ _ _ | EPunch h _ _ => own c h
  | ECreate _ | EUnlink _ => cflag c F_TREEFILES = true
  | ESync _ | ESyncAll | ESend _ => True
  end.

(** everything outside the export of [c] is as before *)
Definition confined (c : client) (w w' : world) : Prop :=
  (forall h, ~ own c h -> w_file w' h = w_file w h) /\
  (cflag c F_TREEFILES = false -> forall p, w_exists w' p = w_exists w p) /\
  exists l, w_tr w' = l ++ w_tr w /\ Forall (own_event c) l.

(** a statement about the storage after any number of steps *)
Definition after (o : sout) (P : world -> Prop) : Prop :=
  match o with SGo s | SExit s => P (y_w s) | SNot | SUb => True end.
