(** Tree exports: path construction, opening and deleting block files.
    Definitions only. *)
From Verif Require Import Base M_Const M_Disk.

(** One upper-case hexadecimal digit, as printed by the X conversion of
    treefiles.c:23,28. *)
Definition hexdig (n : Z) : Z := if n <? 10 then 48 + n else 55 + n.
(** "%04X" of a value below 65536 (treefiles.c:23,28). *)
Definition hex4 (n : Z) : list Z :=
  [hexdig (n / 4096 mod 16); hexdig (n / 256 mod 16); hexdig (n / 16 mod 16); hexdig (n mod 16)].
(** "/FILE%04X" (treefiles.c:23) *)
Definition file_comp (n : Z) : list Z := [47; 70; 73; 76; 69] ++ hex4 n.
(** "/TREE%04X" (treefiles.c:28) *)
Definition tree_comp (n : Z) : list Z := [47; 84; 82; 69; 69] ++ hex4 n.

(** Result of construct_path: the characters written and the final [*ppos];
    err() exit (treefiles.c:19); recursion bound exhausted. *)
Inductive pathres := PathOk (s : list Z) (ppos : Z) | PathDie | PathFuel.

(** construct_path (treefiles.c:17-32).  [lenmax] is the room left in the
    buffer.  Simplification: the write of the nine characters of a directory
    component happens after the recursive call in C; only the resulting string
    is modelled (the recursion writes at name+9, the component at name). *)
Fixpoint construct_path (fuel : nat) (lenmax size pos : Z) : pathres :=
  match fuel with
  | O => PathFuel
  | S fuel =>
      if lenmax <? 10 then PathDie
      else if size <? TREEDIRSIZE * TREEPAGESIZE then
        PathOk (file_comp ((pos / TREEPAGESIZE) mod TREEDIRSIZE)) (pos / (TREEPAGESIZE * TREEDIRSIZE))
      else
        match construct_path fuel (lenmax - 9) (size / TREEDIRSIZE) pos with
        | PathOk s ppos => PathOk (tree_comp (ppos mod TREEDIRSIZE) ++ s) (ppos / TREEDIRSIZE)
        | PathDie => PathDie
        | PathFuel => PathFuel
        end
  end.

(** Recursion bound: a size below 2^63 is divided by 1024 at most five times
    (treefiles.c:26). *)
Definition tree_fuel : nat := 8.

(** Linux limits.h PATH_MAX (treefiles.c:35,62) *)
Definition PATH_MAX := 4096.
(** Linux errno ENOENT (treefiles.c:73) *)
Definition ENOENT := 2.

(** The path (below the export name) used for an offset by open_treefile and
    delete_treefile (treefiles.c:38-40, 65-67). *)
Definition tree_path (namelen size pos : Z) : pathres :=
  construct_path tree_fuel (PATH_MAX - namelen - 1) size pos.

(** The path as a monadic action: err() on a too long name (treefiles.c:18-19). *)
Definition get_path (namelen size pos : Z) : M (list Z) :=
  match tree_path namelen size pos with
  | PathOk s _ => ret s
  | PathDie => die
  | PathFuel => fun _ => Stuck
  end.

(** delete_treefile (treefiles.c:34-46): the result of unlink is ignored. *)
Definition delete_treefile (namelen size pos : Z) : M unit :=
  p <- get_path namelen size pos ;;
  r <- pull ;;
  e <- get (fun w => w_exists w p) ;;
  match e, r with
  | false, _ => modify (set_errno ENOENT)
  | true, RErr er => modify (set_errno er)
  | true, _ => modify (set_exists p false) ;;; modify (emit (EUnlink p))
  end.

(** A freshly created block file of 4096 zero bytes (treefiles.c:96-103). *)
Definition zero_block : file := mkFile TREEPAGESIZE (fun _ => 0).

(** open_treefile (treefiles.c:61-107).  [rdwr] is the mode.  mkdir_path
    (treefiles.c:48-59) is one oracle call that may exit.  Simplification: the
    oracle never answers ENOENT for an existing block file. *)
Definition open_treefile (namelen : Z) (rdwr : bool) (size pos : Z) : M fref :=
  p <- get_path namelen size pos ;;
  r <- pull ;;
  e <- get (fun w => w_exists w p) ;;
  match e, r with
  | true, RErr er =>
      if er =? ENOENT then ret (FTree p) else modify (set_errno er) ;;; ret FBad
  | true, _ => ret (FTree p)
  | false, _ =>
      let other := match r with RErr er => negb (er =? ENOENT) | _ => false end in
      if other then
        modify (set_errno (match r with RErr er => er | _ => ENOENT end)) ;;; ret FBad
      else if rdwr then
        r1 <- pull ;; (* mkdir_path *)
        match r1 with
        | RErr _ => die
        | _ =>
          r2 <- pull ;; (* open(O_RDWR|O_CREAT) *)
          match r2 with
          | RErr _ => die
          | _ =>
            modify (set_exists p true) ;;;
            modify (emit (ECreate p)) ;;;
            modify (set_file (FTree p) (mkFile 0 (fun _ => 0))) ;;;
            r3 <- pull ;; (* lseek + write of one byte *)
            match r3 with
            | RErr _ => die
            | RShort k => if k <=? 0 then die
                          else modify (set_file (FTree p) zero_block) ;;; ret (FTree p)
            | RFull => modify (set_file (FTree p) zero_block) ;;; ret (FTree p)
            end
          end
        end
      else
        r1 <- pull ;; (* mkstemp *)
        match r1 with
        | RErr _ => die
        | _ =>
          r3 <- pull ;;
          match r3 with
          | RErr _ => die
          | RShort k => if k <=? 0 then die
                        else modify (set_file FDummy zero_block) ;;; ret FDummy
          | RFull => modify (set_file FDummy zero_block) ;;; ret FDummy
          end
        end
  end.
