(** C93: a client changes nothing but the export it opened; C05 and C06 with
    worker threads. *)
From Verif Require Import Base M_Const M_Disk M_Tree M_Raw M_Par M_Setup L_Wp S_Wire S_Disk L_Wire L_Session L_Props L_PlainS X_Demo S_Leak L_Own P_Cow P_Leak.

(** Whatever bytes the client sends, with any number of threads, on every
    schedule and up to any point of it, for every kind of export: only files of
    that export are written or punched, block files come and go only if it is a
    tree, and every other file is as it was. *)
Theorem C93_changes_only_its_export :
  forall lg c n inp l w, after (sys_run lg c l (sys_init n inp w)) (confined c w).
Proof. exact own_threads. Qed.
Print Assumptions C93_changes_only_its_export.

(** the same while negotiation decided that the export is read-only: nothing is
    changed at all *)
Theorem C05_threads_never_modify :
  forall lg c n inp l w,
    bad_write c = true -> (cflag c F_READONLY = true \/ cflag c F_TREEFILES = false) ->
    after (sys_run lg c l (sys_init n inp w)) (untouched w).
Proof. exact readonly_threads. Qed.
Print Assumptions C05_threads_never_modify.

(** copy-on-write: only the diff file is changed *)
Theorem C06_threads_leave_the_base :
  forall lg c n inp l w,
    cflag c F_COPYONWRITE = true -> cflag c F_SPLICE = false -> cflag c F_TREEFILES = false ->
    after (sys_run lg c l (sys_init n inp w)) (base_untouched w).
Proof. exact cow_threads. Qed.
Print Assumptions C06_threads_leave_the_base.

(** ** Examples *)
Definition own_qs : list wreq := [req_write 8 [1; 2; 3; 4]; req 4 0 2; req 6 12 3; req_write 2 [9]].
Definition own_turns : list choice :=
  repeat CReader 20 ++ concat (repeat [CWork 0 30; CWork 1 30] 60).

(** an export of two files on a machine with a third one: two WRITEs, a TRIM
    and a WRITE_ZEROES change both, not the third *)
Example C93_demo :
  match sys_run false (leak_c false) own_turns (sys_init 2 (stream own_qs) leak_a) with
  | SGo s =>
      map (frd (w_file (y_w s) (FExp 0))) [0; 2; 8; 9] = [0; 9; 1; 2] /\
      map (frd (w_file (y_w s) (FExp 1))) [0; 1; 2; 5] = [3; 4; 0; 205] /\
      w_file (y_w s) (FExp 2) = w_file leak_a (FExp 2) /\
      ~ own (leak_c false) (FExp 2)
  | _ => False
  end.
Proof.
  vm_compute. repeat split. intros [(l & fi & E & Hin & Hf)|[]]. injection E as <-.
  destruct Hin as [<-|[<-|[]]]; discriminate.
Qed.

(** the same requests on that export made read-only: four refusals *)
Example C05_threads_demo :
  let c := mkC (Z.lor 2 F_READONLY) 16 (Some [mkFI (FExp 0) 0; mkFI (FExp 1) 10]) 4 false false in
  bad_write c = true /\ cflag c F_READONLY = true /\
  match sys_run false c own_turns (sys_init 2 (stream own_qs) leak_a) with
  | SGo s => option_map (fun r => map snd (fst r)) (answers own_qs (y_out s)) = Some [Err 1; Err 1; Err 1; Err 1] /\
             map (frd (w_file (y_w s) (FExp 0))) [0; 2; 8; 9] = [100; 102; 108; 109]
  | _ => False
  end.
Proof. vm_compute. repeat split. Qed.

(** and copy-on-write: the diff file gets the pages, the base keeps its bytes *)
Example C06_threads_demo :
  let c := mkC F_COPYONWRITE 8192 (Some [mkFI (FExp 0) 0]) 4 false false in
  cflag c F_COPYONWRITE = true /\ cflag c F_SPLICE = false /\ cflag c F_TREEFILES = false /\
  match sys_run false c (repeat CReader 20 ++ repeat (CWork 1 30) 40)
          (sys_init 2 (stream [req_write 4 [1; 2]; req_write 5000 [3]]) (demo_cow [demo_file 8192 100] all_full 2)) with
  | SGo s => map (frd (w_file (y_w s) (FExp 0))) [4; 5; 5000] = [104; 105; 236] /\
             map (frd (w_file (y_w s) FDiff)) [3; 4; 5; 6] = [103; 1; 2; 106] /\ fsize (w_file (y_w s) FDiff) = 8192
  | _ => False
  end.
Proof. vm_compute. repeat split. Qed.
