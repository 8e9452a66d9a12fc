(** C103: connections that log to the same file. *)
From Verif Require Import Base M_LogShare S_LogShare L_LogShare.
Local Open Scope list_scope.

(** Two connections with the same semaphore never write at the same time; while no
    connection has ended, no two connections do. *)
Theorem C103_exclusion_partial : forall old es s, lrun (linit old) es = Some s ->
  (forall c d l m, ls_conn s c = Some l -> ls_conn s d = Some m -> l_sem l = l_sem m -> l_hold l = true -> l_hold m = true -> c = d) /\
  (Forall (fun e => ~ ends e) es -> ~ both_write s).
Proof. exact exclusion. Qed.
Print Assumptions C103_exclusion_partial.
Example C103_two_take_turns :
  exists s, lrun (linit []) [LOpen 0 [1]; LOpen 1 [1]; LLock 0; LWrite 0 [2]; LUnlock 0; LLock 1; LWrite 1 [3]] = Some s /\ ls_file s = [1; 3].
Proof. eexists. vm_compute. split; reflexivity. Qed.

(** Once one has ended, two others can. *)
Theorem C103_exclusion_refuted : exists es s, lrun (linit []) es = Some s /\ both_write s.
Proof.
  exists [LOpen 0 []; LOpen 1 []; LClose 0; LOpen 2 []; LLock 1; LLock 2]. eexists. split; [vm_compute; reflexivity|].
  exists 1%nat, 2%nat. eexists. eexists. vm_compute. repeat split; discriminate.
Qed.
Print Assumptions C103_exclusion_refuted.

(** A connection on its own: the file begins with what it wrote, in order; behind that
    is what the file had there before. *)
Theorem C103_alone : forall old c hdr es s, Forall (fun e => of e = c /\ forall h, e <> LOpen c h) es -> lrun (linit old) (LOpen c hdr :: es) = Some s ->
  ls_file s = (hdr ++ all_bytes c es) ++ skipn (length (hdr ++ all_bytes c es)) old.
Proof. exact alone. Qed.
Print Assumptions C103_alone.
Example C103_alone_nontrivial :
  let es := [LLock 0; LWrite 0 [2; 3]; LUnlock 0; LLock 0; LWrite 0 [4]; LWrite 0 [5]; LUnlock 0; LClose 0] in
  Forall (fun e => of e = 0%nat /\ forall h, e <> LOpen 0 h) es /\
  option_map ls_file (lrun (linit [9; 9; 9; 9; 9; 8; 7]) (LOpen 0 [1] :: es)) = Some [1; 2; 3; 4; 5; 8; 7].
Proof. split; [repeat constructor; discriminate|vm_compute; reflexivity]. Qed.

(** A record that was written under the lock need not be in the file: another
    connection, taking its turn with the lock, writes over it. *)
Theorem C103_records_kept_refuted : exists es s, lrun (linit []) es = Some s /\ Forall (fun e => ~ ends e) es /\
  all_bytes 0 es = [1; 2; 3] /\ all_bytes 1 es = [4; 5; 6] /\ ls_file s = [4; 5; 6].
Proof.
  exists [LOpen 0 []; LOpen 1 []; LLock 0; LWrite 0 [1; 2; 3]; LUnlock 0; LLock 1; LWrite 1 [4; 5; 6]; LUnlock 1]. eexists.
  split; [vm_compute; reflexivity|]. split; [repeat constructor; intros []|]. vm_compute. repeat split.
Qed.
Print Assumptions C103_records_kept_refuted.

(** While a connection holds the lock -- as it does from the header of a logged write to
    the last byte of its data -- no other connection gets it, an open one or a new one;
    nor does any if that connection's process is gone without giving the lock back. *)
Theorem C103_blocked : forall old es s a l more s', lrun (linit old) es = Some s -> Forall (fun e => ~ ends e) es ->
  ls_conn s a = Some l -> l_hold l = true ->
  Forall (fun e => ~ ends e /\ (of e = a -> e = LDie a)) more -> lrun s more = Some s' -> Forall (fun e => ~ locks e) more.
Proof. exact blocked. Qed.
Print Assumptions C103_blocked.
Example C103_blocked_nontrivial :
  exists s l s', lrun (linit []) [LOpen 0 []; LOpen 1 []; LLock 0] = Some s /\ ls_conn s 0%nat = Some l /\ l_hold l = true /\
    lrun s [LDie 0; LDie 1; LOpen 2 []; LOpen 3 []] = Some s' /\
    Forall (fun e => ~ ends e /\ (of e = 0%nat -> e = LDie 0)) [LDie 0; LDie 1; LOpen 2 []; LOpen 3 []] /\
    lstep s' (LLock 2) = None /\ lstep s' (LLock 3) = None.
Proof.
  eexists. eexists. eexists. split; [vm_compute; reflexivity|]. split; [vm_compute; reflexivity|]. split; [reflexivity|]. split; [vm_compute; reflexivity|].
  split; [repeat constructor; try (intros []; fail); cbn; discriminate|]. split; vm_compute; reflexivity.
Qed.

(** So the lock does not come back to those who do nothing wrong: the server is started
    again (all its connections are gone), and a new connection waits for ever. *)
Theorem C103_lock_recovers_refuted : exists es s, lrun (linit []) es = Some s /\ (forall c, ls_conn s c = None) /\
  forall c hdr more s', lrun s (LOpen c hdr :: more) = Some s' -> Forall (fun e => ~ ends e) more -> Forall (fun e => ~ locks e) more.
Proof.
  exists [LOpen 0 []; LLock 0; LDie 0]. eexists. split; [vm_compute; reflexivity|]. split; [intros c; cbn; unfold set_conn; cbn; now destruct c|].
  intros c hdr more s' H F.
  assert (X : Forall (fun e => ~ locks e) (LOpen c hdr :: more)).
  { eapply none_run; [|constructor; [intros []|exact F]|exact H]. exists 0%nat. split; [reflexivity|]. split; [vm_compute; discriminate|]. intros d l Hd. exfalso. cbn in Hd. unfold set_conn in Hd. cbn in Hd. destruct d; discriminate Hd. }
  now inversion X.
Qed.
Print Assumptions C103_lock_recovers_refuted.

(** Each connection writes directly behind what it wrote before, in any state, whatever the
    others do meanwhile. *)
Theorem C103_position : forall s c hdr es s' l, Forall (fun e => forall h, e <> LOpen c h) es -> lrun s (LOpen c hdr :: es) = Some s' -> ls_conn s' c = Some l ->
  l_pos l = length (hdr ++ all_bytes c es).
Proof. exact position. Qed.
Print Assumptions C103_position.
Example C103_position_nontrivial :
  exists s s' l, lrun (linit []) [LOpen 0 [1]; LLock 0; LWrite 0 [2; 3]; LUnlock 0] = Some s /\
    lrun s [LOpen 1 [7]; LLock 0; LWrite 0 [4]; LUnlock 0; LLock 1; LWrite 1 [8; 9]] = Some s' /\
    ls_conn s' 1%nat = Some l /\ l_pos l = 3%nat /\ ls_file s' = [7; 8; 9; 4].
Proof. eexists. eexists. eexists. split; [vm_compute; reflexivity|]. split; [vm_compute; reflexivity|]. split; [vm_compute; reflexivity|]. vm_compute. split; reflexivity. Qed.
