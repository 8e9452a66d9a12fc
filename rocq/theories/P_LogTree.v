(** Replaying the data log of a tree export: C53. *)
From Verif Require Import Base M_Const M_Disk M_Tree M_Raw M_Setup M_Par M_Log L_Wp S_Wire S_Disk S_Tree L_Tree L_Session L_Setup L_PlainS L_Props
  S_Par S_Run S_Byte S_Log L_Log L_LogP X_Demo P_Plain P_Tree P_Par P_Log.

(** One request at a time on a tree export: the log of the requests, replayed on
    a flat image of the disk as it was, gives the disk as the session left it. *)
Theorem C53_tree_session_partial :
  forall c d w qs tail e r w1 msgs h lf log ents last bs max pw,
    cflag c F_TREEFILES = true -> cflag c F_COPYONWRITE = false -> cflag c F_WAIT = false ->
    tree_ok (c_namelen c) (c_size c) d -> (cflag c F_SPLICE = false \/ c_tls c = false) ->
    Forall wreq_ok qs -> Forall (fun q => q_type q <> 2) qs -> stops tail e ->
    run c (concat (map encode qs) ++ tail) w = Ret r w1 -> sent w1 = sent w ++ msgs ->
    answers qs (concat msgs) = Some (h, []) -> all_done h ->
    parse_log lf true log = Some ents -> log_requests ents = map (logged true) (qs ++ last) ->
    Forall (fun q => q_cmd q = 2) last -> simple_only ents ->
    0 < bs -> (forall k, 0 < pw k) -> Forall (replayable bs) (qs ++ last) ->
    blocks_in bs (qs ++ last) < max -> max <= 18446744073709551615 ->
    exists s', trplay bs max pw (datalog_mark ++ log) (tview (c_size c) d w) = TExit 0 s' /\
      forall i, t_img s' i = tview (c_size c) d w1 i.
Proof.
  intros c d w qs tail e r w1 msgs h lf log ents last bs max pw
    Ht Hc Hw Hok Hns Hqs Hnd Hst Hrun Hsent Hans Hdone Hlog Hreq Hlast Hso Hb Hp Hrep Hbl Hmx.
  destruct (C13_tree_export_is_a_flat_disk c d w Ht Hc Hw Hok Hns qs tail e Hqs Hnd Hst)
    as [(w1' & msgs' & h' & E1 & E2 & E3 & E4 & _)|(w1' & qs1 & q & qs2 & m1 & m2 & h' & dk & E1 & _)];
    [|rewrite Hrun in E1; discriminate E1].
  rewrite Hrun in E1. injection E1 as _ <-.
  assert (msgs' = msgs) by (rewrite Hsent in E2; apply app_inv_head in E2; congruence). subst msgs'.
  specialize (E3 []). rewrite app_nil_r, Hans in E3. injection E3 as <-.
  pose proof (answers_reqs _ _ _ _ Hans) as Hm.
  eapply (replay_sequential _ _ _ _ h lf log ents last bs max pw E4 Hdone Hlog); rewrite ?Hm; assumption.
Qed.
Print Assumptions C53_tree_session_partial.

(** two writes, the second across the end of a block of the tree and over part of
    the first, and zeroes; replayed in blocks of two bytes *)
Definition ptree_qs : list wreq :=
  [mkWreq 1 cookie1 4090 6 [91;92;93;94;95;96]; mkWreq 1 cookie2 4094 4 [81;82;83;84]; mkWreq 6 cookie3 4092 2 []].
Definition ptree_log : list Z :=
  concat (map (fun q => encode q ++ enc_head (q_cookie q) (VSimple 0 [])) ptree_qs) ++ encode par_disc.
Example C53_tree_example :
  cflag tree_client F_TREEFILES = true /\ tree_ok (c_namelen tree_client) (c_size tree_client) 0 /\
  Forall wreq_ok ptree_qs /\
  match run tree_client (concat (map encode ptree_qs) ++ par_tail) (demo_world [] some_short) with
  | Ret _ w1 => answers ptree_qs (concat (sent w1)) = Some (map (fun q => (q, Ok [])) ptree_qs, []) /\
      slice (tview (c_size tree_client) 0 w1) 4088 12 = [0;0;91;92;0;0;81;82;83;84;0;0]
  | _ => False
  end /\
  all_done (map (fun q => (q, Ok [])) ptree_qs) /\
  (exists ents, parse_log 20 true ptree_log = Some ents /\ log_requests ents = map (logged true) (ptree_qs ++ [par_disc]) /\
     simple_only ents) /\
  Forall (replayable 2) (ptree_qs ++ [par_disc]) /\
  match trplay 2 100 short_pw (datalog_mark ++ ptree_log) (tview (c_size tree_client) 0 (demo_world [] some_short)) with
  | TExit 0 s => slice (t_img s) 4088 12 = [0;0;91;92;0;0;81;82;83;84;0;0]
  | _ => False
  end.
Proof.
  split; [reflexivity|]. split; [unfold tree_ok, is_depth; cbn; lia|].
  split. { repeat (apply Forall_cons; [ok_req|]). constructor. }
  split; [vm_compute; split; reflexivity|].
  split. { intros q a Hin. apply in_map_iff in Hin. destruct Hin as [q0 [E Hq]]. injection E as -> <-. split; [eexists; reflexivity|].
    unfold ptree_qs in Hq. repeat (destruct Hq as [<-|Hq]; [vm_compute; split; discriminate|]). destruct Hq. }
  split.
  { eexists. split; [vm_compute; reflexivity|]. split; [reflexivity|].
    intros ck h Hin. cbn in Hin. repeat (destruct Hin as [Hin|Hin]; [try discriminate Hin; injection Hin as <- <-; eexists; reflexivity|]).
    destruct Hin. }
  split. { repeat (apply Forall_cons; [split; [vm_compute; tauto|vm_compute; repeat split; discriminate]|]). constructor. }
  vm_compute. reflexivity.
Qed.
