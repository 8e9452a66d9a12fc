(** C92: numbers in the configuration mean what is written. *)
From Coq Require Import String.
From Verif Require Import Base M_Const M_Acl M_Nego M_Conf S_Root S_Conf L_Conf S_Num L_Num P_Root.
Open Scope list_scope.
Open Scope Z_scope.

Local Opaque read_params lp.
(** Every export of an accepted configuration: maxconnections is the number
    written, which fits an int, or 0 if none is; filesize is the number written,
    with nothing after it, or 0. *)
Theorem C92_as_written_partial :
  forall dir gs c r l s,
    parse_cfile dir (Some gs) c = PcfRet r -> cf_list r = Some l -> In s l ->
    exists g, section dir gs g /\ s_name s = g_name g /\
      match last_value "maxconnections" (g_keys g) with
      | None => s_max s = 0
      | Some v => an_int v (s_max s)
      end /\
      match last_value "filesize" (g_keys g) with
      | None => s_size s = 0
      | Some v => exists n, a_number v n /\ (0 <= n < 9223372036854775808 -> s_size s = n) /\ s_size s = u64 (closest n)
      end.
Proof.
  intros dir gs c r l s H Hl Hin. destruct (parse_cfile_ok dir gs c r l H Hl s Hin) as [g [Hg Hp]].
  exists g. split; [exact Hg|]. exact (export_numbers g s Hp).
Qed.
Print Assumptions C92_as_written_partial.

(** One section whose maxconnections or filesize is anything else makes the
    whole file be refused. *)
Theorem C92_anything_else_refused :
  forall dir g gs c r g0 v,
    parse_cfile dir (Some (g :: gs)) c = PcfRet r -> In g0 gs ->
    (last_value "maxconnections" (g_keys g0) = Some v /\ (forall n, ~ an_int v n)) \/
    (last_value "filesize" (g_keys g0) = Some v /\ (forall n, ~ a_number v n)) ->
    cf_list r = None.
Proof.
  intros dir g gs c r g0 v H Hin Hb.
  assert (Bad : parse_export g0 = None /\ read_params lp (g_keys g0) draft0 = None).
  { destruct (read_params lp (g_keys g0) draft0) as [d|] eqn:E.
    - exfalso. pose proof (read_max _ _ E) as M. pose proof (read_size _ _ E) as S. destruct Hb as [[Ev Hn]|[Ev Hn]]; rewrite Ev in *.
      + exact (Hn _ M).
      + destruct S as (n & S1 & _). exact (Hn _ S1).
    - unfold parse_export. rewrite E. split; reflexivity. }
  destruct Bad as [Bad _]. unfold parse_cfile in H.
  destruct (negb (is_text (g_name g) "generic")); [injection H as <-; reflexivity|].
  destruct (parse_generic g _) as [c1|]; [|injection H as <-; reflexivity].
  destruct (flag (gc_flags c1) F_OLDSTYLE); [injection H as <-; reflexivity|].
  destruct (parse_exports gs (gc_flags c1) []) as [e|l] eqn:E; [injection H as <-; reflexivity|].
  exfalso. destruct (parse_exports_ok _ _ _ _ E) as [l' [_ Hm]].
  assert (In (parse_export g0) (map parse_export gs)) as Hi by (apply in_map; exact Hin).
  rewrite <- Hm, Bad in Hi. apply in_map_iff in Hi. destruct Hi as (x & Hx & _). discriminate Hx.
Qed.
Print Assumptions C92_anything_else_refused.

(** And such numbers are never the reason for a refusal. *)
Theorem C92_numbers_accepted :
  forall g,
    last_value "exportname" (g_keys g) <> None -> well_formed (g_keys g) ->
    last_value "virtstyle" (g_keys g) = None ->
    (forall v, last_value "filesize" (g_keys g) = Some v -> exists n, a_number v n) ->
    (forall v, last_value "maxconnections" (g_keys g) = Some v -> exists n, an_int v n) ->
    ~ clash (g_keys g) -> ~ says_yes "sdp" (g_keys g) ->
    exists s, parse_export g = Some s.
Proof. exact numbers_accepted. Qed.
Print Assumptions C92_numbers_accepted.

(** The number of threads: as written, else as it was. *)
Theorem C92_threads :
  forall dir g gs c r l,
    parse_cfile dir (Some (g :: gs)) c = PcfRet r -> cf_list r = Some l ->
    match last_value "max_threads" (g_keys g) with
    | None => gc_threads (cf_gen r) = gc_threads c
    | Some v => an_int v (gc_threads (cf_gen r))
    end.
Proof.
  intros dir g gs c r l H Hl. unfold parse_cfile in H.
  destruct (negb (is_text (g_name g) "generic")); [injection H as <-; discriminate|].
  destruct (parse_generic g _) as [c1|] eqn:Eg; [|injection H as <-; discriminate].
  assert (T : match last_value "max_threads" (g_keys g) with
    | None => gc_threads c1 = gc_threads c
    | Some v => an_int v (gc_threads c1)
    end).
  { unfold parse_generic in Eg. destruct (read_flags _ _ _); [|discriminate]. rewrite lookup_last in Eg.
    destruct (last_value "max_threads" (g_keys g)) as [v|].
    - destruct (as_int v) as [n|] eqn:En; [|discriminate]. injection Eg as <-. apply as_int_spec, En.
    - injection Eg as <-. reflexivity. }
  destruct (flag (gc_flags c1) F_OLDSTYLE); [injection H as <-; discriminate|].
  destruct (parse_exports gs (gc_flags c1) []) as [b|l1]; [injection H as <-; discriminate|].
  destruct (gc_dir c1) as [d|]; [|injection H as <-; exact T].
  destruct (dir d) as [es|]; [|injection H as <-; discriminate].
  destruct (do_cfile_dir es c1 None) as [[x|] err|]; [injection H as <-; exact T| |discriminate].
  destruct err; injection H as <-; [discriminate|exact T].
Qed.
Print Assumptions C92_threads.

(** ** Examples *)
Definition num_conf (more : list (string * list Z)) : list group := [demo_generic; demo_section "a" more].
Definition numbers (o : pcf) : option (list (Z * Z)) :=
  match o with PcfRet r => option_map (map (fun s => (s_max s, s_size s))) (cf_list r) | PcfUb => None end.
Example C92_ex :
  numbers (parse_cfile no_dir (Some (num_conf [("maxconnections"%string, text "+012 # twelve"); ("filesize"%string, text "1099511627776")])) gen0)
    = Some [(12, 1099511627776)] /\
  an_int (text "+012 # twelve") 12 /\ a_number (text "1099511627776") 1099511627776.
Proof.
  split; [vm_compute; reflexivity|]. split; [apply as_int_spec; vm_compute; reflexivity|]. apply number_spec. vm_compute. reflexivity.
Qed.
Example C92_ex_refused :
  numbers (parse_cfile no_dir (Some (num_conf [("maxconnections"%string, text "2147483648")])) gen0) = None /\
  numbers (parse_cfile no_dir (Some (num_conf [("filesize"%string, text "1024k")])) gen0) = None /\
  (forall n, ~ an_int (text "2147483648") n) /\ (forall n, ~ a_number (text "1024k") n).
Proof.
  split; [vm_compute; reflexivity|]. split; [vm_compute; reflexivity|].
  split; intros n H; [apply as_int_spec in H|apply number_spec in H]; vm_compute in H; discriminate H.
Qed.
Example C92_threads_ex :
  match parse_cfile no_dir (Some [mkG (text "generic") [("max_threads"%string, text "8")]; demo_section "a" []]) gen0 with
  | PcfRet r => cf_list r <> None /\ gc_threads (cf_gen r) = 8 /\ an_int (text "8") 8
  | PcfUb => False
  end.
Proof. vm_compute parse_cfile. split; [discriminate|]. split; [reflexivity|]. apply as_int_spec. vm_compute. reflexivity. Qed.

(** ** What is false *)
(** A negative filesize is accepted and becomes an export of almost 2^64 bytes,
    one beyond 2^63 is accepted and becomes another number. *)
Theorem C92_negative_size_refuted :
  numbers (parse_cfile no_dir (Some (num_conf [("filesize"%string, text "-1")])) gen0) = Some [(0, 18446744073709551615)] /\
  numbers (parse_cfile no_dir (Some (num_conf [("filesize"%string, text "10000000000000000000")])) gen0) = Some [(0, 9223372036854775807)].
Proof. split; vm_compute; reflexivity. Qed.
Print Assumptions C92_negative_size_refuted.
