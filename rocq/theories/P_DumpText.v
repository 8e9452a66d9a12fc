(** C99: what nbd-trdump prints says what is in the log. *)
From Coq Require Import String.
From Verif Require Import Base M_Nego M_Virt M_Const M_Log S_Wire S_Par L_Log P_Log M_DumpText S_DumpText L_DumpText.
Local Open Scope list_scope.

(** The line of a request has its numbers in fixed columns, together with the name
    of the command and whether FUA is set, for every request. *)
Theorem C99_request_line : forall ck cmd off len, in_range (LReq ck cmd off len) ->
  let t := line_text (LReq ck cmd off len) in
  length t = 92%nat /\ hex_value (cols 4 16 t) = ck /\ hex_value (cols 25 8 t) = cmd /\ hex_value (cols 64 16 t) = off /\ hex_value (cols 83 8 t) = len /\
  unpad (cols 35 20 t) = name_of (cmd mod 65536) command_names /\ (unpad (cols 56 4 t) = text "FUA" <-> Z.testbit cmd 16 = true).
Proof. exact request_columns. Qed.
Print Assumptions C99_request_line.
Theorem C99_reply_line : forall ck e, in_range (LRep ck e) ->
  let t := line_text (LRep ck e) in length t = 34%nat /\ hex_value (cols 4 16 t) = ck /\ hex_value (cols 25 8 t) = e.
Proof. exact reply_columns. Qed.
Print Assumptions C99_reply_line.
(** a structured reply: the flags and the length are counted from the end *)
Theorem C99_chunk_line : forall ck ty fl n, in_range (LChunk ck ty fl n) ->
  let t := line_text (LChunk ck ty fl n) in
  hex_value (cols 6 16 t) = ck /\ hex_value (cols 27 4 t) = ty /\ hex_value (cols_end 14 4 t) = fl /\ hex_value (cols_end 5 4 t) = n /\
  unpad (between 33 20 t) = name_of ty chunk_names.
Proof. exact chunk_columns. Qed.
Print Assumptions C99_chunk_line.
Theorem C99_option_line : forall cmd off len, in_range (LOpt cmd off len) ->
  let t := line_text (LOpt cmd off len) in
  hex_value (cols 17 8 t) = cmd /\ hex_value (cols_end 28 16 t) = off /\ hex_value (cols_end 9 8 t) = len /\
  (unpad (between 27 32 t) = text "NBD_TRACELOG_SET_DATALOG" <-> cmd = 1).
Proof. exact option_columns. Qed.
Print Assumptions C99_option_line.

(** For every file, log or not: the values shown fit their fields, there is one line
    of text for each, and different values make different texts. *)
Theorem C99_one_line_each : forall a0 v log, Forall is_byte log ->
  Forall in_range (fst (trdump log)) /\ count_occ Z.eq_dec (snd (trdump_main a0 v [] log)) 10 = length (fst (trdump log)).
Proof. intros a0 v log H. pose proof (dump_loop_range (S (length log)) false log H) as R. split; [exact R|]. apply count_lines. exact R. Qed.
Print Assumptions C99_one_line_each.
Theorem C99_text_tells : forall a0 v log log', Forall is_byte log -> Forall is_byte log' ->
  trdump_main a0 v [] log = trdump_main a0 v [] log' -> fst (trdump log) = fst (trdump log').
Proof. exact dump_tells. Qed.
Print Assumptions C99_text_tells.

(** Hence two logs with the same text have the same requests and replies in the same
    order, but for the low half of the lengths of structured replies, which is not
    shown (C54). *)
Definition blur (l : line) : line := match l with LChunk ck ty fl n => LChunk ck ty fl (n / 65536) | l => l end.
Theorem C99_same_text_same_log_partial : forall a0 v log ents lf log' ents' lf', Forall is_byte log -> Forall is_byte log' ->
  parse_log lf false log = Some ents -> parse_log lf' false log' = Some ents' ->
  trdump_main a0 v [] log = trdump_main a0 v [] log' ->
  map blur (map true_line ents) = map blur (map true_line ents').
Proof.
  intros a0 v log ents lf log' ents' lf' H H' P P' E. pose proof (dump_tells _ _ _ _ H H' E) as D.
  rewrite (trdump_ok _ _ _ H P), (trdump_ok _ _ _ H' P') in D. cbn [fst] in D. rewrite !map_map.
  assert (S : forall l, map (fun x => blur (true_line x)) l = map shown l).
  { intros l. apply map_ext. intros [q|ck [e|fl ty n]]; reflexivity. }
  rewrite !S. exact D.
Qed.
Print Assumptions C99_same_text_same_log_partial.

(** with an argument the log is not read; only --help and -h are known *)
Theorem C99_arguments : forall a0 v a args log log',
  trdump_main a0 v (a :: args) log = trdump_main a0 v (a :: args) log' /\
  (fst (trdump_main a0 v (a :: args) log) = 0 <-> a = text "--help" \/ a = text "-h").
Proof.
  intros a0 v a args log log'. split; [reflexivity|]. unfold trdump_main, arg_is.
  destruct (list_eq_dec Z.eq_dec a (text "--help")); destruct (list_eq_dec Z.eq_dec a (text "-h")); cbn [orb fst]; split; intros H; auto; try discriminate H.
  destruct H; contradiction.
Qed.
Print Assumptions C99_arguments.

(** a log with all kinds of entries *)
Definition text_log : list Z :=
  be 4 NBD_REQUEST_MAGIC ++ be 4 65542 ++ be 8 0x0102030405060708 ++ be 8 4096 ++ be 4 512 ++
  be 4 NBD_REPLY_MAGIC ++ be 4 22 ++ be 8 0x0102030405060708 ++
  be 4 NBD_STRUCTURED_REPLY_MAGIC ++ be 2 1 ++ be 2 32769 ++ be 8 255 ++ be 4 131072 ++
  datalog_mark ++ be 4 0xdeadbeef.
Example C99_example :
  snd (trdump_main (text "nbd-trdump") (text "3.26") [] text_log) =
    text "> H=0102030405060708 C=0x00010006 (NBD_CMD_WRITE_ZEROES+ FUA) O=0000000000001000 L=00000200" ++ [10] ++
    text "< H=0102030405060708 E=0x00000016" ++ [10] ++
    text "<S: H=00000000000000ff T=0x8001 (NBD_REPLY_TYPE_ERROR) F=0x0001 L=0x0002" ++ [10] ++
    text "TRACE_OPTION C=0x00000001 (NBD_TRACELOG_SET_DATALOG) O=4a93ba39a54f31b6 L=00000001" ++ [10] ++
    text "TRACE_OPTION DATALOG set to 1." ++ [10] ++
    text "? Unknown transaction type deadbeef" ++ [10] /\
  Forall is_byte text_log /\ in_range (LReq 0x0102030405060708 65542 4096 512) /\ in_range (LRep 0x0102030405060708 22) /\ in_range (LChunk 255 32769 1 2) /\
  in_range (LOpt 1 NBD_TRACELOG_FROM_MAGIC 1).
Proof.
  split; [vm_compute; reflexivity|]. split; [|unfold NBD_TRACELOG_FROM_MAGIC; cbn; lia].
  unfold text_log, datalog_mark. rewrite !Forall_app. repeat split; apply be_bytes.
Qed.
Example C99_same_text_ex : exists log log' ents ents', log <> log' /\ Forall is_byte log /\ Forall is_byte log' /\
  parse_log 9 false log = Some ents /\ parse_log 9 false log' = Some ents' /\
  trdump_main [] [] [] log = trdump_main [] [] [] log' /\ ents <> ents'.
Proof.
  exists (be 4 NBD_STRUCTURED_REPLY_MAGIC ++ be 2 1 ++ be 2 1 ++ be 8 255 ++ be 4 131072), (be 4 NBD_STRUCTURED_REPLY_MAGIC ++ be 2 1 ++ be 2 1 ++ be 8 255 ++ be 4 131073).
  eexists. eexists. split; [vm_compute; discriminate|].
  split; [rewrite !Forall_app; repeat split; apply be_bytes|]. split; [rewrite !Forall_app; repeat split; apply be_bytes|].
  split; [vm_compute; reflexivity|]. split; [vm_compute; reflexivity|]. split; [vm_compute; reflexivity|discriminate].
Qed.
Example C99_arguments_ex : trdump_main (text "t") (text "3") [text "-x"] text_log =
  (1, text "E: unknown option -x." ++ [10] ++ text "This is nbd-trdump, part of nbd 3." ++ [10] ++ text "Use: t < transactionlog" ++ [10]).
Proof. vm_compute. reflexivity. Qed.
