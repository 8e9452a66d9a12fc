(** nbd-trplay's limit and command line: C90. *)
From Coq Require Import String.
From Verif Require Import Base M_Const M_Nego M_Disk M_Tree M_Raw M_Setup M_Par M_Log M_Play L_Wp S_Wire S_Disk S_Par S_Acl S_Log S_Play L_Log L_Play
  X_Demo P_Plain P_Par P_Log.
Open Scope list_scope.
Open Scope Z_scope.

(** ** C90: nbd-trplay -m N stores exactly the first N blocks of the log *)

(** With a limit up to the number of blocks in the log, the image ends as the
    requests up to the Nth block leave it, the last of them cut there. *)
Theorem C90_limit :
  forall bs max pw log ents img lf,
    0 < bs -> (forall k, 0 < pw k) -> parse_log lf true log = Some ents ->
    Forall (replayable bs) (log_requests ents) -> simple_only ents ->
    1 <= max <= blocks_in bs (log_requests ents) -> max <= 18446744073709551615 ->
    exists s', trplay bs max pw (datalog_mark ++ log) img = TExit 0 s' /\ t_blocks s' = max
      /\ forall i, t_img s' i = effects (upto bs max (log_requests ents)) img i.
Proof. exact trplay_max. Qed.
Print Assumptions C90_limit.

(** Whatever the log holds, the program ends, and at most N blocks differ. *)
Theorem C90_any_log :
  forall bs max pw log img,
    0 < bs -> 1 <= max <= 18446744073709551615 -> Forall is_byte log ->
    exists c s', trplay bs max pw log img = TExit c s' /\ (c = 0 \/ c = 1) /\ at_most bs max img (t_img s').
Proof. exact trplay_any. Qed.
Print Assumptions C90_any_log.

(** The command line is obeyed: the last value of each option, 512 bytes and no
    limit by default; without an image or a log nothing is done. *)
Theorem C90_command_line :
  forall fs pw l, Forall (fun a => can fs a = true) l ->
    trplay_main fs pw (map spell l) =
      match latest image_of l None, latest log_of l None with
      | Some i, Some g =>
          match pf_img fs i, pf_log fs g with
          | Some img, Some log =>
              match trplay (latest block_of l 512) (latest max_of l 18446744073709551615) pw log img with
              | TExit code s => PEnd code (Some (i, t_img s))
              | _ => PStuck
              end
          | _, _ => PStuck
          end
      | _, _ => PEnd 1 None
      end.
Proof.
  intros fs pw l H. unfold trplay_main. rewrite <- (app_nil_r (map spell l)), popts_ok by exact H. cbn [popts].
  unfold asked. cbn [p_log p_img p_bs p_max]. change (p_img pset0) with (@None (list Z)). change (p_log pset0) with (@None (list Z)).
  change (p_bs pset0) with 512. change (p_max pset0) with 18446744073709551615.
  destruct (latest image_of l None) as [i|], (latest log_of l None) as [g|]; try reflexivity.
  destruct (pf_log fs g), (pf_img fs i); reflexivity.
Qed.
Print Assumptions C90_command_line.

(** A block size of 0 or above 131072, a limit of 0, a file that cannot be
    opened: status 1, and no image is touched. *)
Theorem C90_refused :
  forall fs pw l a rest, Forall (fun a => can fs a = true) l -> ask_num a -> can fs a = false ->
    trplay_main fs pw (map spell l ++ spell a :: rest) = PEnd 1 None.
Proof.
  intros fs pw l a rest H Hn Ha. unfold trplay_main. rewrite popts_ok by exact H. rewrite popts_bad by assumption. reflexivity.
Qed.
Print Assumptions C90_refused.

(** Any command line at all: the program ends; the block fits its buffer of 131072
    bytes; only an image given with -i is touched. *)
Theorem C90_any_command_line :
  forall fs pw os,
    (forall f log, pf_log fs f = Some log -> Forall is_byte log) ->
    exists code r, trplay_main fs pw os = PEnd code r /\ (code = 0 \/ code = 1) /\
      match r with
      | None => True
      | Some (f, img') => exists bs max img, 1 <= bs <= 131072 /\ 1 <= max <= 18446744073709551615 /\
          pf_img fs f = Some img /\ at_most bs max img img'
      end.
Proof. exact main_any. Qed.
Print Assumptions C90_any_command_line.

(** *** Demonstration: four blocks of two bytes are logged; the third is the
    second of the second WRITE *)
Definition play_img : Z -> Z := fdata (demo_file 16 100).
Definition play_files : pfiles :=
  mkPF (fun f => if list_eq_dec Z.eq_dec f (text "img") then Some play_img else None)
       (fun f => if list_eq_dec Z.eq_dec f (text "log") then Some (datalog_mark ++ seq_log) else None).
Definition shown_end (o : pend) : option (Z * option (list Z * list Z)) :=
  match o with
  | PEnd c r => Some (c, match r with Some (f, img) => Some (f, slice img 0 12) | None => None end)
  | PStuck => None
  end.
Example C90_limit_example :
  exists ents, parse_log 20 true seq_log = Some ents /\ Forall (replayable 2) (log_requests ents) /\ simple_only ents /\
    blocks_in 2 (log_requests ents) = 5 /\
    upto 2 3 (log_requests ents) = [mkWreq 1 cookie1 2 4 [91;92;93;94]; mkWreq 1 cookie2 4 2 [81;82]] /\
    shown_end (trplay_main play_files short_pw (map spell [AMax 3; ABlock 2; AVerbose; ALog (text "log"); AImage (text "img")])) =
      Some (0, Some (text "img", [100;101;91;92;81;82;106;107;108;109;110;111])) /\
    shown_end (trplay_main play_files short_pw (map spell [AMax 7; ALog (text "log"); ABlock 1; ABlock 2; AMax 1; AImage (text "img")])) =
      Some (0, Some (text "img", [100;101;91;92;104;105;106;107;108;109;110;111])) /\
    shown_end (trplay_main play_files short_pw (map spell [AImage (text "img"); ALog (text "log"); ABlock 2])) =
      Some (0, Some (text "img", [100;101;91;92;0;0;83;84;108;109;110;111])).
Proof.
  eexists. split; [vm_compute; reflexivity|].
  split. { repeat (apply Forall_cons; [split; [vm_compute; tauto|vm_compute; repeat split; discriminate]|]). constructor. }
  split.
  { intros ck h Hin. cbn in Hin. repeat (destruct Hin as [Hin|Hin]; [try discriminate Hin; injection Hin as <- <-; eexists; reflexivity|]).
    destruct Hin. }
  vm_compute. repeat split; reflexivity.
Qed.
Example C90_refused_example :
  Forall (fun a => can play_files a = true) [AImage (text "img"); ALog (text "log")] /\
  can play_files (ABlock 131073) = false /\ can play_files (AMax 0) = false /\ can play_files (AImage (text "log")) = false /\
  shown_end (trplay_main play_files short_pw (map spell [AImage (text "img"); ALog (text "log"); ABlock 131073])) = Some (1, None) /\
  shown_end (trplay_main play_files short_pw (map spell [AImage (text "img")])) = Some (1, None).
Proof. split; [repeat constructor|]. vm_compute. repeat split; reflexivity. Qed.
(** a log that is no log: the magic of a request and then nothing of sense *)
Example C90_any_log_example :
  Forall is_byte (datalog_mark ++ be 4 0x25609513 ++ repeat 0 60) /\
  shown_end (trplay_main (mkPF (pf_img play_files) (fun _ => Some (datalog_mark ++ be 4 0x25609513 ++ repeat 0 60)))
    short_pw [PL []; PI (text "img"); PM (text "0x10")]) = Some (1, Some (text "img", slice play_img 0 12)).
Proof.
  split; [|vm_compute; reflexivity].
  repeat (apply Forall_cons; [split; [discriminate|reflexivity]|]). apply Forall_nil.
Qed.

(** *** Where it fails *)
(** A mistaken command line ends with status 0, and nothing was replayed. *)
Theorem C90_unknown_option_refuted :
  exists fs pw os, In PHelp os /\ Forall (fun a => can fs a = true) [AImage (text "img"); ALog (text "log"); ABlock 2] /\
    os = PHelp :: map spell [AImage (text "img"); ALog (text "log"); ABlock 2] /\
    trplay_main fs pw os = PEnd 0 None /\
    trplay_main fs pw (tl os) <> PEnd 0 None.
Proof.
  exists play_files, short_pw, (PHelp :: map spell [AImage (text "img"); ALog (text "log"); ABlock 2]).
  split; [left; reflexivity|]. split; [repeat constructor|]. split; [reflexivity|]. split; [reflexivity|].
  intros H. apply (f_equal shown_end) in H. vm_compute in H. discriminate H.
Qed.
Print Assumptions C90_unknown_option_refuted.

(** A log cut off inside a WRITE is replayed up to there with status 0, the same
    as a complete one: half of the request is in the image. *)
Theorem C90_cut_log_refuted :
  exists log q img, encode q = log ++ [93;94] /\ replayable 2 q /\
    img_of (trplay 2 100 short_pw (datalog_mark ++ log) img) =
      Some (0, [91;92;102;103;104;105;106;107;108;109;110;111;112;113;114;115]) /\
    slice (effect q img) 0 4 = [91;92;93;94].
Proof.
  exists (firstn 30 (encode (mkWreq 1 cookie1 0 4 [91;92;93;94]))), (mkWreq 1 cookie1 0 4 [91;92;93;94]), play_img.
  split; [vm_compute; reflexivity|]. split; [split; [vm_compute; tauto|vm_compute; repeat split; discriminate]|].
  vm_compute. split; reflexivity.
Qed.
Print Assumptions C90_cut_log_refuted.

(** A number is read up to where it stops being one, in the base it seems to
    have, and a minus sign is no error: "2k" is 2, "010" is 8, "-1" no limit. *)
Theorem C90_numbers_refuted :
  exists fs pw, forall i l, i = PI (text "img") -> l = PL (text "log") ->
    trplay_main fs pw [i; l; PB (text "2k"); PM (text "-1")] = trplay_main fs pw [i; l; PB (text "2")] /\
    trplay_main fs pw [i; l; PB (text "010")] = trplay_main fs pw [i; l; PB (text "8")].
Proof.
  exists play_files, short_pw. intros i l -> ->. unfold trplay_main.
  assert (E1 : popts play_files [PI (text "img"); PL (text "log"); PB (text "2k"); PM (text "-1")] pset0 =
    popts play_files [PI (text "img"); PL (text "log"); PB (text "2")] pset0) by (vm_compute; reflexivity).
  assert (E2 : popts play_files [PI (text "img"); PL (text "log"); PB (text "010")] pset0 =
    popts play_files [PI (text "img"); PL (text "log"); PB (text "8")] pset0) by (vm_compute; reflexivity).
  rewrite E1, E2. split; reflexivity.
Qed.
Print Assumptions C90_numbers_refuted.
