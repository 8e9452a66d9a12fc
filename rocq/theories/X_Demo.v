(** Concrete states used by the examples beside the theorems. *)
From Verif Require Import Base M_Const M_Disk M_Tree M_Raw M_Setup L_Wp S_Wire S_Disk L_Setup L_PlainS L_Props.

(** a file of [n] bytes b, b+1, ... *)
Definition demo_file (n b : Z) : file := mkFile n (fun i => (b + i) mod 256).
Definition demo_empty : file := mkFile 0 (fun _ => 0).
(** backing files [fs], system calls answered by [orc], nothing sent yet *)
Definition demo_world (fs : list file) (orc : nat -> sysres) : world :=
  mkW (fun h => match h with FExp i => nth i fs demo_empty | _ => demo_empty end)
      (fun _ => false) orc 0 0 (fun _ => 170) 0 (fun _ => NOPAGE) 0 0 [].
(** the same with a page map of [n] entries *)
Definition demo_cow (fs : list file) (orc : nat -> sysres) (n : Z) : world :=
  mkW (fun h => match h with FExp i => nth i fs demo_empty | _ => demo_empty end)
      (fun _ => false) orc 0 0 (fun _ => 170) 0 (fun _ => NOPAGE) n 0 [].

Definition all_full : nat -> sysres := fun _ => RFull.
(** every third call is short *)
Definition some_short : nat -> sysres := fun n => if (n mod 3 =? 0)%nat then RShort 3 else RFull.

Definition cookie1 : list Z := [1;2;3;4;5;6;7;8].
Definition cookie2 : list Z := [9;9;9;9;0;0;0;1].
Definition req_read (from len : Z) : wreq := mkWreq 0 cookie1 from len [].
Definition req_write (from : Z) (data : list Z) : wreq := mkWreq 1 cookie2 from (zlen data) data.
Definition req (type from len : Z) : wreq := mkWreq type cookie1 from len [].

(** two files of 10 and 6 bytes, opened read-write as one export *)
Definition two : list member := [mkMem true true 10; mkMem true true 6].
Definition two_setup : setup := mkSetup 2 (Some [mkFI (FExp 0) 0; mkFI (FExp 1) 10]) [true; true] 16 None.
Definition two_world (orc : nat -> sysres) : world := demo_world [demo_file 10 100; demo_file 6 200] orc.

Lemma demo_sizes fs orc : (forall f, In f fs -> 0 <= fsize f < 9223372036854775808) -> sizes_ok (demo_world fs orc).
Proof.
  intros H n. cbn. destruct (nth_in_or_default n fs demo_empty) as [Hin| ->]; [auto|cbn; lia].
Qed.

Lemma two_opened orc : opened 2 0 two two_setup (two_world orc).
Proof.
  split; [vm_compute; reflexivity|]. split; [lia|].
  split; [repeat split|]. split.
  { intros _ n z. unfold detected. cbn.
    destruct n as [|[|n]]; cbn; [| |destruct n; cbn; discriminate]; intros E; injection E as <-; lia. }
  split.
  { unfold backed. cbn. intros n z. unfold detected. cbn.
    destruct n as [|[|n]]; cbn; [| |destruct n; cbn; discriminate]; intros E; injection E as <-; reflexivity. }
  apply demo_sizes. intros f [<-|[<-|[]]]; cbn; lia.
Qed.

(** what a client could check after a run: how it ended, the bytes received,
    the first [n] bytes of the disk *)
Definition observe {A} (s : setup) (n : Z) (o : out A) : option (A * list (list Z) * list Z) :=
  match o with
  | Ret a w => Some (a, sent w, slice (disk_of s w) 0 n)
  | _ => None
  end.

Lemma wreq_ok_dec q :
  (if (0 <=? q_type q) && (q_type q <? 4294967296) && (Nat.eqb (length (q_cookie q)) 8) &&
      (0 <=? q_from q) && (q_from q <? 18446744073709551616) &&
      (0 <=? q_len q) && (q_len q <? 4294967296) &&
      (zlen (q_data q) =? (if q_cmd q =? 1 then q_len q else 0)) then true else false) = true -> wreq_ok q.
Proof.
  intros H. match type of H with (if ?b then _ else _) = _ => destruct b eqn:E; [|discriminate] end.
  rewrite !andb_true_iff in E. destruct E as [[[[[[[A1 A2] A3] A4] A5] A6] A7] A8].
  apply Nat.eqb_eq in A3. unfold wreq_ok, is_u32, is_u64. repeat split; lia.
Qed.
Ltac ok_req := apply wreq_ok_dec; vm_compute; reflexivity.

(** for concrete runs: the final state, without printing it *)
Lemma run_check {A} (o : out A) (a : A) (P : world -> Prop) :
  match o with Ret a' w => a' = a /\ P w | _ => False end -> exists w, o = Ret a w /\ P w.
Proof. destruct o; intros H; try contradiction. destruct H as [-> H]. eauto. Qed.
