(** System I/O: concrete states and findings. *)

From Coq Require Import ZArith Bool List Lia ZifyBool.
From Verif Require Import Words State WordLemmas StateLemmas HeapModel StringModel StringSpec StringProofs StringCases
  SysioModel SysioSpec SysioProofs SysioStep SysioText.
Import ListNotations.
Open Scope Z_scope.

Definition stack (l : list Z) : st := scene zero NULL l [] [].
Definition works : env := mkEnv (Some []) false [].
Definition fails : env := mkEnv None true [].

Definition sstate (r : sres) : st := match r with SR _ s _ => s | _ => stack [] end.
Definition sio (r : sres) : io := match r with SR _ _ t => t | _ => mkIo [] [] end.
Definition scode (r : sres) (c : Z) : bool := match r with SR d _ _ => d =? c | _ => false end.

Lemma scode_eq r c : scode r c = true -> r = SR c (sstate r) (sio r).
Proof. destruct r; cbn; intros H; try discriminate H. apply Z.eqb_eq in H. subst. reflexivity. Qed.

Lemma number_dec s f n : (0 <=? sp s) && (sp s <? 65536) && match tos s (Z.of_nat (number_operand f)) with Some x => x =? n | None => false end = true ->
  number s f n.
Proof.
  intros H. unfold number. destruct (tos _ _); [|rewrite andb_false_r in H; discriminate H]. split; [lia|]. f_equal. lia.
Qed.

Ltac sdecided :=
  lazymatch goal with
  | |- number _ _ _ => apply number_dec; vm_compute; reflexivity
  | |- _ = SR _ _ _ => apply scode_eq; vm_compute; reflexivity
  | |- readable _ _ _ => unfold readable; vm_compute; intuition (discriminate || lia)
  | |- writable _ _ _ => unfold writable; vm_compute; intuition (discriminate || lia)
  | |- line _ => unfold line; repeat constructor; lia
  | |- _ => decided
  end.

(** ** Numbers *)

Definition t40000 : list Z := [52; 48; 48; 48; 48].

(** '40000' is read as -32768 *)
Lemma overflow_refuted : exists e s t n x addr w ds r s' t',
  operands s [addr; n] /\ readable t n x /\ e_fail e = false /\ word_at s addr w /\
  numeral [] [] ds [] /\ line ds /\ len ds <= 254 /\ rest x = ds ++ 10 :: r /\ 32767 < value ds /\
  sysio e s t xREAD_INT = SR eNOERROR s' t' /\ exists z, word_at s' addr z /\ s16 z = -32768.
Proof.
  set (s := stack [520; 0]). set (t := initialize_file (t40000 ++ [10]) []).
  exists works, s, t, 0, (mkStream (t40000 ++ [10]) [] false), 520, 0, t40000, [], (sstate (sysio works s t xREAD_INT)),
    (sio (sysio works s t xREAD_INT)).
  split; [sdecided|]. split; [sdecided|]. split; [reflexivity|]. split; [sdecided|].
  split. { repeat split; [constructor | auto | discriminate | repeat constructor; cbv; discriminate | discriminate]. }
  split; [sdecided|]. split; [vm_compute; discriminate|]. split; [reflexivity|]. split; [reflexivity|]. split; [sdecided|].
  exists 32768. split; [sdecided | reflexivity].
Qed.

(** The text written for -32768 is read as -32767 *)
Lemma minimum_refuted : exists e s t n x s' t' text s2 t2 addr w s3 t3,
  operands s [0; u16 (-32768); n] /\ writable t n x /\ e_fail e = false /\
  sysio e s t xWRITE_INT = SR eNOERROR s' t' /\ writable t' n (mkStream (rest x) (out x ++ text) (ate x)) /\
  operands s2 [addr; 0] /\ readable t2 0 (mkStream (text ++ [10]) [] false) /\ word_at s2 addr w /\
  sysio e s2 t2 xREAD_INT = SR eNOERROR s3 t3 /\ word_at s3 addr (u16 (-32767)).
Proof.
  set (s := stack [0; 32768; 1]). set (t := initialize_file [] []).
  set (text := [45; 51; 50; 55; 54; 56]). set (s2 := stack [520; 0]). set (t2 := initialize_file (text ++ [10]) []).
  exists works, s, t, 1, (mkStream [] [] false), (sstate (sysio works s t xWRITE_INT)), (sio (sysio works s t xWRITE_INT)), text,
    s2, t2, 520, 0, (sstate (sysio works s2 t2 xREAD_INT)), (sio (sysio works s2 t2 xREAD_INT)).
  split; [sdecided|]. split; [sdecided|]. split; [reflexivity|]. split; [sdecided|]. split; [sdecided|]. split; [sdecided|].
  split; [sdecided|]. split; [sdecided|]. split; [sdecided|]. sdecided.
Qed.

(** ** File numbers *)

(** A program that frees standard input is given number 0 for a file of its own *)
Lemma standard_refuted : exists t l e s s' t', fhist [] [] t l /\ sysio e s t xALLOCFILE = SR eNOERROR s' t' /\ tos s' 0 = Some 0.
Proof.
  set (t0 := initialize_file [] []). set (s0 := stack [0]). set (t1 := sio (sysio works s0 t0 xFREEFILE)).
  exists t1, (effect xFREEFILE 0 true at_start), works, (stack []), (sstate (sysio works (stack []) t1 xALLOCFILE)),
    (sio (sysio works (stack []) t1 xALLOCFILE)).
  split; [|split; [sdecided | sdecided]].
  apply (fh_op [] [] t0 at_start works s0 xFREEFILE 0 eNOERROR (sstate (sysio works s0 t0 xFREEFILE)) t1);
    [apply fh_start | discriminate | sdecided | sdecided].
Qed.

(** ** Errors *)

(** Reset with a record size: fopen fails, the program is not told *)
Lemma open_record_refuted : exists e s n s' t',
  number s xRESETR n /\ e_open e = None /\ sysio e s (initialize_file [] []) xRESETR = SR eNOERROR s' t' /\
  n = 2 /\ e_str (ent t' n) = None.
Proof.
  exists fails, (stack [10; 2]), 2, (sstate (sysio fails (stack [10; 2]) (initialize_file [] []) xRESETR)),
    (sio (sysio fails (stack [10; 2]) (initialize_file [] []) xRESETR)).
  split; [sdecided|]. split; [reflexivity|]. split; [sdecided|]. split; reflexivity.
Qed.

(** A string that cannot be written is not reported *)
Lemma write_failure_refuted : exists e s t n x s' t', number s xWRITE_STRING n /\ e_fail e = true /\
  writable t n x /\ sysio e s t xWRITE_STRING = SR eNOERROR s' t' /\ writable t' n x /\ tos s 3 = Some 3.
Proof.
  set (s := scene zero NULL [0; 3; 520; 3; 1] [] [(520, abc)]). set (t := initialize_file [] []).
  exists fails, s, t, 1, (mkStream [] [] false), (sstate (sysio fails s t xWRITE_STRING)), (sio (sysio fails s t xWRITE_STRING)).
  split; [sdecided|]. split; [reflexivity|]. split; [sdecided|]. split; [sdecided|]. split; [sdecided | reflexivity].
Qed.

(** ** Lines *)

(** An empty line: the newline is taken for data, the end of the line is not
    reported, and ReadLn skips the line behind it *)
Definition s_line : st := scene zero NULL [520; 0] [(520, [0; 40; 80])] [].

Lemma empty_line_refuted : exists e s t n x var buf cap r s' t',
  operands s [var; n] /\ readable t n x /\ e_fail e = false /\ str_var s var buf cap [] /\ 2 <= cap /\
  rest x = [] ++ 10 :: r /\ sysio e s t xREAD_STRING = SR eNOERROR s' t' /\
  str_var s' var buf cap [10] /\ e_eoln (ent t' n) = false /\
  exists s2 t2 x2, sysio e (stack [n]) t' xREADLN = SR eNOERROR s2 t2 /\ readable t2 n x2 /\ r = abc ++ [10] /\ rest x2 = [].
Proof.
  set (t := initialize_file (10 :: abc ++ [10]) []). set (t' := sio (sysio works s_line t xREAD_STRING)).
  exists works, s_line, t, 0, (mkStream (10 :: abc ++ [10]) [] false), 520, 40, 80, (abc ++ [10]),
    (sstate (sysio works s_line t xREAD_STRING)), t'.
  split; [sdecided|]. split; [sdecided|]. split; [reflexivity|]. split; [sdecided|]. split; [lia|]. split; [reflexivity|].
  split; [sdecided|]. split; [sdecided|]. split; [vm_compute; reflexivity|].
  exists (sstate (sysio works (stack [0]) t' xREADLN)), (sio (sysio works (stack [0]) t' xREADLN)), (mkStream [] [] false).
  split; [sdecided|]. split; [sdecided|]. split; reflexivity.
Qed.
