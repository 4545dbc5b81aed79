(** C51-C54: system I/O. *)

From Coq Require Import ZArith Bool List Lia.
From Verif Require Import Words State HeapModel StringModel StringSpec StringCases SysioModel SysioSpec SysioProofs SysioStep SysioText
  SysioCases.
Import ListNotations.
Open Scope Z_scope.

(** C51 What Write writes for an integer is read as this integer.  Missing: -32768,
    for which this does not hold, and a field width of 255. *)
Theorem C51_round_trip_partial : forall e s t n x w v,
  operands s [w; u16 v; n] -> writable t n x -> e_fail e = false -> -32767 <= v <= 32767 -> w / 256 <= 254 ->
  exists s' t' text, sysio e s t xWRITE_INT = SR eNOERROR s' t' /\
    writable t' n (mkStream (rest x) (out x ++ text) (ate x)) /\
    forall e2 s2 t2 n2 x2 addr w2 r, operands s2 [addr; n2] -> readable t2 n2 x2 -> e_fail e2 = false ->
      word_at s2 addr w2 -> rest x2 = text ++ 10 :: r ->
      exists s3 t3, sysio e2 s2 t2 xREAD_INT = SR eNOERROR s3 t3 /\ word_at s3 addr (u16 v) /\ after_line t2 t3 n2 x2 r.
Proof. exact round_trip. Qed.
Print Assumptions C51_round_trip_partial.

Example C51_round_trip_case :
  operands (stack [8 * 256; u16 (-123); 1]) [8 * 256; u16 (-123); 1] /\
  writable (initialize_file [] []) 1 (mkStream [] [] false) /\ e_fail works = false /\ 8 * 256 / 256 <= 254 /\
  operands (stack [520; 0]) [520; 0] /\
  readable (initialize_file ([32; 32; 32; 32; 45; 49; 50; 51] ++ [10]) []) 0 (mkStream ([32; 32; 32; 32; 45; 49; 50; 51] ++ [10]) [] false) /\
  word_at (stack [520; 0]) 520 0.
Proof. split; [sdecided|]. split; [sdecided|]. split; [reflexivity|]. split; [vm_compute; discriminate|]. split; [sdecided|]. split; [sdecided | sdecided]. Qed.

(** Every numeral in range is read as its value *)
Theorem C51_value : forall e s t n x addr w sp sign ds q r,
  operands s [addr; n] -> readable t n x -> e_fail e = false -> word_at s addr w ->
  numeral sp sign ds q -> line (sp ++ sign ++ ds ++ q) -> len (sp ++ sign ++ ds ++ q) <= 254 ->
  rest x = (sp ++ sign ++ ds ++ q) ++ 10 :: r -> value ds <= 32767 ->
  exists s' t', sysio e s t xREAD_INT = SR eNOERROR s' t' /\
    word_at s' addr (u16 (match sign with [45] => - value ds | _ => value ds end)) /\ after_line t t' n x r.
Proof. exact read_in_range. Qed.
Print Assumptions C51_value.

Example C51_value_case : numeral [32; 9] [45] [48; 48; 55; 49] [32; 120] /\ line ([32; 9] ++ [45] ++ [48; 48; 55; 49] ++ [32; 120]) /\
  value [48; 48; 55; 49] = 71.
Proof.
  split; [|split; [sdecided | reflexivity]]. split; [repeat constructor; lia|]. split; [auto|]. split; [discriminate|].
  split; [repeat constructor; cbv; discriminate|]. intros c r E. injection E as <- _. unfold digit. lia.
Qed.

(** Negative numbers out of range are read as -32767.  Missing: positive
    numbers out of range, which become -32768. *)
Theorem C51_saturation_partial : forall e s t n x addr w sp ds q r,
  operands s [addr; n] -> readable t n x -> e_fail e = false -> word_at s addr w ->
  numeral sp [45] ds q -> line (sp ++ [45] ++ ds ++ q) -> len (sp ++ [45] ++ ds ++ q) <= 254 ->
  rest x = (sp ++ [45] ++ ds ++ q) ++ 10 :: r -> 32767 < value ds ->
  exists s' t', sysio e s t xREAD_INT = SR eNOERROR s' t' /\ word_at s' addr (u16 (-32767)) /\ after_line t t' n x r.
Proof. exact read_negative_overflow. Qed.
Print Assumptions C51_saturation_partial.

Example C51_saturation_case : numeral [] [45] t40000 [] /\ 32767 < value t40000.
Proof. split; [|reflexivity]. repeat split; [constructor | auto | discriminate | repeat constructor; cbv; discriminate | discriminate]. Qed.

Theorem C51_saturation_refuted : exists e s t n x addr w ds r s' t',
  operands s [addr; n] /\ readable t n x /\ e_fail e = false /\ word_at s addr w /\
  numeral [] [] ds [] /\ line ds /\ len ds <= 254 /\ rest x = ds ++ 10 :: r /\ 32767 < value ds /\
  sysio e s t xREAD_INT = SR eNOERROR s' t' /\ exists z, word_at s' addr z /\ s16 z = -32768.
Proof. exact overflow_refuted. Qed.
Print Assumptions C51_saturation_refuted.

Theorem C51_minimum_refuted : exists e s t n x s' t' text s2 t2 addr w s3 t3,
  operands s [0; u16 (-32768); n] /\ writable t n x /\ e_fail e = false /\
  sysio e s t xWRITE_INT = SR eNOERROR s' t' /\ writable t' n (mkStream (rest x) (out x ++ text) (ate x)) /\
  operands s2 [addr; 0] /\ readable t2 0 (mkStream (text ++ [10]) [] false) /\ word_at s2 addr w /\
  sysio e s2 t2 xREAD_INT = SR eNOERROR s3 t3 /\ word_at s3 addr (u16 (-32767)).
Proof. exact minimum_refuted. Qed.
Print Assumptions C51_minimum_refuted.

(** C52 A number is handed out only if the program does not hold it; an error is
    reported only if it holds all of them *)
Theorem C52_allocate : forall inp b t l e s c s' t' n, fhist inp b t l ->
  sysio e s t xALLOCFILE = SR c s' t' -> tos s' 0 = Some n ->
  (c = eNOERROR /\ 0 <= n < 8 /\ held l n = false) \/
  (c = eTOOMANYFILES /\ t' = t /\ forall m, 0 <= m < 8 -> held l m = true).
Proof. exact alloc_exclusive. Qed.
Print Assumptions C52_allocate.

(** Freeing succeeds exactly for the numbers that are held *)
Theorem C52_free : forall inp b t l e s c s' t' n, fhist inp b t l -> number s xFREEFILE n ->
  sysio e s t xFREEFILE = SR c s' t' ->
  (c = eNOERROR <-> n < 8 /\ held l n = true) /\ (c <> eNOERROR -> t' = t).
Proof. exact free_reported. Qed.
Print Assumptions C52_free.

(** Standard input and output do not keep their numbers if they are freed *)
Theorem C52_standard_refuted : exists t l e s s' t',
  fhist [] [] t l /\ sysio e s t xALLOCFILE = SR eNOERROR s' t' /\ tos s' 0 = Some 0.
Proof. exact standard_refuted. Qed.
Print Assumptions C52_standard_refuted.

(** A file is allocated, opened and allocation goes on *)
Example C52_allocate_case :
  let t0 := initialize_file [] [] in
  let r1 := sysio works (stack []) t0 xALLOCFILE in
  let r2 := sysio works (stack [2]) (sio r1) xREWRITE in
  exists l, fhist [] [] (sio r2) l /\ held l 2 = true /\ opened l 2 = Some Writing /\
    sysio works (stack []) (sio r2) xALLOCFILE =
      SR eNOERROR (sstate (sysio works (stack []) (sio r2) xALLOCFILE)) (sio (sysio works (stack []) (sio r2) xALLOCFILE)) /\
    number (stack [2]) xFREEFILE 2.
Proof.
  cbv zeta. eexists. split; [|split; [|split; [|split; [sdecided | sdecided]]]].
  - apply (fh_op [] [] (sio (sysio works (stack []) (initialize_file [] []) xALLOCFILE)) (effect xALLOCFILE 2 false at_start)
      works (stack [2]) xREWRITE 2 eNOERROR
      (sstate (sysio works (stack [2]) (sio (sysio works (stack []) (initialize_file [] []) xALLOCFILE)) xREWRITE)));
      [|discriminate | sdecided | sdecided].
    apply (fh_alloc [] [] (initialize_file [] []) at_start works (stack []) 2 eNOERROR
      (sstate (sysio works (stack []) (initialize_file [] []) xALLOCFILE))); [apply fh_start | sdecided | sdecided].
  - reflexivity.
  - reflexivity.
Qed.

(** C53 Reads and writes succeed only on files open for that; otherwise nothing
    changes *)
Theorem C53_read : forall inp b t l e s f n c s' t',
  fhist inp b t l -> is_read f -> number s f n -> sysio e s t f = SR c s' t' ->
  (c = eNOERROR -> n < 8 /\ opened l n = Some Reading) /\
  (~ (n < 8 /\ opened l n = Some Reading) -> t' = t).
Proof. exact read_needs. Qed.
Print Assumptions C53_read.

Theorem C53_write : forall inp b t l e s f n c s' t',
  fhist inp b t l -> is_write f -> number s f n -> sysio e s t f = SR c s' t' ->
  (c = eNOERROR -> n < 8 /\ opened l n = Some Writing) /\
  (~ (n < 8 /\ opened l n = Some Writing) -> t' = t).
Proof. exact write_needs. Qed.
Print Assumptions C53_write.

(** Opening without a record size succeeds exactly if the file was closed and
    fopen succeeds.  Missing: opening with a record size, for which failure is not reported. *)
Theorem C53_open_partial : forall inp b t l e s f n c s' t',
  fhist inp b t l -> f = xRESET \/ f = xREWRITE \/ f = xAPPEND -> number s f n -> sysio e s t f = SR c s' t' ->
  (c = eNOERROR <-> n < 8 /\ e_open e <> None /\ opened l n = None) /\ (c <> eNOERROR -> t' = t).
Proof. exact open_reported. Qed.
Print Assumptions C53_open_partial.

Theorem C53_open_record_refuted : exists e s n s' t',
  number s xRESETR n /\ e_open e = None /\ sysio e s (initialize_file [] []) xRESETR = SR eNOERROR s' t' /\
  n = 2 /\ e_str (ent t' n) = None.
Proof. exact open_record_refuted. Qed.
Print Assumptions C53_open_record_refuted.

(** Failure of a write is not always reported *)
Theorem C53_write_failure_refuted : exists e s t n x s' t', number s xWRITE_STRING n /\ e_fail e = true /\
  writable t n x /\ sysio e s t xWRITE_STRING = SR eNOERROR s' t' /\ writable t' n x /\ tos s 3 = Some 3.
Proof. exact write_failure_refuted. Qed.
Print Assumptions C53_write_failure_refuted.

Example C53_read_case : exists t l, fhist [55; 10] [] t l /\ is_read xREAD_INT /\ is_write xWRITELN /\
  number (stack [520; 0]) xREAD_INT 0 /\ number (stack [1]) xWRITELN 1 /\ number (stack [3]) xAPPEND 3 /\
  scode (sysio works (stack [520; 0]) t xREAD_INT) eNOERROR = true /\
  scode (sysio works (stack [520; 1]) t xREAD_INT) eNOTOPENFORREAD = true /\
  scode (sysio works (stack [1]) t xWRITELN) eNOERROR = true /\
  scode (sysio works (stack [3]) t xAPPEND) eNOERROR = true /\ scode (sysio fails (stack [3]) t xAPPEND) eOPENFAILED = true.
Proof.
  exists (initialize_file [55; 10] []), at_start. split; [apply fh_start|]. split; [unfold is_read; tauto|].
  split; [apply a_write; reflexivity|]. repeat (split; [sdecided|]). sdecided.
Qed.

(** C54 The newline is not part of the string that is read, the end of the line
    is reported and the rest of the file is left.  Missing: the empty line, for
    which this does not hold; lines that do not fit. *)
Theorem C54_string_partial : forall e s t n x var buf cap v l r,
  operands s [var; n] -> readable t n x -> e_fail e = false -> str_var s var buf cap v ->
  line l -> l <> [] -> len l + 2 <= cap -> rest x = l ++ 10 :: r ->
  exists s' t', sysio e s t xREAD_STRING = SR eNOERROR s' t' /\ str_var s' var buf cap l /\ after_line t t' n x r /\
                popped s s' 2 /\ only s s' (fun b => within buf cap b \/ within var 2 b).
Proof. exact read_string_ok. Qed.
Print Assumptions C54_string_partial.

Theorem C54_char_partial : forall e s t n x addr l r,
  operands s [addr; n] -> readable t n x -> e_fail e = false -> inside s addr 1 ->
  line l -> l <> [] -> len l <= 254 -> rest x = l ++ 10 :: r ->
  exists s' t', sysio e s t xREAD_CHAR = SR eNOERROR s' t' /\ byte_of (mem s') addr = hd 0 l /\ after_line t t' n x r.
Proof. exact read_char_ok. Qed.
Print Assumptions C54_char_partial.

(** [e_eoln] is what Eoln returns, and ReadLn then goes to the next line without
    skipping anything *)
Theorem C54_reported : forall e s t n, number s xEOLN n -> n < 8 -> e_eoln (ent t n) = true ->
  exists s', sysio e s t xEOLN = SR eNOERROR s' t /\ tos s' 0 = Some 65535.
Proof. exact eoln_reports. Qed.
Print Assumptions C54_reported.

Theorem C54_next_line : forall e s t n x, number s xREADLN n -> readable t n x -> e_eoln (ent t n) = true ->
  exists s' t', sysio e s t xREADLN = SR eNOERROR s' t' /\ readable t' n x /\ e_eoln (ent t' n) = false.
Proof. exact read_ln_next. Qed.
Print Assumptions C54_next_line.

Example C54_case : operands s_line [520; 0] /\ str_var s_line 520 40 80 [] /\ line abc /\ len abc + 2 <= 80 /\
  readable (initialize_file (abc ++ 10 :: abc) []) 0 (mkStream (abc ++ 10 :: abc) [] false) /\ inside s_line 520 1.
Proof.
  split; [sdecided|]. split; [sdecided|]. split; [sdecided|]. split; [vm_compute; discriminate|]. split; [sdecided|].
  split; vm_compute; discriminate.
Qed.

Example C54_reported_case : let t := sio (sysio works s_line (initialize_file (abc ++ 10 :: abc) []) xREAD_STRING) in
  number (stack [0]) xEOLN 0 /\ number (stack [0]) xREADLN 0 /\ e_eoln (ent t 0) = true /\ readable t 0 (mkStream abc [] false).
Proof. cbv zeta. repeat (split; [sdecided|]). sdecided. Qed.

Theorem C54_empty_line_refuted : exists e s t n x var buf cap r s' t',
  operands s [var; n] /\ readable t n x /\ e_fail e = false /\ str_var s var buf cap [] /\ 2 <= cap /\
  rest x = [] ++ 10 :: r /\ sysio e s t xREAD_STRING = SR eNOERROR s' t' /\
  str_var s' var buf cap [10] /\ e_eoln (ent t' n) = false /\
  exists s2 t2 x2, sysio e (stack [n]) t' xREADLN = SR eNOERROR s2 t2 /\ readable t2 n x2 /\ r = abc ++ [10] /\ rest x2 = [].
Proof. exact empty_line_refuted. Qed.
Print Assumptions C54_empty_line_refuted.
