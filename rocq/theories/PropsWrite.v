(** Properties of Write and WriteLn. *)

From Coq Require Import ZArith Bool List Lia.
From Verif Require Import State Opcodes EncodeModel Machine VmSpec ExprModel ExprSpec ExprCases StmtModel ArrCases WriteModel WriteSpec WriteCases.
From Verif Require SysioModel SysioSpec.
Import ListNotations.
Open Scope Z_scope.

(** ** C93 The code of a Write or WriteLn statement writes the text of its parameters *)

(** Missing: real numbers, string variables, arrays and sets as parameters, named string
    constants, binary files, files that are parameters, precisions, field widths that
    are not between 0 and 255; see the refutations for other parameters. *)
Theorem C93_write_partial : forall str lev outx outf ts x is ln,
  gwrite str lev outx ts x is ln -> sLevel outf = vlev outx -> vOffset outf = voff outx -> vty outx = xWord -> addressable lev outx ->
  forall ro, Z.of_nat (length ro) + strings_size is <= 32767 ->
  exists code more,
    (forall c rest n, toks c = ts ++ rest -> (length ts = 1%nat -> tk (hd eoftok rest) <> tLPAREN) -> g_level c = lev -> (5 * length (toks c) + 5 <= n)%nat ->
       exists c', write_statement str outf n ro c = WDone c' (ro ++ more) /\ errorless c c' rest code) /\
    forall env l later, items_text env is l -> Z.of_nat (length ((ro ++ more) ++ later)) <= 32767 ->
      only_writes lev code (2 * Z.of_nat (length ts) + 8) env (flat_map ivars is) x ((ro ++ more) ++ later) (l ++ if ln then [10] else []).
Proof. exact written. Qed.
Print Assumptions C93_write_partial.

(** A parameter has one text. *)
Theorem C93_text : forall env is l m, items_text env is l -> items_text env is m -> l = m.
Proof. exact one_text. Qed.
Print Assumptions C93_text.

(** WriteLn('n=', x : 5) *)
Example C93_case : gwrite strs 0 outv wr_tokens outv wr_items true /\ sLevel outs = vlev outv /\ vOffset outs = voff outv /\
  vty outv = xWord /\ addressable 0 outv /\ Z.of_nat (@length Z []) + strings_size wr_items <= 32767 /\
  (exists c', write_statement strs outs 60 [] (start wr_tokens) = WDone c' wr_ro /\ errs c' = [] /\ toks c' = []) /\
  items_text wr_env wr_items [110; 61; 32; 32; 45; 52; 50] /\ room vmw 24 /\
  (forall z, In z (outv :: flat_map ivars wr_items) -> located 0 vmw z (wr_env z)) /\ constants vmw wr_ro /\
  SysioSpec.writable io0 (wr_env outv) (SysioModel.mkStream [] [] false).
Proof.
  split; [exact wr_grammar|]. repeat (split; [reflexivity|]). split; [repeat split; vm_compute; congruence|].
  split; [vm_compute; congruence|]. split; [exact wr_compiled|]. split; [exact wr_text|]. exact wr_state.
Qed.

Theorem C93_string_width_refuted : exists ts c' ro, ts = str_width /\
  (forall n, write_statement strs outs (60 + n) [] (start ts) = WDone c' ro) /\ errs c' <> [].
Proof. exact string_width_refuted. Qed.
Print Assumptions C93_string_width_refuted.

Theorem C93_line_of_file_refuted : exists ts c' ro, ts = line_tokens /\ spells_file filev fx /\
  (forall n, write_statement strs outs (60 + n) [] (start ts) = WDone c' ro) /\ errs c' <> [].
Proof. exact line_of_file_refuted. Qed.
Print Assumptions C93_line_of_file_refuted.

Theorem C93_boolean_refuted : exists ts c' ro, ts = bool_tokens /\ gexpr [bt true] (ESimple (tbo true)) /\ etype_of xUnknown (ESimple (tbo true)) = Some xBoolean /\
  (forall n, write_statement strs outs (60 + n) [] (start ts) = WDone c' ro) /\ errs c' = [eWRITEPARM].
Proof. exact boolean_refuted. Qed.
Print Assumptions C93_boolean_refuted.

Theorem C93_comma_refuted : (forall str lev outx x is ln, ~ gwrite str lev outx comma_tokens x is ln) /\
  exists c' ro, (forall n, write_statement strs outs (60 + n) [] (start comma_tokens) = WDone c' ro) /\ errs c' = [] /\ toks c' = [].
Proof. exact comma_refuted. Qed.
Print Assumptions C93_comma_refuted.

Theorem C93_width_refuted : exists ws e k code,
  gexpr ws e /\ etype_of xShortInteger e = Some xShortInteger /\ evalue (fun _ => 100) xShortInteger e = Some k /\ k = 300 /\
  (exists c', write_statement strs outs 60 [] (start (of_width ws)) = WDone c' [] /\ errorless (start (of_width ws)) c' [] code) /\
  located 0 vms sv 100 /\ printed (exec_io env_ok code vms io0) = Some (right_justified 44 [55]).
Proof. exact width_refuted. Qed.
Print Assumptions C93_width_refuted.
