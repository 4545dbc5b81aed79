(** Properties of Read and ReadLn. *)

From Coq Require Import ZArith Bool List Lia.
From Verif Require Import State Opcodes EncodeModel Machine VmSpec ExprModel ExprSpec ExprCases StmtModel StmtSpec ArrModel ArrCases WriteModel WriteSpec WriteCases
  ReadModel ReadSpec ReadCases.
From Verif Require SysioModel SysioSpec.
Import ListNotations.
Open Scope Z_scope.

(** ** C94 The code of a Read or ReadLn statement gives the variables the values in the text *)

(** Missing: real numbers, strings, arrays and sets, variables that are not simple,
    binary files, files that are parameters, and texts in which the values do not stand
    in lines of their own; see the refutations for the latter. *)
Theorem C94_read_partial : forall lev inx inf ts x vs ln,
  gread lev inx ts x vs ln -> sLevel inf = vlev inx -> vOffset inf = voff inx -> vty inx = xWord -> addressable lev inx ->
  exists code,
    (forall c rest n, toks c = ts ++ rest -> (length ts = 1%nat -> tk (hd eoftok rest) <> tLPAREN) -> g_level c = lev -> (length (toks c) <= n)%nat ->
       exists c', read_statement inf n c = ADone c' /\ errorless c c' rest code) /\
    only_reads lev code x vs ln.
Proof. exact was_read. Qed.
Print Assumptions C94_read_partial.

(** The text determines what is read and the values. *)
Theorem C94_values : forall r p vs ln text text' q q' r1 r2,
  consumes r p vs ln text r1 -> consumes r p vs ln text' r2 -> text ++ q = text' ++ q' -> text = text' /\ r1 = r2.
Proof. exact one_value. Qed.
Print Assumptions C94_values.

(** ReadLn(x, c) with the lines " -12 " and "q" *)
Example C94_case : gread 0 inv rd_tokens inv [xr; cr] true /\ sLevel ins = vlev inv /\ vOffset ins = voff inv /\ vty inv = xWord /\ addressable 0 inv /\
  (exists c', read_statement ins 60 (start rd_tokens) = ADone c' /\ errs c' = [] /\ toks c' = []) /\
  placed 0 [inv; xr; cr; yr] rd_adr (fun _ => False) 103 vmr /\ ready [inv; xr; cr; yr] rd_adr (fun _ => False) 103 vmr vmr (fun _ => 0) /\ room vmr 3 /\
  SysioSpec.readable (io_in rd_in) 0 (SysioModel.mkStream rd_in [] false) /\ SysioModel.e_eoln (SysioModel.ent (io_in rd_in) 0) = false /\
  consumes (fun _ => 0) false [xr; cr] true [32; 45; 49; 50; 32; 10; 113; 10] rd_result.
Proof.
  split; [exact rd_grammar|]. repeat (split; [reflexivity|]). split; [repeat split; vm_compute; congruence|].
  split; [exact rd_compiled|]. split; [exact rd_placed|]. split; [exact rd_ready|]. split; [vm_compute; repeat split; congruence|].
  split; [split; [cbn; lia|split; [cbn; lia|split; reflexivity]]|]. split; [reflexivity|]. exact rd_consumes.
Qed.

(** Read(x, y) with "1 2" in one line and "3" in the next one *)
Theorem C94_one_line_refuted : exists ts code c', gread 0 inv ts inv [xr; yr] false /\
  read_statement ins 60 (start ts) = ADone c' /\ errorless (start ts) c' [] code /\
  placed 0 [inv; xr; cr; yr] rd_adr (fun _ => False) 103 vmr /\ ready [inv; xr; cr; yr] rd_adr (fun _ => False) 103 vmr vmr (fun _ => 0) /\
  let end_ := exec_io env_ok code vmr (io_in [49; 32; 50; 10; 51; 10]) in
  value_of end_ xr = Some 1 /\ value_of end_ yr = Some 3.
Proof. exact one_line_refuted. Qed.
Print Assumptions C94_one_line_refuted.

(** ReadLn(c) with an empty line, "a" and "b" *)
Theorem C94_empty_line_refuted : exists ts code c', gread 0 inv ts inv [cr] true /\
  read_statement ins 60 (start ts) = ADone c' /\ errorless (start ts) c' [] code /\
  placed 0 [inv; xr; cr; yr] rd_adr (fun _ => False) 103 vmr /\ ready [inv; xr; cr; yr] rd_adr (fun _ => False) 103 vmr vmr (fun _ => 0) /\
  left_of (exec_io env_ok code vmr (io_in [10; 97; 10; 98; 10])) = Some [98; 10].
Proof. exact empty_line_refuted. Qed.
Print Assumptions C94_empty_line_refuted.

Theorem C94_line_of_file_refuted : exists ts c', ts = skip_tokens /\ spells_file filev fx /\
  (forall n, read_statement ins (60 + n) (start ts) = ADone c') /\ errs c' <> [].
Proof. exact line_of_file_refuted. Qed.
Print Assumptions C94_line_of_file_refuted.

Theorem C94_colon_refuted : (forall lev inx x vs ln, ~ gread lev inx colon_tokens x vs ln) /\
  exists c', (forall n, read_statement ins (60 + n) (start colon_tokens) = ADone c') /\ errs c' = [] /\ toks c' = [].
Proof. exact colon_refuted. Qed.
Print Assumptions C94_colon_refuted.
