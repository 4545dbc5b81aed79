(** SIZEOF: cases. *)

From Coq Require Import ZArith Bool List Lia ZifyBool.
From Verif Require Import Words State Opcodes EncodeModel Machine VmSpec ExprModel ExprSpec ExprRun ExprLoad ExprCases
  StmtModel ArrModel ArrCases SizeModel SizeSpec SizeMain.
Import ListNotations.
Open Scope Z_scope.

Definition size_tok := mkTok tSTDFUNC 0 txSIZEOF nosym 1.
Definition size_of_v (v : tok) := [size_tok; kt tLPAREN; v; kt tRPAREN].
Definition no_alloc (_ : tok) : Z := 0.
(** A LongInteger, an ARRAY [1..300] OF Integer, an ARRAY of 40000 characters; a VAR parameter *)
Definition long_tok := vt (mkVar xLongInteger 0 4).
Definition arr_tok := mkTok 0x57 0 0 (mkSym 0 8 600 0) 1.
Definition big_tok := mkTok 0x57 0 0 (mkSym 0 8 40000 0) 1.
Definition refp_tok := mkTok 0x5a 0 0 (mkSym 1 (-2) 2 0) 1.
Definition four (_ : tok) : Z := 4.

Lemma size_grammar v : gsize (size_of_v v) v.
Proof. apply gs_size; reflexivity. Qed.
Lemma size_cases : size_is no_alloc four long_tok 4 /\ size_is no_alloc four arr_tok 600 /\ size_is no_alloc four big_tok 40000 /\
  size_is no_alloc four refp_tok 4.
Proof.
  split; [apply (sz_variable no_alloc four long_tok); [vm_compute; intuition congruence|cbn; intuition discriminate]|].
  split; [apply (sz_variable no_alloc four arr_tok); [vm_compute; intuition congruence|cbn; intuition discriminate]|].
  split; [apply (sz_variable no_alloc four big_tok); [vm_compute; intuition congruence|cbn; intuition discriminate]|].
  apply (sz_reference no_alloc four refp_tok). reflexivity.
Qed.
