(** Properties C41, C50, C55: label resolution (popt_finalize.c, pflabel.c). *)

From Coq Require Import ZArith Bool List Lia.
From Verif Require Import Words Opcodes Machine EncodeModel EncodeSpec FinalModel FinalSpec FinalProofs FinalMain.
Import ListNotations.
Open Scope Z_scope.

(** C41.  The code written is the code read, without the label and line
    markers, in order, each instruction in its resolved form.  Missing from the
    full statement: programs with the unsigned branches JULT, JUGTE, JUGT, JULTE
    (see C41_resolution_refuted) and code of 64 KB or more. *)
Theorem C41_resolution_partial : forall n ops ft entry syms rels f,
  program_text ops -> (length ops < n)%nat -> code_size (instructions ops) < 65536 ->
  (forall p, In p ops -> ~ unsigned_branch (op p)) ->
  finalize n (write_program ops) ft entry syms rels = FDone f ->
  exists out, f_prog f = write_program out /\ Forall2 (resolved ops syms) (instructions ops) out.
Proof. exact finalize_resolved. Qed.
Print Assumptions C41_resolution_partial.

(** The address of a label is where the machine finds the instruction that
    followed the label. *)
Theorem C41_landing_partial : forall n ops ft entry syms rels f pre p post q rest,
  program_text ops -> (length ops < n)%nat -> code_size (instructions ops) < 65536 ->
  (forall p, In p ops -> ~ unsigned_branch (op p)) ->
  finalize n (write_program ops) ft entry syms rels = FDone f ->
  ops = pre ++ p :: post -> op p = oLABEL -> instructions post = q :: rest ->
  exists q', resolved ops syms q q' /\ fetch (f_prog f) (code_size (instructions pre)) = Some q'.
Proof. exact finalize_landing. Qed.
Print Assumptions C41_landing_partial.

(** With labels defined at most once, "the address of the label" is unique. *)
Theorem C41_label_unique : forall ops l a b,
  labels_once ops -> label_at ops l a -> label_at ops l b -> a = b.
Proof. exact label_unique. Qed.
Print Assumptions C41_label_unique.

(** Resolution succeeds if everything referenced exists. *)
Theorem C41_succeeds : forall n ops ft entry syms rels,
  program_text ops -> (length ops < n)%nat -> references_ok ops syms ->
  (ft = FHT_PROGRAM -> has_label ops entry) ->
  exists f, finalize n (write_program ops) ft entry syms rels = FDone f.
Proof. exact finalize_succeeds. Qed.
Print Assumptions C41_succeeds.

(** Symbols and the entry point are resolved as well. *)
Theorem C41_symbols : forall n ops ft entry syms rels f,
  program_text ops -> (length ops < n)%nat ->
  finalize n (write_program ops) ft entry syms rels = FDone f ->
  Forall2 (symbol_resolved ops) syms (f_syms f) /\
  (ft = FHT_PROGRAM -> label_at ops entry (f_entry f)) /\ (ft <> FHT_PROGRAM -> f_entry f = entry).
Proof. exact finalize_symbols. Qed.
Print Assumptions C41_symbols.

(** A program with a forward and a backward jump, a local call, a call of an
    external routine, line markers and a relocation. *)
Definition demo_ops : list opType :=
  [mkOp oLINE 1 10; mkOp oJMP 0 2; mkOp oLABEL 0 5; mkOp oLINE 1 11; mkOp oPUSHB 7 0; mkOp oPCAL 1 9; mkOp oRET 0 0;
   mkOp oLABEL 0 2; mkOp oLINE 1 12; mkOp oLAC 0 4; mkOp oPCAL 0 5; mkOp oPUSHB 0 0; mkOp oJEQUZ 0 2; mkOp oEND 0 0].
Definition demo_syms : list symbol := [mkSym STT_FUNC 0 5; mkSym 1 1 9; mkSym STT_PROC 1 9].
Definition demo_rels : list reloc := [mkRel 77 28].

Example C41_example :
  program_text demo_ops /\ (forall p, In p demo_ops -> ~ unsigned_branch (op p)) /\
  code_size (instructions demo_ops) < 65536 /\
  match finalize 20 (write_program demo_ops) FHT_PROGRAM 2 demo_syms demo_rels with
  | FDone f =>
      f_prog f = write_program
        [mkOp oJMP 0 10; mkOp oPUSHB 7 0; mkOp oPCAL 1 0; mkOp oRET 0 0; mkOp oLAC 0 4; mkOp oPCAL 0 3;
         mkOp oPUSHB 0 0; mkOp oJEQUZ 0 10; mkOp oEND 0 0] /\
      f_syms f = [mkSym STT_FUNC 0 3; mkSym 1 1 9; mkSym STT_PROC 1 9] /\
      f_rels f = [mkRel 77 10; mkRel 0x201 5] /\
      f_lines f = [(10, 1, 0); (11, 1, 3); (12, 1, 10)] /\ f_entry f = 10 /\
      f_badreloc f = false /\ f_extra f = false /\
      fetch (f_prog f) 10 = Some (mkOp oLAC 0 4)
  | _ => False end.
Proof.
  split; [|split; [|split; [vm_compute; reflexivity|vm_compute; repeat split]]].
  - exists (removelast demo_ops). split; [reflexivity|].
    apply text_all; reflexivity.
  - intros p I. cbn in I. repeat (destruct I as [<-|I]; [cbn; intuition discriminate|]). destruct I.
Qed.

(** The full statement is false: the unsigned branches keep the label number as
    their target.  Witness: label 7 at address 0, JULT 7. *)
Theorem C41_resolution_refuted : exists n ops f out,
  program_text ops /\ (length ops < n)%nat /\ labels_once ops /\ code_size (instructions ops) < 65536 /\
  references_ok ops [] /\
  finalize n (write_program ops) 0 0 [] [] = FDone f /\ f_prog f = write_program out /\
  ~ Forall2 (resolved ops []) (instructions ops) out /\
  (* the branch goes to address 7, the label is at address 0 *)
  label_at ops 7 0 /\ In (mkOp oJULT 0 7) out.
Proof. exact unsigned_not_resolved. Qed.
Print Assumptions C41_resolution_refuted.

(** C50: for every history of definitions, a label defined (to one address)
    resolves to that address and a label never defined is reported. *)
Theorem C50_defined : forall h l v, (forall k x y, In (k, x) h -> In (k, y) h -> x = y) ->
  (forall k x, In (k, x) h -> 0 <= x) -> In (l, v) h ->
  table_get (fold_left (fun t kv => table_add t (fst kv) (snd kv)) h []) l = v.
Proof. exact table_defined. Qed.
Print Assumptions C50_defined.

Theorem C50_unknown : forall h l, (forall v, ~ In (l, v) h) ->
  table_get (fold_left (fun t kv => table_add t (fst kv) (snd kv)) h []) l = -1.
Proof. exact table_unknown. Qed.
Print Assumptions C50_unknown.

Example C50_example :
  let t := fold_left (fun t kv => table_add t (fst kv) (snd kv)) [(5, 0); (3, 12); (9, 12)] [] in
  table_get t 3 = 12 /\ table_get t 9 = 12 /\ table_get t 4 = -1.
Proof. vm_compute. repeat split. Qed.

(** C55: relocations move with the instructions they patch, the calls of
    external routines and only those get new ones, and no error is reported. *)
Theorem C55_relocations : forall n ops ft entry syms rels f,
  program_text ops -> (length ops < n)%nat -> relocs_ok ops rels ->
  finalize n (write_program ops) ft entry syms rels = FDone f ->
  f_badreloc f = false /\ f_extra f = false /\
  exists moved calls, f_rels f = moved ++ calls /\ Forall2 (reloc_moved ops) rels moved /\ call_relocs ops syms calls.
Proof. exact finalize_relocs. Qed.
Print Assumptions C55_relocations.

Theorem C55_lines : forall n ops ft entry syms rels f,
  program_text ops -> (length ops < n)%nat ->
  finalize n (write_program ops) ft entry syms rels = FDone f -> line_records ops (f_lines f).
Proof. exact finalize_lines. Qed.
Print Assumptions C55_lines.

(** Its hypotheses: the relocation of the example sits on the LAC. *)
Example C55_example : relocs_ok demo_ops demo_rels.
Proof.
  split.
  - intros r [<-|[]]. exists (firstn 9 demo_ops), (mkOp oLAC 0 4), (skipn 10 demo_ops). vm_compute. repeat split.
  - intros a r b r' c H. exfalso. apply (f_equal (@length reloc)) in H. cbn in H. rewrite !app_length in H. cbn in H.
    rewrite app_length in H. cbn in H. lia.
Qed.
