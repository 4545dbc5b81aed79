(** Properties C42 - C45 and C56: the linker. *)

From Coq Require Import ZArith Bool List Permutation Lia.
From Verif Require Import Words Opcodes Machine EncodeModel EncodeSpec FinalModel FinalSpec FinalMain LinkModel LinkSpec LinkSym LinkProofs LinkMain.
Import ListNotations.
Open Scope Z_scope.

(** C42.  Each instruction of a module not patched by a relocation is found, in
    moved form, at the code offset of its module.  Missing from the full
    statement: the unsigned branches (C42_refuted). *)
Theorem C42_code_partial : forall n ms opss L img,
  Forall2 (module_text n) ms opss -> Forall2 relocs_fit opss ms -> all_symbols 0 ms opss L ->
  symbols_before ms <= 2 ^ 24 -> (forall m s, In m ms -> In s (m_syms m) -> 0 <= lvalue s) ->
  link n ms = LOk img ->
  forall msb opsb m ops pre p post, placed ms opss msb opsb m ops -> ops = pre ++ p :: post ->
  ~ unsigned_branch (op p) -> (forall r, In r (m_rels m) -> roffset r <> code_size pre) ->
  exists q, fetch (i_prog img) (code_before opsb + code_size pre) = Some q /\ moved (code_before opsb) (data_before msb) p q.
Proof. exact link_moved. Qed.
Print Assumptions C42_code_partial.

(** A branch or call within a module leads to the instruction it led to before
    linking. *)
Theorem C42_landing_partial : forall n ms opss L img,
  Forall2 (module_text n) ms opss -> Forall2 relocs_fit opss ms -> all_symbols 0 ms opss L ->
  symbols_before ms <= 2 ^ 24 -> (forall m s, In m ms -> In s (m_syms m) -> 0 <= lvalue s) ->
  link n ms = LOk img -> code_before opss <= 65536 ->
  forall msb opsb m ops pre p post pre' t post', placed ms opss msb opsb m ops -> ops = pre ++ p :: post ->
  (branch (op p) \/ op p = oPCAL) -> ~ unsigned_branch (op p) -> (forall r, In r (m_rels m) -> roffset r <> code_size pre) ->
  ops = pre' ++ t :: post' -> arg2 p = code_size pre' ->
  exists q t', fetch (i_prog img) (code_before opsb + code_size pre) = Some q /\ op q = op p /\
    fetch (i_prog img) (arg2 q) = Some t' /\ op t' = op t /\ arg1 t' = arg1 t.
Proof. exact link_landing. Qed.
Print Assumptions C42_landing_partial.

(** The entry point is that of the only program file. *)
Theorem C42_entry : forall n ms opss img, Forall2 (module_text n) ms opss -> link n ms = LOk img ->
  one_program ms /\ exists msb opsb m ops, placed ms opss msb opsb m ops /\ m_type m = FHT_PROGRAM /\
    i_entry img = m_entry m + code_before opsb.
Proof. exact link_entry. Qed.
Print Assumptions C42_entry.

(** C43 *)
Theorem C43_data : forall n ms opss img msb opsb m ops k,
  Forall2 (module_text n) ms opss -> link n ms = LOk img -> placed ms opss msb opsb m ops -> (k < length (m_ro m))%nat ->
  nth_error (i_ro img) (Z.to_nat (data_before msb) + k) = nth_error (m_ro m) k.
Proof. exact link_data. Qed.
Print Assumptions C43_data.

(** C44.  Well-formed modules are linked exactly if every symbol is defined
    somewhere and none is defined twice. *)
Theorem C44_succeeds : forall n ms opss L,
  Forall2 (module_text n) ms opss -> Forall2 relocs_fit opss ms -> all_symbols 0 ms opss L ->
  symbols_before ms <= 2 ^ 24 -> Forall (fun s => 0 <= lvalue s < 65536) L -> code_before opss < 2 ^ 32 ->
  one_program ms -> Forall (fun m => m_files m <> []) ms ->
  (linkable L -> exists img, link n ms = LOk img) /\ (~ linkable L -> link n ms = LFatal).
Proof. exact link_success. Qed.
Print Assumptions C44_succeeds.

(** The symbol table of the result holds exactly the definitions; every symbol
    has one. *)
Theorem C44_table : forall n ms opss L img,
  Forall2 (module_text n) ms opss -> all_symbols 0 ms opss L -> link n ms = LOk img ->
  linkable L /\ (forall d, In d (i_syms img) <-> In d L /\ defined d).
Proof. exact link_table. Qed.
Print Assumptions C44_table.

Theorem C44_unique : forall L d d',
  linkable L -> In d L -> In d' L -> same_symbol d d' -> defined d -> defined d' -> d = d'.
Proof. exact definition_unique. Qed.
Print Assumptions C44_unique.

(** Neither the verdict nor the table depends on the order of the symbols. *)
Theorem C44_order_verdict : forall L L', Permutation L L' -> linkable L -> linkable L'.
Proof. exact linkable_perm. Qed.
Print Assumptions C44_order_verdict.

Theorem C44_order_table : forall n ms opss L img n' ms' opss' L' img',
  Forall2 (module_text n) ms opss -> all_symbols 0 ms opss L -> link n ms = LOk img ->
  Forall2 (module_text n') ms' opss' -> all_symbols 0 ms' opss' L' -> link n' ms' = LOk img' ->
  Permutation L L' -> i_syms img = i_syms img'.
Proof. exact link_table_order. Qed.
Print Assumptions C44_order_table.

(** C45.  The operand of a relocated instruction is the address of the
    definition of the symbol named by the relocation; opcode and first operand
    are unchanged. *)
Theorem C45_calls : forall n ms opss L img,
  Forall2 (module_text n) ms opss -> Forall2 relocs_fit opss ms -> all_symbols 0 ms opss L ->
  symbols_before ms <= 2 ^ 24 -> (forall m s, In m ms -> In s (m_syms m) -> 0 <= lvalue s) ->
  link n ms = LOk img ->
  forall msb opsb m ops pre p post r, placed ms opss msb opsb m ops -> ops = pre ++ p :: post ->
  In r (m_rels m) -> roffset r = code_size pre ->
  exists s d, nth_error (m_syms m) (Z.to_nat (rinfo r / 256)) = Some s /\ In d L /\ same_symbol d s /\ defined d /\
    fetch (i_prog img) (code_before opsb + code_size pre) = Some (mkOp (op p) (arg1 p) (lvalue d)).
Proof. exact link_calls. Qed.
Print Assumptions C45_calls.

(** Nothing else changes, whatever the relocations are. *)
Theorem C45_frame : forall st rels prog prog',
  Forall (fun r => 0 <= roffset r) rels -> apply_relocs st rels prog = LOk prog' ->
  length prog' = length prog /\
  forall i, (forall r, In r rels -> ~ patch_byte r (Z.of_nat i)) -> nth_error prog' i = nth_error prog i.
Proof. exact apply_frame. Qed.
Print Assumptions C45_frame.

(** C56.  Line records move with their module and name the same file. *)
Theorem C56_lines : forall n ms opss img msb opsb m ops,
  Forall2 (module_text n) ms opss -> link n ms = LOk img ->
  placed ms opss msb opsb m ops -> Forall (line_ok m) (m_lines m) -> files_before ms <= 65536 ->
  exists before lines after, i_lines img = before ++ lines ++ after /\
    Forall2 (line_moved (code_before opsb) (m_files m) (i_files img)) (m_lines m) lines.
Proof. exact link_lines. Qed.
Print Assumptions C56_lines.

(** ** An example: a unit with a procedure f and a program calling it *)

Definition unit_ops : list opType := [mkOp oLAC 0 2; mkOp oJMP 0 6; mkOp oRET 0 0; mkOp oEND 0 0].
Definition prog_ops : list opType := [mkOp oLAC 0 0; mkOp oPCAL 1 0; mkOp oPUSHB 0 0; mkOp oJEQUZ 0 7; mkOp oEND 0 0].
Definition name_f : list Z := [102].
Definition name_g : list Z := [103].
Definition unit_mod : module :=
  mkMod FHT_UNIT 0 (write_program unit_ops) [65; 66; 67; 0] [[117]] [mkLine 3 0 0] [mkLsym name_f STT_PROC 0 3] [].
Definition prog_mod : module :=
  mkMod FHT_PROGRAM 3 (write_program prog_ops) [88; 0] [[112]; [113]] [mkLine 7 1 3]
        [mkLsym name_g STT_FUNC 0 0; mkLsym name_f STT_PROC 1 0] [mkRel (1 * 256 + RLT_PCAL) 3].
Definition mods := [unit_mod; prog_mod].
Definition all_ops := [unit_ops; prog_ops].
Definition all_syms := [mkLsym name_f STT_PROC 0 3; mkLsym name_g STT_FUNC 0 8; mkLsym name_f STT_PROC 1 0].

Example C42_text : Forall2 (module_text 9) mods all_ops.
Proof.
  constructor; [|constructor; [|constructor]]; (split; [reflexivity|]).
  - split; [|cbn; lia]. exists (removelast unit_ops). split; [reflexivity|]. apply text_all; reflexivity.
  - split; [|cbn; lia]. exists (removelast prog_ops). split; [reflexivity|]. apply text_all; reflexivity.
Qed.

Example C45_relocs : Forall2 relocs_fit all_ops mods.
Proof.
  constructor; [|constructor; [|constructor]]; split.
  - constructor.
  - intros a r b r' c E. destruct a; discriminate E.
  - constructor; [|constructor]. split; [cbn; lia|]. split; [cbn; lia|].
    exists [mkOp oLAC 0 0], (mkOp oPCAL 1 0), [mkOp oPUSHB 0 0; mkOp oJEQUZ 0 7; mkOp oEND 0 0].
    split; [reflexivity|]. split; [reflexivity|]. left. split; reflexivity.
  - intros a r b r' c E. destruct a as [|x [|y a]]; try discriminate E. destruct b; discriminate E.
Qed.

Example C44_symbols : all_symbols 0 mods all_ops all_syms.
Proof. exact (all_symbols_ex mods 0 all_ops eq_refl). Qed.

Example C44_linkable : linkable all_syms.
Proof. apply (C44_table 9 mods all_ops all_syms) with (img := match link 9 mods with LOk i => i | _ => mkImage [] [] [] [] [] 0 end); [exact C42_text|exact C44_symbols|reflexivity]. Qed.

Example C44_one_program : one_program mods.
Proof. exists [unit_mod], prog_mod, []. split; [reflexivity|]. split; [reflexivity|]. constructor; [reflexivity|constructor]. Qed.

(** The linked program: the jump of the unit stays, the call leads to address 3,
    constants of the program are 4 bytes up, its code is 8 bytes up. *)
Example C42_linked : link 9 mods = LOk (mkImage
  (write_program [mkOp oLAC 0 2; mkOp oJMP 0 6; mkOp oRET 0 0; mkOp oEND 0 0;
                  mkOp oLAC 0 4; mkOp oPCAL 1 3; mkOp oPUSHB 0 0; mkOp oJEQUZ 0 15; mkOp oEND 0 0])
  [65; 66; 67; 0; 88; 0] [[117]; [112]; [113]] [mkLine 3 0 0; mkLine 7 2 11]
  [mkLsym name_f STT_PROC 0 3; mkLsym name_g STT_FUNC 0 8] 11).
Proof. vm_compute. reflexivity. Qed.

Example C42_placed : placed mods all_ops [unit_mod] [unit_ops] prog_mod prog_ops.
Proof. exists [], []. repeat split. Qed.

Example C56_lines_ok : Forall (line_ok prog_mod) (m_lines prog_mod).
Proof. constructor; [|constructor]. split; cbn; lia. Qed.

(** ** Refutations *)

(** An unsigned branch in the second module is not relocated: it leads into the
    first module. *)
Definition bad_ops : list opType := [mkOp oPUSHB 1 0; mkOp oPUSHB 2 0; mkOp oJULT 0 0; mkOp oEND 0 0].
Definition bad_mod : module := mkMod FHT_PROGRAM 0 (write_program bad_ops) [] [[112]] [] [] [].

Theorem C42_refuted : exists n ms opss img,
  Forall2 (module_text n) ms opss /\ Forall2 relocs_fit opss ms /\ all_symbols 0 ms opss [mkLsym name_f STT_PROC 0 3] /\ link n ms = LOk img /\
  exists msb opsb m ops pre p post, placed ms opss msb opsb m ops /\ ops = pre ++ p :: post /\ branch (op p) /\ m_rels m = [] /\
  forall q, fetch (i_prog img) (code_before opsb + code_size pre) = Some q -> ~ moved (code_before opsb) (data_before msb) p q.
Proof.
  exists 9%nat, [unit_mod; bad_mod], [unit_ops; bad_ops], (match link 9 [unit_mod; bad_mod] with LOk i => i | _ => mkImage [] [] [] [] [] 0 end).
  split; [|split; [|split; [|split; [reflexivity|]]]].
  - constructor; [|constructor; [|constructor]]; (split; [reflexivity|]).
    + split; [|cbn; lia]. exists (removelast unit_ops). split; [reflexivity|]. apply text_all; reflexivity.
    + split; [|cbn; lia]. exists (removelast bad_ops). split; [reflexivity|]. apply text_all; reflexivity.
  - constructor; [|constructor; [|constructor]]; split; try constructor; intros a r b r' c E; destruct a; discriminate E.
  - exact (all_symbols_ex [unit_mod; bad_mod] 0 [unit_ops; bad_ops] eq_refl).
  - exists [unit_mod], [unit_ops], bad_mod, bad_ops, [mkOp oPUSHB 1 0; mkOp oPUSHB 2 0], (mkOp oJULT 0 0), [mkOp oEND 0 0].
    split; [exists [], []; repeat split|]. split; [reflexivity|]. split; [right; cbn; tauto|]. split; [reflexivity|].
    intros q F (_ & _ & M & _). vm_compute in F. injection F as <-.
    assert (B : branch (op (mkOp oJULT 0 0))) by (cbn; tauto). specialize (M (or_introl B)). vm_compute in M. discriminate M.
Qed.
Print Assumptions C42_refuted.

(** A module without file names: the file number offset is not initialised. *)
Theorem C56_no_files_refuted : exists n ms opss L,
  Forall2 (module_text n) ms opss /\ Forall2 relocs_fit opss ms /\ all_symbols 0 ms opss L /\ linkable L /\ one_program ms /\
  link n ms = LUB.
Proof.
  exists 9%nat, [mkMod FHT_PROGRAM 0 (write_program bad_ops) [] [] [] [] []], [bad_ops], [].
  split; [|split; [|split; [|split; [|split; [|reflexivity]]]]].
  - constructor; [|constructor]. split; [reflexivity|]. split; [|cbn; lia]. exists (removelast bad_ops). split; [reflexivity|]. apply text_all; reflexivity.
  - constructor; [|constructor]. split; [constructor|]. intros a r b r' c E. destruct a; discriminate E.
  - exact (all_symbols_ex [_] 0 [bad_ops] eq_refl).
  - split; [intros s []|]. intros a s b t c E. destruct a; discriminate E.
  - exists [], (mkMod FHT_PROGRAM 0 (write_program bad_ops) [] [] [] [] []), []. split; [reflexivity|]. split; [reflexivity|constructor].
Qed.
Print Assumptions C56_no_files_refuted.
