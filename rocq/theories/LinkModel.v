(** The linker: plink/plink.c, plink/plsym.c, plink/plreloc.c and
    insn16/libinsn/insn_relocate.c.  Definitions only.

    Simplifications: offsets and sizes are unbounded integers (uint32_t in the
    code); host memory does not run out; opening, reading and writing the files
    is not modelled here; of a symbol only name, type, flags and value are kept
    (alignment and size are copied along). *)

From Coq Require Import ZArith Bool List.
From Verif Require Import Words Opcodes Machine EncodeModel FinalModel.
Import ListNotations.
Open Scope Z_scope.

(** include/poff.h:90-95 *)
Definition FHT_UNIT := 4.
Definition RLT_LDST := 2.

(** A symbol of the library interface (poffLibSymbol_t); the name is a C string *)
Record lsym := mkLsym { lname : list Z; ltype : Z; lflags : Z; lvalue : Z }.

(** A line number record (poffLineNumber_t) *)
Record lline := mkLine { ln_lineno : Z; ln_fileno : Z; ln_poffset : Z }.

(** The contents of an input file *)
Record module := mkMod {
  m_type : Z; m_entry : Z; m_prog : list Z; m_ro : list Z;
  m_files : list (list Z); m_lines : list lline; m_syms : list lsym; m_rels : list reloc }.

(** Results: fatal error (or exit), undefined behaviour, or a value *)
Inductive lres (A : Type) := LFatal | LUB | LOk (a : A).
Arguments LFatal {A}. Arguments LUB {A}. Arguments LOk {A} a.

Definition lbind {A B} (x : lres A) (k : A -> lres B) : lres B :=
  match x with LFatal => LFatal | LUB => LUB | LOk a => k a end.

(** ** insn_relocate.c *)

(** insn16/libinsn/insn_relocate.c:75-88 *)
Definition relocate_codes : list Z :=
  [oPCAL; oJMP; oJEQUZ; oJNEQZ; oJLTZ; oJGTEZ; oJGTZ; oJLTEZ; oJEQU; oJNEQ; oJLT; oJGTE; oJGT; oJLTE].

(** insn16/libinsn/insn_relocate.c:57-107 insn_Relocate; arg2 is a uint16_t *)
Definition insn_relocate (p : opType) (pcoff rooff : Z) : opType :=
  if op p =? oLAC then mkOp (op p) (arg1 p) (u16 (arg2 p + rooff))
  else if in_list (op p) relocate_codes then mkOp (op p) (arg1 p) (u16 (arg2 p + pcoff))
  else p.

(** Storing a byte in the program image *)
Fixpoint set_byte (l : list Z) (k : nat) (v : Z) : list Z :=
  match l, k with
  | [], _ => []
  | _ :: t, O => v :: t
  | x :: t, S k' => x :: set_byte t k' v
  end.

(** insn16/libinsn/insn_relocate.c:111-130 insn_FixupProcedureCall at progData
    + [o]; the bytes [o], [o]+2, [o]+3 are accessed *)
Definition fixup_call (prog : list Z) (o v : Z) : lres (list Z) :=
  match nth_error prog (Z.to_nat o) with
  | None => LUB
  | Some b =>
    if negb (u8 b =? oPCAL) then LFatal
    else if 0xffff <? v then LFatal
    else if Z.of_nat (length prog) <=? o + 3 then LUB
    else LOk (set_byte (set_byte prog (Z.to_nat (o + 2)) (u8 (v / 256))) (Z.to_nat (o + 3)) (Z.land v 0xff))
  end.

(** insn16/libinsn/insn_relocate.c:134-160 insn_FixupFrameOffset *)
Definition fixup_frame (prog : list Z) (o v : Z) : lres (list Z) :=
  match nth_error prog (Z.to_nat o) with
  | None => LUB
  | Some b =>
    if negb (has16 (u8 b)) then LFatal
    else if 0xffff <? v then LFatal
    else let i := if has8 (u8 b) then 2 else 1 in
         if Z.of_nat (length prog) <=? o + i + 1 then LUB
         else LOk (set_byte (set_byte prog (Z.to_nat (o + i)) (u8 (v / 256))) (Z.to_nat (o + i + 1)) (Z.land v 0xff))
  end.

(** ** plsym.c *)

(** strcmp on C strings (bytes compared as unsigned char) *)
Fixpoint str_compare (a b : list Z) : comparison :=
  match a, b with
  | [], [] => Eq
  | [], _ :: _ => Lt
  | _ :: _, [] => Gt
  | x :: a', y :: b' => match x ?= y with Eq => str_compare a' b' | c => c end
  end.

(** A symbol container; the address of the malloc'ed container is modelled by
    its allocation number *)
Definition container := (nat * lsym)%type.

Definition is_undefined (s : lsym) : bool := negb (Z.land (lflags s) STF_UNDEFINED =? 0).

(** plink/plsym.c:297-434 insertSymbol.  [fresh] is the number of the container
    allocated if one is needed.  Result: the list, the container returned, and
    whether "Multiply defined symbol" was reported. *)
Fixpoint insert_symbol (fresh : nat) (s : lsym) (l : list container) : list container * nat * bool :=
  match l with
  | [] => ([(fresh, s)], fresh, false)
  | (id, c) :: t =>
    let later := let '(t', r, m) := insert_symbol fresh s t in ((id, c) :: t', r, m) in
    let here := ((fresh, s) :: l, fresh, false) in
    match str_compare (lname c) (lname s) with
    | Gt => here
    | Eq =>
      if ltype s <? ltype c then here
      else if ltype c =? ltype s then
        if is_undefined c then
          if is_undefined s then (l, id, false)
          else ((id, mkLsym (lname c) (ltype s) (lflags s) (lvalue s)) :: t, id, false)
        else (l, id, negb (is_undefined s))
      else later
    | Lt => later
    end
  end.

(** plink/plsym.c:244-263 offsetSymbolValue *)
Definition offset_symbol (s : lsym) (pcoff : Z) : lsym :=
  if negb (is_undefined s) && ((ltype s =? STT_PROC) || (ltype s =? STT_FUNC))
  then mkLsym (lname s) (ltype s) (lflags s) (lvalue s + pcoff) else s.

(** The variables of plsym.c: the sorted list (symHead), symList (container by
    symbol index), its allocation in entries, nMultiplyDefined, and the number
    of containers allocated so far *)
Record symst := mkSst {
  s_list : list container; s_index : list nat; s_alloc : Z; s_multi : Z; s_next : nat }.

Definition symst0 : symst := mkSst [] [] 0 0 0.

(** plink/plsym.c:443-484 addSymbolToList, for the index behind the last one (the
    only one used, see mergeSymbols); the list grows by one increment at most *)
Definition add_to_list (st : symst) (id : nat) (index : Z) : lres symst :=
  let a1 := if (length (s_index st) =? 0)%nat then 1024 else s_alloc st in
  let a2 := if a1 <? index + 1 then a1 + 256 else a1 in
  if a2 <? index + 1 then LUB
  else if index =? Z.of_nat (length (s_index st))
  then LOk (mkSst (s_list st) (s_index st ++ [id]) a2 (s_multi st) (s_next st))
  else LUB.

(** plink/plsym.c:104-158 mergeSymbols; [i] is the index of the first symbol of
    the list in the input file.  Result: the state, and the index behind the
    last symbol *)
Fixpoint merge_symbols (st : symst) (syms : list lsym) (i pcoff symoff : Z) : lres (symst * Z) :=
  match syms with
  | [] => LOk (st, i + symoff)
  | s :: rest =>
    let s' := offset_symbol s pcoff in
    let '(l, id, m) := insert_symbol (s_next st) s' (s_list st) in
    let st' := mkSst l (s_index st) (s_alloc st) (s_multi st + (if m then 1 else 0)) (S (s_next st)) in
    lbind (add_to_list st' id (i + symoff)) (fun st'' => merge_symbols st'' rest (i + 1) pcoff symoff)
  end.

(** plink/plsym.c:162-184 verifySymbols: true if it returns *)
Definition verify_symbols (st : symst) : bool :=
  negb (existsb (fun c => is_undefined (snd c)) (s_list st)) && (s_multi st =? 0).

(** The symbol in a container *)
Fixpoint container_at (l : list container) (id : nat) : option lsym :=
  match l with
  | [] => None
  | (k, c) :: t => if (k =? id)%nat then Some c else container_at t id
  end.

(** plink/plsym.c:202-207 getSymbolByIndex; an index within the allocation but
    never written is undefined behaviour *)
Definition get_symbol (st : symst) (i : Z) : lres lsym :=
  if s_alloc st <=? i then LFatal
  else match nth_error (s_index st) (Z.to_nat i) with
       | None => LUB
       | Some id => match container_at (s_list st) id with Some s => LOk s | None => LUB end
       end.

(** ** plreloc.c *)

(** include/poff.h:153-155 *)
Definition rli_sym (x : Z) : Z := Z.shiftr x 8.
Definition rli_type (x : Z) : Z := Z.land x 0xff.

(** plink/plreloc.c:191-209 offsetRelocation *)
Definition offset_reloc (r : reloc) (pcoff symoff : Z) : reloc :=
  if (rli_type (rinfo r) =? RLT_PCAL) || (rli_type (rinfo r) =? RLT_LDST)
  then mkRel (rli_make (rli_sym (rinfo r) + symoff) (rli_type (rinfo r))) (roffset r + pcoff)
  else r.

(** plink/plreloc.c:129-172 applyRelocations.  progSize - 4 is computed in
    uint32_t. *)
Fixpoint apply_relocs (st : symst) (rels : list reloc) (prog : list Z) : lres (list Z) :=
  match rels with
  | [] => LOk prog
  | r :: rest =>
    lbind (get_symbol st (rli_sym (rinfo r))) (fun s =>
    if is_undefined s || (u32 (Z.of_nat (length prog) - 4) <? roffset r) then LFatal
    else
      lbind (if rli_type (rinfo r) =? RLT_PCAL then fixup_call prog (roffset r) (lvalue s)
             else if rli_type (rinfo r) =? RLT_LDST then fixup_frame prog (roffset r) (lvalue s)
             else LOk prog)
            (apply_relocs st rest))
  end.

(** ** plink.c *)

(** The output file and the loop variables of plink_LoadInputFiles
    (plink/plink.c:140-255) *)
Record lst := mkLst {
  l_prog : list Z; l_ro : list Z; l_files : list (list Z); l_lines : list lline;
  l_syms : symst; l_rels : list reloc; l_entry : option Z;
  l_pc : Z; l_fn : Z; l_sym : Z }.

Definition lst0 : lst := mkLst [] [] [] [] symst0 [] None 0 0 0.

(** plink/plink.c:259-313 plink_CheckFileHeader; [l_entry] = None: no program
    file found yet *)
Definition check_header (m : module) (entry : option Z) (pcoff : Z) : lres (option Z) :=
  if m_type m =? FHT_PROGRAM then
    match entry with Some _ => LFatal | None => LOk (Some (m_entry m + pcoff)) end
  else if negb (m_type m =? FHT_UNIT) then LFatal
  else LOk entry.

(** plink/plink.c:390-416 plink_MergeFileNames with libpoff/pfwfname.c:64-124:
    the index of the last file name + 1; outOffset is uninitialised if there is
    no file name *)
Definition merge_files (m : module) (files : list (list Z)) : lres (list (list Z) * Z) :=
  match m_files m with
  | [] => LUB
  | _ => LOk (files ++ m_files m, Z.of_nat (length (files ++ m_files m)))
  end.

(** plink/plink.c:424-454 plink_MergeLineNumbers; the parameters of
    poffAddLineNumber are uint16_t, uint16_t, uint32_t *)
Definition merge_lines (m : module) (pcoff fnoff : Z) : list lline :=
  map (fun l => mkLine (u16 (ln_lineno l)) (u16 (ln_fileno l + fnoff)) (ln_poffset l + pcoff)) (m_lines m).

(** plink/plink.c:155-244, one round of the loop; [n] is fuel for reading the
    program *)
Definition link_module (n : nat) (s : lst) (m : module) : lres lst :=
  lbind (check_header m (l_entry s) (l_pc s)) (fun entry =>
  (* plink_MergeRoData, plink.c:317-340 with poffAppendRoData *)
  let rooff := Z.of_nat (length (l_ro s)) in
  let ro := l_ro s ++ m_ro m in
  (* plink_MergeProgramData, plink.c:348-382 *)
  match read_program n false (m_prog m) with
  | None => LFatal
  | Some (ops, size, _) =>
    let prog := l_prog s ++ write_program (map (fun p => insn_relocate p (l_pc s) rooff) ops) in
    lbind (merge_files m (l_files s)) (fun '(files, fn) =>
    let lines := l_lines s ++ merge_lines m (l_pc s) (l_fn s) in
    lbind (merge_symbols (l_syms s) (m_syms m) 0 (l_pc s) (l_sym s)) (fun '(syms, symend) =>
    let rels := l_rels s ++ map (fun r => offset_reloc r (l_pc s) (l_sym s)) (m_rels m) in
    LOk (mkLst prog ro files lines syms rels entry (l_pc s + size) fn symend)))
  end).

Fixpoint link_modules (n : nat) (s : lst) (ms : list module) : lres lst :=
  match ms with
  | [] => LOk s
  | m :: rest => lbind (link_module n s m) (fun s' => link_modules n s' rest)
  end.

(** The linked program *)
Record image := mkImage {
  i_prog : list Z; i_ro : list Z; i_files : list (list Z); i_lines : list lline;
  i_syms : list lsym; i_entry : Z }.

(** plink/plink.c:491-534 main, between reading the input and writing the output *)
Definition link (n : nat) (ms : list module) : lres image :=
  lbind (link_modules n lst0 ms) (fun s =>
  match l_entry s with
  | None => LFatal
  | Some e =>
    if verify_symbols (l_syms s) then
      lbind (apply_relocs (l_syms s) (l_rels s) (l_prog s)) (fun prog =>
      LOk (mkImage prog (l_ro s) (l_files s) (l_lines s) (map snd (s_list (l_syms s))) e))
    else LFatal
  end).
