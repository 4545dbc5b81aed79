(** Specification of linking. *)

From Coq Require Import ZArith Bool List.
From Verif Require Import Opcodes Machine EncodeModel EncodeSpec FinalModel FinalSpec LinkModel.
Import ListNotations.
Open Scope Z_scope.

(** ** Symbols *)

(** Two symbols are the same if name and type agree. *)
Definition same_symbol (a b : lsym) : Prop := lname a = lname b /\ ltype a = ltype b.

Definition defined (s : lsym) : Prop := Z.odd (lflags s) = false.

(** A list of symbols (of all modules) can be linked: each symbol is defined
    somewhere, and none twice. *)
Definition linkable (l : list lsym) : Prop :=
  (forall s, In s l -> exists d, In d l /\ same_symbol d s /\ defined d) /\
  (forall a s b t c, l = a ++ s :: b ++ t :: c -> same_symbol s t -> defined s -> ~ defined t).

(** ** Code *)

(** The text of a module: a sequence of instructions ended by END *)
Definition module_text (n : nat) (m : module) (ops : list opType) : Prop :=
  m_prog m = write_program ops /\ program_text ops /\ (length ops < n)%nat.

(** Code and data in front of a module *)
Definition code_before (opss : list (list opType)) : Z := fold_right (fun ops n => code_size ops + n) 0 opss.
Definition data_before (ms : list module) : Z := fold_right (fun m n => Z.of_nat (length (m_ro m)) + n) 0 ms.
Definition files_before (ms : list module) : Z := fold_right (fun m n => Z.of_nat (length (m_files m)) + n) 0 ms.
Definition symbols_before (ms : list module) : Z := fold_right (fun m n => Z.of_nat (length (m_syms m)) + n) 0 ms.

(** Moving an instruction by [base] bytes of code and [robase] bytes of data *)
Definition moved (base robase : Z) (p q : opType) : Prop :=
  op q = op p /\ arg1 q = arg1 p /\
  (branch (op p) \/ op p = oPCAL -> arg2 q = (arg2 p + base) mod 65536) /\
  (op p = oLAC -> arg2 q = (arg2 p + robase) mod 65536) /\
  (~ branch (op p) -> op p <> oPCAL -> op p <> oLAC -> q = p).

(** A symbol with its value moved along with the code of its module *)
Definition symbol_moved (base : Z) (s t : lsym) : Prop :=
  same_symbol s t /\ lflags t = lflags s /\
  (defined s /\ (ltype s = STT_PROC \/ ltype s = STT_FUNC) -> lvalue t = lvalue s + base) /\
  (~ (defined s /\ (ltype s = STT_PROC \/ ltype s = STT_FUNC)) -> lvalue t = lvalue s).

(** ** Relocations *)

(** A relocation fits the code: it names a symbol of the module and sits on a
    call (RLT_PCAL) or an instruction with a 16-bit operand (RLT_LDST). *)
Definition reloc_fits (ops : list opType) (nsyms : nat) (r : reloc) : Prop :=
  0 <= rinfo r < 2 ^ 32 /\ (Z.to_nat (rinfo r / 256) < nsyms)%nat /\
  exists pre p post, ops = pre ++ p :: post /\ roffset r = code_size pre /\
    ((rinfo r mod 256 = RLT_PCAL /\ op p = oPCAL) \/
     (rinfo r mod 256 = RLT_LDST /\ Z.testbit (op p) 7 = true)).

Definition relocs_fit (ops : list opType) (m : module) : Prop :=
  Forall (reloc_fits ops (length (m_syms m))) (m_rels m) /\
  (forall a r b r' c, m_rels m = a ++ r :: b ++ r' :: c -> roffset r <> roffset r').

(** The bytes of the program image a relocation may change: the 16-bit operand *)
Definition patch_byte (r : reloc) (i : Z) : Prop :=
  (rinfo r mod 256 = RLT_PCAL /\ roffset r + 2 <= i <= roffset r + 3) \/
  (rinfo r mod 256 = RLT_LDST /\ roffset r + 1 <= i <= roffset r + 3).

(** ** The whole program *)

(** The symbols of all modules in order, values moved; the first module is at
    code address [base]. *)
Inductive all_symbols : Z -> list module -> list (list opType) -> list lsym -> Prop :=
| no_symbols : forall base, all_symbols base [] [] []
| more_symbols : forall base m ms ops opss l L,
    Forall2 (symbol_moved base) (m_syms m) l -> all_symbols (base + code_size ops) ms opss L ->
    all_symbols base (m :: ms) (ops :: opss) (l ++ L).

(** Module [m] with code [ops] is linked behind [msb] with code [opsb]. *)
Definition placed (ms : list module) (opss : list (list opType))
  (msb : list module) (opsb : list (list opType)) (m : module) (ops : list opType) : Prop :=
  exists msa opsa, ms = msb ++ m :: msa /\ opss = opsb ++ ops :: opsa /\ length msb = length opsb.

(** A line record moved with its module: same line of the same file *)
Definition line_moved (base : Z) (files files' : list (list Z)) (l l' : lline) : Prop :=
  ln_lineno l' = ln_lineno l /\ ln_poffset l' = ln_poffset l + base /\
  nth_error files' (Z.to_nat (ln_fileno l')) = nth_error files (Z.to_nat (ln_fileno l)).

(** Line records as they are stored, naming a file of the module *)
Definition line_ok (m : module) (l : lline) : Prop :=
  0 <= ln_lineno l < 65536 /\ 0 <= ln_fileno l < Z.of_nat (length (m_files m)).

(** One program file, units otherwise *)
Definition one_program (ms : list module) : Prop :=
  exists a m b, ms = a ++ m :: b /\ m_type m = FHT_PROGRAM /\ Forall (fun u => m_type u = FHT_UNIT) (a ++ b).
