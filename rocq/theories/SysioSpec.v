(** What is expected of system I/O. *)

From Coq Require Import ZArith Bool List.
From Verif Require Import Words State StringSpec SysioModel.
Import ListNotations.
Open Scope Z_scope.

(** ** Numbers as text *)

(** The value of decimal digits *)
Definition value (ds : list Z) : Z := fold_left (fun v c => 10 * v + (c - 48)) ds 0.

Definition digit (c : Z) : Prop := 48 <= c <= 57.

(** Spaces, a sign, digits and something else *)
Definition numeral (sp : list Z) (sign : list Z) (ds r : list Z) : Prop :=
  Forall (fun c => c = 32 \/ 9 <= c <= 13) sp /\ (sign = [] \/ sign = [43] \/ sign = [45]) /\
  ds <> [] /\ Forall digit ds /\ (forall c q, r = c :: q -> ~ digit c).

(** ** Files *)

Definition readable (t : io) (n : Z) (x : stream) : Prop :=
  0 <= n < 8 /\ (8 <= length (ftab t))%nat /\ e_str (ent t n) = Some x /\ e_mode (ent t n) = eOPEN_READ.

Definition writable (t : io) (n : Z) (x : stream) : Prop :=
  0 <= n < 8 /\ (8 <= length (ftab t))%nat /\ e_str (ent t n) = Some x /\
  (e_mode (ent t n) = eOPEN_WRITE \/ e_mode (ent t n) = eOPEN_APPEND).

(** A program sees which numbers it holds and which files are open, and how.
    That is all that the operations on files depend on. *)
Inductive access := Reading | Writing.

Record ledger := mkLedger { held : Z -> bool; opened : Z -> option access }.

Definition at_start : ledger :=
  mkLedger (fun n => (n =? 0) || (n =? 1))
           (fun n => if n =? 0 then Some Reading else if n =? 1 then Some Writing else None).

Definition set {A} (f : Z -> A) (n : Z) (v : A) : Z -> A := fun m => if m =? n then v else f m.

(** The file number that is the operand of an operation, counted from the top
    of the stack *)
Definition number_operand (f : Z) : nat :=
  if (f =? xASSIGNFILE) then 4
  else if (f =? xRESETR) || (f =? xREWRITER) || (f =? xREAD_INT) || (f =? xREAD_CHAR) || (f =? xREAD_STRING) then 1
  else if (f =? xREAD_BINARY) || (f =? xWRITE_BINARY) || (f =? xWRITE_INT) || (f =? xWRITE_WORD) || (f =? xWRITE_CHAR) then 2
  else if (f =? xWRITE_LONGINT) || (f =? xWRITE_LONGWORD) then 3
  else if f =? xWRITE_STRING then 4
  else 0.

Definition number (s : st) (f n : Z) : Prop :=
  0 <= sp s < 65536 /\ tos s (Z.of_nat (number_operand f)) = Some n.

(** What an operation makes of the ledger: [n] is the file number, for
    xALLOCFILE the one that is handed out; [ok] if fopen succeeds *)
Definition opens (f : Z) : option access :=
  if (f =? xRESET) || (f =? xRESETR) then Some Reading
  else if (f =? xREWRITE) || (f =? xREWRITER) || (f =? xAPPEND) then Some Writing
  else None.

Definition effect (f n : Z) (ok : bool) (l : ledger) : ledger :=
  if f =? xALLOCFILE then (if n <? 8 then mkLedger (set (held l) n true) (opened l) else l)
  else if f =? xFREEFILE then
    (if (n <? 8) && held l n then mkLedger (set (held l) n false) (set (opened l) n None) else l)
  else if f =? xCLOSEFILE then (if n <? 8 then mkLedger (held l) (set (opened l) n None) else l)
  else match opens f with
       | Some a => if (n <? 8) && ok && match opened l n with None => true | _ => false end
                   then mkLedger (held l) (set (opened l) n (Some a)) else l
       | None => l
       end.

(** A history of operations, performed in any states of the machine and under
    any conditions of the operating system *)
Inductive fhist (inp b : list Z) : io -> ledger -> Prop :=
| fh_start : fhist inp b (initialize_file inp b) at_start
| fh_alloc t l e s n c s' t' : fhist inp b t l ->
    sysio e s t xALLOCFILE = SR c s' t' -> tos s' 0 = Some n ->
    fhist inp b t' (effect xALLOCFILE n false l)
| fh_op t l e s f n c s' t' : fhist inp b t l -> f <> xALLOCFILE -> number s f n ->
    sysio e s t f = SR c s' t' ->
    fhist inp b t' (effect f n (match e_open e with Some _ => true | None => false end) l).

Definition is_read (f : Z) : Prop :=
  f = xREADLN \/ f = xREAD_BINARY \/ f = xREAD_INT \/ f = xREAD_CHAR \/ f = xREAD_STRING.

Definition is_write (f : Z) : Prop := xWRITELN <= f <= xWRITE_STRING \/ f = xFLUSH.

(** ** Lines *)

(** A line of a text: neither newline nor NUL *)
Definition line (l : list Z) : Prop := Forall (fun c => 0 < c < 256 /\ c <> 10) l.

(** What a file is after a line of it was read *)
Definition after_line (t t' : io) (n : Z) (x : stream) (r : list Z) : Prop :=
  readable t' n (mkStream r (out x) (ate x)) /\ e_eoln (ent t' n) = true /\
  forall m, 0 <= m < 8 -> m <> n -> ent t' m = ent t m.
