(** Specification of Write and WriteLn: their grammar and the text they write.
    Independent of the functions of WriteModel.v. *)

From Coq Require Import ZArith Bool List.
From Verif Require Import State Opcodes VmSpec ExprModel ExprSpec StmtModel WriteModel.
From Verif Require SysioModel SysioSpec.
Import ListNotations.
Open Scope Z_scope.

(** ** Text *)

(** [l] is the number [z] in decimal notation: a minus sign for negative numbers, digits
    without leading zeros. *)
Definition numeral_of (z : Z) (l : list Z) : Prop :=
  exists ds, l = (if z <? 0 then [45] else []) ++ ds /\ Forall SysioSpec.digit ds /\ SysioSpec.value ds = Z.abs z /\
             (hd 0 ds = 48 -> ds = [48]) /\ ds <> [].
(** A value of the type [t] as text *)
Definition shown (t : etype) (z : Z) (l : list Z) : Prop := match t with xChar => l = [z] | _ => numeral_of z l end.
(** Numbers and characters can be written. *)
Definition printable (t : etype) : bool := among t [xInteger; xShortInteger; xWord; xShortWord; xLongInteger; xLongWord; xChar].
(** At least [k] characters, blanks in front *)
Definition right_justified (k : Z) (l : list Z) : list Z := repeat 32 (Z.to_nat (k - Z.of_nat (length l))) ++ l.

(** ** Parameters *)

Inductive item :=
| IExpr (t : etype) (e : expr)
| IWidth (t : etype) (e w : expr)
| IString (l : list Z).

Definition ivars (i : item) : list var :=
  match i with IExpr _ e => evars e | IWidth _ e w => evars e ++ evars w | IString _ => [] end.
(** The text of a parameter when the variables have the values [r]; field widths up to 255 *)
Definition item_text (r : var -> Z) (i : item) (l : list Z) : Prop :=
  match i with
  | IExpr t e => exists z, evalue r xUnknown e = Some z /\ shown t z l
  | IWidth t e w => exists z k l0, evalue r xUnknown e = Some z /\ shown t z l0 /\
      evalue r xShortInteger w = Some k /\ 0 <= k <= 255 /\ l = right_justified k l0
  | IString l0 => l = l0
  end.
Inductive items_text (r : var -> Z) : list item -> list Z -> Prop :=
| it_nil : items_text r [] []
| it_cons i l is ls : item_text r i l -> items_text r is ls -> items_text r (i :: is) (l ++ ls).

(** ** Grammar *)

(** [str a]: the characters of the token [a], a string *)
Inductive gitem (str : tok -> list Z) (lev : Z) : list tok -> item -> Prop :=
| gi_expr ts e t : gexpr ts e -> etype_of xUnknown e = Some t -> printable t = true ->
    (forall x, In x (evars e) -> addressable lev x) -> gitem str lev ts (IExpr t e)
| gi_width ts e t b us w : gexpr ts e -> etype_of xUnknown e = Some t -> printable t = true ->
    tk b = tCOLON -> gexpr us w -> etype_of xShortInteger w = Some xShortInteger ->
    (forall x, In x (evars e ++ evars w) -> addressable lev x) -> gitem str lev (ts ++ b :: us) (IWidth t e w)
| gi_string a : tk a = tSTRING_CONST -> gitem str lev [a] (IString (str a)).
Inductive gitems (str : tok -> list Z) (lev : Z) : list tok -> list item -> Prop :=
| gis_one ts i : gitem str lev ts i -> gitems str lev ts [i]
| gis_more ts i b us is : gitem str lev ts i -> tk b = tCOMMA -> gitems str lev us is -> gitems str lev (ts ++ b :: us) (i :: is).

(** A file variable; it contains the number of the file. *)
Definition spells_file (a : tok) (x : var) : Prop :=
  tk a = sTEXTFILE /\ sLevel (tsym a) = vlev x /\ vOffset (tsym a) = voff x /\ vty x = xWord.

(** Write(a1, …, an), Write(f, a1, …, an), WriteLn, WriteLn(), WriteLn(a1, …, an),
    WriteLn(f, a1, …, an); [outx] is the variable OUTPUT.  The file, the parameters,
    whether the line is ended *)
Inductive gwrite (str : tok -> list Z) (lev : Z) (outx : var) : list tok -> var -> list item -> bool -> Prop :=
| gw_write a b ts is d : tk a = tSTDPROC -> tsub a = txWRITE -> tk b = tLPAREN -> gitems str lev ts is -> tk d = tRPAREN ->
    gwrite str lev outx (a :: b :: ts ++ [d]) outx is false
| gw_file a b f x e ts is d : tk a = tSTDPROC -> tsub a = txWRITE -> tk b = tLPAREN -> spells_file f x -> addressable lev x -> tk e = tCOMMA ->
    gitems str lev ts is -> tk d = tRPAREN -> gwrite str lev outx (a :: b :: f :: e :: ts ++ [d]) x is false
| gw_line a : tk a = tSTDPROC -> tsub a = txWRITELN -> gwrite str lev outx [a] outx [] true
| gw_empty a b d : tk a = tSTDPROC -> tsub a = txWRITELN -> tk b = tLPAREN -> tk d = tRPAREN -> gwrite str lev outx [a; b; d] outx [] true
| gw_writeln a b ts is d : tk a = tSTDPROC -> tsub a = txWRITELN -> tk b = tLPAREN -> gitems str lev ts is -> tk d = tRPAREN ->
    gwrite str lev outx (a :: b :: ts ++ [d]) outx is true
| gw_fileln a b f x e ts is d : tk a = tSTDPROC -> tsub a = txWRITELN -> tk b = tLPAREN -> spells_file f x -> addressable lev x -> tk e = tCOMMA ->
    gitems str lev ts is -> tk d = tRPAREN -> gwrite str lev outx (a :: b :: f :: e :: ts ++ [d]) x is true.

(** The strings among the parameters *)
Definition istrings (is : list item) : list (list Z) := flat_map (fun i => match i with IString l => [l] | _ => [] end) is.

(** ** The machine *)

(** The constants [ro] lie at [rop], below the stack. *)
Definition constants (s : st) (ro : list Z) : Prop :=
  0 <= c_rop (cf s) /\ c_rop (cf s) + Z.of_nat (length ro) <= 2 * (sp s / 2) /\
  forall i b, nth_error ro i = Some b -> rdb s (c_rop (cf s) + Z.of_nat i) = Some b.

(** File [n] has got the characters [l]; the other files are as they were. *)
Definition got (t t' : SysioModel.io) (n : Z) (l : list Z) : Prop :=
  (forall x, SysioSpec.writable t n x ->
     SysioSpec.writable t' n (SysioModel.mkStream (SysioModel.rest x) (SysioModel.out x ++ l) (SysioModel.ate x))) /\
  forall m, 0 <= m < 8 -> m <> n -> SysioModel.ent t' m = SysioModel.ent t m.

(** Bytes that the strings occupy in the section of constants, at most *)
Definition strings_size (is : list item) : Z :=
  fold_right (fun i n => match i with IString l => Z.of_nat (length l) + 2 + n | _ => n end) 0 is.
