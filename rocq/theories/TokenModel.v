(** The tokenizer of the compiler: pascal/pas_token.c and the look-up functions
    of pascal/pas_symtable.c.

    Simplified: one source file (no include files, g_includeIndex = 0); the
    string stack is reduced to the text of the current token (no limit on its
    size); names are lists of characters without NUL; the text handed to
    sscanf("%lf") stands for the real number; the list file is not written. *)

From Coq Require Import ZArith Bool List String Ascii.
Import ListNotations.
Open Scope Z_scope.

Definition chars (s : string) : list Z :=
  map (fun a => Z.of_N (N_of_ascii a)) (list_ascii_of_string s).

(** ** Token codes: pascal/pas_tkndefs.h:45-205 *)

Definition tIDENT := 1.
Definition tINT_CONST := 2.
Definition tCHAR_CONST := 3.
Definition tBOOLEAN_CONST := 4.
Definition tREAL_CONST := 5.
Definition tSTRING_CONST := 6.
Definition tSET_CONST := 7.
Definition tLE := 8.
Definition tGE := 9.
Definition tASSIGN := 10.
Definition tSUBRANGE := 11.
Definition tSYMDIFF := 12.
Definition tNE := 35.
Definition tMUL := 42.
Definition tFDIV := 47.
Definition tLT := 60.
Definition tEQ := 61.
Definition tGT := 62.
Definition sRECORD_OBJECT := 89.
Definition tAND := 128.
Definition tDIV := 133.
Definition tMOD := 149.
Definition tNIL := 150.
Definition tNOT := 151.
Definition tOR := 153.
Definition tXOR := 154.
Definition tSHL := 161.
Definition tSHR := 162.
Definition tSTDFUNC := 192.
Definition tSTDPROC := 193.
Definition txNONE := 0.

(** include/pas_errcodes.h:232,265 *)
Definition eEXPONENT := 11.
Definition eNOSQUOTE := 42.

(** ** Characters (the C locale) *)

Definition is_space (c : Z) : bool := (c =? 32) || ((9 <=? c) && (c <=? 13)).
Definition is_digit (c : Z) : bool := (48 <=? c) && (c <=? 57).
Definition is_upper (c : Z) : bool := (65 <=? c) && (c <=? 90).
Definition is_lower (c : Z) : bool := (97 <=? c) && (c <=? 122).
Definition is_alpha (c : Z) : bool := is_upper c || is_lower c.
Definition is_alnum (c : Z) : bool := is_alpha c || is_digit c.
Definition is_ascii (c : Z) : bool := (0 <=? c) && (c <=? 127).
Definition to_lower (c : Z) : Z := if is_upper c then c + 32 else c.
Definition to_upper (c : Z) : Z := if is_lower c then c - 32 else c.

(** ** Input *)

(** g_inChar, the unread part of the line buffer (FP->cp), the line buffer and
    the lines that fgets will deliver.  A line is the contents of the buffer up
    to the terminating NUL. *)
Record cs := mkCs { ic : Z; cpos : list Z; cbuf : list Z; clines : list (list Z) }.

(** fgets(buffer, LINE_SIZE, stream) delivers at most LINE_SIZE - 1 = 255
    characters and stops behind a newline: the lines of a file.  The first
    argument counts the characters that still fit. *)
Fixpoint fgets_lines (room : nat) (acc : list Z) (f : list Z) : list (list Z) :=
  match f with
  | [] => match acc with [] => [] | _ => [rev acc] end
  | c :: f' =>
      if c =? 10 then rev (c :: acc) :: fgets_lines 254 [] f'
      else match room with
           | O => rev (c :: acc) :: fgets_lines 254 [] f'
           | S r => fgets_lines r (c :: acc) f'
           end
  end.

(** pas_token.c:308-374 pas_SkipLine, pas_GetLine, and pas_GetCharacter on an
    empty line.  At the end of the file the buffer keeps the last line and the
    pointer is at its start. *)
Fixpoint next_line (b : list Z) (ls : list (list Z)) : cs :=
  match ls with
  | [] => mkCs 63 b b []
  | [] :: ls' => next_line [] ls'
  | (c :: l) :: ls' => mkCs c l (c :: l) ls'
  end.

Definition skip_line (c : cs) : cs := next_line (cbuf c) (clines c).

(** pas_token.c:291-304 pas_GetCharacter *)
Definition get_char (c : cs) : cs :=
  match cpos c with
  | x :: p => mkCs x p (cbuf c) (clines c)
  | [] => skip_line c
  end.

(** pas_token.c:765-823 pas_GetNextCharacter(false): the next character becomes
    g_inChar but is not consumed *)
Fixpoint peek_line (b : list Z) (ls : list (list Z)) : cs :=
  match ls with
  | [] => mkCs 63 b b []
  | [] :: ls' => peek_line [] ls'
  | (c :: l) :: ls' => mkCs c (c :: l) (c :: l) ls'
  end.

Definition peek_char (c : cs) : cs :=
  match cpos c with
  | x :: p => mkCs x (x :: p) (cbuf c) (clines c)
  | [] => peek_line (cbuf c) (clines c)
  end.

(** pas_token.c:707-755 pas_PrimeTokenizer, pas_RePrimeTokenizer *)
Definition prime (f : list Z) : cs :=
  match fgets_lines 254 [] f with
  | [] => mkCs 0 [] [] []
  | l :: ls => get_char (mkCs 0 l l ls)
  end.

(** ** Names and symbols *)

(** strcasecmp: the sign of the first difference *)
Fixpoint strcasecmp (a b : list Z) : Z :=
  match a, b with
  | [], [] => 0
  | [], y :: _ => - to_lower y
  | x :: _, [] => to_lower x
  | x :: a', y :: b' => if to_lower x =? to_lower y then strcasecmp a' b' else to_lower x - to_lower y
  end.

(** pas_symtable.c:105-222 g_rsw: name, token, sub-token *)
Definition rsw : list (list Z * Z * Z) :=
  map (fun e => let '(n, t, x) := e in (chars n, t, x))
  [("ABS"%string, 192, 1); ("ADDR"%string, 192, 2); ("AND"%string, 128, 0); ("APPEND"%string, 193, 137);
   ("ARCTAN"%string, 192, 3); ("ARRAY"%string, 129, 0); ("ASSIGNFILE"%string, 193, 138); ("BEGIN"%string, 130, 0);
   ("BREAK"%string, 193, 156); ("CARD"%string, 192, 154); ("CASE"%string, 131, 0); ("CHARAT"%string, 192, 157);
   ("CHDIR"%string, 193, 158); ("CHR"%string, 192, 4); ("CLOSEDIR"%string, 192, 159); ("CLOSEFILE"%string, 193, 139);
   ("CONCAT"%string, 192, 179); ("CONST"%string, 132, 0); ("CONTINUE"%string, 193, 160); ("COPY"%string, 192, 161);
   ("COS"%string, 192, 5); ("CREATEDIR"%string, 192, 162); ("DELETE"%string, 193, 181); ("DISPOSE"%string, 193, 128);
   ("DIV"%string, 133, 0); ("DO"%string, 134, 0); ("DOWNTO"%string, 135, 0); ("ELSE"%string, 136, 0);
   ("END"%string, 137, 0); ("EOF"%string, 192, 142); ("EOLN"%string, 192, 6); ("EXCLUDE"%string, 192, 153);
   ("EXIT"%string, 193, 129); ("EXP"%string, 192, 7); ("FILE"%string, 138, 0); ("FILEINFO"%string, 192, 163);
   ("FILEPOS"%string, 192, 140); ("FILESIZE"%string, 192, 141); ("FILLCHAR"%string, 193, 164);
   ("FINALIZATION"%string, 139, 0); ("FLUSH"%string, 193, 165); ("FOR"%string, 140, 0); ("FUNCTION"%string, 141, 0);
   ("GET"%string, 193, 130); ("GETDIR"%string, 192, 166); ("GETENV"%string, 192, 32); ("GOTO"%string, 142, 0);
   ("HALT"%string, 193, 131); ("IF"%string, 143, 0); ("IMPLEMENTATION"%string, 144, 0); ("IN"%string, 145, 0);
   ("INCLUDE"%string, 192, 152); ("INITIALIZATION"%string, 146, 0); ("INSERT"%string, 193, 180);
   ("INTERFACE"%string, 147, 0); ("LABEL"%string, 148, 0); ("LENGTH"%string, 192, 167); ("LN"%string, 192, 8);
   ("MKDIR"%string, 193, 168); ("MOD"%string, 149, 0); ("NEW"%string, 193, 132); ("NOT"%string, 151, 0);
   ("ODD"%string, 192, 9); ("OF"%string, 152, 0); ("OPENDIR"%string, 192, 169); ("OR"%string, 153, 0);
   ("ORD"%string, 192, 10); ("PACK"%string, 193, 133); ("PACKED"%string, 155, 0); ("PAGE"%string, 193, 134);
   ("POS"%string, 192, 170); ("PRED"%string, 192, 11); ("PROCEDURE"%string, 156, 0); ("PROGRAM"%string, 157, 0);
   ("PUT"%string, 193, 135); ("READ"%string, 193, 143); ("READDIR"%string, 192, 171); ("READLN"%string, 193, 144);
   ("RECORD"%string, 158, 0); ("REMOVEDIR"%string, 192, 172); ("REPEAT"%string, 159, 0); ("RESET"%string, 193, 145);
   ("REWINDDIR"%string, 192, 173); ("REWRITE"%string, 193, 146); ("RMDIR"%string, 193, 174); ("ROUND"%string, 192, 12);
   ("SEEK"%string, 193, 147); ("SEEKEOF"%string, 192, 148); ("SEEKEOLN"%string, 192, 149); ("SET"%string, 160, 0);
   ("SETCURRENTDIR"%string, 192, 176); ("SHL"%string, 161, 0); ("SHR"%string, 162, 0); ("SIN"%string, 192, 13);
   ("SIZEOF"%string, 192, 155); ("SPAWN"%string, 192, 177); ("SQR"%string, 192, 14); ("SQRT"%string, 192, 15);
   ("STR"%string, 193, 178); ("SUCC"%string, 192, 16); ("THEN"%string, 163, 0); ("TO"%string, 164, 0);
   ("TRUNC"%string, 192, 17); ("TYPE"%string, 165, 0); ("UNIT"%string, 166, 0); ("UNPACK"%string, 193, 136);
   ("UNTIL"%string, 167, 0); ("USES"%string, 168, 0); ("VAL"%string, 193, 175); ("VAR"%string, 169, 0);
   ("WHILE"%string, 176, 0); ("WITH"%string, 177, 0); ("WRITE"%string, 193, 150); ("WRITELN"%string, 193, 151);
   ("XOR"%string, 154, 0)].

(** pas_symtable.c:232-242 g_aliasTable *)
Definition aliases : list (list Z * list Z) :=
  map (fun e => let '(a, r) := e in (chars a, chars r))
  [("ASSIGN"%string, "ASSIGNFILE"%string); ("CLOSE"%string, "CLOSEFILE"%string);
   ("GETCURRENTDIR"%string, "GETDIR"%string); ("INT64"%string, "LONGINTEGER"%string);
   ("LONGINT"%string, "LONGINTEGER"%string); ("SHORTINT"%string, "SHORTINTEGER"%string);
   ("TEXT"%string, "TEXTFILE"%string)].

(** pas_symtable.c:246-276 pas_MapToAlias *)
Fixpoint alias_in (t : list (list Z * list Z)) (name : list Z) : list Z :=
  match t with
  | [] => name
  | (alt, r) :: t' =>
      let cmp := strcasecmp alt name in
      if cmp =? 0 then r else if 0 <? cmp then name else alias_in t' name
  end.

Definition map_to_alias (name : list Z) : list Z := alias_in aliases name.

(** pas_symtable.c:280-310 pas_FindReservedWord *)
Fixpoint reserved_in (t : list (list Z * Z * Z)) (name : list Z) : option (Z * Z) :=
  match t with
  | [] => None
  | (w, ty, sub) :: t' =>
      let cmp := strcasecmp w name in
      if cmp =? 0 then Some (ty, sub) else if 0 <? cmp then None else reserved_in t' name
  end.

Definition find_reserved (name : list Z) : option (Z * Z) := reserved_in rsw name.

(** pascal/pas_defns.h:231-249 symbol_t, reduced to what the tokenizer uses:
    name (None: NULL), kind and the value that overlays a constant.  [y_aux]
    stands for all other fields. *)
Record symbol := mkSym { y_name : option (list Z); y_kind : Z; y_level : Z; y_uint : Z; y_real : list Z; y_aux : list Z }.

(** The symbol table and what limits the search: g_symbolTable[0..g_nSym),
    g_symStart, g_withRecord.wParent != NULL *)
Record symenv := mkEnv { syms : list symbol; symStart : nat; inWith : bool }.

(** pas_symtable.c:314-339 pas_FindNextSymbol: from lastIndex - 1 down to
    tableOffset *)
Fixpoint find_next (t : list symbol) (name : list Z) (start : nat) (last : nat) : option nat :=
  match last with
  | O => None
  | S i =>
      if (i <? start)%nat then None
      else match nth_error t i with
           | Some y =>
               match y_name y with
               | Some n => if strcasecmp n name =? 0 then Some i else find_next t name start i
               | None => find_next t name start i
               end
           | None => find_next t name start i
           end
  end.

(** pas_symtable.c:343-347 pas_FindSymbol *)
Definition find_symbol (t : list symbol) (name : list Z) (start : nat) : option nat :=
  find_next t name start (List.length t).

(** ** Tokens *)

(** g_token, g_tknSubType, g_tknUInt, g_tknReal, the token on the string stack,
    g_tknPtr and the errors reported so far *)
Record tkn := mkTkn { k_tok : Z; k_sub : Z; k_uint : Z; k_real : list Z; k_str : list Z; k_ptr : option nat; k_errs : list Z }.

Definition with_tok (k : tkn) (t : Z) : tkn := mkTkn t (k_sub k) (k_uint k) (k_real k) (k_str k) (k_ptr k) (k_errs k).
Definition with_str (k : tkn) (s : list Z) : tkn := mkTkn (k_tok k) (k_sub k) (k_uint k) (k_real k) s (k_ptr k) (k_errs k).
Definition with_uint (k : tkn) (v : Z) : tkn := mkTkn (k_tok k) (k_sub k) v (k_real k) (k_str k) (k_ptr k) (k_errs k).
Definition with_real (k : tkn) (s : list Z) : tkn := mkTkn (k_tok k) (k_sub k) (k_uint k) s (k_str k) (k_ptr k) (k_errs k).
Definition with_ptr (k : tkn) (p : option nat) : tkn := mkTkn (k_tok k) (k_sub k) (k_uint k) (k_real k) (k_str k) p (k_errs k).
Definition with_sub (k : tkn) (x : Z) : tkn := mkTkn (k_tok k) x (k_uint k) (k_real k) (k_str k) (k_ptr k) (k_errs k).
(** pas_error.c:178-195 error, without CONFIG_DEBUG; :110-134 pas_PrintError
    drops the token from the string stack *)
Definition with_err (k : tkn) (e : Z) : tkn := mkTkn (k_tok k) (k_sub k) (k_uint k) (k_real k) [] (k_ptr k) (k_errs k ++ [e]).

Inductive tres := TOk (c : cs) (k : tkn) | TUB | TFuel.

(** Collect characters while [p] holds: the loops of pas_token.c:167-172,
    403-408, 478-482, 566-571 *)
Fixpoint take_while (fuel : nat) (p : Z -> bool) (c : cs) : option (list Z * cs) :=
  if p (ic c) then
    match fuel with
    | O => None
    | S f => match take_while f p (get_char c) with Some (l, c') => Some (ic c :: l, c') | None => None end
    end
  else Some ([], c).

(** pas_token.c:102-154 pas_SymbolToken.  The fuel is the length of the table. *)
Fixpoint symbol_loop (fuel : nat) (e : symenv) (name : list Z) (findRec : bool) (at_ : option nat) (k : tkn) : bool * tkn :=
  match at_ with
  | None => (false, with_ptr k None)
  | Some i =>
      match nth_error (syms e) i with
      | None => (false, with_ptr k None)
      | Some y =>
          let isRec := y_kind y =? sRECORD_OBJECT in
          if Bool.eqb findRec isRec then
            let k := with_str (with_tok k (y_kind y)) [] in
            let k := if y_kind y =? tREAL_CONST then with_real k (y_real y) else with_uint k (y_uint y) in
            (true, with_ptr k (Some i))
          else match fuel with
               | O => (false, with_ptr k None)
               | S f => symbol_loop f e name findRec (find_next (syms e) name (symStart e) i) k
               end
      end
  end.

Definition symbol_token (e : symenv) (name : list Z) (findRec : bool) (k : tkn) : bool * tkn :=
  symbol_loop (List.length (syms e)) e name findRec (find_symbol (syms e) name (symStart e)) k.

(** pas_token.c:158-226 pas_Identifier: the name has been collected *)
Definition identifier (e : symenv) (lastToken : Z) (name : list Z) (k : tkn) : tkn :=
  let k := with_str (with_sub k txNONE) name in
  let aliased := map_to_alias name in
  match find_reserved aliased with
  | Some (ty, sub) => with_str (with_sub (with_tok k ty) sub) []
  | None =>
      let expected := (lastToken =? 46) || inWith e in
      let k := with_tok k tIDENT in
      let (found, k) := symbol_token e aliased expected k in
      if found then k
      else if expected then snd (symbol_token e aliased false k) else k
  end.

(** pas_token.c:247-260: characters up to a quote, or to a newline, which is an
    error.  Returns the characters and whether the error occurred. *)
Fixpoint string_chars (fuel : nat) (c : cs) : option (list Z * bool * cs) :=
  if ic c =? 39 then Some ([], false, c)
  else if ic c =? 10 then Some ([], true, c)
  else match fuel with
       | O => None
       | S f => match string_chars f (get_char c) with
                | Some (l, b, c') => Some (ic c :: l, b, c')
                | None => None
                end
       end.

(** pas_token.c:239-276: the outer loop.  [acc] is what is on the string stack,
    [n] the count (int16_t), [errs] whether eNOSQUOTE was reported. *)
Fixpoint string_body (fuel : nat) (c : cs) (acc : list Z) (n : Z) : option (list Z * Z * bool * cs) :=
  match fuel with
  | O => None
  | S f =>
      match string_chars fuel c with
      | None => None
      | Some (l, true, c1) =>
          (* error() has emptied the token *)
          Some ([], n + Z.of_nat (List.length l), true, get_char c1)
      | Some (l, false, c1) =>
          let c2 := get_char c1 in
          if ic c2 =? 39 then string_body f (get_char c2) (acc ++ l ++ [39]) (n + Z.of_nat (List.length l) + 1)
          else Some (acc ++ l, n + Z.of_nat (List.length l), false, c2)
      end
  end.

(** count is an int16_t *)
Definition i16 (z : Z) : Z := (z + 32768) mod 65536 - 32768.

(** *g_tokenString is a (signed) char, assigned to a uint32_t *)
Definition char_value (c : Z) : Z := if c <? 128 then c else (c - 256) mod 4294967296.

(** pas_token.c:230-287 pas_StringToken *)
Definition string_token (fuel : nat) (c : cs) (k : tkn) : tres :=
  match string_body fuel (get_char c) [] 0 with
  | None => TFuel
  | Some (s, n, bad, c') =>
      let k := with_tok k tSTRING_CONST in
      let k := if bad then with_err k eNOSQUOTE else k in
      if i16 n =? 1
      then TOk c' (with_str (with_uint (with_tok k tCHAR_CONST) (char_value (hd 0 s))) [])
      else TOk c' (with_str k s)
  end.

(** sscanf with "%u" and "%x": the value of the digits; a value that does not
    fit is undefined *)
Definition digit_value (c : Z) : Z := if is_digit c then c - 48 else if is_upper c then c - 55 else c - 87.
Definition numeric_value (base : Z) (l : list Z) : Z := fold_left (fun v c => v * base + digit_value c) l 0.
Definition sscanf (base : Z) (l : list Z) (old : Z) : option Z :=
  match l with
  | [] => Some old
  | _ => let v := numeric_value base l in if v <? 4294967296 then Some v else None
  end.

(** pas_token.c:512-589 pas_UnsignedExponent; [acc] has been collected *)
Definition exponent (fuel : nat) (c : cs) (acc : list Z) (k : tkn) : tres :=
  let k := with_tok k tREAL_CONST in
  let acc := acc ++ [ic c] in
  let c := get_char c in
  let '(acc, c) := if (ic c =? 45) || (ic c =? 43) then (acc ++ [ic c], get_char c) else (acc ++ [43], c) in
  if is_digit (ic c) then
    match take_while fuel is_digit c with
    | Some (ds, c') => TOk c' (with_str (with_real k (acc ++ ds)) [])
    | None => TFuel
    end
  else TOk c (with_real (with_err k eEXPONENT) []).

(** pas_token.c:449-508 pas_UnsignedRealNumber; [acc] are the digits before the
    point, g_inChar is behind it *)
Definition real_number (fuel : nat) (c : cs) (acc : list Z) (k : tkn) : tres :=
  match take_while fuel is_digit c with
  | None => TFuel
  | Some (ds, c) =>
      let k := with_tok k tREAL_CONST in
      let acc := acc ++ [46] ++ ds in
      if (ic c =? 101) || (ic c =? 69) then exponent fuel c acc k
      else TOk c (with_str (with_real k acc) [])
  end.

(** pas_token.c:378-445 pas_UnsignedNumber *)
Definition unsigned_number (fuel : nat) (c : cs) (k : tkn) : tres :=
  match take_while fuel is_digit c with
  | None => TFuel
  | Some (ds, c) =>
      let int c :=
        match sscanf 10 ds (k_uint k) with
        | Some v => TOk c (with_str (with_uint (with_tok k tINT_CONST) v) [])
        | None => TUB
        end in
      if (ic c =? 101) || (ic c =? 69) then exponent fuel c ds k
      else if negb (ic c =? 46) then int c
      else let c := peek_char c in
           if ic c =? 46 then int c else real_number fuel (get_char c) ds k
  end.

Definition is_hex (c : Z) : bool := is_digit c || ((65 <=? c) && (c <=? 70)) || ((97 <=? c) && (c <=? 102)).

(** pas_token.c:593-647 pas_UnsignedHexadecimal *)
Definition hexadecimal (fuel : nat) (c : cs) (k : tkn) : tres :=
  match take_while fuel is_hex (get_char c) with
  | None => TFuel
  | Some (ds, c) =>
      match sscanf 16 (map to_upper ds) (k_uint k) with
      | Some v => TOk c (with_str (with_uint (with_tok k tINT_CONST) v) [])
      | None => TUB
      end
  end.

(** pas_token.c:651-698 pas_UnsignedBinary.  getToken never calls it: the test
    for '%' has already led to pas_UnsignedHexadecimal. *)
Definition is_bin (c : Z) : bool := (c =? 48) || (c =? 49).
Definition binary (fuel : nat) (c : cs) (k : tkn) : tres :=
  match take_while fuel is_bin (get_char c) with
  | None => TFuel
  | Some (ds, c) => TOk c (with_uint (with_tok k tINT_CONST) (fold_left (fun v d => (2 * v + (d - 48)) mod 4294967296) ds 0))
  end.

(** pas_token.c:970-976: to the closing brace; the result is behind it *)
Fixpoint brace_comment (fuel : nat) (c : cs) : option cs :=
  match fuel with
  | O => None
  | S f => let c := get_char c in if ic c =? 125 then Some (get_char c) else brace_comment f c
  end.

(** pas_token.c:989-1005 and 1026-1042: to '*' followed by [close]; the result is behind
    it *)
Fixpoint star_comment (fuel : nat) (close last : Z) (c : cs) : option cs :=
  match fuel with
  | O => None
  | S f => let c := get_char c in
           if (last =? 42) && (ic c =? close) then Some (get_char c) else star_comment f close (ic c) c
  end.

(** pas_token.c:827-1073 getToken *)
Fixpoint get_token (fuel : nat) (e : symenv) (c : cs) (k : tkn) : tres :=
  match fuel with
  | O => TFuel
  | S f =>
      let lastToken := k_tok k in
      let k := with_str (with_ptr k None) [] in
      match take_while fuel is_space c with
      | None => TFuel
      | Some (_, c) =>
          let x := ic c in
          let n := get_char c in
          let one t := TOk n (with_tok k t) in
          let two t := TOk (get_char n) (with_tok k t) in
          let again o := match o with Some c' => get_token f e c' k | None => TFuel end in
          if is_alpha x || (x =? 95) then
            match take_while fuel (fun a => is_alnum a || (a =? 95)) c with
            | Some (name, c') => TOk c' (identifier e lastToken name k)
            | None => TFuel
            end
          else if is_digit x then unsigned_number fuel c k
          else if x =? 39 then string_token fuel c k
          else if x =? 58 then if ic n =? 61 then two tASSIGN else one 58
          else if x =? 46 then
            if ic n =? 46 then two tSUBRANGE
            else if is_digit (ic n) then real_number fuel n [] k
            else one 46
          else if x =? 60 then
            if ic n =? 62 then two tNE else if ic n =? 61 then two tLE else if ic n =? 60 then two tSHL else one tLT
          else if x =? 62 then
            if ic n =? 60 then two tSYMDIFF else if ic n =? 61 then two tGE else if ic n =? 62 then two tSHR else one tGT
          else if x =? 123 then again (brace_comment fuel c)
          else if x =? 40 then
            if ic n =? 42 then again (star_comment fuel 41 32 n) else one 40
          else if x =? 47 then
            if ic n =? 47 then get_token f e (skip_line n) k
            else if ic n =? 42 then again (star_comment fuel 47 32 n)
            else one 47
          else if x =? 37 then hexadecimal fuel c k
          else if is_ascii x then one x
          else get_token f e n k
      end
  end.

(** pas_token.c:1077-1084 getLevelToken: only the symbols of the current level
    are found *)
Definition get_level_token (fuel : nat) (e : symenv) (levelStart : nat) (c : cs) (k : tkn) : tres :=
  get_token fuel (mkEnv (syms e) levelStart (inWith e)) c k.
