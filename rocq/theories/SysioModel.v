(** System I/O, insn16/libexec/libexec_sysio.c.  Definitions only.

    A stream of C's stdio is what is still to be read from it, what was written
    to it, and its end-of-file indicator.  What the operating system decides is
    the argument [env] of an operation: whether fopen succeeds and with which
    contents, and whether a read or write fails.

    Not modelled: xREAD_REAL, xWRITE_REAL, xFILEPOS, xFILESIZE, xSEEK and the
    directory operations (xCHDIR to xCLOSEDIR); see the result SX.  A read that
    fails leaves its destination alone and stores [e_junk] in ioBuffer; a write
    that fails writes nothing.  fgets with a size of 0 returns NULL, as it does
    in glibc. *)

From Coq Require Import ZArith Bool List.
From Verif Require Import Words State HeapModel StringModel.
Import ListNotations.
Open Scope Z_scope.

(** ** State *)

Record stream := mkStream { rest : list Z; out : list Z; ate : bool }.

(** insn16/include/libexec.h:183-192 execFileTable_t *)
Record entry := mkEntry
  { e_name : list Z; e_use : bool; e_text : bool; e_eoln : bool; e_rec : Z;
    e_str : option stream; e_mode : Z }.

Definition no_entry : entry := mkEntry [] false false false 0 None 0.

(** fileTable and ioBuffer of struct libexec_s; ioBuffer is what the last fgets
    stored into it *)
Record io := mkIo { ftab : list entry; iob : list Z }.

Record env := mkEnv { e_open : option (list Z); e_fail : bool; e_junk : list Z }.

Inductive sres :=
| SR (code : Z) (s : st) (t : io)
| SU      (* undefined behaviour *)
| SX      (* not modelled *)
| SH.     (* does not terminate (heap) *)

Definition sbind {A} (o : option A) (k : A -> sres) : sres := match o with Some a => k a | None => SU end.
Definition shout {A} (x : hr A) (k : A -> sres) : sres := match x with HV a => k a | HU => SU | HH => SH end.

Notation "x <* e ;; k" := (sbind e (fun x => k)) (at level 61, e at next level, right associativity).
Notation "' p <* e ;; k" := (sbind e (fun p => k)) (at level 61, p pattern, e at next level, right associativity).

(** include/pas_machine.h:55-57 *)
Definition FNAME_SIZE : Z := 40.
Definition LINE_SIZE : Z := 256.
Definition MAX_OPEN_FILES : Z := 8.

(** include/pas_errcodes.h:356-376 *)
Definition eBADSYSIOFUNC := 0xa7. Definition eBADFILE := 0xb0. Definition eBADFILENAME := 0xb1.
Definition eFILENOTINUSE := 0xb2. Definition eTOOMANYFILES := 0xb3. Definition eFILENOTOPEN := 0xb4.
Definition eFILEALREADYOPEN := 0xb5. Definition eBADOPENMODE := 0xb6. Definition eOPENFAILED := 0xb7.
Definition eNOTOPENFORREAD := 0xb8. Definition eREADFAILED := 0xb9. Definition eNOTOPENFORWRITE := 0xba.
Definition eWRITEFAILED := 0xbb. Definition eFTELLFAILED := 0xbd.

(** include/pas_sysio.h *)
Definition xALLOCFILE := 0x01. Definition xFREEFILE := 0x02. Definition xEOF := 0x03. Definition xEOLN := 0x04.
Definition xFILEPOS := 0x05. Definition xFILESIZE := 0x06. Definition xSEEK := 0x07. Definition xSEEKEOF := 0x08.
Definition xSEEKEOLN := 0x09. Definition xASSIGNFILE := 0x0a. Definition xRESET := 0x0b. Definition xRESETR := 0x0c.
Definition xREWRITE := 0x0d. Definition xREWRITER := 0x0e. Definition xAPPEND := 0x0f. Definition xCLOSEFILE := 0x10.
Definition xREADLN := 0x11. Definition xREAD_BINARY := 0x13. Definition xREAD_INT := 0x14. Definition xREAD_CHAR := 0x15.
Definition xREAD_STRING := 0x16. Definition xREAD_REAL := 0x17. Definition xWRITELN := 0x18. Definition xWRITE_PAGE := 0x19.
Definition xWRITE_BINARY := 0x1a. Definition xWRITE_INT := 0x1b. Definition xWRITE_WORD := 0x1c.
Definition xWRITE_LONGINT := 0x1d. Definition xWRITE_LONGWORD := 0x1e. Definition xWRITE_CHAR := 0x1f.
Definition xWRITE_STRING := 0x20. Definition xWRITE_REAL := 0x21. Definition xFLUSH := 0x22.
Definition xCHDIR := 0x23. Definition xCLOSEDIR := 0x2b.

(** insn16/include/libexec.h:173-179 *)
Definition eOPEN_READ := 1. Definition eOPEN_WRITE := 2. Definition eOPEN_APPEND := 3.

(** Entry [n] of the table; the callers check that n is less than
    MAX_OPEN_FILES *)
Definition ent (t : io) (n : Z) : entry := nth (Z.to_nat n) (ftab t) no_entry.

Fixpoint set_nth (n : nat) (l : list entry) (e : entry) : list entry :=
  match n, l with
  | _, [] => []
  | O, _ :: r => e :: r
  | S n', x :: r => x :: set_nth n' r e
  end.

Definition put (t : io) (n : Z) (e : entry) : io := mkIo (set_nth (Z.to_nat n) (ftab t) e) (iob t).

Definition set_use (e : entry) b := mkEntry (e_name e) b (e_text e) (e_eoln e) (e_rec e) (e_str e) (e_mode e).
Definition set_eoln (e : entry) b := mkEntry (e_name e) (e_use e) (e_text e) b (e_rec e) (e_str e) (e_mode e).
Definition set_rec (e : entry) v := mkEntry (e_name e) (e_use e) (e_text e) (e_eoln e) v (e_str e) (e_mode e).
Definition set_str (e : entry) x := mkEntry (e_name e) (e_use e) (e_text e) (e_eoln e) (e_rec e) x (e_mode e).
Definition set_name (e : entry) n b := mkEntry n (e_use e) b (e_eoln e) (e_rec e) (e_str e) (e_mode e).
Definition set_mode (e : entry) m := mkEntry (e_name e) (e_use e) (e_text e) (e_eoln e) (e_rec e) (e_str e) m.

Definition is_open (e : entry) : bool := match e_str e with Some _ => true | None => false end.
Definition the_stream (e : entry) : stream := match e_str e with Some x => x | None => mkStream [] [] false end.

(** ** stdio *)

(** Characters up to and including the first newline, at most [n] *)
Fixpoint take_line (n : nat) (l : list Z) : list Z * list Z :=
  match n, l with
  | O, _ => ([], l)
  | _, [] => ([], [])
  | S n', c :: r => if c =? 10 then ([c], r) else let '(a, b) := take_line n' r in (c :: a, b)
  end.

(** fgets: None is NULL, without any change of the buffer *)
Definition fgets (size : Z) (x : stream) : option (list Z) * stream :=
  if size <=? 0 then (None, x)
  else
    let '(l, r) := take_line (Z.to_nat (size - 1)) (rest x) in
    match l with
    | [] => if size =? 1 then (Some [], x) else (None, mkStream [] (out x) true)
    | _ => (Some l, mkStream r (out x) (ate x || (Z.of_nat (length l) <? size - 1) && negb (last l 0 =? 10)))
    end.

(** The C string in a buffer: up to the first NUL *)
Fixpoint upto_nul (l : list Z) : list Z :=
  match l with [] => [] | c :: r => if c =? 0 then [] else c :: upto_nul r end.

(** isspace of the C locale *)
Definition isspace (c : Z) : bool := (c =? 32) || ((9 <=? c) && (c <=? 13)).

(** fprintf of an integer: decimal digits *)
Fixpoint digits (fuel : nat) (n : Z) : list Z :=
  match fuel with
  | O => []
  | S f => if n <? 10 then [48 + n] else digits f (n / 10) ++ [48 + n mod 10]
  end.

Definition decimal (v : Z) : list Z := if v <? 0 then 45 :: digits 10 (- v) else digits 10 v.

(** "%c", "%d" or "%u" with a field width, :2098-2120 libexec_GetFormat *)
Definition pad (width : Z) (l : list Z) : list Z := repeat 32 (Z.to_nat (width - Z.of_nat (length l))) ++ l.

(** ** Private functions *)

Definition isdigit (c : Z) : bool := (48 <=? c) && (c <=? 57).

(** :162-207 libexec_ConvertInteger *)
Fixpoint convert_digits (neg : bool) (value : Z) (l : list Z) : Z :=
  match l with
  | c :: r =>
    if isdigit c then
      let value := 10 * value + c - 48 in
      if 32767 <? value then (if neg then 32767 else 32768) else convert_digits neg value r
    else value
  | [] => value
  end.

Fixpoint skip_space (l : list Z) : list Z :=
  match l with c :: r => if isspace c then skip_space r else l | [] => [] end.

Definition convert_integer (l : list Z) : Z :=
  let l := skip_space l in
  match l with
  | c :: r =>
    if (c =? 43) || (c =? 45) then
      let v := convert_digits (c =? 45) 0 r in u16 (if c =? 45 then - v else v)
    else u16 (convert_digits false 0 l)
  | [] => 0
  end.

(** :275-296 libexec_CheckEoln: the contents of the buffer and whether it
    ended with newline *)
Definition check_eoln (l : list Z) : list Z * bool :=
  let l := upto_nul l in
  let len := Z.of_nat (length l) - 1 in
  if (0 <? len) && (last l 0 =? 10) then (removelast l, true) else (l, false).

(** :300-314 libexec_AllocateFile: the number of the first entry that is not in
    use *)
Fixpoint first_free (l : list entry) (n : Z) : Z :=
  match l with [] => n | e :: r => if e_use e then first_free r (n + 1) else n end.

Definition allocate_file (t : io) : Z * io :=
  let n := first_free (ftab t) 0 in
  if n <? MAX_OPEN_FILES then (n, put t n (set_use (ent t n) true)) else (n, t).

(** :436-455 libexec_CloseFile *)
Definition close_file (t : io) (n : Z) : Z * io :=
  if MAX_OPEN_FILES <=? n then (eBADFILE, t)
  else if negb (is_open (ent t n)) then (eFILENOTOPEN, t)
  else (eNOERROR, put t n (set_str (ent t n) None)).

(** :318-345 libexec_FreeFile *)
Definition free_file (t : io) (n : Z) : Z * io :=
  if MAX_OPEN_FILES <=? n then (eBADFILE, t)
  else if negb (e_use (ent t n)) then (eFILENOTINUSE, t)
  else
    let t := if is_open (ent t n) then snd (close_file t n) else t in
    (eNOERROR, put t n no_entry).

(** :349-380 libexec_AssignFile; the name is the C string in fileName *)
Definition assign_file (s : st) (t : io) (n : Z) (text : bool) (addr size : Z) : option (Z * io) :=
  if MAX_OPEN_FILES <=? n then Some (eBADFILE, t)
  else if FNAME_SIZE <? size then Some (eBADFILENAME, t)
  else name <-? rdbs (Z.to_nat size) s addr ;; Some (eNOERROR, put t n (set_name (ent t n) name text)).

(** :384-432 libexec_OpenFile; a stream opened for reading has the contents of
    the file *)
Definition open_file (e : env) (t : io) (n mode : Z) : Z * io :=
  if MAX_OPEN_FILES <=? n then (eBADFILE, t)
  else if is_open (ent t n) then (eFILEALREADYOPEN, t)
  else match e_open e with
       | None => (eOPENFAILED, t)
       | Some l =>
         let x := mkStream (if mode =? eOPEN_READ then l else []) [] false in
         (eNOERROR, put t n (set_mode (set_str (ent t n) (Some x)) mode))
       end.

(** :459-474 libexec_RecordSize *)
Definition record_size (t : io) (n size : Z) : Z * io :=
  if MAX_OPEN_FILES <=? n then (eBADFILE, t) else (eNOERROR, put t n (set_rec (ent t n) size)).

(** :478-497 libexec_CheckReadAccess *)
Definition check_read (t : io) (n : Z) : Z :=
  if MAX_OPEN_FILES <=? n then eBADFILE
  else if negb (is_open (ent t n)) || negb (e_mode (ent t n) =? eOPEN_READ) then eNOTOPENFORREAD else eNOERROR.

(** :660-680 libexec_CheckWriteAccess *)
Definition check_write (t : io) (n : Z) : Z :=
  if MAX_OPEN_FILES <=? n then eBADFILE
  else if negb (is_open (ent t n)) || negb ((e_mode (ent t n) =? eOPEN_WRITE) || (e_mode (ent t n) =? eOPEN_APPEND))
       then eNOTOPENFORWRITE else eNOERROR.

Definition put_stream (t : io) (n : Z) (x : stream) : io := put t n (set_str (ent t n) (Some x)).

(** Skip to the end of the line: what is left and whether the end of the file
    was found *)
Fixpoint skip_line (l : list Z) : list Z * bool :=
  match l with [] => ([], true) | c :: r => if c =? 10 then (r, false) else skip_line r end.

(** :501-523 libexec_ReadLn *)
Definition read_ln (s : st) (t : io) (n : Z) : sres :=
  let c := check_read t n in
  if negb (c =? eNOERROR) then SR c s t
  else if e_eoln (ent t n) then SR eNOERROR s (put t n (set_eoln (ent t n) false))
  else
    let x := the_stream (ent t n) in
    let '(r, eof) := skip_line (rest x) in
    SR eNOERROR s (put_stream t n (mkStream r (out x) (ate x || eof))).

(** :527-542 libexec_ReadBinary *)
Definition read_binary (e : env) (s : st) (t : io) (n addr size : Z) : sres :=
  let c := check_read t n in
  if negb (c =? eNOERROR) then SR c s t
  else if e_fail e then SR eREADFAILED s t
  else
    let x := the_stream (ent t n) in
    let l := firstn (Z.to_nat size) (rest x) in
    s <* wrbs s addr l ;;
    SR eNOERROR s (put_stream t n (mkStream (skipn (Z.to_nat size) (rest x)) (out x)
                                            (ate x || (Z.of_nat (length l) <? size)))).

(** The part common to libexec_ReadInteger and libexec_ReadChar: fgets into
    ioBuffer and libexec_CheckEoln *)
Definition read_line (e : env) (t : io) (n : Z) : Z * io :=
  let c := check_read t n in
  if negb (c =? eNOERROR) then (c, t)
  else if e_fail e then (eREADFAILED, mkIo (ftab t) (e_junk e))
  else
    let '(l, x) := fgets LINE_SIZE (the_stream (ent t n)) in
    let '(b, eoln) := check_eoln (match l with Some l => l | None => iob t end) in
    let t := put_stream t n x in
    let t := put t n (set_eoln (ent t n) eoln) in
    (eNOERROR, mkIo (ftab t) b).

(** :546-568 libexec_ReadInteger *)
Definition read_integer (e : env) (s : st) (t : io) (n addr : Z) : sres :=
  let '(c, t) := read_line e t n in
  if negb (c =? eNOERROR) then SR c s t
  else shout (hput s addr 0 (convert_integer (iob t))) (fun s => SR eNOERROR s t).

(** :572-594 libexec_ReadChar *)
Definition read_char (e : env) (s : st) (t : io) (n addr : Z) : sres :=
  let '(c, t) := read_line e t n in
  if negb (c =? eNOERROR) then SR c s t
  else s <* wrb s addr (hd 0 (iob t)) ;; SR eNOERROR s t.

(** :598-632 libexec_ReadString *)
Definition read_string (e : env) (s : st) (t : io) (n var : Z) : sres :=
  let c := check_read t n in
  if negb (c =? eNOERROR) then SR c s t
  else
    shout (al <~ hget s var 2 ;; addr <~ hget s var 1 ;; HV (al, addr)) (fun '(al, addr) =>
    if e_fail e then SR eREADFAILED s t
    else
      let '(l, x) := fgets (Z.land al HEAP_SIZE_MASK) (the_stream (ent t n)) in
      let t := put_stream t n x in
      s <* (match l with Some l => wrbs s addr (l ++ [0]) | None => Some s end) ;;
      b <* cstr cstr_bound s addr ;;
      let '(b, eoln) := check_eoln b in
      s <* (if eoln then wrb s (addr + Z.of_nat (length b)) 0 else Some s) ;;
      shout (hput s var 0 (Z.of_nat (length b)))
        (fun s => SR eNOERROR s (put t n (set_eoln (ent t n) eoln)))).

(** Output of characters *)
Definition emit (t : io) (n : Z) (l : list Z) : io :=
  let x := the_stream (ent t n) in put_stream t n (mkStream (rest x) (out x ++ l) (ate x)).

(** :703-796 libexec_WriteInteger, libexec_WriteLongInteger, libexec_WriteWord,
    libexec_WriteLongWord, libexec_WriteChar *)
Definition write_text (e : env) (s : st) (t : io) (n width : Z) (l : list Z) : sres :=
  let c := check_write t n in
  if negb (c =? eNOERROR) then SR c s t
  else if e_fail e then SR eWRITEFAILED s t
  else SR eNOERROR s (emit t n (pad (width / 256) l)).

(** :684-699 libexec_WriteBinary: a failure is not noticed, the result of
    fwrite is not negative *)
Definition write_binary (e : env) (s : st) (t : io) (n addr size : Z) : sres :=
  let c := check_write t n in
  if negb (c =? eNOERROR) then SR c s t
  else
    l <* rdbs (Z.to_nat size) s addr ;;
    SR eNOERROR s (if e_fail e then t else emit t n l).

(** :820-855 libexec_WriteString *)
Definition write_string (e : env) (s : st) (t : io) (n addr size al width : Z) : sres :=
  let c := check_write t n in
  if negb (c =? eNOERROR) then SR c s t
  else
    l <* rdbs (Z.to_nat size) s addr ;;
    let t := if e_fail e then t else emit t n (pad (width / 256) l) in
    shout (free_tmp s addr al) (fun '(s, _) => SR eNOERROR s t).

(** :859-870 libexec_Flush *)
Definition flush (s : st) (t : io) (n : Z) : sres := SR (check_write t n) s t.

(** PASCAL_TRUE is -1, include/pas_machine.h:144 *)
Definition pbool (b : bool) : Z := if b then 65535 else 0.

(** :921-972 libexec_Eof; the position of a file is its end if nothing is left
    to read *)
Definition eof (e : env) (s : st) (t : io) (n : Z) : sres :=
  let '(c, b) :=
    if MAX_OPEN_FILES <=? n then (eBADFILE, true)
    else if negb (is_open (ent t n)) then (eFILENOTOPEN, true)
    else if ate (the_stream (ent t n)) then (eNOERROR, true)
    else if n =? 0 then (eNOERROR, false)
    else if e_fail e then (eFTELLFAILED, true)
    else (eNOERROR, match rest (the_stream (ent t n)) with [] => true | _ => false end) in
  s <* push s (pbool b) ;; SR c s t.

(** :976-995 libexec_Eoln *)
Definition eoln (s : st) (t : io) (n : Z) : sres :=
  let '(c, b) := if MAX_OPEN_FILES <=? n then (eBADFILE, true) else (eNOERROR, e_eoln (ent t n)) in
  s <* push s (pbool b) ;; SR c s t.

(** :1108-1153, 1157-1202 libexec_SeekEof, libexec_SeekEoln: what is left and the
    result *)
Fixpoint seek_white (stop : bool) (l : list Z) : list Z * bool * bool :=
  match l with
  | [] => ([], negb stop, true)
  | c :: r => if stop && (c =? 10) then (r, true, false) else if isspace c then seek_white stop r else (r, false, false)
  end.

Definition seek_op (stop : bool) (s : st) (t : io) (n : Z) : sres :=
  if MAX_OPEN_FILES <=? n then s <* push s 0 ;; SR eBADFILE s t
  else if negb (is_open (ent t n)) then s <* push s 0 ;; SR eFILENOTOPEN s t
  else
    let x := the_stream (ent t n) in
    let '(r, b, a) := seek_white stop (rest x) in
    s <* push s (pbool b) ;; SR eNOERROR s (put_stream t n (mkStream r (out x) (ate x || a))).

(** ** Public functions *)

(** :1208-1238 libexec_InitializeFile; [inp] is what can be read from stdin *)
Definition initialize_file (inp : list Z) (b : list Z) : io :=
  mkIo ([mkEntry [73; 78; 80; 85; 84] true true false 1 (Some (mkStream inp [] false)) eOPEN_READ;
         mkEntry [79; 85; 84; 80; 85; 84] true true false 1 (Some (mkStream [] [] false)) eOPEN_WRITE] ++
        repeat no_entry 6) b.

Definition done (s : st) (r : Z * io) : sres := SR (fst r) s (snd r).

(** :1249-2094 libexec_sysio *)
Definition sysio (e : env) (s : st) (t : io) (f : Z) : sres :=
  if f =? xALLOCFILE then
    let '(n, t) := allocate_file t in
    s <* push s n ;; SR (if MAX_OPEN_FILES <=? n then eTOOMANYFILES else eNOERROR) s t
  else if f =? xFREEFILE then '(n, s) <* pop s ;; done s (free_file t n)
  else if f =? xEOF then '(n, s) <* pop s ;; eof e s t n
  else if f =? xEOLN then '(n, s) <* pop s ;; eoln s t n
  else if f =? xSEEKEOF then '(n, s) <* pop s ;; seek_op false s t n
  else if f =? xSEEKEOLN then '(n, s) <* pop s ;; seek_op true s t n
  else if f =? xASSIGNFILE then
    '(addr, s) <* pop (discard s 1) ;; '(size, s) <* pop s ;; '(text, s) <* pop s ;; '(n, s) <* pop s ;;
    r <* assign_file s t n (negb (text =? 0)) addr size ;; done s r
  else if f =? xRESET then '(n, s) <* pop s ;; done s (open_file e t n eOPEN_READ)
  else if f =? xRESETR then
    '(size, s) <* pop s ;; '(n, s) <* pop s ;; done s (record_size (snd (open_file e t n eOPEN_READ)) n size)
  else if f =? xREWRITE then '(n, s) <* pop s ;; done s (open_file e t n eOPEN_WRITE)
  else if f =? xREWRITER then
    '(size, s) <* pop s ;; '(n, s) <* pop s ;; done s (record_size (snd (open_file e t n eOPEN_WRITE)) n size)
  else if f =? xAPPEND then '(n, s) <* pop s ;; done s (open_file e t n eOPEN_APPEND)
  else if f =? xCLOSEFILE then '(n, s) <* pop s ;; done s (close_file t n)
  else if f =? xREADLN then '(n, s) <* pop s ;; read_ln s t n
  else if f =? xREAD_BINARY then
    '(addr, s) <* pop s ;; '(size, s) <* pop s ;; '(n, s) <* pop s ;; read_binary e s t n addr size
  else if f =? xREAD_INT then '(addr, s) <* pop s ;; '(n, s) <* pop s ;; read_integer e s t n addr
  else if f =? xREAD_CHAR then '(addr, s) <* pop s ;; '(n, s) <* pop s ;; read_char e s t n addr
  else if f =? xREAD_STRING then '(addr, s) <* pop s ;; '(n, s) <* pop s ;; read_string e s t n addr
  else if f =? xWRITELN then '(n, s) <* pop s ;; write_text e s t n 0 [10]
  else if f =? xWRITE_PAGE then '(n, s) <* pop s ;; write_text e s t n 0 [12]
  else if f =? xWRITE_BINARY then
    '(addr, s) <* pop s ;; '(size, s) <* pop s ;; '(n, s) <* pop s ;; write_binary e s t n addr size
  else if f =? xWRITE_INT then
    '(w, s) <* pop s ;; '(v, s) <* pop s ;; '(n, s) <* pop s ;; write_text e s t n w (decimal (s16 v))
  else if f =? xWRITE_WORD then
    '(w, s) <* pop s ;; '(v, s) <* pop s ;; '(n, s) <* pop s ;; write_text e s t n w (decimal v)
  else if f =? xWRITE_LONGINT then
    '(w, s) <* pop s ;; '(hi, s) <* pop s ;; '(lo, s) <* pop s ;; '(n, s) <* pop s ;;
    write_text e s t n w (decimal (s32 (lo + 65536 * hi)))
  else if f =? xWRITE_LONGWORD then
    '(w, s) <* pop s ;; '(hi, s) <* pop s ;; '(lo, s) <* pop s ;; '(n, s) <* pop s ;;
    write_text e s t n w (decimal (lo + 65536 * hi))
  else if f =? xWRITE_CHAR then
    '(w, s) <* pop s ;; '(v, s) <* pop s ;; '(n, s) <* pop s ;; write_text e s t n w [u8 v]
  else if f =? xWRITE_STRING then
    '(w, s) <* pop s ;; '(al, s) <* pop s ;; '(addr, s) <* pop s ;; '(size, s) <* pop s ;; '(n, s) <* pop s ;;
    write_string e s t n addr size al w
  else if f =? xFLUSH then '(n, s) <* pop s ;; flush s t n
  else if (f =? xFILEPOS) || (f =? xFILESIZE) || (f =? xSEEK) || (f =? xREAD_REAL) || (f =? xWRITE_REAL) ||
          ((xCHDIR <=? f) && (f <=? xCLOSEDIR)) then SX
  else SR eBADSYSIOFUNC s t.
