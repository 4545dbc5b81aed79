(** The object file library: libpoff/pfhandle.c, pfwrite.c, pfread.c, pfswap.c,
    pfwstring.c, pfrstring.c, pflineno.c and libpas/pswap.c.  Definitions only.

    Simplifications: host memory does not run out, reading and writing the file
    itself does not fail except at the end of the file, the size of a section
    is the length of its data, the padding byte of the file header is 0, and the
    string table is below 2 GB (poffFindString returns an int32_t). *)

From Coq Require Import ZArith Bool List.
From Verif Require Import Words.
Import ListNotations.
Open Scope Z_scope.

(** ** Bytes of the host *)

(** The bytes of a value, least significant first *)
Fixpoint le (w : nat) (v : Z) : list Z :=
  match w with O => [] | S w' => v mod 256 :: le w' (v / 256) end.

Fixpoint de (l : list Z) : Z :=
  match l with [] => 0 | b :: t => b + 256 * de t end.

(** In memory: [sw] = CONFIG_POFF_SWAPNEEDED, a little-endian host
    (include/paslib.h:56-64) *)
Definition host (sw : bool) (w : nat) (v : Z) : list Z := if sw then le w v else rev (le w v).
Definition unhost (sw : bool) (l : list Z) : Z := de (if sw then l else rev l).

(** libpas/pswap.c:50-58 poffSwap16, poffSwap32 *)
Definition swap16 (v : Z) : Z := u16 (Z.lor (Z.shiftr v 8) (Z.shiftl v 8)).
Definition swap32 (v : Z) : Z :=
  Z.lor (Z.lor (Z.lor (Z.shiftr v 24) (Z.land (Z.shiftr v 8) 0x0000ff00))
               (Z.land (u32 (Z.shiftl v 8)) 0x00ff0000))
        (u32 (Z.shiftl v 24)).

(** poff16, poff32 *)
Definition poff_swap (sw : bool) (w : nat) (v : Z) : Z :=
  if sw then match w with 2%nat => swap16 v | 4%nat => swap32 v | _ => v end else v.

(** A field of a structure written to or read from the file *)
Definition put (sw : bool) (w : nat) (v : Z) : list Z := host sw w (poff_swap sw w v).
Definition get (sw : bool) (w : nat) (l : list Z) : Z := poff_swap sw w (unhost sw (firstn w l)).

(** ** Sections *)

Inductive kind := KText | KRo | KSym | KStr | KRel | KFiles | KLines | KDbg.

Definition kind_eqb (a b : kind) : bool :=
  match a, b with
  | KText, KText | KRo, KRo | KSym, KSym | KStr, KStr | KRel, KRel | KFiles, KFiles | KLines, KLines | KDbg, KDbg => true
  | _, _ => false
  end.

(** Header fields kept in memory, the section data in host order, and the size
    of the buffer that holds it *)
Record sect := mkSect { s_flags : Z; s_entsize : Z; s_addr : Z; s_data : list Z; s_alloc : Z }.

(** The container (poffInfo_t).  An empty string table section means that the
    string table is not allocated. *)
Record poff := mkPoff { p_type : Z; p_arch : Z; p_name : Z; p_entry : Z; p_sect : kind -> sect }.

Definition data (p : poff) (k : kind) : list Z := s_data (p_sect p k).

(** libpoff/pfhandle.c:56-117 poffCreateHandle *)
Definition sh_type (k : kind) : Z :=
  match k with KText => 1 | KRo => 1 | KSym => 2 | KStr => 3 | KRel => 4 | KFiles => 5 | KLines => 6 | KDbg => 7 end.
Definition sh_flags0 (k : kind) : Z := match k with KText => 6 | KRo => 3 | _ => 0 end.
Definition sh_entsize0 (k : kind) : Z :=
  match k with KSym => 16 | KRel => 8 | KFiles => 4 | KLines => 8 | KDbg => 12 | _ => 0 end.
Definition sect0 (k : kind) : sect := mkSect (sh_flags0 k) (sh_entsize0 k) 0 [] 0.

(** ** String table *)

(** strlen: the C string at the head of [l] and what follows its NUL; None: it
    is not terminated *)
Fixpoint cstr (l : list Z) : option (list Z * list Z) :=
  match l with
  | [] => None
  | b :: t => if b =? 0 then Some ([], t)
              else match cstr t with Some (s, r) => Some (b :: s, r) | None => None end
  end.

Fixpoint bytes_eqb (a b : list Z) : bool :=
  match a, b with
  | [], [] => true
  | x :: a', y :: b' => (x =? y) && bytes_eqb a' b'
  | _, _ => false
  end.

(** libpoff/pfwstring.c:64-98 poffFindString, the search from [offset] in the
    rest [l] of the table; None: strlen or strcmp runs off the table; Some None:
    not found *)
Fixpoint find_string (n : nat) (l : list Z) (offset : Z) (s : list Z) : option (option Z) :=
  match n with
  | O => None
  | S n' =>
    match l with
    | [] => Some None
    | _ => match cstr l with
           | None => None
           | Some (t, rest) =>
             if bytes_eqb t s then Some (Some offset)
             else find_string n' rest (offset + Z.of_nat (length t) + 1) s
           end
    end
  end.

(** libpoff/pfwstring.c:106-196 poffAddString; [s] = None is the NULL pointer.
    Result: the table and the index *)
Definition add_string (tab : list Z) (s : option (list Z)) : option (list Z * Z) :=
  let tab := match tab with [] => [0] | _ => tab end in
  match s with
  | None => Some (tab, 0)
  | Some s =>
    match find_string (S (length tab)) tab 0 s with
    | None => None
    | Some (Some i) => Some (tab, i)
    | Some None =>
      if (length s =? 0)%nat then Some (tab, 0)
      else Some (tab ++ s ++ [0], Z.of_nat (length tab))
    end
  end.

(** "<NULL>" *)
Definition null_name : list Z := [60; 78; 85; 76; 76; 62].

(** libpoff/pfrstring.c:61-75 poffGetString; None: the string runs off the table *)
Definition get_string (tab : list Z) (i : Z) : option (list Z) :=
  if i <? Z.of_nat (length tab)
  then match cstr (skipn (Z.to_nat i) tab) with Some (s, _) => Some s | None => None end
  else Some null_name.

(** ** Swapping *)

(** A field of [w] bytes at [k] replaced by its swapped value.  Beyond the data
    but within the buffer nothing visible changes; beyond the buffer, or half
    inside the data: undefined *)
Definition swap_field (w k : nat) (alloc : Z) (d : list Z) : option (list Z) :=
  if (k + w <=? length d)%nat
  then Some (firstn k d ++ le w (poff_swap true w (de (firstn w (skipn k d)))) ++ skipn (k + w) d)
  else if (length d <=? k)%nat && (Z.of_nat (k + w) <=? alloc) then Some d
  else None.

Definition obind {A B} (x : option A) (f : A -> option B) : option B :=
  match x with Some a => f a | None => None end.

Fixpoint swap_fields (fs : list (nat * nat)) (k : nat) (alloc : Z) (d : list Z) : option (list Z) :=
  match fs with
  | [] => Some d
  | (o, w) :: rest => obind (swap_field w (k + o) alloc d) (swap_fields rest k alloc)
  end.

(** libpoff/pfswap.c:51-107: offset and width of the swapped fields of an entry *)
Definition sym_fields : list (nat * nat) := [(4, 4); (8, 4); (12, 4)]%nat.
Definition rel_fields : list (nat * nat) := [(0, 4); (4, 4)]%nat.
Definition file_fields : list (nat * nat) := [(0, 4)]%nat.
Definition line_fields : list (nat * nat) := [(0, 2); (2, 2); (4, 4)]%nat.
Definition dbg_fields : list (nat * nat) := [(0, 4); (4, 4); (8, 4)]%nat.

(** libpoff/pfswap.c:139-207: the loop over the entries; [scale] is the element
    size of the array that is indexed with [index] (uint8_t, but uint32_t for
    the file table).  Fuel [n]; None also if the loop does not end. *)
Fixpoint swap_loop (n : nat) (fs : list (nat * nat)) (scale index entsize size : Z) (alloc : Z) (d : list Z) : option (list Z) :=
  match n with
  | O => None
  | S n' =>
    if index <? size
    then obind (swap_fields fs (Z.to_nat (scale * index)) alloc d)
               (swap_loop n' fs scale (index + entsize) entsize size alloc)
    else Some d
  end.

(** libpoff/pfswap.c:220-228: the loop over the [n] arguments of a function *)
Fixpoint swap_args (fuel : nat) (n : Z) (i : nat) (alloc : Z) (d : list Z) : option (list Z * nat) :=
  if n <=? 0 then Some (d, i)
  else match fuel with
       | O => None
       | S f => obind (swap_field 4 i alloc d) (swap_args f (n - 1) (i + 4) alloc)
       end.

(** libpoff/pfswap.c:211-233 poffSwapDebugData; the bound is the size of the
    relocation section.  df_nparms is read after it was swapped. *)
Fixpoint swap_debug (fuel : nat) (i : nat) (relsize : Z) (alloc : Z) (d : list Z) : option (list Z) :=
  match fuel with
  | O => None
  | S f =>
    if Z.of_nat i + 12 <? relsize
    then obind (swap_fields dbg_fields i alloc d) (fun d' =>
         if (i + 12 <=? length d')%nat
         then obind (swap_args (S (length d' + Z.to_nat alloc)) (de (firstn 4 (skipn (i + 8) d'))) (i + 12) alloc d')
                    (fun '(d'', i') => swap_debug f i' relsize alloc d'')
         else None)
    else Some d
  end.

(** Swapping the data of a section *)
Definition swap_data (sw : bool) (relsize : Z) (k : kind) (s : sect) : option (list Z) :=
  let d := s_data s in
  let size := Z.of_nat (length d) in
  let loop fs scale := swap_loop (S (length d)) fs scale 0 (s_entsize s) size (s_alloc s) d in
  if sw then
    match k with
    | KSym => loop sym_fields 1
    | KRel => loop rel_fields 1
    | KFiles => loop file_fields 4
    | KLines => loop line_fields 1
    | KDbg => swap_debug (S (Z.to_nat relsize)) 0 relsize (s_alloc s) d
    | _ => Some d
    end
  else Some d.

(** ** Writing *)

(** Names of the sections, libpoff/pfwrite.c:155-318 *)
Definition sect_name (k : kind) : list Z :=
  match k with
  | KText => [46; 116; 101; 120; 116]
  | KRo => [46; 114; 111; 100; 97; 116; 97]
  | KSym => [46; 115; 121; 109; 116; 97; 98]
  | KStr => [46; 115; 116; 114; 116; 97; 98]
  | KRel => [46; 114; 101; 108]
  | KFiles => [46; 102; 105; 108; 101; 116; 97; 98]
  | KLines => [46; 108; 105; 110; 101; 110; 111]
  | KDbg => [46; 100; 98; 103; 102; 117; 110; 99]
  end.

(** The order of the sections in the file; the string table comes last *)
Definition order : list kind := [KText; KRo; KSym; KRel; KFiles; KLines; KDbg].

Definition have (p : poff) (k : kind) : bool := match data p k with [] => false | _ => true end.

Definition FH_SIZE : Z := 24.
Definition SH_SIZE : Z := 20.

(** include/poff.h:163-214 the file header; libpoff/pfwrite.c:100-125 *)
Definition file_header (sw : bool) (p : poff) (shnum : Z) : list Z :=
  [80; 79; 70; 70; 1; u8 (p_type p); u8 (p_arch p); 0] ++
  put sw 2 SH_SIZE ++ put sw 2 shnum ++ put sw 4 (p_name p) ++ put sw 4 (p_entry p) ++ put sw 4 FH_SIZE.

(** include/poff.h:220-262 a section header *)
Definition section_header (sw : bool) (k : kind) (s : sect) (name offset size : Z) : list Z :=
  [sh_type k; u8 (s_flags s)] ++
  put sw 2 (s_entsize s) ++ put sw 4 name ++ put sw 4 (s_addr s) ++ put sw 4 offset ++ put sw 4 size.

(** libpoff/pfwrite.c:146-332 poffWriteSectionHeaders, up to the string table:
    the headers, the string table and the next data offset *)
Fixpoint write_headers (sw : bool) (p : poff) (ks : list kind) (tab : list Z) (offset : Z) : option (list Z * list Z * Z) :=
  match ks with
  | [] => Some ([], tab, offset)
  | k :: rest =>
    if have p k then
      obind (add_string tab (Some (sect_name k))) (fun '(tab', name) =>
      let size := Z.of_nat (length (data p k)) in
      obind (write_headers sw p rest tab' (offset + size)) (fun '(h, tab'', offset') =>
      Some (section_header sw k (p_sect p k) name offset size ++ h, tab'', offset')))
    else write_headers sw p rest tab offset
  end.

(** libpoff/pfwrite.c:336-514 poffWriteSectionData, up to the string table *)
Fixpoint write_data (sw : bool) (p : poff) (ks : list kind) : option (list Z) :=
  match ks with
  | [] => Some []
  | k :: rest =>
    if have p k then
      obind (swap_data sw (Z.of_nat (length (data p KRel))) k (p_sect p k)) (fun d =>
      obind (write_data sw p rest) (fun ds => Some (d ++ ds)))
    else write_data sw p rest
  end.

(** libpoff/pfwrite.c:522-527 poffWriteFile: the bytes of the file *)
Definition write_file (sw : bool) (p : poff) : option (list Z) :=
  let shnum := 1 + Z.of_nat (length (filter (have p) order)) in
  obind (write_headers sw p order (data p KStr) (FH_SIZE + shnum * SH_SIZE)) (fun '(h, tab, offset) =>
  obind (add_string tab (Some (sect_name KStr))) (fun '(tab', name) =>
  obind (write_data sw p order) (fun d =>
  Some (file_header sw p shnum ++ h ++
        section_header sw KStr (p_sect p KStr) name offset (Z.of_nat (length tab')) ++ d ++ tab')))).

(** ** Reading *)

Inductive rres (A : Type) := RErr | RUB | ROk (a : A).
Arguments RErr {A}. Arguments RUB {A}. Arguments ROk {A} a.

Definition rbind {A B} (x : rres A) (f : A -> rres B) : rres B :=
  match x with RErr => RErr | RUB => RUB | ROk a => f a end.

(** fseek and fread of [n] bytes at [o] *)
Definition slice (file : list Z) (o n : Z) : option (list Z) :=
  if o + n <=? Z.of_nat (length file) then Some (firstn (Z.to_nat n) (skipn (Z.to_nat o) file)) else None.

(** Section headers read so far *)
Record rhdr := mkRhdr { r_flags : Z; r_entsize : Z; r_addr : Z; r_offset : Z; r_size : Z }.
Definition rhdr0 (k : kind) : rhdr := mkRhdr (sh_flags0 k) (sh_entsize0 k) 0 0 0.

(** libpoff/pfread.c:149-190 *)
Definition kind_of (type flags : Z) : option kind :=
  if type =? 1 then Some (if Z.land flags 4 =? 0 then KRo else KText)
  else if type =? 2 then Some KSym else if type =? 3 then Some KStr else if type =? 4 then Some KRel
  else if type =? 5 then Some KFiles else if type =? 6 then Some KLines else if type =? 7 then Some KDbg
  else None.

(** libpoff/pfread.c:115-199 poffReadSectionHeaders *)
Fixpoint read_headers (sw : bool) (file : list Z) (n : nat) (offset shsize : Z) (hs : kind -> rhdr) : rres (kind -> rhdr) :=
  match n with
  | O => ROk hs
  | S n' =>
    match slice file offset SH_SIZE with
    | None => RErr
    | Some b =>
      let type := nth 0 b 0 in
      let flags := nth 1 b 0 in
      match kind_of type flags with
      | None => RErr
      | Some k =>
        let h := mkRhdr flags (get sw 2 (skipn 2 b)) (get sw 4 (skipn 8 b)) (get sw 4 (skipn 12 b)) (get sw 4 (skipn 16 b)) in
        read_headers sw file n' (offset + shsize) shsize (fun k' => if kind_eqb k' k then h else hs k')
      end
    end
  end.

(** The order of reading, libpoff/pfread.c:239-340 *)
Definition read_order : list kind := [KText; KRo; KSym; KStr; KRel; KFiles; KLines; KDbg].

(** libpoff/pfread.c:203-340 poffReadSectionData, poffReadAllSectionData *)
Fixpoint read_data (sw : bool) (file : list Z) (hs : kind -> rhdr) (ks : list kind) (ss : kind -> sect) : rres (kind -> sect) :=
  match ks with
  | [] => ROk ss
  | k :: rest =>
    let h := hs k in
    if r_size h =? 0
    then read_data sw file hs rest (fun k' => if kind_eqb k' k then mkSect (r_flags h) (r_entsize h) (r_addr h) [] 0 else ss k')
    else match slice file (r_offset h) (r_size h) with
         | None => RErr
         | Some d =>
           match swap_data sw (r_size (hs KRel)) k (mkSect (r_flags h) (r_entsize h) (r_addr h) d (r_size h)) with
           | None => RUB
           | Some d' =>
             read_data sw file hs rest (fun k' => if kind_eqb k' k then mkSect (r_flags h) (r_entsize h) (r_addr h) d' (r_size h) else ss k')
           end
         end
  end.

(** libpoff/pfread.c:76-111, 350-367 poffReadFileHeader, poffReadFile on a new
    handle *)
Definition read_file (sw : bool) (file : list Z) : rres poff :=
  match slice file 0 FH_SIZE with
  | None => RErr
  | Some b =>
    if bytes_eqb (firstn 5 b) [80; 79; 70; 70; 1]
    then
      let shsize := get sw 2 (skipn 8 b) in
      let shnum := get sw 2 (skipn 10 b) in
      let shoff := get sw 4 (skipn 20 b) in
      rbind (read_headers sw file (Z.to_nat shnum) shoff shsize rhdr0) (fun hs =>
      rbind (read_data sw file hs read_order sect0) (fun ss =>
      ROk (mkPoff (nth 5 b 0) (nth 6 b 0) (get sw 4 (skipn 12 b)) (get sw 4 (skipn 16 b)) ss)))
    else RErr
  end.

(** ** Line numbers *)

(** The search of poffFindLineNumber, libpoff/pflineno.c:264-309, on the table
    of offsets; result lineNumberIndex.  [n] is fuel; None: index out of the
    table or no end *)
Fixpoint line_loop (n : nat) (tab : list Z) (offset : Z) (first last index : nat) : option nat :=
  if (first =? last)%nat then Some index
  else match n with
  | O => None
  | S n' =>
    let mid := Nat.div2 (first + last) in
    match nth_error tab mid with
    | None => None
    | Some m =>
      if offset <? m then line_loop n' tab offset first mid mid
      else if m =? offset then Some mid
      else match nth_error tab (S mid) with
           | None => None
           | Some m' => if offset <? m' then Some mid else line_loop n' tab offset (S mid) last mid
           end
    end
  end.

(** libpoff/pflineno.c:226-326 poffFindLineNumber; [prev] is
    g_prevLineNumberIndex.  Result: the index of the entry or None (NULL), and
    the new g_prevLineNumberIndex.  The outer None: undefined. *)
Definition find_line (tab : list Z) (prev : nat) (offset : Z) : option (option nat * nat) :=
  match tab with
  | [] => Some (None, prev)
  | _ =>
    match nth_error tab prev with
    | None => None
    | Some m =>
      let '(first, last) := if m <=? offset then (prev, (length tab - 1)%nat) else (O, prev) in
      obind (line_loop (length tab) tab offset first last first) (fun i =>
      match nth_error tab i with
      | None => None
      | Some m => if offset <? m then Some (None, O) else Some (Some i, i)
      end)
    end
  end.

(** A sequence of lookups: the state after it *)
Fixpoint lookups (tab : list Z) (prev : nat) (os : list Z) : option nat :=
  match os with
  | [] => Some prev
  | o :: rest => obind (find_line tab prev o) (fun '(_, prev') => lookups tab prev' rest)
  end.
