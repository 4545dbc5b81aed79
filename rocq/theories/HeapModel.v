(** The heap of the p-machine, insn16/libexec/libexec_heap.c.  Definitions only.

    A chunk header consists of 16-bit words of the data stack (:101-123; bit
    fields are allocated from the least significant bit):
      0: forward (15 bits), inUse (1 bit)     1: back (15 bits), pad1
      2: address                              3: pad2
    and for a free chunk
      4: prev   5: next   6, 7: pad
    Access to a misaligned header is undefined.  st->freeChunks is [fch], the
    address of the chunk in dstack or -1 for NULL.  Debug output is omitted. *)

From Coq Require Import ZArith Bool List.
From Verif Require Import Words State.
Import ListNotations.
Open Scope Z_scope.

(** :58-62 *)
Definition UNIT : Z := 16.
Definition alignup (a : Z) : Z := (a + 15) / 16 * 16.
Definition aligndown (a : Z) : Z := a / 16 * 16.
Definition CHUNK : Z := 8.        (* sizeof(memChunk_t) *)
Definition FREECHUNK : Z := 16.   (* sizeof(freeChunk_t) *)
Definition NULL : Z := -1.

(** Result of a function of the library *)
Inductive hr (A : Type) := HV (a : A) | HU | HH.
Arguments HV {A} a. Arguments HU {A}. Arguments HH {A}.

Definition hbind {A B} (x : hr A) (f : A -> hr B) : hr B :=
  match x with HV a => f a | HU => HU | HH => HH end.
Definition hopt {A} (o : option A) : hr A := match o with Some a => HV a | None => HU end.

(** The result as seen by the interpreter *)
Definition hout {A} (x : hr A) (f : A -> outcome) : outcome :=
  match x with HV a => f a | HU => UB | HH => Hang end.

Notation "x <~ e ;; k" := (hbind e (fun x => k)) (at level 61, e at next level, right associativity).
Notation "' p <~ e ;; k" := (hbind e (fun p => k)) (at level 61, p pattern, e at next level, right associativity).

(** Word [k] of the header at [a] *)
Definition hget (s : st) (a k : Z) : hr Z := if a mod 2 =? 0 then hopt (rd s (a / 2 + k)) else HU.
Definition hput (s : st) (a k v : Z) : hr st := if a mod 2 =? 0 then hopt (wr s (a / 2 + k) v) else HU.

Definition forward (s : st) (a : Z) : hr Z := w <~ hget s a 0 ;; HV (w mod 32768).
Definition in_use (s : st) (a : Z) : hr bool := w <~ hget s a 0 ;; HV (32768 <=? w).
Definition back (s : st) (a : Z) : hr Z := w <~ hget s a 1 ;; HV (w mod 32768).
Definition address (s : st) (a : Z) : hr Z := hget s a 2.
Definition prev (s : st) (a : Z) : hr Z := hget s a 4.
Definition next (s : st) (a : Z) : hr Z := hget s a 5.

Definition set_forward (s : st) (a v : Z) : hr st := w <~ hget s a 0 ;; hput s a 0 (w / 32768 * 32768 + v mod 32768).
Definition set_in_use (s : st) (a : Z) (b : bool) : hr st :=
  w <~ hget s a 0 ;; hput s a 0 ((if b then 32768 else 0) + w mod 32768).
Definition set_back (s : st) (a v : Z) : hr st := w <~ hget s a 1 ;; hput s a 1 (w / 32768 * 32768 + v mod 32768).
Definition set_prev (s : st) (a v : Z) : hr st := hput s a 4 v.
Definition set_next (s : st) (a v : Z) : hr st := hput s a 5 v.

Definition heap_start (s : st) : Z := u16 (alignup (c_hpb (cf s))).

(** The address of the chunk that a link designates; 0 is no chunk *)
Definition link (s : st) (l : Z) : Z := if l =? 0 then NULL else u16 (heap_start s + l).

(** A walk of more than 65536 steps along the free list never ends *)
Definition heap_bound : nat := Z.to_nat 65537.

(** :276-363 libexec_AddChunkToFreeList; [pv], [cur] are prevChunk and
    freeChunk *)
Fixpoint add_loop (n : nat) (s : st) (c pv cur : Z) : hr st :=
  match n with
  | O => HH
  | S n' =>
    if cur =? NULL then
      if pv =? NULL then
        s <~ set_prev s c 0 ;; s <~ set_next s c 0 ;; HV (with_fch s c)
      else
        pa <~ address s pv ;; s <~ set_prev s c pa ;; s <~ set_next s c 0 ;;
        ca <~ address s c ;; set_next s pv ca
    else
      nx <~ next s cur ;;
      let nextc := link s nx in
      fc <~ forward s cur ;; fn <~ forward s c ;;
      if fn <=? fc then
        if pv =? NULL then
          s <~ set_prev s c 0 ;; fa <~ address s cur ;; s <~ set_next s c fa ;;
          ca <~ address s c ;; s <~ set_prev s cur ca ;; HV (with_fch s c)
        else if negb (nextc =? NULL) then
          pa <~ address s pv ;; s <~ set_prev s c pa ;; na <~ address s nextc ;; s <~ set_next s c na ;;
          ca <~ address s c ;; s <~ set_prev s nextc ca ;; ca <~ address s c ;; set_next s pv ca
        else
          pa <~ address s pv ;; s <~ set_prev s c pa ;; s <~ set_next s c 0 ;;
          ca <~ address s c ;; set_next s pv ca
      else add_loop n' s c cur nextc
  end.

Definition add_chunk (s : st) (c : Z) : hr st := add_loop heap_bound s c NULL (fch s).

(** :367-443 libexec_RemoveChunkFromFreeList *)
Definition remove_chunk (s : st) (c : Z) : hr st :=
  p <~ prev s c ;; n <~ next s c ;;
  if (p =? 0) && (n =? 0) then HV (with_fch s NULL)
  else
    s <~ (if p =? 0 then
            let na := u16 (heap_start s + n) in set_prev (with_fch s na) na 0
          else set_next s (u16 (heap_start s + p)) n) ;;
    n <~ next s c ;; p <~ prev s c ;;
    if n =? 0 then set_next s (u16 (heap_start s + p)) 0
    else if p =? 0 then HV s
    else set_prev s (u16 (heap_start s + n)) p.

(** :447-566 libexec_DisposeChunk *)
Definition dispose_chunk (s : st) (c : Z) : hr st :=
  s <~ set_in_use s c false ;;
  f <~ forward s c ;; a <~ address s c ;;
  let nextc := if f =? 0 then NULL else u16 (heap_start s + a + f) in
  b <~ back s c ;;
  (* merge with the preceding chunk *)
  '(s, c, merged) <~
    (if b =? 0 then HV (s, c, false)
     else
       let prevc := u16 (heap_start s + a - b) in
       u <~ in_use s prevc ;;
       if u then HV (s, c, false)
       else
         s <~ remove_chunk s prevc ;;
         fp <~ forward s prevc ;; fc <~ forward s c ;; s <~ set_forward s prevc (fp + fc) ;;
         s <~ (if nextc =? NULL then HV s
               else bn <~ back s nextc ;; bc <~ back s c ;; set_back s nextc (bn + bc)) ;;
         s <~ add_chunk s prevc ;; HV (s, prevc, true)) ;;
  (* merge with the following chunk *)
  '(s, merged) <~
    (if nextc =? NULL then HV (s, merged)
     else
       u <~ in_use s nextc ;;
       if u then HV (s, merged)
       else
         s <~ remove_chunk s nextc ;;
         s <~ (if merged : bool then remove_chunk s c else HV s) ;;
         fc <~ forward s c ;; fn <~ forward s nextc ;; s <~ set_forward s c (fc + fn) ;;
         fn <~ forward s nextc ;;
         s <~ (if fn =? 0 then HV s
               else
                 na <~ address s nextc ;;
                 let after := u16 (heap_start s + na + fn) in
                 ba <~ back s after ;; bc <~ back s c ;; set_back s after (ba + bc)) ;;
         s <~ add_chunk s c ;; HV (s, true)) ;;
  if merged : bool then HV s else add_chunk s c.

(** :570-665 libexec_Alloc, the search; the result is the address, 0 if there
    is no room *)
Definition chunk_size (size : Z) : Z := u16 (alignup size + CHUNK).

Fixpoint alloc_loop (n : nat) (s : st) (size cur : Z) : hr (st * Z) :=
  match n with
  | O => HH
  | S n' =>
    if cur =? NULL then HV (s, 0)
    else
      fsize <~ forward s cur ;;
      nx <~ next s cur ;;
      let nextc := link s nx in
      if size <=? fsize then
        s <~ remove_chunk s cur ;;
        s <~ set_in_use s cur true ;;
        s <~ (if size + FREECHUNK <? fsize then
                a <~ address s cur ;;
                let sub := heap_start s + a + size in
                f <~ forward s cur ;;
                s <~ hput s sub 0 ((f - size) mod 32768) ;;
                s <~ hput s sub 1 (size mod 32768) ;;
                a <~ address s cur ;;
                s <~ hput s sub 2 (a + size) ;;
                s <~ hput s sub 3 0 ;;
                s <~ set_forward s cur size ;;
                dispose_chunk s sub
              else HV s) ;;
        a <~ address s cur ;;
        HV (s, u16 (heap_start s + a + CHUNK))
      else alloc_loop n' s size nextc
  end.

Definition alloc (s : st) (size : Z) : hr (st * Z) := alloc_loop heap_bound s (chunk_size size) (fch s).

(** :669-712 libexec_Free; the result is the error code *)
Definition free (s : st) (addr : Z) : hr (st * Z) :=
  let start := heap_start s in
  if (addr <? start + CHUNK) || (start + c_hpsz (cf s) - UNIT <=? addr) then HV (s, eHUH)
  else
    let c := u16 (addr - CHUNK) in
    u <~ in_use s c ;;
    if negb u then HV (s, eDOUBLEFREE)
    else
      s <~ set_next s c 0 ;; s <~ set_prev s c 0 ;;
      s <~ dispose_chunk s c ;; HV (s, eNOERROR).

(** :721-751 libexec_InitializeHeap *)
Definition heap_end (s : st) : Z := u16 (aligndown (heap_start s + c_hpsz (cf s))).

Definition init_heap (s : st) : hr st :=
  if 2 * UNIT <? c_hpsz (cf s) then
    let start := heap_start s in
    let stop := heap_end s in
    let term := stop - UNIT in
    let size := u16 (stop - start - UNIT) in
    s <~ hput s term 3 0 ;;
    s <~ hput s term 2 (stop - start - UNIT) ;;
    s <~ hput s term 0 32768 ;;
    s <~ hput s term 1 (size mod 32768) ;;
    s <~ hput s start 1 0 ;; s <~ hput s start 2 0 ;; s <~ hput s start 3 0 ;;
    s <~ hput s start 4 0 ;; s <~ hput s start 5 0 ;; s <~ hput s start 6 0 ;; s <~ hput s start 7 0 ;;
    s <~ hput s start 0 (size mod 32768) ;;
    HV (with_fch s start)
  else HV s.

(** :755-770 libexec_New; :774-777 libexec_Dispose *)
Definition heap_new (s : st) (size : Z) : outcome :=
  hout (if 0 <? size then alloc s size else HV (s, 0)) (fun '(s, addr) =>
    s <- push s addr ;; if 0 <? addr then Ok s else Err eNEWFAILED s).

Definition heap_dispose (s : st) (addr : Z) : outcome :=
  hout (free s addr) (fun '(s, e) => if e =? eNOERROR then Ok s else Err e s).

(** insn16/libexec/libexec_oslib.c:360-372, 383-395 osNEW, osDISPOSE *)
Definition os_new (s : st) : outcome := '(size, s) <- pop s ;; heap_new s size.
Definition os_dispose (s : st) : outcome := '(addr, s) <- pop s ;; heap_dispose s addr.

(** :782-798 libexec_AllocTmpString: the address (0: none) and the allocation
    word, which stays unset (here 0) without an address *)
Definition STRING_BUFFER_MAX : Z := 0x0fff.
Definition HEAP_STRING : Z := 0x8000.
Definition HEAP_SIZE_MASK : Z := 0x0fff.

Definition alloc_tmp (s : st) (size : Z) : hr (st * Z * Z) :=
  if (0 <? size) && (size <=? STRING_BUFFER_MAX) then
    '(s, addr) <~ alloc s size ;;
    HV (s, addr, if 0 <? addr then Z.lor size HEAP_STRING else 0)
  else HV (s, 0, 0).

(** :802-818 libexec_FreeTmpString *)
Definition free_tmp (s : st) (addr size : Z) : hr (st * Z) :=
  if negb (Z.land size HEAP_STRING =? 0) then free s addr else HV (s, eNOERROR).
