(** Instructions as functions on the stack's words, and the link to the machine. *)

From Coq Require Import ZArith Bool List Lia ZifyBool.
From Verif Require Import Words State Opcodes SetModel LongModel Machine WordLemmas StateLemmas VmSpec VmProofs MemProofs OptSpec OptStack.
Import ListNotations.
Open Scope Z_scope.
Ltac Zify.zify_post_hook ::= Z.div_mod_to_equations.

Inductive pres := PF (k : list Z) | PJ (l : Z) (k : list Z) | PStop | PUnk.

Definition p_un (f : Z -> Z) (k : list Z) : pres :=
  match k with v :: r => PF (u16 (f v) :: r) | _ => PUnk end.
Definition p_bin (f : Z -> Z -> option Z) (k : list Z) : pres :=
  match k with
  | b :: a :: r => match f a b with Some w => PF (u16 w :: r) | None => PStop end
  | _ => PUnk
  end.
(** at most 2 * DEPTH words are tracked *)
Definition p_push (v : Z) (k : list Z) : pres :=
  if (length k <=? 7)%nat then PF (v :: k) else PUnk.
Definition p_cmpz (f : Z -> bool) : list Z -> pres := p_un (fun a => pbool (f (s16 a))).
Definition p_scmp (f : Z -> Z -> bool) : list Z -> pres :=
  p_bin (fun a b => Some (pbool (f (s16 a) (s16 b)))).
Definition p_ucmp (f : Z -> Z -> bool) : list Z -> pres :=
  p_bin (fun a b => Some (pbool (f a b))).

Definition p8 (o : op8) (k : list Z) : pres :=
  match o with
  | NEG => p_un (fun v => - s16 v) k
  | ABS => p_un (fun v => if s16 v <? 0 then - s16 v else v) k
  | INC => p_un (fun v => v + 1) k
  | DEC => p_un (fun v => v - 1) k
  | NOT => p_un (fun v => Z.lnot v) k
  | ADD => p_bin (fun a b => Some (s16 a + s16 b)) k
  | SUB => p_bin (fun a b => Some (s16 a - s16 b)) k
  | MUL => p_bin (fun a b => Some (s16 a * s16 b)) k
  | UMUL => p_bin umul16 k
  | DIV => p_bin (fun a b => if s16 b =? 0 then None else Some (Z.quot (s16 a) (s16 b))) k
  | UDIV => p_bin (fun a b => if b =? 0 then None else Some (a / b)) k
  | MOD => p_bin (fun a b => if s16 b =? 0 then None else Some (Z.rem (s16 a) (s16 b))) k
  | UMOD => p_bin (fun a b => if b =? 0 then None else Some (a mod b)) k
  | SLL => p_bin (fun a n => shift16 Z.shiftl (s16 a) (s16 n)) k
  | SRL => p_bin (fun a n => shift16 Z.shiftr a (s16 n)) k
  | SRA => p_bin (fun a n => shift16 Z.shiftr (s16 a) (s16 n)) k
  | OR => p_bin (fun a b => Some (Z.lor a b)) k
  | AND => p_bin (fun a b => Some (Z.land a b)) k
  | XOR => p_bin (fun a b => Some (Z.lxor a b)) k
  | EQUZ => p_cmpz (fun a => a =? 0) k
  | NEQZ => p_cmpz (fun a => negb (a =? 0)) k
  | LTZ => p_cmpz (fun a => a <? 0) k
  | GTEZ => p_cmpz (fun a => 0 <=? a) k
  | GTZ => p_cmpz (fun a => 0 <? a) k
  | LTEZ => p_cmpz (fun a => a <=? 0) k
  | EQU => p_scmp (fun a b => b =? a) k
  | NEQ => p_scmp (fun a b => negb (b =? a)) k
  | LT => p_scmp (fun a b => a <? b) k
  | GTE => p_scmp (fun a b => b <=? a) k
  | GT => p_scmp (fun a b => b <? a) k
  | LTE => p_scmp (fun a b => a <=? b) k
  | ULT => p_ucmp (fun a b => a <? b) k
  | UGTE => p_ucmp (fun a b => b <=? a) k
  | UGT => p_ucmp (fun a b => b <? a) k
  | ULTE => p_ucmp (fun a b => a <=? b) k
  | DUP => match k with v :: r => p_push (u16 v) k | _ => PUnk end
  | XCHG => match k with a :: b :: r => PF (b :: a :: r) | _ => PUnk end
  | _ => PUnk
  end.

Definition p_long (v : Z) (k : list Z) : pres :=
  if (length k <=? 6)%nat then PF (hi16 v :: lo16 v :: k) else PUnk.
Definition p_lun (f : Z -> option Z) (k : list Z) : pres :=
  match k with
  | h :: l :: r => match f (mk32 l h) with Some v => p_long v r | None => PStop end
  | _ => PUnk
  end.
Definition p_lbin (f : Z -> Z -> option Z) (k : list Z) : pres :=
  match k with
  | h1 :: l1 :: h :: l :: r =>
      match f (mk32 l h) (mk32 l1 h1) with Some v => p_long v r | None => PStop end
  | _ => PUnk
  end.
Definition p_lshift (f : Z -> Z -> option Z) (k : list Z) : pres :=
  match k with
  | n :: h :: l :: r => match f (mk32 l h) n with Some v => p_long v r | None => PStop end
  | _ => PUnk
  end.
Definition p_lcmpz (f : Z -> bool) (k : list Z) : pres :=
  match k with
  | h :: l :: r => PF (u16 (pbool (f (s32 (mk32 l h)))) :: r)
  | _ => PUnk
  end.
Definition p_lcmp (f : Z -> Z -> bool) (k : list Z) : pres :=
  match k with
  | h1 :: l1 :: h :: l :: r => PF (u16 (pbool (f (mk32 l1 h1) (mk32 l h))) :: r)
  | _ => PUnk
  end.
Definition p_lscmp (f : Z -> Z -> bool) : list Z -> pres :=
  p_lcmp (fun a b => f (s32 a) (s32 b)).

Definition plong (o : longop8) (k : list Z) : pres :=
  match o with
  | oDNOP => PF k
  | oDNEG => p_lun (fun a => sint (- s32 a)) k
  | oDABS => p_lun (fun a => if s32 a <? 0 then sint (- s32 a) else Some a) k
  | oDINC => p_lun (fun a => Some (u32 (a + 1))) k
  | oDDEC => p_lun (fun a => Some (u32 (a - 1))) k
  | oDNOT => p_lun (fun a => Some (u32 (Z.lnot a))) k
  | oDADD => p_lbin (fun a b => sint (s32 a + s32 b)) k
  | oDSUB => p_lbin (fun a b => sint (s32 a - s32 b)) k
  | oDMUL => p_lbin (fun a b => sint (s32 a * s32 b)) k
  | oDUMUL => p_lbin (fun a b => Some (u32 (a * b))) k
  | oDDIV => p_lbin (fun a b => sdiv32 (s32 a) (s32 b)) k
  | oDUDIV => p_lbin (fun a b => if b =? 0 then None else Some (a / b)) k
  | oDMOD => p_lbin (fun a b => smod32 (s32 a) (s32 b)) k
  | oDUMOD => p_lbin (fun a b => if b =? 0 then None else Some (a mod b)) k
  | oDSLL => p_lshift (fun a n => shift32 Z.shiftl (s32 a) n) k
  | oDSRL => p_lshift (fun a n => shift32 Z.shiftr a n) k
  | oDSRA => p_lshift (fun a n => shift32 Z.shiftr (s32 a) n) k
  | oDOR => p_lbin (fun a b => Some (Z.lor a b)) k
  | oDAND => p_lbin (fun a b => Some (Z.land a b)) k
  | oDXOR => p_lbin (fun a b => Some (Z.lxor a b)) k
  | oDEQUZ => p_lcmpz (fun a => a =? 0) k
  | oDNEQZ => p_lcmpz (fun a => negb (a =? 0)) k
  | oDLTZ => p_lcmpz (fun a => a <? 0) k
  | oDGTEZ => p_lcmpz (fun a => 0 <=? a) k
  | oDGTZ => p_lcmpz (fun a => 0 <? a) k
  | oDLTEZ => p_lcmpz (fun a => a <=? 0) k
  | oDEQU => p_lscmp (fun p1 p2 => p1 =? p2) k
  | oDNEQ => p_lscmp (fun p1 p2 => negb (p1 =? p2)) k
  | oCNVD => match k with w :: r => p_long (u32 (s16 w)) r | _ => PUnk end
  | oUCNVD => match k with w :: r => p_long w r | _ => PUnk end
  | oDCNV => match k with h :: l :: r => PF (u16 (u16 (mk32 l h)) :: r) | _ => PUnk end
  | _ => PUnk
  end.

Definition p_jz (f : Z -> bool) (l : Z) (k : list Z) : pres :=
  match k with a :: r => if f (s16 a) then PJ l r else PF r | _ => PUnk end.
Definition p_j2 (f : Z -> Z -> bool) (l : Z) (k : list Z) : pres :=
  match k with p1 :: p2 :: r => if f p2 p1 then PJ l r else PF r | _ => PUnk end.
Definition p_sj2 (f : Z -> Z -> bool) : Z -> list Z -> pres :=
  p_j2 (fun a b => f (s16 a) (s16 b)).

Definition p_opt (v : option Z) (k : list Z) : pres :=
  match v with Some v => p_push (u16 v) k | None => PStop end.
Definition p_index (f : Z -> option Z) (k : list Z) : pres :=
  match k with i :: r => p_opt (f i) r | _ => PUnk end.

(** What a load, or the load of an address, pushes *)
Definition load24 (s : st) (o : op24) (imm16 : Z) : option Z :=
  let a := u16 (c_spb (cf s) + imm16) in
  match o with
  | LD => getstack s a
  | LDB => v <-? rdb s a ;; Some (u16 (s8 v))
  | ULDB => rdb s a
  | LA => Some a
  | LAC => Some (u16 (imm16 + c_rop (cf s)))
  | _ => None
  end.
Definition load32 (s : st) (o : op32) (imm8 imm16 : Z) : option Z :=
  a <-? get_base s imm8 (s16 imm16) ;;
  match o with
  | LDS => getstack s a
  | LDSB => v <-? rdb s a ;; Some (u16 (s8 v))
  | ULDSB => rdb s a
  | LAS => Some a
  | _ => None
  end.
Definition index24 (s : st) (o : op24) (imm16 i : Z) : option Z :=
  let a := u16 (c_spb (cf s) + imm16 + i) in
  match o with
  | LDX => getstack s a
  | LDXB => v <-? rdb s a ;; Some (u16 (s8 v))
  | ULDXB => rdb s a
  | LAX => Some a
  | _ => None
  end.
Definition index32 (s : st) (o : op32) (imm8 imm16 i : Z) : option Z :=
  a <-? get_base s imm8 (s16 imm16 + i) ;;
  match o with
  | LDSX => getstack s a
  | LDSXB => v <-? rdb s a ;; Some (u16 (s8 v))
  | ULDSXB => rdb s a
  | LASX => Some a
  | _ => None
  end.

Definition p24 (s0 : st) (o : op24) (imm16 l : Z) (k : list Z) : pres :=
  match o with
  | JMP => PJ l k
  | JEQUZ => p_jz (fun a => a =? 0) l k
  | JNEQZ => p_jz (fun a => negb (a =? 0)) l k
  | JLTZ => p_jz (fun a => a <? 0) l k
  | JGTEZ => p_jz (fun a => 0 <=? a) l k
  | JGTZ => p_jz (fun a => 0 <? a) l k
  | JLTEZ => p_jz (fun a => a <=? 0) l k
  | JEQU => p_sj2 (fun p2 p1 => p2 =? p1) l k
  | JNEQ => p_sj2 (fun p2 p1 => negb (p2 =? p1)) l k
  | JLT => p_sj2 (fun p2 p1 => p2 <? p1) l k
  | JGTE => p_sj2 (fun p2 p1 => p1 <=? p2) l k
  | JGT => p_sj2 (fun p2 p1 => p1 <? p2) l k
  | JLTE => p_sj2 (fun p2 p1 => p2 <=? p1) l k
  | JULT => p_j2 (fun p2 p1 => p2 <? p1) l k
  | JUGTE => p_j2 (fun p2 p1 => p1 <=? p2) l k
  | JUGT => p_j2 (fun p2 p1 => p1 <? p2) l k
  | JULTE => p_j2 (fun p2 p1 => p2 <=? p1) l k
  | PUSH => p_push (u16 imm16) k
  | LD | LDB | ULDB | LA | LAC => p_opt (load24 s0 o imm16) k
  | LDX | LDXB | ULDXB | LAX => p_index (index24 s0 o imm16) k
  | LAR => p_push (u16 (imm16 + (sp s0 - 2 * DEPTH + 2 * len k))) k
  | _ => PUnk
  end.

Definition p32 (s0 : st) (o : op32) (imm8 imm16 : Z) (k : list Z) : pres :=
  match o with
  | LDS | LDSB | ULDSB | LAS => p_opt (load32 s0 o imm8 imm16) k
  | LDSX | LDSXB | ULDSXB | LASX => p_index (index32 s0 o imm8 imm16) k
  | _ => PUnk
  end.

Definition pexec (s0 : st) (o : opType) (k : list Z) : pres :=
  if has8 (op o) then
    if has16 (op o) then
      match decode_op32 (op o) with Some c => p32 s0 c (arg1 o) (arg2 o) k | None => PStop end
    else match decode_op16 (op o) with
         | Some PUSHB => p_push (u16 (s8 (arg1 o))) k
         | Some UPUSHB => p_push (u16 (arg1 o)) k
         | Some LONGOP8 => match decode_long8 (arg1 o) with Some c => plong c k | None => PStop end
         | None => PStop
         | _ => PUnk
         end
  else if has16 (op o) then
    match decode_op24 (op o) with Some c => p24 s0 c (arg2 o) (arg2 o) k | None => PStop end
  else match decode_op8 (op o) with Some c => p8 c k | None => PStop end.

Fixpoint prun (s0 : st) (l : list opType) (k : list Z) : pres :=
  match l with
  | [] => PF k
  | o :: l' => match pexec s0 o k with PF k' => prun s0 l' k' | r => r end
  end.

(** ------------------------------------------------------------------ *)
(** What an instruction loads in the state [s] with the operands [k] *)
Definition memval (s : st) (o : opType) (k : list Z) : option Z :=
  if has8 (op o) then
    match decode_op32 (op o) with
    | Some c =>
      match c with
      | LDSX | LDSXB | ULDSXB | LASX =>
          match k with i :: _ => index32 s c (arg1 o) (arg2 o) i | [] => None end
      | LDS | LDSB | ULDSB | LAS => load32 s c (arg1 o) (arg2 o)
      | _ => None
      end
    | None => None
    end
  else
    match decode_op24 (op o) with
    | Some c =>
      match c with
      | LDX | LDXB | ULDXB | LAX =>
          match k with i :: _ => index24 s c (arg2 o) i | [] => None end
      | LD | LDB | ULDB | LA | LAC => load24 s c (arg2 o)
      | _ => None
      end
    | None => None
    end.

Definition fine (s0 : st) (o : opType) (k : list Z) : Prop :=
  forall s, top s0 s k -> memval s o k = memval s0 o k.

Ltac fin := refine (conj _ (conj _ (conj _ _))); [reflexivity|assumption|cbn [length]; lia|first [assumption|reflexivity|congruence]].

Section Sound.
  Variable s0 : st.
  Hypothesis S0 : start s0.

  Definition sound (s : st) (e : outcome) (r : pres) : Prop :=
    match r with
    | PF k' => exists s', e = Ok s' /\ top s0 s' k' /\ (length k' <= 8)%nat /\ pc s' = pc s
    | PStop => forall s', e <> Ok s'
    | _ => True
    end.

  Lemma sound_un f s k : top s0 s k -> (length k <= 8)%nat ->
    sound s (unary (fun v => u16 (f v)) s) (p_un f k).
  Proof.
    intros T Hk. destruct k as [|v k]; [exact I|]. cbn [length] in Hk.
    unfold unary. rewrite (top_tos s0 s _ 0 v T eq_refl) by lia. cbn [bindo].
    destruct (top_puttos0 s0 S0 s v k (u16 (f v)) T ltac:(lia)) as (s' & E & T' & P).
    rewrite E. exists s'. rewrite u16_u16 in T'. fin.
  Qed.

  Lemma sound_bin f g s k : top s0 s k -> (length k <= 8)%nat ->
    (forall a b, 0 <= a < 65536 -> 0 <= b < 65536 -> f a b = match g a b with Some w => Some (u16 w) | None => None end
       \/ f a b = g a b) ->
    sound s (binary f s) (p_bin g k).
  Proof.
    intros T Hk Hf. destruct k as [|b [|a k]]; [exact I|exact I|]. cbn [length] in Hk.
    unfold binary. destruct (top_pop s0 S0 s (a :: k) b T ltac:(cbn; lia)) as [E T1].
    rewrite E. cbn [bindo]. rewrite (top_tos s0 _ _ 0 a T1 eq_refl) by lia. cbn [bindo].
    pose proof (top_val s0 s _ 0 b T eq_refl) as Hb. pose proof (top_val s0 s _ 1 a T eq_refl) as Ha.
    cbn [p_bin sound]. destruct (Hf a b Ha Hb) as [Ef|Ef]; rewrite Ef; clear Ef;
      (destruct (g a b) as [w|]; cbn [bindo]; [|intros ?; discriminate]).
    - destruct (top_puttos0 s0 S0 _ a k (u16 w) T1 ltac:(lia)) as (s' & E' & T' & P). rewrite E'.
      exists s'. rewrite u16_u16 in T'. fin.
    - destruct (top_puttos0 s0 S0 _ a k w T1 ltac:(lia)) as (s' & E' & T' & P). rewrite E'.
      exists s'. fin.
  Qed.
  Lemma sound_bin_id f s k : top s0 s k -> (length k <= 8)%nat -> sound s (binary f s) (p_bin f k).
  Proof. intros T Hk. apply sound_bin; auto. Qed.

  Lemma sound_cmpz f s k : top s0 s k -> (length k <= 8)%nat -> sound s (cmpz f s) (p_cmpz f k).
  Proof.
    intros T Hk. destruct k as [|v k]; [exact I|]. cbn [length] in Hk.
    unfold cmpz. destruct (top_pop s0 S0 s k v T ltac:(lia)) as [E T1]. rewrite E. cbn [bindo].
    destruct (top_push s0 S0 _ k (pbool (f (s16 v))) T1 ltac:(lia)) as (s' & E' & T' & P). rewrite E'.
    exists s'. fin.
  Qed.

  Lemma sound_push v s k : top s0 s k -> (length k <= 8)%nat -> sound s (ret (push s v)) (p_push (u16 v) k).
  Proof.
    intros T Hk. unfold p_push. destruct (Nat.leb_spec (length k) 7); [|exact I].
    destruct (top_push s0 S0 s k v T ltac:(lia)) as (s' & E' & T' & P). rewrite E'. exists s'.
    fin.
  Qed.

  Lemma sound8 c s k : top s0 s k -> (length k <= 8)%nat -> sound s (exec8 c s) (p8 c k).
  Proof.
    intros T Hk. destruct c; cbn [exec8 p8]; try exact I;
      try (apply sound_un; assumption); try (apply sound_bin_id; assumption);
      try (apply sound_cmpz; assumption);
      try (apply sound_bin; [assumption|assumption|intros; cbv beta; try (destruct (_ =? 0)); auto; fail]).
    - (* ABS *) destruct k as [|v k]; [exact I|]. cbn [length] in Hk.
      rewrite (top_tos s0 s _ 0 v T eq_refl) by lia. cbn [bindo p_un].
      pose proof (top_val s0 s _ 0 v T eq_refl) as Hv.
      destruct (s16 v <? 0).
      + destruct (top_puttos0 s0 S0 s v k (u16 (- s16 v)) T ltac:(lia)) as (s' & E & T' & P).
        rewrite E. exists s'. rewrite u16_u16 in T'. fin.
      + exists s. rewrite (u16_small v) by lia. fin.
    - (* DUP *) destruct k as [|v k]; [exact I|]. cbn [length] in Hk.
      rewrite (top_tos s0 s _ 0 v T eq_refl) by lia. cbn [bindo]. apply sound_push; assumption.
    - (* XCHG *) destruct k as [|a [|b k]]; [exact I|exact I|]. cbn [length] in Hk.
      rewrite (top_tos s0 s _ 0 a T eq_refl), (top_tos s0 s _ 1 b T eq_refl) by lia. cbn [bindo].
      pose proof (top_val s0 s _ 0 a T eq_refl) as Ha. pose proof (top_val s0 s _ 1 b T eq_refl) as Hb.
      destruct (top_puttos0 s0 S0 s a (b :: k) b T ltac:(cbn; lia)) as (s' & E & T' & P). rewrite E. cbn [bindo].
      destruct (top_puttos1 s0 S0 s' _ b k a T' ltac:(lia)) as (s'' & E' & T'' & P'). rewrite E'.
      exists s''. rewrite !u16_small in T'' by lia. fin.
  Qed.

  Lemma top_upop32 s h l k : top s0 s (h :: l :: k) -> (length k <= 6)%nat ->
    exists s', upop32 s = Some (mk32 l h, s') /\ top s0 s' k /\ pc s' = pc s.
  Proof.
    intros T Hk. unfold upop32.
    destruct (top_pop s0 S0 s (l :: k) h T ltac:(cbn; lia)) as [E T1]. rewrite E. cbn [bindO].
    destruct (top_pop s0 S0 _ k l T1 ltac:(cbn; lia)) as [E' T2]. rewrite E'. cbn [bindO].
    eexists. split; [reflexivity|]. split; [exact T2|reflexivity].
  Qed.
  Lemma top_ugettos32 s h l k : top s0 s (h :: l :: k) -> ugettos32 s 0 = Some (mk32 l h).
  Proof.
    intros T. unfold ugettos32. change (0 + 1) with 1.
    rewrite (top_tos s0 s _ 0 h T eq_refl), (top_tos s0 s _ 1 l T eq_refl) by lia. reflexivity.
  Qed.
  Lemma top_uputtos32 s h l k v : top s0 s (h :: l :: k) -> (length k <= 6)%nat ->
    exists s', uputtos32 s v 0 = Some s' /\ top s0 s' (hi16 v :: lo16 v :: k) /\ pc s' = pc s.
  Proof.
    intros T Hk. unfold uputtos32. change (0 + 1) with 1.
    destruct (top_puttos0 s0 S0 s h (l :: k) (hi16 v) T ltac:(cbn; lia)) as (s' & E & T' & P). rewrite E. cbn [bindO].
    destruct (top_puttos1 s0 S0 s' _ l k (lo16 v) T' ltac:(lia)) as (s'' & E' & T'' & P'). rewrite E'.
    exists s''. unfold hi16, lo16 in *. rewrite !u16_u16 in T''. refine (conj _ (conj _ _)); [reflexivity|assumption|congruence].
  Qed.
  Lemma top_upush32 s k v : top s0 s k -> (length k <= 6)%nat ->
    exists s', upush32 s v = Some s' /\ top s0 s' (hi16 v :: lo16 v :: k) /\ pc s' = pc s.
  Proof.
    intros T Hk. unfold upush32.
    destruct (top_push s0 S0 s k (lo16 v) T ltac:(lia)) as (s' & E & T' & P). rewrite E. cbn [bindO].
    destruct (top_push s0 S0 s' _ (hi16 v) T' ltac:(cbn; lia)) as (s'' & E' & T'' & P'). rewrite E'.
    exists s''. unfold hi16, lo16 in *. rewrite !u16_u16 in T''. refine (conj _ (conj _ _)); [reflexivity|assumption|congruence].
  Qed.

  Lemma p_long_ok v (r : list Z) : (length r <= 6)%nat -> p_long v r = PF (hi16 v :: lo16 v :: r).
  Proof. intros H. unfold p_long. destruct (Nat.leb_spec (length r) 6); [reflexivity|lia]. Qed.

  Lemma sound_lun f s k : top s0 s k -> (length k <= 8)%nat -> sound s (long_unary f s) (p_lun f k).
  Proof.
    intros T Hk. destruct k as [|h [|l k]]; [exact I|exact I|]. cbn [length] in Hk. cbn [p_lun].
    unfold long_unary. rewrite (top_ugettos32 _ _ _ _ T). cbn [bindo].
    destruct (f (mk32 l h)) as [v|]; cbn [bindo]; [|intros ?; discriminate].
    rewrite p_long_ok by lia.
    destruct (top_uputtos32 s h l k v T ltac:(lia)) as (s' & E & T' & P). rewrite E. exists s'.
    fin.
  Qed.
  Lemma sound_lbin f s k : top s0 s k -> (length k <= 8)%nat -> sound s (long_binary f s) (p_lbin f k).
  Proof.
    intros T Hk. destruct k as [|h1 [|l1 [|h [|l k]]]]; try exact I. cbn [length] in Hk. cbn [p_lbin].
    unfold long_binary. destruct (top_upop32 s h1 l1 _ T ltac:(cbn; lia)) as (s1 & E1 & T1 & P1). rewrite E1. cbn [bindo].
    rewrite (top_ugettos32 _ _ _ _ T1). cbn [bindo].
    destruct (f _ _) as [v|]; cbn [bindo]; [|intros ?; discriminate].
    rewrite p_long_ok by lia.
    destruct (top_uputtos32 s1 h l k v T1 ltac:(lia)) as (s' & E & T' & P). rewrite E. exists s'.
    fin.
  Qed.
  Lemma sound_lshift f s k : top s0 s k -> (length k <= 8)%nat -> sound s (long_shift f s) (p_lshift f k).
  Proof.
    intros T Hk. destruct k as [|n [|h [|l k]]]; try exact I. cbn [length] in Hk. cbn [p_lshift].
    unfold long_shift. destruct (top_pop s0 S0 s _ n T ltac:(cbn; lia)) as [E1 T1]. rewrite E1. cbn [bindo].
    rewrite (top_ugettos32 _ _ _ _ T1). cbn [bindo].
    destruct (f _ _) as [v|]; cbn [bindo]; [|intros ?; discriminate].
    rewrite p_long_ok by lia.
    destruct (top_uputtos32 _ h l k v T1 ltac:(lia)) as (s' & E & T' & P). rewrite E. exists s'.
    fin.
  Qed.
  Lemma sound_lcmpz f s k : top s0 s k -> (length k <= 8)%nat -> sound s (long_cmpz f s) (p_lcmpz f k).
  Proof.
    intros T Hk. destruct k as [|h [|l k]]; try exact I. cbn [length] in Hk. cbn [p_lcmpz].
    unfold long_cmpz. destruct (top_upop32 s h l _ T ltac:(lia)) as (s1 & E1 & T1 & P1). rewrite E1. cbn [bindo].
    destruct (top_push s0 S0 s1 k (pbool (f (s32 (mk32 l h)))) T1 ltac:(lia)) as (s' & E & T' & P). rewrite E.
    exists s'. fin.
  Qed.
  Lemma sound_lscmp f s k : top s0 s k -> (length k <= 8)%nat -> sound s (long_scmp f s) (p_lscmp f k).
  Proof.
    intros T Hk. destruct k as [|h1 [|l1 [|h [|l k]]]]; try exact I. cbn [length] in Hk.
    unfold long_scmp. destruct (top_upop32 s h1 l1 _ T ltac:(cbn; lia)) as (s1 & E1 & T1 & P1). rewrite E1. cbn [bindo].
    destruct (top_upop32 s1 h l _ T1 ltac:(lia)) as (s2 & E2 & T2 & P2). rewrite E2. cbn [bindo].
    cbn [p_lscmp p_lcmp].
    destruct (top_push s0 S0 s2 k (pbool (f (s32 (mk32 l1 h1)) (s32 (mk32 l h)))) T2 ltac:(lia)) as (s' & E & T' & P). rewrite E.
    exists s'. fin.
  Qed.

  Lemma lo_hi_mk l h : 0 <= l < 65536 -> 0 <= h < 65536 -> lo16 (mk32 l h) = l /\ hi16 (mk32 l h) = h.
  Proof. intros. unfold lo16, hi16, mk32, u16. lia. Qed.

  Lemma sound_long c s i k : top s0 s k -> (length k <= 8)%nat -> decode_long8 i = Some c ->
    sound s (long_operation8 s i) (plong c k).
  Proof.
    intros T Hk E. unfold long_operation8. rewrite E.
    destruct c; cbn [plong]; try exact I;
      try (apply sound_lun; assumption); try (apply sound_lbin; assumption);
      try (apply sound_lshift; assumption); try (apply sound_lcmpz; assumption);
      try (apply sound_lscmp; assumption).
    - exists s. fin.
    - destruct k as [|h [|l k]]; [exact I|exact I|]. cbn [length] in Hk. cbn [p_lun].
      rewrite (top_ugettos32 _ _ _ _ T). cbn [bindo].
      pose proof (top_val s0 s _ 0 h T eq_refl) as Hh. pose proof (top_val s0 s _ 1 l T eq_refl) as Hl.
      destruct (s32 (mk32 l h) <? 0).
      + destruct (sint _) as [v|]; cbn [bindo]; [|intros ?; discriminate].
        rewrite p_long_ok by lia.
        destruct (top_uputtos32 s h l k v T ltac:(lia)) as (s' & E' & T' & P). rewrite E'. exists s'.
        fin.
      + rewrite p_long_ok by lia. destruct (lo_hi_mk l h Hl Hh) as [-> ->].
        exists s. fin.
    - destruct k as [|w k]; [exact I|]. cbn [length] in Hk.
      destruct (top_pop s0 S0 s _ w T ltac:(lia)) as [E1 T1]. rewrite E1. cbn [bindo].
      unfold p_long. destruct (Nat.leb_spec (length k) 6); [|exact I].
      destruct (top_upush32 _ k (u32 (s16 w)) T1 ltac:(lia)) as (s' & E' & T' & P). rewrite E'. exists s'.
      fin.
    - destruct k as [|w k]; [exact I|]. cbn [length] in Hk.
      destruct (top_pop s0 S0 s _ w T ltac:(lia)) as [E1 T1]. rewrite E1. cbn [bindo].
      unfold p_long. destruct (Nat.leb_spec (length k) 6); [|exact I].
      destruct (top_upush32 _ k w T1 ltac:(lia)) as (s' & E' & T' & P). rewrite E'. exists s'.
      fin.
    - destruct k as [|h [|l k]]; [exact I|exact I|]. cbn [length] in Hk.
      destruct (top_upop32 s h l _ T ltac:(lia)) as (s1 & E1 & T1 & P1). rewrite E1. cbn [bindo].
      destruct (top_push s0 S0 s1 k (u16 (mk32 l h)) T1 ltac:(lia)) as (s' & E' & T' & P). rewrite E'.
      exists s'. fin.
  Qed.
End Sound.
