(** Soundness of the symbolic execution of instruction sequences. *)

From Coq Require Import ZArith Bool List Lia ZifyBool.
From Verif Require Import Words State Opcodes SetModel LongModel Machine WordLemmas StateLemmas VmSpec VmProofs MemProofs OptSpec OptStack OptPure.
Import ListNotations.
Open Scope Z_scope.
Ltac Zify.zify_post_hook ::= Z.div_mod_to_equations.

Definition dec8_code (c : op8) : Z :=
  match c with
  | NOP => 0x00 | NEG => 0x01 | ABS => 0x02 | INC => 0x03 | DEC => 0x04 | NOT => 0x05 | ADD => 0x06
  | SUB => 0x07 | MUL => 0x08 | DIV => 0x09 | MOD => 0x0a | SLL => 0x0b | SRL => 0x0c | SRA => 0x0d
  | OR => 0x0e | AND => 0x0f | EQUZ => 0x10 | NEQZ => 0x11 | LTZ => 0x12 | GTEZ => 0x13 | GTZ => 0x14
  | LTEZ => 0x15 | EQU => 0x18 | NEQ => 0x19 | LT => 0x1a | GTE => 0x1b | GT => 0x1c | LTE => 0x1d
  | LDI => 0x20 | LDIB => 0x21 | ULDIB => 0x22 | LDIM => 0x23 | STI => 0x24 | STIB => 0x26 | STIM => 0x27
  | DUP => 0x28 | XCHG => 0x2a | RET => 0x2f | UMUL => 0x37 | UDIV => 0x38 | UMOD => 0x39 | ULT => 0x3a
  | UGTE => 0x3b | UGT => 0x3c | ULTE => 0x3d | XOR => 0x3e | END => 0x3f
  end.
Definition dec24_code (c : op24) : Z :=
  match c with
  | JEQUZ => 0x90 | JNEQZ => 0x91 | JLTZ => 0x92 | JGTEZ => 0x93 | JGTZ => 0x94 | JLTEZ => 0x95
  | JMP => 0x96 | JEQU => 0x98 | JNEQ => 0x99 | JLT => 0x9a | JGTE => 0x9b | JGT => 0x9c | JLTE => 0x9d
  | LD => 0xa0 | LDB => 0xa1 | ULDB => 0xa2 | LDM => 0xa3 | ST => 0xa4 | STB => 0xa6 | STM => 0xa7
  | LDX => 0xa8 | LDXB => 0xa9 | ULDXB => 0xaa | LDXM => 0xab | STX => 0xac | STXB => 0xae | STXM => 0xaf
  | LA => 0xb0 | LAC => 0xb1 | LAR => 0xb2 | PUSH => 0xb3 | INDS => 0xb4 | INCS => 0xb5 | STRLIB => 0xb6
  | SYSIO => 0xb7 | LAX => 0xb8 | JULT => 0xba | JUGTE => 0xbb | JUGT => 0xbc | JULTE => 0xbd
  end.
Definition dec32_code (c : op32) : Z :=
  match c with
  | PCAL => 0xc8 | LDS => 0xe0 | LDSB => 0xe1 | ULDSB => 0xe2 | LDSM => 0xe3 | STS => 0xe4 | STSB => 0xe6
  | STSM => 0xe7 | LDSX => 0xe8 | LDSXB => 0xe9 | ULDSXB => 0xea | LDSXM => 0xeb | STSX => 0xec
  | STSXB => 0xee | STSXM => 0xef | LAS => 0xf0 | LASX => 0xf8
  end.
Definition dec16_code (c : op16) : Z :=
  match c with
  | FLOAT => 0x70 | SETOP => 0x71 | LONGOP8 => 0x72 | OSOP => 0x73 | PUSHB => 0x74 | UPUSHB => 0x75
  end.

Ltac dec_inv E := 
  repeat match type of E with context [match ?x with _ => _ end] => destruct x; try discriminate E end;
  injection E as <-; reflexivity.
Lemma dec8_inv z c : decode_op8 z = Some c -> z = dec8_code c.
Proof. unfold decode_op8. intros E. dec_inv E. Qed.
Lemma dec16_inv z c : decode_op16 z = Some c -> z = dec16_code c.
Proof. unfold decode_op16. intros E. dec_inv E. Qed.
Lemma dec24_inv z c : decode_op24 z = Some c -> z = dec24_code c.
Proof. unfold decode_op24. intros E. dec_inv E. Qed.
Lemma dec32_inv z c : decode_op32 z = Some c -> z = dec32_code c.
Proof. unfold decode_op32. intros E. dec_inv E. Qed.

(** Instructions which are neither jumps nor INDS *)
Lemma flow_plain s o : is_jump o = false -> op o <> oINDS ->
  flow_op s o = match exec_insn s o with Ok s' => Falls s' | _ => Stops end.
Proof.
  intros H N. unfold flow_op. rewrite H.
  replace (op o =? oINDS) with false by (symmetry; apply Z.eqb_neq; exact N). reflexivity.
Qed.

Lemma is_jump_dec24 o : is_jump o = true -> exists c, decode_op24 (op o) = Some c /\ op o = dec24_code c.
Proof.
  unfold is_jump. intros H. apply existsb_exists in H. destruct H as (x & Hx & E).
  apply Z.eqb_eq in E. rewrite E. cbn [jump_codes In] in Hx.
  clear E. repeat (destruct Hx as [<-|Hx]; [eexists; split; reflexivity|]). contradiction.
Qed.

Section Step.
  Variable s0 : st.
  Hypothesis S0 : start s0.

  Definition flow_sound (f : flow) (r : pres) : Prop :=
    match r with
    | PF k' => exists s', f = Falls s' /\ top s0 s' k' /\ (length k' <= 8)%nat
    | PJ l k' => exists s', f = Jumps l s' /\ top s0 s' k' /\ (length k' <= 8)%nat
    | PStop => f = Stops
    | PUnk => True
    end.

  Lemma sound_next n s e r : (forall l k, r <> PJ l k) -> sound s0 s e r ->
    flow_sound (match next n e with Ok s' => Falls s' | _ => Stops end) r.
  Proof.
    intros HJ H. destruct r; cbn [sound flow_sound] in *.
    - destruct H as (s' & -> & T & L & P). cbn [next]. eexists. split; [reflexivity|]. split; [|exact L].
      apply top_pc. exact T.
    - exfalso. eapply HJ. reflexivity.
    - destruct e; cbn [next]; try reflexivity. exfalso. eapply H. reflexivity.
    - exact I.
  Qed.
  Lemma sound_plain s e r : (forall l k, r <> PJ l k) -> sound s0 s e r ->
    flow_sound (match e with Ok s' => Falls s' | _ => Stops end) r.
  Proof.
    intros HJ H. destruct r; cbn [sound flow_sound] in *.
    - destruct H as (s' & -> & T & L & P). eexists. split; [reflexivity|]. split; assumption.
    - exfalso. eapply HJ. reflexivity.
    - destruct e; try reflexivity. exfalso. eapply H. reflexivity.
    - exact I.
  Qed.

  Lemma p_un_nj f k l k' : p_un f k <> PJ l k'.
  Proof. destruct k; discriminate. Qed.
  Lemma p_bin_nj f k l k' : p_bin f k <> PJ l k'.
  Proof. destruct k as [|b [|a k]]; try discriminate. cbn. destruct (f a b); discriminate. Qed.
  Lemma p_push_nj v k l k' : p_push v k <> PJ l k'.
  Proof. unfold p_push. destruct (_ <=? _)%nat; discriminate. Qed.
  Lemma p_long_nj v k l k' : p_long v k <> PJ l k'.
  Proof. unfold p_long. destruct (_ <=? _)%nat; discriminate. Qed.
  Lemma p_opt_nj v k l k' : p_opt v k <> PJ l k'.
  Proof. destruct v; [apply p_push_nj|discriminate]. Qed.
  Lemma p_index_nj f k l k' : p_index f k <> PJ l k'.
  Proof. destruct k; [discriminate|]. apply p_opt_nj. Qed.
  Lemma p8_nj c k l k' : p8 c k <> PJ l k'.
  Proof.
    destruct c; cbn [p8]; try apply p_un_nj; try apply p_bin_nj; try discriminate.
    - destruct k; [discriminate|]. apply p_push_nj.
    - destruct k as [|a [|b k]]; discriminate.
  Qed.
  Lemma plong_nj c k l k' : plong c k <> PJ l k'.
  Proof.
    destruct c; cbn [plong]; unfold p_lun, p_lbin, p_lshift, p_lcmpz, p_lscmp, p_lcmp;
      try discriminate; destruct k as [|? [|? [|? [|? ?]]]]; try discriminate;
      repeat match goal with |- match ?x with _ => _ end <> _ => destruct x end; try discriminate;
      apply p_long_nj.
  Qed.

  (** Jumps *)
  Lemma sound_jump b s k t : top s0 s k -> (length k <= 8)%nat -> pc s = 0 ->
    flow_sound (match jump b s 0 with
                | Ok s' => if pc s' =? 0 then Jumps t s' else Falls s' | _ => Stops end)
               (if b then PJ t k else PF k).
  Proof.
    intros T L P. unfold jump. cbn [pc with_pc]. rewrite P. destruct b; cbn.
    - eexists. split; [reflexivity|]. split; [apply top_pc; exact T|exact L].
    - change (u16 3 =? 0) with false. cbv iota. eexists. split; [reflexivity|]. split; [apply top_pc; exact T|exact L].
  Qed.
  Lemma sound_jz f s k t : top s0 s k -> (length k <= 8)%nat -> pc s = 0 ->
    flow_sound (match jumpz f s 0 with
                | Ok s' => if pc s' =? 0 then Jumps t s' else Falls s' | _ => Stops end)
               (p_jz f t k).
  Proof.
    intros T L P. destruct k as [|a k]; [exact I|]. cbn [length] in L.
    unfold jumpz. destruct (top_pop s0 S0 s k a T ltac:(lia)) as [E T1]. rewrite E. cbn [bindo p_jz].
    apply (sound_jump (f (s16 a))); [exact T1|lia|exact P].
  Qed.
  Lemma sound_j2 f s k t : top s0 s k -> (length k <= 8)%nat -> pc s = 0 ->
    flow_sound (match jump2 f s 0 with
                | Ok s' => if pc s' =? 0 then Jumps t s' else Falls s' | _ => Stops end)
               (p_j2 f t k).
  Proof.
    intros T L P. destruct k as [|a [|b k]]; try exact I. cbn [length] in L.
    unfold jump2. destruct (top_pop s0 S0 s (b :: k) a T ltac:(cbn; lia)) as [E T1]. rewrite E. cbn [bindo].
    destruct (top_pop s0 S0 _ k b T1 ltac:(lia)) as [E2 T2]. rewrite E2. cbn [bindo p_j2].
    apply (sound_jump (f b a)); [exact T2|lia|exact P].
  Qed.

  Lemma sound_opt v s k : top s0 s k -> (length k <= 8)%nat ->
    sound s0 s (x <- v ;; ret (push s x)) (p_opt v k).
  Proof.
    intros T L. destruct v as [x|]; cbn [bindo p_opt].
    - apply sound_push; assumption.
    - intros ?; discriminate.
  Qed.
  Lemma sound_idx f s k : top s0 s k -> (length k <= 8)%nat ->
    sound s0 s (i <- tos s 0 ;; x <- f i ;; ret (puttos s 0 x)) (p_index f k).
  Proof.
    intros T L. destruct k as [|i k]; [exact I|]. cbn [length] in L.
    rewrite (top_tos s0 s _ 0 i T eq_refl) by lia. cbn [bindo p_index].
    destruct (f i) as [x|]; cbn [bindo p_opt]; [|intros ?; discriminate].
    unfold p_push. destruct (Nat.leb_spec (length k) 7); [|lia].
    destruct (top_puttos0 s0 S0 s i k x T ltac:(lia)) as (s' & E & T' & P). rewrite E. exists s'. fin.
  Qed.

  Lemma bind_assoc (a : option Z) (f : Z -> option Z) (g : Z -> outcome) :
    (x <- (y <-? a ;; f y) ;; g x) = (y <- a ;; x <- f y ;; g x).
  Proof. destruct a; reflexivity. Qed.

  Lemma step_sound s k o : top s0 s k -> (length k <= 8)%nat -> fine s0 o k ->
    flow_sound (flow_op s o) (pexec s0 o k).
  Proof.
    intros T L F. specialize (F s T). destruct (top_regs _ _ _ T) as (Ecf & _).
    destruct (top_range s0 S0 s k T L) as [Hsp _].
    destruct o as [z a b]. unfold pexec. unfold memval in F. cbn [op arg1 arg2] in *.
    destruct (has8 z) eqn:E8; destruct (has16 z) eqn:E16.
    - (* op32 *)
      destruct (decode_op32 z) as [c|] eqn:D.
      2:{ destruct (is_jump (mkOp z a b)) eqn:J.
          { destruct (is_jump_dec24 _ J) as (c & Dc & Ec). cbn [op] in Ec. subst z. destruct c; discriminate E8. }
          rewrite flow_plain by (auto; cbn [op]; intros ->; discriminate E8).
          unfold exec_insn. cbn [op arg1 arg2]. rewrite E8, E16. unfold pexec32. rewrite D. reflexivity. }
      assert (Hf : flow_op s (mkOp z a b) = match pexec32 s z a b with Ok s' => Falls s' | _ => Stops end).
      { pose proof (dec32_inv _ _ D) as Ez. subst z. rewrite flow_plain.
        - unfold exec_insn. cbn [op arg1 arg2]. rewrite E8, E16. reflexivity.
        - destruct c; reflexivity.
        - cbn [op]. destruct c; discriminate. }
      rewrite Hf. unfold pexec32. rewrite D.
      destruct c; try exact I; cbn [p32];
        (apply (sound_next 4 s); [intros; first [apply p_opt_nj|apply p_index_nj]|]);
        cbn [exec32]; try rewrite <- F.
      + unfold load32. rewrite <- bind_assoc. apply sound_opt; assumption.
      + unfold load32.
        replace (a0 <- get_base s a (s16 b) ;; v <- rdb s a0 ;; ret (push s (u16 (s8 v))))
          with (x <- (a0 <-? get_base s a (s16 b) ;; v <-? rdb s a0 ;; Some (u16 (s8 v))) ;; ret (push s x))
          by (destruct (get_base s a (s16 b)) as [q|]; cbn [bindo bindO]; [destruct (rdb s q); reflexivity|reflexivity]).
        apply sound_opt; assumption.
      + unfold load32. rewrite <- bind_assoc. apply sound_opt; assumption.
      + replace (p_index (index32 s0 LDSX a b) k) with (p_index (index32 s LDSX a b) k)
          by (destruct k; [reflexivity|cbn [p_index]; rewrite F; reflexivity]).
        replace (i <- tos s 0 ;; a0 <- get_base s a (s16 b + i) ;; v <- getstack s a0 ;; ret (puttos s 0 v))
          with (i <- tos s 0 ;; x <- index32 s LDSX a b i ;; ret (puttos s 0 x))
          by (destruct (tos s 0) as [i|]; [cbn [bindo]; unfold index32; rewrite bind_assoc; reflexivity|reflexivity]).
        apply sound_idx; assumption.
      + replace (p_index (index32 s0 LDSXB a b) k) with (p_index (index32 s LDSXB a b) k)
          by (destruct k; [reflexivity|cbn [p_index]; rewrite F; reflexivity]).
        replace (i <- tos s 0 ;; a0 <- get_base s a (s16 b + i) ;; v <- rdb s a0 ;; ret (puttos s 0 (u16 (s8 v))))
          with (i <- tos s 0 ;; x <- index32 s LDSXB a b i ;; ret (puttos s 0 x))
          by (destruct (tos s 0) as [i|]; [cbn [bindo]; unfold index32; rewrite bind_assoc;
                destruct (get_base s a (s16 b + i)); [cbn [bindo]; rewrite bind_assoc; reflexivity|reflexivity]|reflexivity]).
        apply sound_idx; assumption.
      + replace (p_index (index32 s0 ULDSXB a b) k) with (p_index (index32 s ULDSXB a b) k)
          by (destruct k; [reflexivity|cbn [p_index]; rewrite F; reflexivity]).
        replace (i <- tos s 0 ;; a0 <- get_base s a (s16 b + i) ;; v <- rdb s a0 ;; ret (puttos s 0 v))
          with (i <- tos s 0 ;; x <- index32 s ULDSXB a b i ;; ret (puttos s 0 x))
          by (destruct (tos s 0) as [i|]; [cbn [bindo]; unfold index32; rewrite bind_assoc; reflexivity|reflexivity]).
        apply sound_idx; assumption.
      + unfold load32. replace (a0 <- get_base s a (s16 b) ;; ret (push s a0))
          with (x <- (a0 <-? get_base s a (s16 b) ;; Some a0) ;; ret (push s x))
          by (destruct (get_base s a (s16 b)); reflexivity).
        apply sound_opt; assumption.
      + replace (p_index (index32 s0 LASX a b) k) with (p_index (index32 s LASX a b) k)
          by (destruct k; [reflexivity|cbn [p_index]; rewrite F; reflexivity]).
        replace (i <- tos s 0 ;; a0 <- get_base s a (s16 b + i) ;; ret (puttos s 0 a0))
          with (i <- tos s 0 ;; x <- index32 s LASX a b i ;; ret (puttos s 0 x))
          by (destruct (tos s 0) as [i|]; [cbn [bindo]; unfold index32; rewrite bind_assoc; reflexivity|reflexivity]).
        apply sound_idx; assumption.
    - (* op16 *)
      assert (Hf : flow_op s (mkOp z a b) = match pexec16 s z a with Ok s' => Falls s' | _ => Stops end).
      { destruct (is_jump (mkOp z a b)) eqn:J.
          { destruct (is_jump_dec24 _ J) as (c & Dc & Ec). cbn [op] in Ec. subst z. destruct c; discriminate E8. }
          rewrite flow_plain by (auto; cbn [op]; intros ->; discriminate E8).
          unfold exec_insn. cbn [op arg1 arg2]. rewrite E8, E16. reflexivity. }
      rewrite Hf. unfold pexec16. cbv zeta.
      destruct (decode_op16 z) as [c|] eqn:D; [|reflexivity].
      assert (T2 : top s0 (with_pc s (u16 (pc s + 2))) k) by (apply top_pc; exact T).
      destruct c; try exact I.
      + destruct (decode_long8 a) as [c|] eqn:DL.
        * apply (sound_plain (with_pc s (u16 (pc s + 2)))); [apply plong_nj|]. apply sound_long; assumption.
        * unfold long_operation8. rewrite DL. reflexivity.
      + apply (sound_plain (with_pc s (u16 (pc s + 2)))); [apply p_push_nj|].
        pose proof (sound_push s0 S0 (u16 (s8 a)) _ k T2 L) as H. rewrite u16_u16 in H. exact H.
      + apply (sound_plain (with_pc s (u16 (pc s + 2)))); [apply p_push_nj|]. apply sound_push; assumption.
    - (* op24 *)
      destruct (decode_op24 z) as [c|] eqn:D.
      2:{ destruct (is_jump (mkOp z a b)) eqn:J.
          { destruct (is_jump_dec24 _ J) as (c & Dc & Ec). cbn [op] in *. congruence. }
          rewrite flow_plain by (auto; cbn [op]; intros ->; discriminate D).
          unfold exec_insn. cbn [op arg1 arg2]. rewrite E8, E16. unfold pexec24. rewrite D. reflexivity. }
      pose proof (dec24_inv _ _ D) as Ez. subst z.
      assert (T0 : top s0 (with_pc s 0) k) by (apply top_pc; exact T).
      destruct c; try exact I; cbn [p24];
        lazymatch goal with
        | |- flow_sound _ (p_push _ _) => idtac
        | |- flow_sound _ (p_opt _ _) => idtac
        | |- flow_sound _ (p_index _ _) => idtac
        | |- _ =>
          unfold flow_op; lazymatch goal with |- context [is_jump ?x] => change (is_jump x) with true end; cbv iota;
          unfold exec_insn; cbn [op arg1 arg2]; rewrite E8, E16; unfold pexec24; rewrite D;
          first [ apply (sound_jz _ (with_pc s 0)); [exact T0|exact L|reflexivity]
                        | apply (sound_j2 _ (with_pc s 0)); [exact T0|exact L|reflexivity]
                        | apply (sound_jump true (with_pc s 0)); [exact T0|exact L|reflexivity] ]
        end;
      (rewrite flow_plain by (reflexivity || discriminate);
       unfold exec_insn; cbn [op arg1 arg2]; rewrite E8, E16; unfold pexec24; rewrite D;
       apply (sound_next 3 s); [intros; first [apply p_opt_nj|apply p_index_nj|apply p_push_nj]|]); cbn [exec24]; cbv zeta; try rewrite <- F.
      + apply sound_opt; assumption.
      + replace (v <- rdb s (u16 (c_spb (cf s) + b)) ;; ret (push s (u16 (s8 v))))
          with (x <- load24 s LDB b ;; ret (push s x))
          by (unfold load24; cbv zeta; rewrite bind_assoc; reflexivity).
        apply sound_opt; assumption.
      + apply sound_opt; assumption.
      + replace (p_index (index24 s0 LDX b) k) with (p_index (index24 s LDX b) k)
          by (destruct k; [reflexivity|cbn [p_index]; rewrite F; reflexivity]).
        apply (sound_idx (index24 s LDX b)); assumption.
      + replace (p_index (index24 s0 LDXB b) k) with (p_index (index24 s LDXB b) k)
          by (destruct k; [reflexivity|cbn [p_index]; rewrite F; reflexivity]).
        replace (i <- tos s 0 ;; v <- rdb s (u16 (c_spb (cf s) + b + i)) ;; ret (puttos s 0 (u16 (s8 v))))
          with (i <- tos s 0 ;; x <- index24 s LDXB b i ;; ret (puttos s 0 x))
          by (destruct (tos s 0) as [i|]; [cbn [bindo]; unfold index24; cbv zeta; rewrite bind_assoc; reflexivity|reflexivity]).
        apply sound_idx; assumption.
      + replace (p_index (index24 s0 ULDXB b) k) with (p_index (index24 s ULDXB b) k)
          by (destruct k; [reflexivity|cbn [p_index]; rewrite F; reflexivity]).
        apply (sound_idx (index24 s ULDXB b)); assumption.
      + apply (sound_opt (Some (u16 (c_spb (cf s) + b)))); assumption.
      + apply (sound_opt (Some (u16 (b + c_rop (cf s))))); assumption.
      + pose proof (sound_push s0 S0 (u16 (b + sp s)) s k T L) as H. rewrite u16_u16 in H.
        rewrite (top_sp _ _ _ T) in H at 2. exact H.
      + apply sound_push; assumption.
      + replace (p_index (index24 s0 LAX b) k) with (p_index (index24 s LAX b) k)
          by (destruct k; [reflexivity|cbn [p_index]; rewrite F; reflexivity]).
        apply (sound_idx (index24 s LAX b)); assumption.
    - (* op8 *)
      destruct (decode_op8 z) as [c|] eqn:D.
      2:{ destruct (is_jump (mkOp z a b)) eqn:J.
          { destruct (is_jump_dec24 _ J) as (c & Dc & Ec). cbn [op] in Ec. subst z. destruct c; discriminate E16. }
          rewrite flow_plain by (auto; cbn [op]; intros ->; discriminate E16).
          unfold exec_insn. cbn [op arg1 arg2]. rewrite E8, E16. unfold pexec8. rewrite D. reflexivity. }
      pose proof (dec8_inv _ _ D) as Ez.
      assert (HR : c = RET \/ c = END \/ (c <> RET /\ c <> END)) by (destruct c; intuition congruence).
      destruct HR as [->|[->|[N1 N2]]]; [exact I|exact I|].
      rewrite flow_plain; [|subst z; destruct c; reflexivity|subst z; cbn [op]; destruct c; discriminate].
      unfold exec_insn. cbn [op arg1 arg2]. rewrite E8, E16. unfold pexec8. rewrite D.
      replace (match c with RET => exec_ret s | END => Err eEXIT s | _ => next 1 (exec8 c s) end)
        with (next 1 (exec8 c s)) by (destruct c; congruence).
      apply (sound_next 1 s); [apply p8_nj|]. apply sound8; assumption.
  Qed.

  (** Sequences: every instruction met must be [fine]. *)
  Fixpoint all_fine (l : list opType) (k : list Z) : Prop :=
    match l with
    | [] => True
    | o :: l' => fine s0 o k /\ match pexec s0 o k with PF k' => all_fine l' k' | _ => True end
    end.

  Lemma run_sound l : forall s k, top s0 s k -> (length k <= 8)%nat -> all_fine l k ->
    flow_sound (flow_list l s) (prun s0 l k).
  Proof.
    induction l as [|o l IH]; intros s k T L F.
    - cbn. exists s. repeat split; auto; apply T.
    - cbn [flow_list prun all_fine] in *. destruct F as [F1 F2].
      pose proof (step_sound s k o T L F1) as H. destruct (pexec s0 o k) as [k'|t k'| |]; cbn [flow_sound] in H.
      + destruct H as (s' & -> & T' & L'). apply IH; assumption.
      + destruct H as (s' & -> & T' & L'). exists s'. auto.
      + rewrite H. reflexivity.
      + exact I.
  Qed.

  Lemma run_matches x y k : top s0 s0 k -> (length k <= 8)%nat -> all_fine x k -> all_fine y k ->
    (prun s0 x k = PStop \/ (prun s0 x k = prun s0 y k /\ prun s0 x k <> PUnk)) ->
    matches (sp s0 / 2 + DEPTH) (flow_list x s0) (flow_list y s0).
  Proof.
    intros T L Fx Fy H. pose proof (run_sound x s0 k T L Fx) as Hx. pose proof (run_sound y s0 k T L Fy) as Hy.
    destruct H as [H|[H N]].
    - rewrite H in Hx. cbn in Hx. rewrite Hx. exact I.
    - rewrite <- H in Hy. destruct (prun s0 x k) as [k'|t k'| |]; cbn [flow_sound] in *.
      + destruct Hx as (s1 & -> & T1 & L1). destruct Hy as (s2 & E2 & T2 & L2).
        exists s2. split; [exact E2|]. eapply top_agree; eassumption.
      + destruct Hx as (s1 & -> & T1 & L1). destruct Hy as (s2 & E2 & T2 & L2).
        exists s2. split; [exact E2|]. eapply top_agree; eassumption.
      + rewrite Hx. exact I.
      + congruence.
  Qed.
End Step.
