(** Execution of the code of Write and WriteLn. *)

From Coq Require Import ZArith Bool List Lia ZifyBool.
From Verif Require Import Words WordLemmas State StateLemmas Opcodes EncodeModel SetModel LongModel Machine VmSpec
  LongSpec VmProofs MemProofs MultiProofs LongProofs CallProofs ExprModel ExprSpec ExprRun ExprOps ExprLoad ExprProofs ExprMain ExprAccept ExprTotal
  StmtModel ArrProofs WriteModel WriteSpec.
From Verif Require SysioModel SysioSpec SysioProofs SysioText HeapModel StringSpec StringModel StringProofs.
Import ListNotations.
Open Scope Z_scope.
Local Transparent rewrites.
Local Ltac Zify.zify_post_hook ::= Z.div_mod_to_equations.

Lemma not_sysio s p s' : exec_insn s p = Ok s' -> (op p =? oSYSIO) = false.
Proof.
  intros H. destruct (op p =? oSYSIO) eqn:E; [|reflexivity]. exfalso. destruct p as [o a b]. cbn [op] in E.
  assert (o = oSYSIO) by lia. subst o. cbn in H. discriminate H.
Qed.

Lemma exec_io_ok e t code : forall s s', exec_list code s = Ok s' -> exec_io e code s t = Some (s', t).
Proof.
  induction code as [|p code IH]; intros s s' H; cbn [exec_list exec_io] in *; [congruence|].
  destruct (exec_insn s p) as [s1| | | |] eqn:E; try discriminate H. unfold io_insn.
  rewrite (not_sysio _ _ _ E), E. apply IH, H.
Qed.

Lemma exec_io_app e b : forall a s t,
  exec_io e (a ++ b) s t = match exec_io e a s t with Some (s', t') => exec_io e b s' t' | None => None end.
Proof.
  induction a as [|p a IH]; intros s t; cbn [app exec_io]; [reflexivity|].
  destruct (io_insn e p s t) as [[s1 t1]|]; [apply IH|reflexivity].
Qed.

(** ** Text *)

Lemma digits_lead f : forall z, 0 <= z < 10 ^ Z.of_nat f -> (0 < f)%nat -> hd 0 (SysioModel.digits f z) = 48 -> SysioModel.digits f z = [48].
Proof.
  induction f as [|f IH]; intros z Hz Hf H; [lia|]. cbn [SysioModel.digits] in *. destruct (z <? 10) eqn:E.
  - cbn [hd] in H. f_equal. lia.
  - exfalso. replace (Z.of_nat (S f)) with (Z.of_nat f + 1) in Hz by lia. rewrite Z.pow_add_r in Hz by lia. change (10 ^ 1) with 10 in Hz.
    assert (F : f <> 0%nat) by (intros ->; cbn in Hz; lia).
    assert (B : 0 <= z / 10 < 10 ^ Z.of_nat f) by (split; [apply Z.div_pos; lia|apply Z.div_lt_upper_bound; lia]).
    destruct (SysioText.digits_ok f (z / 10) B ltac:(lia)) as (V & _ & Ne & _).
    assert (H' : hd 0 (SysioModel.digits f (z / 10)) = 48).
    { destruct (SysioModel.digits f (z / 10)); [congruence|]. cbn [app hd] in *. exact H. }
    specialize (IH _ B ltac:(lia) H'). rewrite IH in V. cbn in V. assert (1 <= z / 10) by (apply Z.div_le_lower_bound; lia). lia.
Qed.

Lemma decimal_numeral z : -10000000000 < z < 10000000000 -> numeral_of z (SysioModel.decimal z).
Proof.
  intros H. unfold numeral_of, SysioModel.decimal.
  assert (B : 0 <= Z.abs z < 10 ^ Z.of_nat 10) by (change (10 ^ Z.of_nat 10) with 10000000000; lia).
  destruct (SysioText.digits_ok 10 (Z.abs z) B ltac:(lia)) as (V & D & Ne & _).
  pose proof (digits_lead 10 (Z.abs z) B ltac:(lia)) as L.
  exists (SysioModel.digits 10 (Z.abs z)). split; [|repeat split; assumption].
  destruct (z <? 0) eqn:E; [rewrite Z.abs_neq by lia|rewrite Z.abs_eq by lia]; reflexivity.
Qed.

(** A number has one numeral. *)
Lemma value_bound ds : Forall SysioSpec.digit ds -> 0 <= SysioSpec.value ds < 10 ^ Z.of_nat (length ds).
Proof.
  induction ds as [|c ds IH] using rev_ind; intros F; [cbn; lia|].
  apply Forall_app in F. destruct F as (F & G). inversion G as [|? ? D _]; subst. unfold SysioSpec.digit in D.
  rewrite SysioText.value_app, app_length. cbn [length]. rewrite Nat2Z.inj_add, Z.pow_add_r by lia. change (10 ^ Z.of_nat 1) with 10.
  specialize (IH F). lia.
Qed.
Lemma value_zero c ds : Forall SysioSpec.digit (c :: ds) -> SysioSpec.value (c :: ds) = 0 -> c = 48.
Proof.
  intros F. induction ds as [|d ds IH] using rev_ind; intros V.
  - unfold SysioSpec.value in V. cbn in V. lia.
  - rewrite app_comm_cons in F, V. rewrite SysioText.value_app in V. apply Forall_app in F. destruct F as (F & G).
    inversion G as [|? ? D _]; subst. unfold SysioSpec.digit in D. pose proof (value_bound _ F). apply IH; [exact F|lia].
Qed.
Definition lead_ok (ds : list Z) : Prop := (hd 0 ds = 48 -> ds = [48]) /\ ds <> [].
Lemma lead_cons c d ds : lead_ok ((c :: ds) ++ [d]) -> lead_ok (c :: ds) /\ c <> 48.
Proof.
  intros (H & _). cbn [app hd] in H. assert (c <> 48).
  { intros ->. specialize (H eq_refl). destruct ds; discriminate H. }
  split; [|assumption]. split; [cbn [hd]; congruence|discriminate].
Qed.
Lemma value_inj : forall ds es, Forall SysioSpec.digit ds -> Forall SysioSpec.digit es -> lead_ok ds -> lead_ok es ->
  SysioSpec.value ds = SysioSpec.value es -> ds = es.
Proof.
  induction ds as [|d ds IH] using rev_ind; intros es F G L M V; [destruct (proj2 L); reflexivity|].
  destruct es as [|e es _] using rev_ind; [destruct (proj2 M); reflexivity|].
  apply Forall_app in F, G. destruct F as (F & Fd), G as (G & Ge). inversion Fd as [|? ? D _]; inversion Ge as [|? ? E _]; subst.
  unfold SysioSpec.digit in D, E. rewrite !SysioText.value_app in V.
  assert (d = e /\ SysioSpec.value ds = SysioSpec.value es) as (-> & V') by lia. f_equal.
  destruct ds as [|c ds], es as [|c' es]; [reflexivity| | |].
  - exfalso. apply lead_cons in M. destruct M as (_ & M). apply M, (value_zero c' es G). symmetry. exact V'.
  - exfalso. apply lead_cons in L. destruct L as (_ & L). apply L, (value_zero c ds F). exact V'.
  - apply IH; auto; [exact (proj1 (lead_cons _ _ _ L))|exact (proj1 (lead_cons _ _ _ M))].
Qed.
Lemma numeral_unique z l m : numeral_of z l -> numeral_of z m -> l = m.
Proof.
  intros (ds & -> & D & V & L & N) (es & -> & E & W & M & O). f_equal.
  apply value_inj; auto; [split; assumption|split; assumption|congruence].
Qed.

(** ** Files *)

Definition wrote (t t' : SysioModel.io) (n : Z) (x : SysioModel.stream) (l : list Z) : Prop :=
  SysioSpec.writable t' n (SysioModel.mkStream (SysioModel.rest x) (SysioModel.out x ++ l) (SysioModel.ate x)) /\
  forall m, 0 <= m < 8 -> m <> n -> SysioModel.ent t' m = SysioModel.ent t m.

Lemma wrote_nil t n x : SysioSpec.writable t n x -> wrote t t n x [].
Proof. intros W. split; [|auto]. rewrite app_nil_r. destruct x; exact W. Qed.
Lemma wrote_trans t t1 t2 n x l m : wrote t t1 n x l ->
  wrote t1 t2 n (SysioModel.mkStream (SysioModel.rest x) (SysioModel.out x ++ l) (SysioModel.ate x)) m -> wrote t t2 n x (l ++ m).
Proof.
  intros (_ & B) (C & D). split.
  - rewrite app_assoc. exact C.
  - intros k K1 K2. rewrite D, B by assumption. reflexivity.
Qed.

Lemma emit_wrote t n x l : SysioSpec.writable t n x -> wrote t (SysioModel.emit t n l) n x l.
Proof.
  intros (A & B & C & D). unfold SysioModel.emit, SysioModel.put_stream, SysioModel.the_stream. rewrite C. split.
  - unfold SysioSpec.writable. rewrite SysioText.ent_put' by auto. repeat split; try lia; auto.
    unfold SysioModel.put. cbn [SysioModel.ftab]. rewrite SysioProofs.set_nth_length. exact B.
  - intros m M1 M2. unfold SysioModel.ent, SysioModel.put. cbn [SysioModel.ftab]. apply SysioProofs.set_nth_other. lia.
Qed.

Lemma write_text_wrote e s t n x w l : SysioSpec.writable t n x -> SysioModel.e_fail e = false ->
  exists t', SysioModel.write_text e s t n w l = SysioModel.SR eNOERROR s t' /\ wrote t t' n x (SysioModel.pad (w / 256) l).
Proof.
  intros W F. unfold SysioModel.write_text. rewrite (SysioText.writable_check _ _ _ W). cbv zeta.
  cbn [negb Z.eqb eNOERROR]. rewrite F. eexists. split; [reflexivity|]. apply emit_wrote, W.
Qed.

(** ** Operands *)

Lemma pushed_operands s s1 ws : 0 <= sp s1 < 65536 -> pushed s s1 ws -> StringSpec.operands s1 (rev ws).
Proof.
  intros B (_ & Sp & W & _). split; [exact B|]. intros k w H.
  assert (K : (k < length ws)%nat) by (rewrite <- (rev_length ws); apply nth_error_Some; congruence).
  unfold tos. specialize (W (length ws - 1 - k)%nat w). rewrite <- W.
  - f_equal. rewrite Sp, half_add. lia.
  - rewrite <- H. clear - K. rewrite <- (rev_involutive ws) at 1.
    assert (N : forall (l : list Z) j, (j < length l)%nat -> nth_error (rev l) (length l - 1 - j) = nth_error l j).
    { clear. intros l j J. rewrite (nth_error_nth' (rev l) 0) by (rewrite rev_length; lia).
      rewrite rev_nth by lia. replace (length l - S (length l - 1 - j))%nat with j by lia. symmetry. apply nth_error_nth'. exact J. }
    rewrite <- (rev_length ws). apply N. rewrite rev_length. exact K.
Qed.

Lemma pushed_discard s s1 ws pc k : 0 <= sp s < 65536 -> pushed s s1 ws -> k = Z.of_nat (length ws) ->
  pushed s (with_pc (discard s1 k) pc) [].
Proof.
  intros B ((A1 & A2 & A3 & A4 & A5) & Sp & _ & I) ->. unfold pushed, same_regs, discard. cbn [cf csp fp lsp fch sp with_pc with_sp length].
  split; [repeat split; assumption|]. split.
  - rewrite Sp. replace (sp s + 2 * Z.of_nat (length ws) - 2 * Z.of_nat (length ws)) with (sp s) by lia. rewrite u16_small by lia. lia.
  - split; [intros k v H; destruct k; discriminate H|exact I].
Qed.

(** ** The system I/O functions *)

(** The function that writes a value of the type [t] *)
Definition write_fun (t : etype) : Z :=
  match t with
  | xInteger | xShortInteger => SysioModel.xWRITE_INT
  | xWord | xShortWord => SysioModel.xWRITE_WORD
  | xLongInteger => SysioModel.xWRITE_LONGINT
  | xLongWord => SysioModel.xWRITE_LONGWORD
  | _ => SysioModel.xWRITE_CHAR
  end.
Definition io_code (f : Z) : opType := mkOp oSYSIO 0 f.

Lemma io_op_eq f c : 0 <= f <= 65535 -> io_op f c = append (io_code f) c.
Proof.
  intros H. unfold io_op, data_op, emit. change (has8 oSYSIO) with false. change (has16 oSYSIO) with true.
  cbn [andb error_if]. replace ((f <? -32768) || (65535 <? f)) with false by lia. cbn [error_if]. unfold io_code. rewrite u16_small by lia. reflexivity.
Qed.
Lemma write_op_eq t c : printable t = true -> write_op t c = append (io_code (write_fun t)) c.
Proof. intros H. destruct t; try discriminate H; apply io_op_eq; vm_compute; split; discriminate. Qed.

Lemma run_io e f s s1 ws t n x l : 0 <= sp s < 65536 -> pushed s s1 ws ->
  (exists k t', SysioModel.sysio e s1 t f = SysioModel.SR eNOERROR (discard s1 k) t' /\ k = Z.of_nat (length ws) /\ wrote t t' n x l) ->
  exists s' t', exec_io e [io_code f] s1 t = Some (s', t') /\ pushed s s' [] /\ wrote t t' n x l.
Proof.
  intros B P (k & t' & E & K & W). cbn [exec_io]. unfold io_insn, io_code. cbn [op arg2]. rewrite Z.eqb_refl, E.
  change (eNOERROR =? eNOERROR) with true. cbv iota. eexists _, _. split; [reflexivity|]. split; [|exact W].
  eapply pushed_discard; eauto.
Qed.

Lemma run_value e T z s s1 t n x w : printable T = true -> inr T z = true -> 0 <= sp s -> 0 <= sp s1 < 65536 -> 0 <= w < 65536 -> pushed s s1 ((n :: words T z) ++ [w]) ->
  SysioSpec.writable t n x -> SysioModel.e_fail e = false ->
  exists s' t' l, exec_io e [io_code (write_fun T)] s1 t = Some (s', t') /\ pushed s s' [] /\ shown T z l /\
    wrote t t' n x (right_justified (w / 256) l).
Proof.
  intros Pr I B0 B W P Wr F.
  assert (B' : 0 <= sp s < 65536) by (destruct P as (_ & Sp & _); lia).
  pose proof (pushed_operands _ _ _ B P) as Ho.
  assert (Go : forall l f, shown T z l ->
     SysioModel.sysio e s1 t f = SysioModel.write_text e (discard s1 (Z.of_nat (length ((n :: words T z) ++ [w])))) t n w l ->
     exists s' t' l, exec_io e [io_code f] s1 t = Some (s', t') /\ pushed s s' [] /\ shown T z l /\ wrote t t' n x (right_justified (w / 256) l)).
  { intros l f Sh E. destruct (write_text_wrote e (discard s1 (Z.of_nat (length ((n :: words T z) ++ [w])))) t n x w l Wr F) as (t' & E' & W').
    rewrite E' in E. destruct (run_io e f s s1 _ t n x _ B' P (ex_intro _ _ (ex_intro _ t' (conj E (conj eq_refl W'))))) as (s' & t2 & X & Y & V).
    exists s', t2, l. split; [exact X|]. split; [exact Y|]. split; [exact Sh|exact V]. }
  unfold inr in I.
  assert (Is32 : forall (a b : Z), StringSpec.operands s1 [w; b; a; n] -> forall f g,
     SysioModel.sysio e s1 t f = SysioModel.sbind (pop s1) (fun '(w, s) => SysioModel.sbind (pop s) (fun '(hi, s) => SysioModel.sbind (pop s) (fun '(lo, s) =>
       SysioModel.sbind (pop s) (fun '(n, s) => SysioModel.write_text e s t n w (g lo hi))))) ->
     SysioModel.sysio e s1 t f = SysioModel.write_text e (discard s1 4) t n w (g a b)).
  { clear. intros a b Ho f g ->. StringProofs.start_pops Ho. cbn [SysioModel.sbind]. StringProofs.pop_one Ho 1%nat. cbn [SysioModel.sbind].
    StringProofs.pop_one Ho 2%nat. cbn [SysioModel.sbind]. StringProofs.pop_one Ho 3%nat. cbn [SysioModel.sbind]. reflexivity. }
  assert (Is16 : forall (a : Z), StringSpec.operands s1 [w; a; n] -> forall f g,
     SysioModel.sysio e s1 t f = SysioModel.sbind (pop s1) (fun '(w, s) => SysioModel.sbind (pop s) (fun '(v, s) =>
       SysioModel.sbind (pop s) (fun '(n, s) => SysioModel.write_text e s t n w (g v)))) ->
     SysioModel.sysio e s1 t f = SysioModel.write_text e (discard s1 3) t n w (g a)).
  { clear. intros a Ho f g ->. StringProofs.start_pops Ho. cbn [SysioModel.sbind]. StringProofs.pop_one Ho 1%nat. cbn [SysioModel.sbind].
    StringProofs.pop_one Ho 2%nat. cbn [SysioModel.sbind]. reflexivity. }
  destruct T; try discriminate Pr; cbn [class_of] in I; unfold words in *; cbn [is32 class_of] in *; cbn [app rev length] in *;
    match goal with
    | Ho : StringSpec.operands _ [_; _; _; _] |- exists s' t' l, exec_io e [io_code (write_fun ?T)] _ _ = _ /\ _ =>
      match T with
      | xLongInteger => apply (Go (SysioModel.decimal (s32 (z mod 65536 + 65536 * ((z / 65536) mod 65536)))));
          [|apply (Is32 _ _ Ho _ (fun lo hi => SysioModel.decimal (s32 (lo + 65536 * hi)))); reflexivity]
      | _ => apply (Go (SysioModel.decimal (z mod 65536 + 65536 * ((z / 65536) mod 65536))));
          [|apply (Is32 _ _ Ho _ (fun lo hi => SysioModel.decimal (lo + 65536 * hi))); reflexivity]
      end
    | Ho : StringSpec.operands _ [_; _; _] |- exists s' t' l, exec_io e [io_code (write_fun ?T)] _ _ = _ /\ _ =>
      match T with
      | xChar => apply (Go [u8 (z mod 65536)]); [|apply (Is16 _ Ho _ (fun v => [u8 v])); reflexivity]
      | xWord => apply (Go (SysioModel.decimal (z mod 65536))); [|apply (Is16 _ Ho _ (fun v => SysioModel.decimal v)); reflexivity]
      | xShortWord => apply (Go (SysioModel.decimal (z mod 65536))); [|apply (Is16 _ Ho _ (fun v => SysioModel.decimal v)); reflexivity]
      | _ => apply (Go (SysioModel.decimal (s16 (z mod 65536)))); [|apply (Is16 _ Ho _ (fun v => SysioModel.decimal (s16 v))); reflexivity]
      end
    end; cbn [shown].
  - change (z mod 65536) with (u16 z). rewrite SysioText.s16_of_u16 by lia. apply decimal_numeral. lia.
  - rewrite Z.mod_small by lia. apply decimal_numeral. lia.
  - change (z mod 65536) with (u16 z). rewrite SysioText.s16_of_u16 by lia. apply decimal_numeral. lia.
  - rewrite Z.mod_small by lia. apply decimal_numeral. lia.
  - replace (s32 (z mod 65536 + 65536 * ((z / 65536) mod 65536))) with z; [apply decimal_numeral; lia|].
    rewrite halves. unfold s32, u32. clear Is16 Is32 Go. cbv zeta. change M32 with 4294967296 in *. change (2 ^ 32) with 4294967296 in *. rewrite Z.mod_mod by lia. destruct (z mod 4294967296 <? 2147483648) eqn:E; lia.
  - rewrite halves. rewrite Z.mod_small by (unfold M32; lia). apply decimal_numeral. lia.
  - f_equal. unfold u8. lia.
Qed.

(** ** Strings *)

Lemma rdbs_nth l : forall s a, (forall i b, nth_error l i = Some b -> rdb s (a + Z.of_nat i) = Some b) -> StringModel.rdbs (length l) s a = Some l.
Proof.
  induction l as [|x l IH]; intros s a H; [reflexivity|]. cbn [length StringModel.rdbs].
  pose proof (H 0%nat x eq_refl) as H0. rewrite Z.add_0_r in H0. rewrite H0. cbn [bindO]. rewrite IH; [reflexivity|].
  intros i b N. rewrite <- (H (S i) b N). f_equal. lia.
Qed.

Lemma constants_pushed s s1 ws ro : c_ssz (cf s) mod 2 = 0 -> pushed s s1 ws -> constants s ro -> constants s1 ro.
Proof.
  intros E ((Cf & _) & Sp & _ & I) (A & B & C). unfold constants. rewrite Cf. split; [exact A|].
  assert (sp s / 2 <= sp s1 / 2) by (apply Z.div_le_mono; lia). split; [lia|].
  intros i b N. rewrite <- (C i b N). apply rd_rdb'; auto. apply I.
  assert (K : (i < length ro)%nat) by (apply nth_error_Some; congruence).
  apply Z.div_le_upper_bound; lia.
Qed.

Definition string_code (size offset : Z) : list opType :=
  [mkOp oDUP 0 0; lpush size; mkOp oLAC 0 offset; lpush size; lpush 0; io_code SysioModel.xWRITE_STRING].

Lemma run_lac s off : room s 1 -> exists s', exec_insn s (mkOp oLAC 0 off) = Ok s' /\ pushed s s' [u16 (off + c_rop (cf s))].
Proof.
  intros R.
  assert (X : exists s', exec_insn s (mkOp oLAC 0 off) = Ok s' /\ stack_effect s s' 0 [u16 (off + c_rop (cf s))] /\ pc s' = u16 (pc s + 3)).
  { change (exec_insn s (mkOp oLAC 0 off)) with (next 3 (exec24 LAC s off)). cbn [exec24].
    apply ret_next. apply push_effect; [exact R|apply u16_range]. }
  destruct X as (s' & E & F & _). exists s'. split; [exact E|]. apply effect_pushed, F.
Qed.

Lemma run_dup s n : room s 1 -> 2 <= sp s -> tos s 0 = Some n -> exists s1, exec_insn s (mkOp oDUP 0 0) = Ok s1 /\ pushed s s1 [n].
Proof.
  intros R S0 T. destruct (rw_dup n s) as (s1 & E1 & P1); [exact R|cbn [length]; lia| |].
  { intros [|k] v K; cbn in K; [injection K as <-; rewrite <- T; unfold tos; f_equal; cbn [length]; lia|destruct k; discriminate K]. }
  exists s1. split; [exact E1|].
  destruct P1 as (A & B & D & E). cbn [length] in *. split; [exact A|]. split; [cbn [length]; lia|]. split.
  - intros [|k] v K; cbn in K; [injection K as <-|destruct k; discriminate K]. rewrite <- (D 1%nat n eq_refl). f_equal. lia.
  - intros i Hi. destruct (Z.eq_dec i (sp s / 2)) as [->|Ne]; [|apply E; lia].
    unfold tos in T. rewrite Z.sub_0_r in T. rewrite T. rewrite <- (D 0%nat n eq_refl). f_equal. lia.
Qed.

Lemma run_string e l pre post s t n x : room s 5 -> 2 <= sp s -> tos s 0 = Some n -> constants s (pre ++ l ++ post) ->
  Z.of_nat (length (pre ++ l ++ post)) <= 32767 -> SysioSpec.writable t n x -> SysioModel.e_fail e = false ->
  exists s' t', exec_io e (string_code (Z.of_nat (length l)) (Z.of_nat (length pre))) s t = Some (s', t') /\ pushed s s' [] /\ wrote t t' n x l.
Proof.
  intros R S0 T C L W F. set (z := Z.of_nat (length l)). set (o := Z.of_nat (length pre)).
  rewrite !app_length in L.
  destruct (run_dup s n) as (s1 & E1 & Q1); [eapply room_mono; [exact R|lia]|exact S0|exact T|].
  assert (Rn : forall s' ws, pushed s s' ws -> (length ws <= 4)%nat -> room s' 1).
  { intros s' ws P K. eapply room_mono; [eapply room_pushed; [exact P|exact R]|lia]. }
  destruct (push_insn s1 0 z) as (s2 & E2 & P2 & _); [apply (Rn s1 _ Q1); cbn; lia|unfold z; lia|].
  pose proof (pushed_app _ _ _ _ _ Q1 (effect_pushed _ _ _ P2)) as Q2. cbn [app] in Q2.
  destruct (run_lac s2 o) as (s3 & E3 & P3); [apply (Rn s2 _ Q2); cbn; lia|].
  pose proof (pushed_app _ _ _ _ _ Q2 P3) as Q3. cbn [app] in Q3.
  destruct (push_insn s3 0 z) as (s4 & E4 & P4 & _); [apply (Rn s3 _ Q3); cbn; lia|unfold z; lia|].
  pose proof (pushed_app _ _ _ _ _ Q3 (effect_pushed _ _ _ P4)) as Q4. cbn [app] in Q4.
  destruct (push_insn s4 0 0) as (s5 & E5 & P5 & _); [apply (Rn s4 _ Q4); cbn; lia|lia|].
  pose proof (pushed_app _ _ _ _ _ Q4 (effect_pushed _ _ _ P5)) as Q5. cbn [app] in Q5.
  assert (Cf2 : cf s2 = cf s) by (exact (proj1 (proj1 Q2))). assert (Cf5 : cf s5 = cf s) by (exact (proj1 (proj1 Q5))). rewrite Cf2 in Q5.
  destruct R as (R1 & R2 & R3 & R4).
  assert (B5 : 0 <= sp s5 < 65536) by (destruct Q5 as (_ & Sp & _); cbn [length] in Sp; lia).
  pose proof (constants_pushed _ _ _ _ R4 Q5 C) as (C1 & C2 & C3). rewrite !app_length in C2.
  assert (A : u16 (o + c_rop (cf s)) = c_rop (cf s) + o) by (rewrite Cf5 in *; rewrite u16_small; unfold o; lia).
  rewrite A in Q5.
  pose proof (pushed_operands _ _ _ B5 Q5) as Ho. cbn [rev app] in Ho.
  assert (Ld : StringModel.rdbs (length l) (discard s5 5) (c_rop (cf s) + o) = Some l).
  { apply rdbs_nth. intros i b N. change (rdb (discard s5 5) (c_rop (cf s) + o + Z.of_nat i)) with (rdb s5 (c_rop (cf s) + o + Z.of_nat i)). rewrite Cf5 in C3. rewrite <- (C3 (length pre + i)%nat b); [f_equal; unfold o; lia|].
    rewrite nth_error_app2 by lia. replace (length pre + i - length pre)%nat with i by lia. rewrite nth_error_app1; [exact N|apply nth_error_Some; congruence]. }
  destruct (run_io e SysioModel.xWRITE_STRING s s5 [n; z; c_rop (cf s) + o; z; 0] t n x l) as (s' & t' & X & Y & V); [lia|exact Q5| |].
  - exists 5, (SysioModel.emit t n (SysioModel.pad (0 / 256) l)). split; [|split; [reflexivity|]].
    + change (SysioModel.sysio e s5 t SysioModel.xWRITE_STRING) with
        (SysioModel.sbind (pop s5) (fun '(w, s) => SysioModel.sbind (pop s) (fun '(al, s) => SysioModel.sbind (pop s) (fun '(addr, s) =>
         SysioModel.sbind (pop s) (fun '(size, s) => SysioModel.sbind (pop s) (fun '(n, s) => SysioModel.write_string e s t n addr size al w)))))).
      StringProofs.start_pops Ho. cbn [SysioModel.sbind]. StringProofs.pop_one Ho 1%nat. cbn [SysioModel.sbind].
      StringProofs.pop_one Ho 2%nat. cbn [SysioModel.sbind]. StringProofs.pop_one Ho 3%nat. cbn [SysioModel.sbind].
      StringProofs.pop_one Ho 4%nat. cbn [SysioModel.sbind]. unfold SysioModel.write_string. rewrite (SysioText.writable_check _ _ _ W). cbv zeta.
      cbn [negb Z.eqb eNOERROR]. unfold z. rewrite Nat2Z.id.
      rewrite Ld. cbn [SysioModel.sbind]. rewrite F. unfold HeapModel.free_tmp.
      assert (Z.land (Z.of_nat (length l)) HeapModel.HEAP_STRING = 0) as ->.
      { change HeapModel.HEAP_STRING with (Z.shiftl 1 15). apply Z.bits_inj'. intros k Hk. rewrite Z.land_spec, Z.bits_0, Z.shiftl_spec by lia.
        destruct (Z.eq_dec k 15) as [->|Ne].
        - replace (Z.testbit (Z.of_nat (length l)) 15) with false; [reflexivity|]. symmetry. apply Z.bits_above_log2; [lia|].
          destruct (Z.eq_dec (Z.of_nat (length l)) 0) as [->|Nz]; [reflexivity|]. apply Z.log2_lt_pow2; lia.
        - replace (Z.testbit 1 (k - 15)) with false; [apply andb_false_r|]. symmetry. destruct (Z_lt_le_dec k 15); [apply Z.testbit_neg_r; lia|].
          apply Z.bits_above_log2; [lia|]. cbn. lia. }
      cbn [Z.eqb negb SysioModel.shout]. reflexivity.
    + replace (SysioModel.pad (0 / 256) l) with l; [apply emit_wrote, W|]. unfold SysioModel.pad.
      change (0 / 256) with 0. replace (Z.to_nat (0 - Z.of_nat (length l))) with 0%nat by lia. reflexivity.
  - exists s', t'. split; [|split; assumption].
    unfold string_code. change [mkOp oDUP 0 0; lpush z; mkOp oLAC 0 o; lpush z; lpush 0; io_code SysioModel.xWRITE_STRING] with
      ([mkOp oDUP 0 0; lpush z; mkOp oLAC 0 o; lpush z; lpush 0] ++ [io_code SysioModel.xWRITE_STRING]).
    rewrite exec_io_app, (exec_io_ok e t _ s s5); [exact X|].
    unfold lpush. cbn [exec_list]. rewrite E1, E2, E3, E4, E5. reflexivity.
Qed.
