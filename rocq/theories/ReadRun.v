(** Execution of the code of Read and ReadLn. *)

From Coq Require Import ZArith Bool List Lia ZifyBool.
From Verif Require Import Words WordLemmas State StateLemmas Opcodes EncodeModel SetModel LongModel Machine VmSpec
  VmProofs MemProofs MultiProofs ExprModel ExprSpec ExprRun ExprOps ExprLoad ExprProofs ExprMain
  StmtModel StmtPlain StmtRun StmtStore ArrModel ArrProofs ActModel ActProofs WriteModel WriteSpec WriteRun WriteProofs WriteMain ReadModel ReadSpec.
From Verif Require Import StmtSpec StmtRun.
From Verif Require SysioModel SysioSpec SysioProofs SysioText StringSpec StringProofs ActRun.
Import ListNotations.
Open Scope Z_scope.
Local Ltac Zify.zify_post_hook ::= Z.div_mod_to_equations.

(** ** Words and bytes *)

Lemma word_of_rd s a w : a mod 2 = 0 -> c_ssz (cf s) mod 2 = 0 -> rd s (a / 2) = Some w -> StringSpec.word_at s a w.
Proof.
  intros A E R. apply rd_some in R. destruct R as (B & ->). unfold in_word in B. unfold StringSpec.word_at, StringSpec.inside.
  split; [exact A|]. split; [lia|]. unfold byte_of.
  replace (a mod 2 =? 0) with true by lia. replace ((a + 1) mod 2 =? 0) with false by lia.
  replace ((a + 1) / 2) with (a / 2) by lia. unfold u8, u16. set (v := mem s (a / 2)). clearbody v. 
  assert (v mod 256 = (v mod 65536) mod 256) by (symmetry; apply mod_256). lia.
Qed.
Lemma rd_of_word s a w : c_ssz (cf s) mod 2 = 0 -> StringSpec.word_at s a w -> rd s (a / 2) = Some w.
Proof.
  intros E (A & (B1 & B2) & H). unfold rd, in_word. replace ((0 <=? a / 2) && (a / 2 <? c_ssz (cf s) / 2)) with true by lia.
  f_equal. rewrite <- H. unfold byte_of.
  replace (a mod 2 =? 0) with true by lia. replace ((a + 1) mod 2 =? 0) with false by lia.
  replace ((a + 1) / 2) with (a / 2) by lia. unfold u8, u16. set (v := mem s (a / 2)). clearbody v.
  assert (v mod 256 = (v mod 65536) mod 256) by (symmetry; apply mod_256). lia.
Qed.
Lemma rdb_of_only s s' P b : cf s' = cf s -> StringSpec.only s s' P -> ~ P b -> rdb s' b = rdb s b.
Proof. intros C O N. unfold rdb, in_byte. rewrite C, (O b N). reflexivity. Qed.

(** ** Reading a line *)

Lemma read_char_ok e s t n x addr l r : StringSpec.operands s [addr; n] -> SysioSpec.readable t n x -> SysioModel.e_fail e = false ->
  StringSpec.inside s addr 1 -> SysioSpec.line l -> l <> [] -> Z.of_nat (length l) <= 254 -> SysioModel.rest x = l ++ 10 :: r ->
  exists s' t', SysioModel.sysio e s t SysioModel.xREAD_CHAR = SysioModel.SR eNOERROR s' t' /\ byte_of (mem s') addr = hd 0 l /\
    SysioSpec.after_line t t' n x r /\ StringSpec.popped s s' 2 /\ StringSpec.only s s' (StringSpec.within addr 1).
Proof.
  intros Ho R F W Hl Hn Hs E. destruct (SysioText.operands2 _ _ _ Ho) as (s1 & P1 & P2).
  change (SysioModel.sysio e s t SysioModel.xREAD_CHAR) with
    (SysioModel.sbind (pop s) (fun '(addr, s) => SysioModel.sbind (pop s) (fun '(n, s) => SysioModel.read_char e s t n addr))).
  rewrite P1. cbn [SysioModel.sbind]. rewrite P2. cbn [SysioModel.sbind]. unfold SysioModel.read_char.
  destruct (SysioText.read_line_ok _ _ _ _ _ _ R F Hl Hn Hs E) as (t' & L & B & A). rewrite L. cbn [negb Z.eqb eNOERROR].
  assert (Hc : 0 <= hd 0 l < 256) by (destruct Hl; cbn; lia).
  destruct (StringProofs.wrbs_ok [hd 0 l] (discard s 2) addr ltac:(constructor; [exact Hc | constructor])) as (m & P & Q & O).
  { exact W. }
  cbn [StringModel.wrbs] in P. rewrite B. destruct (wrb (discard s 2) addr (hd 0 l)) as [s2|]; [|discriminate P]. cbn [bindO] in P. injection P as ->.
  cbn [SysioModel.sbind]. exists (with_mem (discard s 2) m), t'. split; [reflexivity|]. split; [exact (proj1 Q)|].
  split; [exact A|]. split; [exact (StringProofs.discard_popped s m 2)|exact O].
Qed.

Definition read_fun (t : etype) : Z := match t with xChar => SysioModel.xREAD_CHAR | _ => SysioModel.xREAD_INT end.

Section Lines.
  Variables (lev : Z) (xs : list var) (adr : var -> Z) (links : Z -> Prop) (base : Z) (s0 : st).
  Hypothesis P : placed lev xs adr links base s0.
  Hypothesis Even : c_ssz (cf s0) mod 2 = 0.
  Notation ready := (ready xs adr links base s0).
  Notation moves := (moves xs adr).

  (** The instruction that reads: the address and the number of the file are on the stack. *)
  Lemma run_read e s s1 us r r1 x n t y l q z : ready s r -> moves s s1 (us ++ [n; adr x]) r1 -> 0 <= sp s1 < 65536 -> In x xs -> readable_type (vty x) ->
    SysioSpec.readable t n y -> SysioModel.e_fail e = false -> SysioModel.rest y = l ++ 10 :: q -> proper_line l -> given (vty x) l z ->
    exists s2 t2, exec_io e [io_code (read_fun (vty x))] s1 t = Some (s2, t2) /\ moves s s2 us (set r1 x z) /\ SysioSpec.after_line t t2 n y q.
  Proof.
    intros Rd M B Hx Ty Rb F E (L1 & L2 & L3) G.
    pose proof (moves_ready lev xs adr links base s0 P _ _ _ _ _ Rd M) as (Q1 & Q2 & Q3 & Q4).
    destruct (pl_vars _ _ _ _ _ _ P x Hx) as (V1 & V2 & V3).
    assert (Ce : c_ssz (cf s1) mod 2 = 0) by (destruct Q1 as (-> & _); exact Even).
    assert (Ho : StringSpec.operands s1 [adr x; n]).
    { split; [exact B|]. pose proof (moves_tops xs adr s s1 us [n; adr x] r1 M) as Tp. intros [|[|k]] w K; cbn in K.
      - injection K as <-. unfold tos. rewrite <- (Tp 1%nat (adr x) eq_refl). f_equal. cbn [length]. lia.
      - injection K as <-. unfold tos. rewrite <- (Tp 0%nat n eq_refl). f_equal. cbn [length]. lia.
      - destruct k; discriminate K. }
    pose proof (Q4 x Hx) as C.
    assert (Fin : forall s' pc', StringSpec.popped s1 s' 2 -> StringSpec.only s1 s' (StringSpec.within (adr x) (size_of (vty x))) ->
      contains (with_pc s' pc') (vty x) (adr x) z -> moves s (with_pc s' pc') us (set r1 x z)).
    { intros s' pc' (A1 & A2 & A3 & A4 & A5 & A6 & A7) O C'.
      pose proof M as (_ & Sp & _). rewrite app_length in Sp. cbn [length] in Sp.
      assert (0 <= sp s) by (pose proof (pl_base _ _ _ _ _ _ P); destruct Rd as (_ & _ & R3 & _); lia).
      apply (moves_store lev xs adr links base s0 P Even s s1 (with_pc s' pc') us [n; adr x] r r1 x z Rd M Hx).
      - unfold same_regs. cbn [cf csp fp lsp fch with_pc]. repeat split; assumption.
      - cbn [sp with_pc length]. rewrite A2, u16_small by lia. lia.
      - exact C'.
      - intros b _ N. apply (rdb_of_only s1 (with_pc s' pc') (StringSpec.within (adr x) (size_of (vty x)))); [exact A1|exact O|exact N]. }
    destruct Ty as [Ty|Ty]; rewrite Ty in *; cbn [read_fun size_of contains given] in *.
    - destruct G as (sp & sign & ds & q0 & -> & Nu & Vl & ->). specialize (V3 ltac:(discriminate)).
      pose proof (word_of_rd s1 (adr x) _ V3 Ce C) as W.
      destruct (SysioText.read_int_ok e s1 t n y (adr x) _ _ q Ho Rb F W L1 L2 L3 E) as (s' & t' & X & W' & A & Po & On).
      rewrite (SysioText.convert_ok _ _ _ _ Nu) in W'. unfold SysioText.read_value in W'. replace (SysioSpec.value ds <=? 32767) with true in W' by lia.
      cbn [exec_io]. unfold io_insn, io_code. cbn [op arg2]. rewrite Z.eqb_refl, X. change (eNOERROR =? eNOERROR) with true. cbv iota.
      eexists _, t'. split; [reflexivity|]. split; [|exact A].
      apply (Fin s' (u16 (pc s1 + 3)) Po On).
      apply (rd_of_word (with_pc s' (u16 (pc s1 + 3)))); [destruct Po as (Po & _); cbn [cf with_pc]; rewrite Po; exact Ce|exact W'].
    - destruct C as (v & C & _). cbn [element] in C.
      assert (I : StringSpec.inside s1 (adr x) 1) by (unfold rdb, in_byte in C; unfold StringSpec.inside; destruct (_ && _) eqn:Q; [lia|discriminate C]).
      destruct (read_char_ok e s1 t n y (adr x) l q Ho Rb F I L1 L2 L3 E) as (s' & t' & X & W' & A & Po & On).
      cbn [exec_io]. unfold io_insn, io_code. cbn [op arg2]. rewrite Z.eqb_refl, X. change (eNOERROR =? eNOERROR) with true. cbv iota.
      eexists _, t'. split; [reflexivity|]. split; [|exact A].
      apply (Fin s' (u16 (pc s1 + 3)) Po On).
      exists z. destruct l as [|c l]; [discriminate G|]. cbn [hd_error] in G. injection G as <-. cbn [hd] in W'.
      inversion L1 as [|? ? Lc _]; subst. split; [|lia].
      cbn [element]. unfold rdb, in_byte. cbn [cf mem with_pc]. destruct Po as (-> & _). unfold StringSpec.inside in I.
      replace ((0 <=? adr x) && (adr x <? c_ssz (cf s1))) with true by lia. f_equal.
  Qed.

  Definition item_code (x : var) : list opType := [mkOp oDUP 0 0; refer lev oLAS x; io_code (read_fun (vty x))].

  Lemma run_item e s s1 r r1 x n t y l q z : ready s r -> room s 3 -> moves s s1 [n] r1 -> In x xs -> readable_type (vty x) ->
    SysioSpec.readable t n y -> SysioModel.e_fail e = false -> SysioModel.rest y = l ++ 10 :: q -> proper_line l -> given (vty x) l z ->
    exists s2 t2, exec_io e (item_code x) s1 t = Some (s2, t2) /\ moves s s2 [n] (set r1 x z) /\ SysioSpec.after_line t t2 n y q.
  Proof.
    intros Rd Rm M Hx Ty Rb F E Pl G. pose proof (moves_ready lev xs adr links base s0 P _ _ _ _ _ Rd M) as Rd1.
    pose proof (moves_room xs adr s s1 [n] r1 3 M Rm) as R1. cbn [length] in R1. change (3 - Z.of_nat 1) with 2 in R1.
    pose proof M as (_ & Sp & Wd & _). cbn [length] in Sp. destruct Rm as (Rm0 & Rm1 & Rm2 & Rm3).
    destruct (run_dup s1 n) as (s2 & E2 & P2).
    { eapply room_mono; [exact R1|lia]. }
    { lia. }
    { unfold tos. rewrite <- (Wd 0%nat n eq_refl). f_equal. lia. }
    pose proof (moves_pushed lev xs adr links base s0 P Even s1 s2 [n] r1 Rd1 P2) as M2.
    pose proof (moves_trans lev xs adr links base s0 P s s1 s2 [n] [n] r r1 r1 Rd M M2) as M02. cbn [app] in M02.
    pose proof (moves_ready lev xs adr links base s0 P _ _ _ _ _ Rd1 M2) as Rd2. pose proof Rd2 as (Q1 & Q2 & _).
    destruct (run_las lev s2 x (adr x)) as (s3 & E3 & P3).
    { eapply room_mono; [eapply room_pushed; [exact P2|exact R1]|cbn [length]; lia]. }
    { exact (pl_addr _ _ _ _ _ _ P s2 Q1 Q2 x Hx). }
    pose proof (moves_pushed lev xs adr links base s0 P Even s2 s3 [adr x] r1 Rd2 P3) as M3.
    pose proof (moves_trans lev xs adr links base s0 P s s2 s3 [n; n] [adr x] r r1 r1 Rd M02 M3) as M03. cbn [app] in M03.
    assert (B : 0 <= sp s3 < 65536) by (destruct M03 as (_ & Sp3 & _); cbn [length] in Sp3; lia).
    destruct (run_read e s s3 [n] r r1 x n t y l q z Rd M03 B Hx Ty Rb F E Pl G) as (s4 & t4 & E4 & M4 & A4).
    exists s4, t4. split; [|split; assumption].
    unfold item_code. change [mkOp oDUP 0 0; refer lev oLAS x; io_code (read_fun (vty x))] with ([mkOp oDUP 0 0] ++ [refer lev oLAS x] ++ [io_code (read_fun (vty x))]).
    rewrite exec_io_app, (exec_io_ok e t [mkOp oDUP 0 0] s1 s2) by (cbn [exec_list]; rewrite E2; reflexivity).
    rewrite exec_io_app, (exec_io_ok e t _ _ _ E3). exact E4.
  Qed.

  Lemma run_items e s n ys : (forall x, In x ys -> In x xs /\ readable_type (vty x)) -> forall s1 r r1 t y ls q r2,
    ready s r -> room s 3 -> moves s s1 [n] r1 ->
    SysioSpec.readable t n y -> SysioModel.e_fail e = false -> SysioModel.rest y = text_of ls ++ q -> takes r1 ys ls r2 -> ys <> [] ->
    exists s2 t2, exec_io e (flat_map item_code ys) s1 t = Some (s2, t2) /\ moves s s2 [n] r2 /\ read_upto t t2 n y q true.
  Proof.
    induction ys as [|x ys IH]; intros I s1 r r1 t y ls q r2 Rd Rm M Rb F E T Ne; [congruence|].
    inversion T as [|? ? ? l ls' z ? Pl G T']; subst. cbn [text_of flat_map] in E. fold (text_of ls') in E. rewrite <- !app_assoc in E. cbn [app] in E.
    destruct (I x (or_introl eq_refl)) as (Ix & Tx).
    destruct (run_item e s s1 r r1 x n t y l (text_of ls' ++ q) z Rd Rm M Ix Tx Rb F E Pl G) as (s2 & t2 & E2 & M2 & (A1 & A2 & A3)).
    cbn [flat_map]. destruct ys as [|x' ys].
    - inversion T'; subst. cbn [text_of flat_map app] in *. rewrite app_nil_r. exists s2, t2. split; [exact E2|]. split; [exact M2|]. split; auto.
    - destruct (IH (fun z Hz => I z (or_intror Hz)) s2 r (set r1 x z) t2 _ ls' q r2 Rd Rm M2 A1 F eq_refl T' ltac:(discriminate)) as (s3 & t3 & E3 & M3 & (B1 & B2 & B3)).
      exists s3, t3. split; [rewrite exec_io_app, E2; exact E3|]. split; [exact M3|]. split; [exact B1|]. split; [exact B2|].
      intros m M0 M1. rewrite B3, A3 by assumption. reflexivity.
  Qed.
End Lines.
