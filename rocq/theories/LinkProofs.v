(** The linker: code, data, lines and relocations. *)

From Coq Require Import ZArith Bool List Lia ZifyBool.
From Verif Require Import Words Opcodes Machine EncodeModel EncodeSpec WordLemmas EncodeProofs CodeLemmas
  FinalModel FinalSpec FinalProofs FinalMain LinkModel LinkSpec LinkSym.
Import ListNotations.
Open Scope Z_scope.

Local Ltac Zify.zify_post_hook ::= Z.div_mod_to_equations.

(** ** The pieces of the output *)

Fixpoint linked_ops (base robase : Z) (ms : list module) (opss : list (list opType)) : list opType :=
  match ms, opss with
  | m :: ms', ops :: opss' =>
    map (fun p => insn_relocate p base robase) ops ++
    linked_ops (base + code_size ops) (robase + Z.of_nat (length (m_ro m))) ms' opss'
  | _, _ => []
  end.

Fixpoint linked_syms (base : Z) (ms : list module) (opss : list (list opType)) : list lsym :=
  match ms, opss with
  | m :: ms', ops :: opss' => moved_symbols base (m_syms m) ++ linked_syms (base + code_size ops) ms' opss'
  | _, _ => []
  end.

Fixpoint linked_rels (base symbase : Z) (ms : list module) (opss : list (list opType)) : list reloc :=
  match ms, opss with
  | m :: ms', ops :: opss' =>
    map (fun r => offset_reloc r base symbase) (m_rels m) ++
    linked_rels (base + code_size ops) (symbase + Z.of_nat (length (m_syms m))) ms' opss'
  | _, _ => []
  end.

Fixpoint linked_lines (base fnbase : Z) (ms : list module) (opss : list (list opType)) : list lline :=
  match ms, opss with
  | m :: ms', ops :: opss' =>
    merge_lines m base fnbase ++
    linked_lines (base + code_size ops) (fnbase + Z.of_nat (length (m_files m))) ms' opss'
  | _, _ => []
  end.

(** Entry point: [None] no program file *)
Fixpoint linked_entry (base : Z) (ms : list module) (opss : list (list opType)) (e : option Z) : option (option Z) :=
  match ms, opss with
  | m :: ms', ops :: opss' =>
    match check_header m e base with
    | LOk e' => linked_entry (base + code_size ops) ms' opss' e'
    | _ => None
    end
  | _, _ => Some e
  end.

Lemma relocate_op p b r : op (insn_relocate p b r) = op p /\ arg1 (insn_relocate p b r) = arg1 p.
Proof. unfold insn_relocate. destruct (op p =? oLAC), (in_list (op p) relocate_codes); split; reflexivity. Qed.

Lemma relocate_size b r ops : code_size (map (fun p => insn_relocate p b r) ops) = code_size ops.
Proof.
  induction ops as [|p ops IH]; [reflexivity|]. cbn [map code_size fold_right].
  fold (code_size ops). fold (code_size (map (fun p => insn_relocate p b r) ops)). rewrite IH.
  destruct (relocate_op p b r) as [-> _]. reflexivity.
Qed.

Lemma read_text n m ops : module_text n m ops -> read_program n false (m_prog m) = Some (ops, code_size ops, []).
Proof.
  intros (E & (body & -> & W & NE) & L). rewrite E.
  assert (Lb : (length body < n)%nat) by (rewrite app_length in L; cbn in L; lia).
  pose proof (write_read body [] n W NE Lb) as R. rewrite app_nil_r in R. fold the_end in R.
  rewrite write_size in R. exact R.
Qed.

Lemma link_modules_spec n ms : forall opss s s' L,
  Forall2 (module_text n) ms opss -> inv L (l_syms s) -> l_sym s = Z.of_nat (length L) ->
  l_fn s = Z.of_nat (length (l_files s)) ->
  link_modules n s ms = LOk s' ->
  l_prog s' = l_prog s ++ write_program (linked_ops (l_pc s) (Z.of_nat (length (l_ro s))) ms opss) /\
  l_ro s' = l_ro s ++ concat (map m_ro ms) /\
  l_files s' = l_files s ++ concat (map m_files ms) /\
  l_lines s' = l_lines s ++ linked_lines (l_pc s) (l_fn s) ms opss /\
  inv (L ++ linked_syms (l_pc s) ms opss) (l_syms s') /\
  l_rels s' = l_rels s ++ linked_rels (l_pc s) (l_sym s) ms opss /\
  linked_entry (l_pc s) ms opss (l_entry s) = Some (l_entry s').
Proof.
  induction ms as [|m ms IH]; intros opss s s' L T I Es Ef H.
  - inversion T; subst. injection H as <-. cbn [linked_ops linked_syms linked_rels linked_lines linked_entry map concat write_program].
    rewrite !app_nil_r. refine (conj eq_refl (conj eq_refl (conj eq_refl (conj eq_refl (conj I (conj eq_refl eq_refl)))))).
  - inversion T as [|? ops ? opss' Tm Tms]; subst. cbn [link_modules] in H. unfold link_module in H.
    destruct (check_header m (l_entry s) (l_pc s)) as [| |e] eqn:CH; cbn [lbind] in H; try discriminate H.
    rewrite (read_text _ _ _ Tm) in H.
    destruct (merge_files m (l_files s)) as [| |[files fn]] eqn:MF; cbn [lbind] in H; try discriminate H.
    destruct (merge_symbols (l_syms s) (m_syms m) 0 (l_pc s) (l_sym s)) as [| |[syms symend]] eqn:MS; cbn [lbind] in H; try discriminate H.
    pose proof (fun X => merge_inv _ _ _ _ _ _ _ I X MS) as MI. destruct (MI ltac:(rewrite Z.add_0_l; exact Es)) as [I' E']. cbn [fst snd] in I', E'.
    assert (F' : files = l_files s ++ m_files m /\ fn = Z.of_nat (length files)).
    { unfold merge_files in MF. destruct (m_files m); [discriminate MF|]. injection MF as <- <-. split; reflexivity. }
    destruct F' as [F1 F2].
    eapply (IH opss' _ _ (L ++ moved_symbols (l_pc s) (m_syms m)) Tms) in H; [|exact I'|cbn [l_sym]; unfold moved_symbols; rewrite app_length, map_length; lia|exact F2].
    cbn [l_prog l_ro l_files l_lines l_syms l_rels l_entry l_pc l_fn l_sym] in H.
    destruct H as (H1 & H2 & H3 & H4 & H5 & H6 & H7).
    cbn [linked_ops linked_syms linked_rels linked_lines linked_entry map concat]. rewrite CH.
    rewrite write_app, !app_assoc. rewrite app_length, Nat2Z.inj_add in H1.
    split; [exact H1|]. split; [exact H2|]. split; [rewrite H3, F1; reflexivity|].
    split; [rewrite H4, F2, F1, app_length, Nat2Z.inj_add, <- Ef; reflexivity|].
    split; [exact H5|]. split; [|exact H7]. rewrite H6, E', <- Es. reflexivity.
Qed.

(** ** Positions *)

Lemma linked_ops_split msb : forall opsb base robase m ops msa opsa, length msb = length opsb ->
  linked_ops base robase (msb ++ m :: msa) (opsb ++ ops :: opsa) =
  linked_ops base robase msb opsb ++
  map (fun p => insn_relocate p (base + code_before opsb) (robase + data_before msb)) ops ++
  linked_ops (base + code_before opsb + code_size ops) (robase + data_before msb + Z.of_nat (length (m_ro m))) msa opsa.
Proof.
  induction msb as [|b msb IH]; intros [|o opsb] base robase m ops msa opsa E; try discriminate E.
  - cbn [app linked_ops code_before data_before fold_right]. rewrite !Z.add_0_r. reflexivity.
  - cbn [app linked_ops]. rewrite IH by (injection E as E; exact E). cbn [code_before data_before fold_right].
    fold (code_before opsb) (data_before msb). rewrite !Z.add_assoc, <- app_assoc. reflexivity.
Qed.

Lemma linked_ops_size ms : forall opss base robase, length ms = length opss ->
  code_size (linked_ops base robase ms opss) = code_before opss.
Proof.
  induction ms as [|m ms IH]; intros [|ops opss] base robase E; try discriminate E; [reflexivity|].
  cbn [linked_ops code_before fold_right]. rewrite code_size_app, relocate_size, IH by (injection E as E; exact E). reflexivity.
Qed.

Lemma Forall2_len {A B} (R : A -> B -> Prop) l l' : Forall2 R l l' -> length l = length l'.
Proof. intros F. induction F; cbn; congruence. Qed.

Lemma relocate_wf p b r : wf_op p -> wf_op (insn_relocate p b r).
Proof.
  intros W. unfold insn_relocate.
  assert (G : forall v, Z.testbit (op p) 7 = true -> wf_op (mkOp (op p) (arg1 p) (u16 v))).
  { intros v T. apply (label_codes_wf p _ W); cbn [op arg1 arg2]; try reflexivity; [|exact T].
    pose proof (u16_range v). lia. }
  destruct (op p =? oLAC) eqn:E; [apply G; replace (op p) with oLAC by lia; reflexivity|].
  destruct (in_list (op p) relocate_codes) eqn:I; [|exact W]. apply G. apply in_list_spec in I.
  unfold relocate_codes in I. cbn [In] in I. repeat (destruct I as [<-|I]; [reflexivity|]). destruct I.
Qed.

Lemma text_wf ops : program_text ops -> Forall wf_op ops.
Proof. intros (body & -> & W & _). apply Forall_app. split; [exact W|]. constructor; [apply wf_end|constructor]. Qed.

Lemma linked_wf n ms opss : Forall2 (module_text n) ms opss -> forall base robase, Forall wf_op (linked_ops base robase ms opss).
Proof.
  intros F. induction F as [|m ops ms opss (_ & T & _) F IH]; intros base robase; [constructor|].
  cbn [linked_ops]. apply Forall_app. split; [|apply IH]. apply Forall_map.
  eapply Forall_impl; [|apply text_wf, T]. intros p W. apply relocate_wf, W.
Qed.

Lemma relocate_moved p base robase : ~ unsigned_branch (op p) -> moved base robase p (insn_relocate p base robase).
Proof.
  intros NU. destruct (relocate_op p base robase) as [A B]. unfold moved. split; [exact A|]. split; [exact B|]. clear A B.
  unfold insn_relocate.
  assert (L1 : ~ branch oLAC) by (cbn; intuition discriminate).
  assert (C : branch (op p) \/ op p = oPCAL <-> in_list (op p) relocate_codes = true).
  { rewrite in_list_spec, branch_split. unfold relocate_codes, pass3_jumps. cbn [In]. intuition. }
  destruct (op p =? oLAC) eqn:E.
  - assert (E' : op p = oLAC) by lia. split; [|split].
    + intros [X|X]; [rewrite E' in X; contradiction|rewrite E' in X; discriminate X].
    + reflexivity.
    + intros _ _ X. contradiction.
  - destruct (in_list (op p) relocate_codes) eqn:I.
    + split; [reflexivity|]. split; [intros X; lia|]. intros X Y _. exfalso. destruct C as [_ C]. destruct (C eq_refl); contradiction.
    + split; [intros X; apply C in X; discriminate X|]. split; [intros X; lia|]. reflexivity.
Qed.

(** ** Patching the code *)

Lemma set_byte_app a b k v : set_byte (a ++ b) (length a + k) v = a ++ set_byte b k v.
Proof. induction a as [|x a IH]; [reflexivity|]. cbn [app length Nat.add set_byte]. rewrite IH. reflexivity. Qed.

Lemma set_byte_length l : forall k v, length (set_byte l k v) = length l.
Proof. induction l as [|x l IH]; intros [|k] v; cbn [set_byte length]; try reflexivity. rewrite IH. reflexivity. Qed.

Lemma set_byte_at a b k v o : o = Z.of_nat (length a) + Z.of_nat k -> set_byte (a ++ b) (Z.to_nat o) v = a ++ set_byte b k v.
Proof. intros ->. replace (Z.to_nat _) with (length a + k)%nat by lia. apply set_byte_app. Qed.

Lemma nth_first {A} (a : list A) b rest : nth_error (a ++ b :: rest) (length a) = Some b.
Proof. rewrite nth_error_app2 by lia. rewrite Nat.sub_diag. reflexivity. Qed.

Lemma wf_pcal p : wf_op p -> op p = oPCAL ->
  add_opcode p = [oPCAL; u8 (arg1 p); u8 (arg2 p / 256); u8 (Z.land (arg2 p) 0xff)].
Proof. intros W E. unfold add_opcode. rewrite E. reflexivity. Qed.

Lemma fixup_call_code pre p post v prog' :
  op p = oPCAL -> wf_op p -> 0 <= v ->
  fixup_call (write_program (pre ++ p :: post)) (code_size pre) v = LOk prog' ->
  v < 65536 /\ prog' = write_program (pre ++ mkOp (op p) (arg1 p) v :: post).
Proof.
  intros E W Hv H. unfold fixup_call in H. rewrite write_app in *. cbn [write_program] in *.
  rewrite <- (write_size pre) in H. set (a := write_program pre) in *.
  rewrite (wf_pcal p W E) in H. cbn [app] in H. rewrite Nat2Z.id, nth_first in H.
  change (negb (u8 oPCAL =? oPCAL)) with false in H. cbn [negb] in H.
  destruct (65535 <? v) eqn:Ev; [discriminate H|].
  match type of H with (if ?c then _ else _) = _ => destruct c; [discriminate H|] end.
  injection H as <-. split; [lia|].
  rewrite (set_byte_at a _ 2) by lia. rewrite (set_byte_at a _ 3) by lia. cbn [set_byte].
  f_equal.
  unfold add_opcode. rewrite E. cbn [op arg1 arg2]. change (has8 oPCAL) with true. change (has16 oPCAL) with true. cbn [app].
  repeat f_equal. rewrite land255. rewrite u8_small by lia. reflexivity.
Qed.

Lemma fixup_call_total pre p post v :
  op p = oPCAL -> wf_op p -> 0 <= v < 65536 ->
  exists prog', fixup_call (write_program (pre ++ p :: post)) (code_size pre) v = LOk prog'.
Proof.
  intros E W Hv. unfold fixup_call. rewrite write_app. cbn [write_program].
  rewrite <- (write_size pre). set (a := write_program pre).
  rewrite (wf_pcal p W E). cbn [app]. rewrite Nat2Z.id, nth_first.
  change (negb (u8 oPCAL =? oPCAL)) with false. cbn [negb].
  replace (65535 <? v) with false by lia.
  replace (_ <=? _) with false; [eexists; reflexivity|]. rewrite app_length. cbn [length]. lia.
Qed.

Lemma frame_bytes p v : wf_op p -> Z.testbit (op p) 7 = true -> 0 <= v < 65536 -> forall rest,
  let i := if has8 (op p) then 2%nat else 1%nat in
  exists b t, add_opcode p = b :: t /\ u8 b = op p /\ (i + 1 < length (add_opcode p))%nat /\
  set_byte (set_byte (add_opcode p ++ rest) i (u8 (v / 256))) (i + 1) (Z.land v 255) = add_opcode (mkOp (op p) (arg1 p) v) ++ rest.
Proof.
  intros (W1 & W2 & W3 & W4 & W5) T Hv rest. cbn zeta. exists (u8 (op p)). unfold add_opcode. cbn [op arg1 arg2].
  assert (T' : has16 (op p) = true) by exact T. rewrite T'. rewrite u8_u8.
  destruct (has8 (op p)); cbn [app length set_byte Nat.add]; eexists; (split; [reflexivity|]);
    (split; [apply u8_small; lia|]); (split; [lia|]); repeat f_equal; rewrite land255, u8_small by lia; reflexivity.
Qed.

Lemma fixup_frame_code pre p post v prog' :
  Z.testbit (op p) 7 = true -> wf_op p -> 0 <= v ->
  fixup_frame (write_program (pre ++ p :: post)) (code_size pre) v = LOk prog' ->
  v < 65536 /\ prog' = write_program (pre ++ mkOp (op p) (arg1 p) v :: post).
Proof.
  intros T W Hv H. unfold fixup_frame in H. rewrite !write_app in *. cbn [write_program] in *.
  rewrite <- (write_size pre) in H. set (a := write_program pre) in *.
  destruct (0xffff <? v) eqn:Ev.
  { exfalso. destruct (nth_error _ _); [|discriminate H]. destruct (negb _); discriminate H. }
  destruct (frame_bytes p v W T ltac:(lia) (write_program post)) as (b & t & E & Eb & Li & Es).
  remember (add_opcode p) as w eqn:Ew. clear Ew.
  rewrite E in H at 1. rewrite <- (app_comm_cons t (write_program post) b) in H. rewrite Nat2Z.id, nth_first, Eb in H.
  assert (T' : has16 (op p) = true) by exact T. rewrite T' in H. cbn [negb] in H.
  match type of H with (if ?c then _ else _) = _ => destruct c eqn:Ec; [discriminate H|] end.
  injection H as <-. split; [lia|].
  set (i := if has8 (op p) then 2%nat else 1%nat) in *.
  rewrite (set_byte_at a _ i) by (unfold i; destruct (has8 (op p)); lia).
  rewrite (set_byte_at a _ (i + 1)) by (unfold i; destruct (has8 (op p)); lia).
  rewrite Es. reflexivity.
Qed.

Lemma fixup_frame_total pre p post v :
  Z.testbit (op p) 7 = true -> wf_op p -> 0 <= v < 65536 ->
  exists prog', fixup_frame (write_program (pre ++ p :: post)) (code_size pre) v = LOk prog'.
Proof.
  intros T W Hv. unfold fixup_frame. rewrite !write_app. cbn [write_program].
  rewrite <- (write_size pre). set (a := write_program pre).
  destruct (frame_bytes p v W T ltac:(lia) (write_program post)) as (b & t & E & Eb & Li & Es).
  remember (add_opcode p) as w eqn:Ew. clear Ew.
  subst w. rewrite <- (app_comm_cons t (write_program post) b). rewrite Nat2Z.id, nth_first, Eb.
  assert (T' : has16 (op p) = true) by exact T. rewrite T'. cbn [negb]. replace (0xffff <? v) with false by lia.
  replace (_ <=? _) with false; [eexists; reflexivity|]. rewrite !app_length. cbn [length] in *. rewrite app_length. destruct (has8 (op p)); lia.
Qed.

(** A relocation in the linked code *)
Definition fits (code : list opType) (r : reloc) : Prop :=
  exists pre p post, code = pre ++ p :: post /\ roffset r = code_size pre /\
    ((rli_type (rinfo r) = RLT_PCAL /\ op p = oPCAL) \/ (rli_type (rinfo r) = RLT_LDST /\ Z.testbit (op p) 7 = true)).

Lemma map_op_size a : forall b, map op a = map op b -> code_size a = code_size b.
Proof.
  induction a as [|p a IH]; intros [|q b] E; try discriminate E; [reflexivity|]. injection E as E1 E2.
  cbn [code_size fold_right]. fold (code_size a) (code_size b). rewrite E1, (IH _ E2). reflexivity.
Qed.

Lemma map_op_firstn i a b : map op a = map op b -> code_size (firstn i a) = code_size (firstn i b).
Proof. intros E. apply map_op_size. rewrite <- !firstn_map, E. reflexivity. Qed.

Lemma split_map_op pre : forall p post code', map op (pre ++ p :: post) = map op code' ->
  exists pre' p' post', code' = pre' ++ p' :: post' /\ map op pre' = map op pre /\ op p' = op p.
Proof.
  induction pre as [|x pre IH]; intros p post [|y code'] E; try discriminate E; cbn [app map] in E.
  - injection E as E1 E2. exists [], y, code'. repeat split. congruence.
  - injection E as E1 E2. destruct (IH _ _ _ E2) as (pre' & p' & post' & -> & A & B).
    exists (y :: pre'), p', post'. split; [reflexivity|]. split; [cbn [map]; congruence|exact B].
Qed.

Lemma fits_map_op code code' r : map op code = map op code' -> fits code r -> fits code' r.
Proof.
  intros E (pre & p & post & -> & Ro & D). destruct (split_map_op _ _ _ _ E) as (pre' & p' & post' & -> & A & B).
  exists pre', p', post'. split; [reflexivity|]. split; [rewrite Ro; apply map_op_size; congruence|]. rewrite B. exact D.
Qed.

Definition patched (st : symst) (rels : list reloc) (code code' : list opType) : Prop :=
  map op code' = map op code /\
  forall i p, nth_error code i = Some p -> exists q, nth_error code' i = Some q /\ op q = op p /\ arg1 q = arg1 p /\
    ((forall r, In r rels -> roffset r <> code_size (firstn i code)) -> q = p) /\
    (forall r, In r rels -> roffset r = code_size (firstn i code) ->
       exists d, get_symbol st (rli_sym (rinfo r)) = LOk d /\ arg2 q = lvalue d).

Lemma firstn_split {A} (pre : list A) post : firstn (length pre) (pre ++ post) = pre.
Proof. rewrite firstn_app, firstn_all, Nat.sub_diag. cbn. apply app_nil_r. Qed.

Lemma code_size_firstn_inj code i j p q : nth_error code i = Some p -> nth_error code j = Some q ->
  code_size (firstn i code) = code_size (firstn j code) -> i = j.
Proof.
  assert (G : forall code i j p, (i < j)%nat -> nth_error code i = Some p -> code_size (firstn i code) < code_size (firstn j code)).
  { induction code0 as [|x code0 IH]; intros [|i0] [|j0] p0 Lt N; try discriminate N; try lia.
    - cbn [firstn code_size fold_right]. fold (code_size (firstn j0 code0)). pose proof (insn_length_pos (op x)).
      pose proof (code_size_nonneg (firstn j0 code0)). lia.
    - cbn [firstn code_size fold_right]. fold (code_size (firstn i0 code0)) (code_size (firstn j0 code0)).
      specialize (IH i0 j0 p0 ltac:(lia) N). lia. }
  intros N1 N2 E. destruct (Nat.lt_trichotomy i j) as [Lt|[Eq|Gt]]; [|exact Eq|].
  - specialize (G code i j p Lt N1). lia.
  - specialize (G code j i q Gt N2). lia.
Qed.

Lemma nth_split_firstn {A} (l : list A) i p : nth_error l i = Some p -> l = firstn i l ++ p :: skipn (S i) l.
Proof.
  revert l. induction i as [|i IH]; intros [|x l] N; try discriminate N.
  - injection N as ->. reflexivity.
  - cbn [firstn skipn app]. f_equal. apply IH, N.
Qed.

Lemma apply_patched st (Hpos : forall i d, get_symbol st i = LOk d -> 0 <= lvalue d) rels : forall code prog',
  Forall wf_op code -> Forall (fits code) rels ->
  (forall a r b r' c, rels = a ++ r :: b ++ r' :: c -> roffset r <> roffset r') ->
  apply_relocs st rels (write_program code) = LOk prog' ->
  exists code', prog' = write_program code' /\ Forall wf_op code' /\ patched st rels code code'.
Proof.
  induction rels as [|r rels IH]; intros code prog' W F D H; cbn [apply_relocs] in H.
  - injection H as <-. exists code. split; [reflexivity|]. split; [exact W|]. split; [reflexivity|].
    intros i p N. exists p. split; [exact N|]. split; [reflexivity|]. split; [reflexivity|]. split; [reflexivity|]. intros r [].
  - destruct (get_symbol st (rli_sym (rinfo r))) as [| |d] eqn:G; cbn [lbind] in H; try discriminate H.
    destruct (is_undefined d || _); [discriminate H|].
    apply Forall_cons_iff in F. destruct F as [(pre & p & post & E & Ro & K) F].
    assert (Wp : wf_op p) by (rewrite E in W; apply Forall_app in W; destruct W as [_ W]; apply Forall_cons_iff in W; apply W).
    assert (P : exists prog1, (if rli_type (rinfo r) =? RLT_PCAL then fixup_call (write_program code) (roffset r) (lvalue d)
             else if rli_type (rinfo r) =? RLT_LDST then fixup_frame (write_program code) (roffset r) (lvalue d)
             else LOk (write_program code)) = LOk prog1 /\ lvalue d < 65536 /\
             prog1 = write_program (pre ++ mkOp (op p) (arg1 p) (lvalue d) :: post)).
    { destruct (if rli_type (rinfo r) =? RLT_PCAL then _ else _) as [| |prog1] eqn:X; cbn [lbind] in H; try discriminate H.
      exists prog1. split; [reflexivity|]. pose proof (Hpos _ _ G) as Hd. rewrite Ro, E in X.
      destruct K as [[K1 K2]|[K1 K2]].
      - rewrite K1 in X. change (RLT_PCAL =? RLT_PCAL) with true in X. cbn iota in X. apply (fixup_call_code _ _ _ _ _ K2 Wp Hd X).
      - rewrite K1 in X. change (RLT_LDST =? RLT_PCAL) with false in X. change (RLT_LDST =? RLT_LDST) with true in X. cbn iota in X.
        apply (fixup_frame_code _ _ _ _ _ K2 Wp Hd X). }
    destruct P as (prog1 & EP & Hv & ->). rewrite EP in H. cbn [lbind] in H.
    set (q := mkOp (op p) (arg1 p) (lvalue d)) in *.
    assert (T7 : Z.testbit (op p) 7 = true) by (destruct K as [[_ ->]|[_ K]]; [reflexivity|exact K]).
    assert (Wq : wf_op q).
    { apply (label_codes_wf p q Wp); try reflexivity; [|exact T7]. cbn. pose proof (Hpos _ _ G). lia. }
    assert (EM : map op code = map op (pre ++ q :: post)) by (rewrite E, !map_app; reflexivity).
    destruct (IH (pre ++ q :: post) prog') as (code' & -> & W' & [M N]).
    + rewrite E in W. apply Forall_app in W. destruct W as [W1 W2]. apply Forall_cons_iff in W2. apply Forall_app. split; [exact W1|].
      constructor; [exact Wq|apply W2].
    + eapply Forall_impl; [|exact F]. intros x Fx. apply (fits_map_op code); assumption.
    + intros a x b y c Ex. apply (D (r :: a) x b y c). rewrite Ex. reflexivity.
    + exact H.
    + exists code'. split; [reflexivity|]. split; [exact W'|]. split; [congruence|].
      intros i x Nx. destruct (Nat.eq_dec i (length pre)) as [->|Ne].
      * rewrite E in Nx. rewrite nth_first in Nx. injection Nx as <-.
        destruct (N (length pre) q (nth_first pre q post)) as (q' & A & B & C & U & V).
        rewrite firstn_split in U, V. rewrite E, firstn_split.
        assert (Eq : q' = q).
        { apply U. intros r' I. apply in_split in I. destruct I as (a & b & ->). intros X.
          apply (D [] r a r' b eq_refl). congruence. }
        subst q'. exists q. split; [exact A|]. split; [reflexivity|]. split; [reflexivity|]. split.
        -- intros X. exfalso. apply (X r (or_introl eq_refl)). exact Ro.
        -- intros r' [<-|I] X; [exists d; split; [exact G|reflexivity]|].
           exfalso. apply in_split in I. destruct I as (a & b & ->). apply (D [] r a r' b eq_refl). congruence.
      * assert (Nx' : nth_error (pre ++ q :: post) i = Some x).
        { rewrite <- Nx, E. destruct (Nat.lt_ge_cases i (length pre)) as [Lt|Ge].
          - rewrite !nth_error_app1 by exact Lt. reflexivity.
          - rewrite !nth_error_app2 by exact Ge. destruct (i - length pre)%nat eqn:Z0; [lia|]. reflexivity. }
        destruct (N i x Nx') as (q' & A & B & C & U & V). rewrite <- (map_op_firstn i _ _ EM) in U, V.
        exists q'. split; [exact A|]. split; [exact B|]. split; [exact C|]. split.
        -- intros X. apply U. intros r' I. apply X. right. exact I.
        -- intros r' [<-|I] X; [|apply V; assumption]. exfalso. apply Ne.
           apply (code_size_firstn_inj code i (length pre) x p Nx); [rewrite E; apply nth_first|].
           rewrite E at 2. rewrite firstn_split. congruence.
Qed.
