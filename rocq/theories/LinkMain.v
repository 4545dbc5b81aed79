(** The linker as a whole. *)

From Coq Require Import ZArith Bool List Permutation Lia ZifyBool.
From Verif Require Import Words Opcodes Machine EncodeModel EncodeSpec WordLemmas EncodeProofs CodeLemmas
  FinalModel FinalSpec FinalProofs FinalMain LinkModel LinkSpec LinkSym LinkProofs.
Import ListNotations.
Open Scope Z_scope.

Local Ltac Zify.zify_post_hook ::= Z.div_mod_to_equations.

(** ** Relocation information words *)

Lemma rli_sym_div x : rli_sym x = x / 256.
Proof. unfold rli_sym. rewrite Z.shiftr_div_pow2 by lia. reflexivity. Qed.

Lemma rli_type_mod x : rli_type x = x mod 256.
Proof. apply land255. Qed.

Lemma rli_make_val s t : 0 <= s < 2 ^ 24 -> 0 <= t < 256 -> rli_make s t = s * 256 + t.
Proof.
  intros Hs Ht. unfold rli_make. rewrite land255, (Z.mod_small t 256) by lia.
  rewrite Z.shiftl_mul_pow2 by lia. rewrite (u32_small s) by lia. rewrite u32_small by lia.
  change (2 ^ 8) with 256.
  assert (D : Z.land (s * 256) t = 0).
  { apply Z.bits_inj'. intros n Hn. rewrite Z.land_spec, Z.bits_0. change 256 with (2 ^ 8).
    destruct (Z_lt_le_dec n 8); [rewrite Z.mul_pow2_bits_low by lia; reflexivity|].
    replace (Z.testbit t n) with false; [apply andb_false_r|]. symmetry. apply Z.testbit_false; [lia|].
    rewrite Z.div_small; [reflexivity|]. split; [lia|]. apply Z.lt_le_trans with (2 ^ 8); [lia|]. apply Z.pow_le_mono_r; lia. }
  rewrite Z.add_nocarry_lxor, Z.lxor_lor by exact D. reflexivity.
Qed.

Lemma offset_reloc_fits r base symbase ops nsyms :
  reloc_fits ops nsyms r -> 0 <= symbase -> symbase + Z.of_nat nsyms <= 2 ^ 24 ->
  roffset (offset_reloc r base symbase) = roffset r + base /\
  rli_sym (rinfo (offset_reloc r base symbase)) = symbase + rinfo r / 256 /\
  rli_type (rinfo (offset_reloc r base symbase)) = rinfo r mod 256.
Proof.
  intros (R & Sy & pre & p & post & E & Ro & K) B1 B2. unfold offset_reloc. rewrite rli_type_mod.
  assert (C : (rinfo r mod 256 =? RLT_PCAL) || (rinfo r mod 256 =? RLT_LDST) = true).
  { destruct K as [[-> _]|[-> _]]; reflexivity. }
  rewrite C. cbn [rinfo roffset]. split; [reflexivity|]. rewrite rli_make_val, rli_sym_div, rli_type_mod by (rewrite ?rli_sym_div; lia).
  rewrite rli_sym_div. split; lia.
Qed.

(** ** Symbols *)

Lemma symbol_moved_fun base s t : symbol_moved base s t -> t = offset_symbol s base.
Proof.
  destruct s as [n ty f v], t as [n' ty' f' v']. intros ([A B] & C & D & E). cbn in A, B, C, D, E. subst n' ty' f'.
  unfold offset_symbol. cbn [lname ltype lflags lvalue].
  destruct (is_undefined (mkLsym n ty f v)) eqn:U; cbn [negb andb].
  - rewrite E; [reflexivity|]. intros [X _]. apply undef_iff in U. apply U, X.
  - apply undef_spec_b in U. destruct ((ty =? STT_PROC) || (ty =? STT_FUNC)) eqn:T.
    + rewrite D; [reflexivity|]. split; [exact U|lia].
    + rewrite E; [reflexivity|]. intros [_ X]. lia.
Qed.

Lemma offset_symbol_moved base s : symbol_moved base s (offset_symbol s base).
Proof.
  unfold symbol_moved, offset_symbol.
  destruct (is_undefined s) eqn:U; cbn [negb andb].
  - split; [split; reflexivity|]. split; [reflexivity|]. split; [|reflexivity]. intros [X _]. apply undef_iff in U. contradiction.
  - apply undef_spec_b in U. destruct ((ltype s =? STT_PROC) || (ltype s =? STT_FUNC)) eqn:T.
    + split; [split; reflexivity|]. split; [reflexivity|]. split; [reflexivity|]. intros X. exfalso. apply X. split; [exact U|lia].
    + split; [split; reflexivity|]. split; [reflexivity|]. split; [|reflexivity]. intros [_ X]. lia.
Qed.

Lemma all_symbols_fun base ms opss L : all_symbols base ms opss L -> L = linked_syms base ms opss.
Proof.
  intros A. induction A as [|base m ms ops opss l L F A IH]; [reflexivity|]. cbn [linked_syms]. rewrite IH. f_equal.
  clear - F. unfold moved_symbols. induction F as [|s t ss ts H F IH]; [reflexivity|]. cbn [map]. rewrite (symbol_moved_fun _ _ _ H), IH. reflexivity.
Qed.

Lemma all_symbols_ex ms : forall base opss, length ms = length opss -> all_symbols base ms opss (linked_syms base ms opss).
Proof.
  induction ms as [|m ms IH]; intros base [|ops opss] E; try discriminate E; [constructor|]. cbn [linked_syms].
  constructor; [|apply IH; injection E as E; exact E]. unfold moved_symbols. induction (m_syms m) as [|s ss IHs]; constructor; [apply offset_symbol_moved|exact IHs].
Qed.

Lemma linked_syms_length ms : forall base opss, length ms = length opss ->
  Z.of_nat (length (linked_syms base ms opss)) = symbols_before ms.
Proof.
  induction ms as [|m ms IH]; intros base [|ops opss] E; try discriminate E; [reflexivity|].
  cbn [linked_syms symbols_before fold_right]. fold (symbols_before ms). unfold moved_symbols.
  rewrite app_length, map_length, Nat2Z.inj_add, IH by (injection E as E; exact E). lia.
Qed.

Lemma linked_syms_split msb : forall base opsb m ops msa opsa, length msb = length opsb ->
  linked_syms base (msb ++ m :: msa) (opsb ++ ops :: opsa) =
  linked_syms base msb opsb ++ moved_symbols (base + code_before opsb) (m_syms m) ++
  linked_syms (base + code_before opsb + code_size ops) msa opsa.
Proof.
  induction msb as [|b msb IH]; intros base [|o opsb] m ops msa opsa E; try discriminate E.
  - cbn [app linked_syms code_before fold_right]. rewrite !Z.add_0_r. reflexivity.
  - cbn [app linked_syms]. rewrite IH by (injection E as E; exact E). cbn [code_before fold_right].
    fold (code_before opsb). rewrite !Z.add_assoc, <- app_assoc. reflexivity.
Qed.

Lemma linked_syms_pos ms : forall base opss, 0 <= base ->
  (forall m s, In m ms -> In s (m_syms m) -> 0 <= lvalue s) -> Forall (fun s => 0 <= lvalue s) (linked_syms base ms opss).
Proof.
  induction ms as [|m ms IH]; intros base opss B H; [destruct opss; constructor|]. destruct opss as [|ops opss]; [constructor|].
  cbn [linked_syms]. apply Forall_app. split.
  - apply Forall_map, Forall_forall. intros s I. specialize (H m s (or_introl eq_refl) I). unfold offset_symbol.
    destruct (_ && _); cbn [lvalue]; lia.
  - apply IH; [pose proof (code_size_nonneg ops); lia|]. intros m' s I J. apply (H m' s); [right; exact I|exact J].
Qed.

Lemma container_from l id c : container_at l id = Some c -> In (id, c) l.
Proof.
  induction l as [|[k x] l IH]; intros H; [discriminate H|]. cbn [container_at] in H. destruct (k =? id)%nat eqn:E.
  - injection H as ->. apply Nat.eqb_eq in E. left. congruence.
  - right. apply IH, H.
Qed.

Lemma get_symbol_in L st i d : inv L st -> get_symbol st i = LOk d -> In d L.
Proof.
  intros I H. unfold get_symbol in H. destruct (s_alloc st <=? i); [discriminate H|].
  destruct (nth_error _ _) as [id|]; [|discriminate H]. destruct (container_at _ _) as [c|] eqn:C; [|discriminate H].
  injection H as ->. apply (i_src _ _ I id). apply container_from, C.
Qed.

(** ** Relocations *)

Lemma linked_rels_fit ms : forall opss base robase symbase pre,
  Forall2 relocs_fit opss ms -> base = code_size pre -> 0 <= symbase -> symbase + symbols_before ms <= 2 ^ 24 ->
  Forall (fits (pre ++ linked_ops base robase ms opss)) (linked_rels base symbase ms opss).
Proof.
  induction ms as [|m ms IH]; intros opss base robase symbase pre F B S1 S2.
  - inversion F; subst. constructor.
  - inversion F as [|ops ? opss' ? [Fm _] Fms]; subst. cbn [linked_rels linked_ops].
    cbn [symbols_before fold_right] in S2. fold (symbols_before ms) in S2.
    assert (P : 0 <= symbols_before ms) by (clear; induction ms; cbn [symbols_before fold_right] in *; [lia|]; fold (symbols_before ms) in *; lia).
    apply Forall_app. split.
    + apply Forall_map. eapply Forall_impl; [|exact Fm]. intros r Fr.
      destruct (offset_reloc_fits r (code_size pre) symbase _ _ Fr S1 ltac:(lia)) as (E1 & E2 & E3).
      destruct Fr as (R & Sy & a & p & b & E & Ro & K). unfold fits. rewrite E1, E3, E.
      set (f := fun p => insn_relocate p (code_size pre) robase).
      exists (pre ++ map f a), (f p), (map f b ++ linked_ops (code_size pre + code_size (a ++ p :: b)) (robase + Z.of_nat (length (m_ro m))) ms opss').
      split; [rewrite map_app; cbn [map]; rewrite <- !app_assoc; reflexivity|].
      split; [rewrite code_size_app; unfold f; rewrite relocate_size; lia|].
      unfold f. destruct (relocate_op p (code_size pre) robase) as [-> _]. exact K.
    + rewrite app_assoc. apply IH; [exact Fms|rewrite code_size_app, relocate_size; reflexivity|lia|lia].
Qed.

Lemma reloc_offset_range ops nsyms r : reloc_fits ops nsyms r -> 0 <= roffset r < code_size ops.
Proof.
  intros (_ & _ & a & p & b & -> & -> & _). rewrite code_size_app. cbn [code_size fold_right]. fold (code_size b).
  pose proof (insn_length_pos (op p)). pose proof (code_size_nonneg a). pose proof (code_size_nonneg b). lia.
Qed.

Lemma linked_rels_range ms : forall opss base symbase, Forall2 relocs_fit opss ms -> 0 <= symbase -> symbase + symbols_before ms <= 2 ^ 24 ->
  Forall (fun r => base <= roffset r) (linked_rels base symbase ms opss).
Proof.
  induction ms as [|m ms IH]; intros opss base symbase F S1 S2; inversion F as [|ops ? opss' ? [Fm _] Fms]; subst; [constructor|].
  cbn [symbols_before fold_right] in S2. fold (symbols_before ms) in S2.
  assert (P : 0 <= symbols_before ms) by (clear; induction ms; cbn [symbols_before fold_right] in *; [lia|]; fold (symbols_before ms) in *; lia).
  cbn [linked_rels]. apply Forall_app. split.
  - apply Forall_map. eapply Forall_impl; [|exact Fm]. intros r Fr.
    destruct (offset_reloc_fits r base symbase _ _ Fr S1 ltac:(lia)) as (-> & _). pose proof (reloc_offset_range _ _ _ Fr). lia.
  - eapply Forall_impl; [|apply IH; [exact Fms|lia|lia]]. cbn beta. intros r H. pose proof (code_size_nonneg ops). lia.
Qed.

Definition distinct (rels : list reloc) : Prop :=
  forall a r b r' c, rels = a ++ r :: b ++ r' :: c -> roffset r <> roffset r'.

Lemma distinct_nodup rels : distinct rels <-> NoDup (map roffset rels).
Proof.
  induction rels as [|x rels IH].
  - split; [constructor|]. intros _ a r b r' c E. destruct a; discriminate E.
  - split.
    + intros D. cbn [map]. constructor.
      * intros I. apply in_map_iff in I. destruct I as (y & Ey & I). apply in_split in I. destruct I as (b & c & ->).
        apply (D [] x b y c eq_refl). congruence.
      * apply IH. intros a r b r' c ->. apply (D (x :: a) r b r' c eq_refl).
    + intros N a r b r' c E. cbn [map] in N. apply NoDup_cons_iff in N. destruct N as [N1 N2]. destruct a as [|y a].
      * injection E as -> ->. intros X. apply N1. rewrite X. apply in_map, in_elt.
      * injection E as <- E. apply IH in N2. apply (N2 a r b r' c E).
Qed.

Lemma NoDup_app_intro {A} (l l' : list A) : NoDup l -> NoDup l' -> (forall x, In x l -> ~ In x l') -> NoDup (l ++ l').
Proof.
  induction l as [|x l IH]; intros N N' D; [exact N'|]. apply NoDup_cons_iff in N. destruct N as [N1 N2]. cbn [app]. constructor.
  - rewrite in_app_iff. intros [I|I]; [contradiction|]. apply (D x (or_introl eq_refl) I).
  - apply IH; [exact N2|exact N'|]. intros y I. apply D. right. exact I.
Qed.

Lemma linked_rels_distinct ms : forall opss base symbase, Forall2 relocs_fit opss ms -> 0 <= symbase -> symbase + symbols_before ms <= 2 ^ 24 ->
  distinct (linked_rels base symbase ms opss).
Proof.
  induction ms as [|m ms IH]; intros opss base symbase F S1 S2; apply distinct_nodup; inversion F as [|ops ? opss' ? [Fm Dm] Fms]; subst; [constructor|].
  cbn [symbols_before fold_right] in S2. fold (symbols_before ms) in S2.
  assert (P : 0 <= symbols_before ms) by (clear; induction ms; cbn [symbols_before fold_right] in *; [lia|]; fold (symbols_before ms) in *; lia).
  cbn [linked_rels]. rewrite map_app.
  assert (E : map roffset (map (fun r => offset_reloc r base symbase) (m_rels m)) = map (fun o => o + base) (map roffset (m_rels m))).
  { rewrite !map_map. apply map_ext_in. intros r I. rewrite Forall_forall in Fm.
    destruct (offset_reloc_fits r base symbase _ _ (Fm r I) S1 ltac:(lia)) as (-> & _). reflexivity. }
  rewrite E. apply NoDup_app_intro.
  - apply FinFun.Injective_map_NoDup; [intros x y; lia|]. apply distinct_nodup. exact Dm.
  - apply distinct_nodup, IH; [exact Fms|lia|lia].
  - intros x I J. apply in_map_iff in I, J. destruct I as (o & <- & I), J as (r' & Er & J).
    apply in_map_iff in I. destruct I as (r & <- & I). rewrite Forall_forall in Fm. pose proof (reloc_offset_range _ _ _ (Fm r I)).
    pose proof (linked_rels_range ms opss' (base + code_size ops) (symbase + Z.of_nat (length (m_syms m))) Fms ltac:(lia) ltac:(lia)) as R.
    rewrite Forall_forall in R. specialize (R r' J). lia.
Qed.

Lemma linked_rels_split msb : forall base symbase opsb m ops msa opsa, length msb = length opsb ->
  linked_rels base symbase (msb ++ m :: msa) (opsb ++ ops :: opsa) =
  linked_rels base symbase msb opsb ++
  map (fun r => offset_reloc r (base + code_before opsb) (symbase + symbols_before msb)) (m_rels m) ++
  linked_rels (base + code_before opsb + code_size ops) (symbase + symbols_before msb + Z.of_nat (length (m_syms m))) msa opsa.
Proof.
  induction msb as [|b msb IH]; intros base symbase [|o opsb] m ops msa opsa E; try discriminate E.
  - cbn [app linked_rels code_before symbols_before fold_right]. rewrite !Z.add_0_r. reflexivity.
  - cbn [app linked_rels]. rewrite IH by (injection E as E; exact E). cbn [code_before symbols_before fold_right].
    fold (code_before opsb) (symbols_before msb). rewrite !Z.add_assoc, <- app_assoc. reflexivity.
Qed.

Lemma symbols_before_nonneg ms : 0 <= symbols_before ms.
Proof. induction ms; cbn [symbols_before fold_right] in *; [lia|]. fold (symbols_before ms) in *. lia. Qed.

Lemma symbols_before_app a b : symbols_before (a ++ b) = symbols_before a + symbols_before b.
Proof. induction a as [|x a IH]; [reflexivity|]. cbn [app symbols_before fold_right]. fold (symbols_before (a ++ b)) (symbols_before a). lia. Qed.

Lemma linked_rels_below ms : forall opss base symbase, Forall2 relocs_fit opss ms -> 0 <= symbase -> symbase + symbols_before ms <= 2 ^ 24 ->
  Forall (fun r => roffset r < base + code_before opss) (linked_rels base symbase ms opss).
Proof.
  induction ms as [|m ms IH]; intros opss base symbase F S1 S2; inversion F as [|ops ? opss' ? [Fm _] Fms]; subst; [constructor|].
  cbn [symbols_before fold_right] in S2. fold (symbols_before ms) in S2. pose proof (symbols_before_nonneg ms).
  cbn [linked_rels code_before fold_right]. fold (code_before opss').
  assert (0 <= code_before opss').
  { clear. induction opss' as [|o l IHl]; cbn [code_before fold_right]; [lia|]. fold (code_before l). pose proof (code_size_nonneg o). lia. }
  apply Forall_app. split.
  - apply Forall_map. eapply Forall_impl; [|exact Fm]. intros r Fr.
    destruct (offset_reloc_fits r base symbase _ _ Fr S1 ltac:(lia)) as (-> & _). pose proof (reloc_offset_range _ _ _ Fr). lia.
  - eapply Forall_impl; [|apply IH; [exact Fms|lia|lia]]. cbn beta. intros r H1. lia.
Qed.

(** ** Linking: the code *)

Lemma link_inv n ms img : link n ms = LOk img ->
  exists s, link_modules n lst0 ms = LOk s /\ l_entry s = Some (i_entry img) /\ verify_symbols (l_syms s) = true /\
    apply_relocs (l_syms s) (l_rels s) (l_prog s) = LOk (i_prog img) /\ i_ro img = l_ro s /\ i_files img = l_files s /\
    i_lines img = l_lines s /\ i_syms img = map snd (s_list (l_syms s)).
Proof.
  unfold link. destruct (link_modules n lst0 ms) as [| |s] eqn:E; cbn [lbind]; try discriminate.
  destruct (l_entry s) as [e|] eqn:Ee; [|discriminate]. destruct (verify_symbols (l_syms s)) eqn:V; [|discriminate].
  destruct (apply_relocs _ _ _) as [| |prog] eqn:A; cbn [lbind]; try discriminate. intros H. injection H as <-.
  exists s. refine (conj eq_refl (conj Ee (conj V (conj A (conj eq_refl (conj eq_refl (conj eq_refl eq_refl))))))).
Qed.

Lemma link_code n ms opss L img :
  Forall2 (module_text n) ms opss -> Forall2 relocs_fit opss ms -> all_symbols 0 ms opss L ->
  symbols_before ms <= 2 ^ 24 -> (forall m s, In m ms -> In s (m_syms m) -> 0 <= lvalue s) ->
  link n ms = LOk img ->
  linkable L /\
  forall msb opsb m ops pre p post, placed ms opss msb opsb m ops -> ops = pre ++ p :: post ->
  exists q, fetch (i_prog img) (code_before opsb + code_size pre) = Some q /\ op q = op p /\ arg1 q = arg1 p /\
   ((forall r, In r (m_rels m) -> roffset r <> code_size pre) -> q = insn_relocate p (code_before opsb) (data_before msb)) /\
   (forall r, In r (m_rels m) -> roffset r = code_size pre -> exists s d, nth_error (m_syms m) (Z.to_nat (rinfo r / 256)) = Some s /\
      In d L /\ same_symbol d s /\ defined d /\ arg2 q = lvalue d).
Proof.
  intros T R A SB Pos H. apply link_inv in H. destruct H as (s & H & _ & V & AR & _).
  destruct (link_modules_spec _ _ _ lst0 _ [] T inv0 eq_refl eq_refl H) as (P1 & _ & _ & _ & P5 & P6 & _).
  cbn [lst0 l_prog l_ro l_files l_lines l_syms l_rels l_entry l_pc l_fn l_sym app length] in P1, P5, P6.
  change (Z.of_nat 0) with 0 in P1. rewrite P1, P6 in AR.
  pose proof (all_symbols_fun _ _ _ _ A) as EL. rewrite <- EL in P5.
  assert (Lk : linkable L) by (apply (verify_spec _ _ P5), V). split; [exact Lk|].
  destruct (apply_patched (l_syms s)) with (rels := linked_rels 0 0 ms opss) (code := linked_ops 0 0 ms opss) (prog' := i_prog img)
    as (code' & EP & W' & [Mo N]).
  - intros i d G. pose proof (get_symbol_in _ _ _ _ P5 G) as I. rewrite EL in I.
    pose proof (linked_syms_pos ms 0 opss ltac:(lia) Pos) as F. rewrite Forall_forall in F. apply F, I.
  - apply (linked_wf n), T.
  - apply (linked_rels_fit ms opss 0 0 0 []); [exact R|reflexivity|lia|lia].
  - apply linked_rels_distinct; [exact R|lia|lia].
  - exact AR.
  - intros msb opsb m ops pre p post (msa & opsa & Ems & Eopss & El) Eops.
    pose proof R as R0. rewrite Ems, Eopss in R0. apply Forall2_app_inv_r in R0. destruct R0 as (r1 & r2 & Rb & Ra & ER).
    assert (Hl : length opsb = length r1) by (rewrite (Forall2_len _ _ _ Rb); symmetry; exact El).
    assert (X : opsb = r1 /\ ops :: opsa = r2) by (clear - ER Hl; revert r1 Hl ER; induction opsb as [|o opsb IH]; intros [|r r1] Hl E; try discriminate Hl; [split; [reflexivity|exact E]|]; cbn in E; injection E as <- E; destruct (IH r1 ltac:(cbn in Hl; lia) E); split; congruence).
    destruct X as [<- <-]. clear ER Hl. inversion Ra as [|? ? ? ? Rm Rmsa]; subst x y l l'.
    rewrite Ems in SB. rewrite symbols_before_app in SB. cbn [symbols_before fold_right] in SB. fold (symbols_before msa) in SB.
    pose proof (symbols_before_nonneg msa). pose proof (symbols_before_nonneg msb).
    set (f := fun p => insn_relocate p (code_before opsb) (data_before msb)) in *.
    pose proof (linked_ops_split msb opsb 0 0 m ops msa opsa El) as EO. rewrite !Z.add_0_l in EO. fold f in EO.
    rewrite <- Ems, <- Eopss in EO. rewrite Eops, map_app in EO at 1. cbn [map] in EO. rewrite <- app_assoc in EO. cbn [app] in EO.
    rewrite app_assoc in EO. set (front := linked_ops 0 0 msb opsb ++ map f pre) in *.
    assert (Ef : code_size front = code_before opsb + code_size pre).
    { unfold front. rewrite code_size_app, linked_ops_size by exact El. unfold f. rewrite relocate_size. reflexivity. }
    assert (Nf : nth_error (linked_ops 0 0 ms opss) (length front) = Some (f p)) by (rewrite EO; apply nth_first).
    destruct (N _ _ Nf) as (q & Q1 & Q2 & Q3 & U & V').
    assert (Ff : firstn (length front) (linked_ops 0 0 ms opss) = front) by (rewrite EO; apply firstn_split).
    rewrite Ff, Ef in U, V'. exists q.
    split.
    { rewrite EP. apply nth_split_firstn in Q1. rewrite Q1, write_app. cbn [write_program].
      replace (code_before opsb + code_size pre) with (Z.of_nat (length (write_program (firstn (length front) code')))).
      - apply fetch_add. rewrite Q1 in W'. apply Forall_app in W'. destruct W' as [_ W']. apply Forall_cons_iff in W'. apply W'.
      - rewrite write_size. rewrite (map_op_firstn _ code' (linked_ops 0 0 ms opss)).
        + rewrite Ff. exact Ef.
        + exact Mo. }
    destruct (relocate_op p (code_before opsb) (data_before msb)) as [O1 O2].
    split; [rewrite Q2; exact O1|]. split; [rewrite Q3; exact O2|].
    pose proof (linked_rels_split msb 0 0 opsb m ops msa opsa El) as ERel. rewrite !Z.add_0_l, <- Ems, <- Eopss in ERel.
    assert (Rfit : forall r, In r (m_rels m) -> reloc_fits ops (length (m_syms m)) r) by (destruct Rm as [Rm _]; rewrite Forall_forall in Rm; exact Rm).
    split.
    + intros NR. apply U. intros r' I X. rewrite ERel in I. apply in_app_iff in I. destruct I as [I|I]; [|apply in_app_iff in I; destruct I as [I|I]].
      * pose proof (linked_rels_below msb opsb 0 0 Rb ltac:(lia) ltac:(lia)) as F. rewrite Forall_forall in F. specialize (F _ I).
        pose proof (code_size_nonneg pre). lia.
      * apply in_map_iff in I. destruct I as (r & <- & I). 
        destruct (offset_reloc_fits r (code_before opsb) (symbols_before msb) _ _ (Rfit r I) ltac:(lia) ltac:(lia)) as (E1 & _).
        apply (NR r I). lia.
      * pose proof (linked_rels_range msa opsa (code_before opsb + code_size ops) (symbols_before msb + Z.of_nat (length (m_syms m))) Rmsa ltac:(lia) ltac:(lia)) as F.
        rewrite Forall_forall in F. specialize (F _ I). rewrite Eops, code_size_app in F. cbn [code_size fold_right] in F. fold (code_size post) in F.
        pose proof (code_size_nonneg post). pose proof (insn_length_pos (op p)). lia.
    + intros r I Ro.
      destruct (offset_reloc_fits r (code_before opsb) (symbols_before msb) _ _ (Rfit r I) ltac:(lia) ltac:(lia)) as (E1 & E2 & _).
      destruct (V' (offset_reloc r (code_before opsb) (symbols_before msb))) as (d & G & Ev).
      { rewrite ERel. apply in_app_iff. right. apply in_app_iff. left. apply in_map_iff. exists r. split; [reflexivity|exact I]. }
      { lia. }
      destruct (Rfit r I) as (Rr & Lt & _).
      destruct (nth_error (m_syms m) (Z.to_nat (rinfo r / 256))) as [sy|] eqn:Es; [|apply nth_error_None in Es; lia].
      assert (NL : nth_error L (Z.to_nat (symbols_before msb + rinfo r / 256)) = Some (offset_symbol sy (code_before opsb))).
      { rewrite EL, Ems, Eopss, (linked_syms_split msb 0 opsb m ops msa opsa El), Z.add_0_l.
        pose proof (linked_syms_length msb 0 opsb El) as Ll.
        rewrite nth_error_app2 by lia. replace (_ - _)%nat with (Z.to_nat (rinfo r / 256)) by lia.
        rewrite nth_error_app1 by (unfold moved_symbols; rewrite map_length; lia).
        unfold moved_symbols. exact (map_nth_error (fun s => offset_symbol s (code_before opsb)) _ _ Es). }
      destruct (get_symbol_spec _ _ _ _ P5 Lk NL) as (d' & G' & D1 & D2 & D3).
      rewrite Z2Nat.id in G' by lia. rewrite E2, G' in G. injection G as ->.
      exists sy, d. split; [reflexivity|]. split; [exact D1|]. split; [|split; [exact D3|exact Ev]].
      destruct (offset_symbol_moved (code_before opsb) sy) as [K _]. apply (same_trans _ _ _ D2). apply same_sym, K.
Qed.

(** ** Linking: success *)

Lemma linked_entry_some ms : forall opss base e, length ms = length opss -> Forall (fun u => m_type u = FHT_UNIT) ms ->
  linked_entry base ms opss e = Some e.
Proof.
  induction ms as [|m ms IH]; intros [|ops opss] base e E F; try discriminate E; [reflexivity|].
  apply Forall_cons_iff in F. destruct F as [F1 F]. cbn [linked_entry]. unfold check_header. rewrite F1.
  change (FHT_UNIT =? FHT_PROGRAM) with false. rewrite Z.eqb_refl. cbn [negb]. apply IH; [injection E as E; exact E|exact F].
Qed.

Lemma linked_entry_split msb : forall opsb base m ops msa opsa, length msb = length opsb -> length msa = length opsa ->
  m_type m = FHT_PROGRAM -> Forall (fun u => m_type u = FHT_UNIT) (msb ++ msa) ->
  linked_entry base (msb ++ m :: msa) (opsb ++ ops :: opsa) None = Some (Some (m_entry m + (base + code_before opsb))).
Proof.
  induction msb as [|b msb IH]; intros [|o opsb] base m ops msa opsa E E' P F; try discriminate E.
  - cbn [app linked_entry]. unfold check_header. rewrite P, Z.eqb_refl. rewrite linked_entry_some by assumption.
    cbn [code_before fold_right]. rewrite Z.add_0_r. reflexivity.
  - cbn [app] in *. apply Forall_cons_iff in F. destruct F as [F1 F]. cbn [linked_entry]. unfold check_header. rewrite F1.
    change (FHT_UNIT =? FHT_PROGRAM) with false. rewrite Z.eqb_refl. cbn [negb]. rewrite IH by (try assumption; injection E as E; exact E).
    cbn [code_before fold_right]. fold (code_before opsb). do 2 f_equal. lia.
Qed.

Lemma linked_entry_one ms : forall opss base e e', length ms = length opss -> linked_entry base ms opss e = Some (Some e') ->
  match e with
  | Some x => x = e' /\ Forall (fun u => m_type u = FHT_UNIT) ms
  | None => exists msb opsb m ops, placed ms opss msb opsb m ops /\ m_type m = FHT_PROGRAM /\ one_program ms /\
              e' = m_entry m + (base + code_before opsb)
  end.
Proof.
  induction ms as [|m ms IH]; intros [|ops opss] base e e' E H; try discriminate E; cbn [linked_entry] in H.
  - injection H as ->. split; [reflexivity|constructor].
  - injection E as E. unfold check_header in H. destruct (m_type m =? FHT_PROGRAM) eqn:P.
    + destruct e as [x|]; [discriminate H|]. apply (IH _ _ _ _ E) in H. destruct H as [<- F].
      exists [], [], m, ops. split; [exists ms, opss; repeat split|]. split; [lia|]. split; [|cbn [code_before fold_right]; lia].
      exists [], m, ms. split; [reflexivity|]. split; [lia|exact F].
    + destruct (m_type m =? FHT_UNIT) eqn:Un; cbn [negb] in H; [|discriminate H]. apply (IH _ _ _ _ E) in H.
      destruct e as [x|].
      * destruct H as [-> F]. split; [reflexivity|]. constructor; [lia|exact F].
      * destruct H as (msb & opsb & m' & ops' & (msa & opsa & -> & -> & El) & P' & (a & m'' & b & Eo & Pm & Fo) & ->).
        exists (m :: msb), (ops :: opsb), m', ops'. split.
        -- exists msa, opsa. split; [reflexivity|]. split; [reflexivity|]. cbn [length]. congruence.
        -- split; [exact P'|]. split.
           ++ exists (m :: a), m'', b. rewrite Eo. split; [reflexivity|]. split; [exact Pm|]. cbn [app]. constructor; [lia|exact Fo].
           ++ cbn [code_before fold_right]. fold (code_before opsb). lia.
Qed.

Lemma link_modules_total n ms : forall opss s L r,
  Forall2 (module_text n) ms opss -> inv L (l_syms s) -> l_sym s = Z.of_nat (length L) ->
  Forall (fun m => m_files m <> []) ms -> linked_entry (l_pc s) ms opss (l_entry s) = Some r ->
  exists s', link_modules n s ms = LOk s'.
Proof.
  induction ms as [|m ms IH]; intros opss s L r T I Es Ef H.
  - eexists. reflexivity.
  - inversion T as [|? ops ? opss' Tm Tms]; subst. cbn [link_modules linked_entry] in *. unfold link_module.
    apply Forall_cons_iff in Ef. destruct Ef as [Ef1 Ef].
    destruct (check_header m (l_entry s) (l_pc s)) as [| |e] eqn:CH; try discriminate H. cbn [lbind].
    rewrite (read_text _ _ _ Tm). unfold merge_files. destruct (m_files m) as [|f0 fs] eqn:EF; [contradiction|].
    cbn [lbind]. destruct (merge_total (l_pc s) (l_sym s) (m_syms m) L (l_syms s) 0 I ltac:(lia)) as ([syms symend] & MS).
    rewrite MS. cbn [lbind]. pose proof (fun X => merge_inv _ _ _ _ _ _ _ I X MS) as MI. destruct (MI ltac:(lia)) as [I' E']. cbn [fst snd] in I', E'.
    apply (IH opss' _ (L ++ moved_symbols (l_pc s) (m_syms m)) r Tms); cbn [l_syms l_sym l_pc l_entry].
    + exact I'.
    + rewrite E', app_length. unfold moved_symbols. rewrite map_length. lia.
    + exact Ef.
    + exact H.
Qed.

Lemma apply_total st rels : forall code,
  Forall wf_op code -> Forall (fits code) rels ->
  (forall r, In r rels -> exists d, get_symbol st (rli_sym (rinfo r)) = LOk d /\ defined d /\ 0 <= lvalue d < 65536) ->
  (exists body x, code = body ++ [x] /\ Z.testbit (op x) 7 = false) -> code_size code < 2 ^ 32 ->
  exists prog', apply_relocs st rels (write_program code) = LOk prog'.
Proof.
  induction rels as [|r rels IH]; intros code W F G (body & x & Eb & Bx) Sz; cbn [apply_relocs]; [eexists; reflexivity|].
  destruct (G r (or_introl eq_refl)) as (d & Gd & D & V). rewrite Gd. cbn [lbind]. apply undef_spec_b in D. rewrite D. cbn [orb].
  apply Forall_cons_iff in F. destruct F as [(pre & p & post & E & Ro & K) F].
  assert (T7 : Z.testbit (op p) 7 = true) by (destruct K as [[_ ->]|[_ K]]; [reflexivity|exact K]).
  assert (Wp : wf_op p) by (rewrite E in W; apply Forall_app in W; destruct W as [_ W]; apply Forall_cons_iff in W; apply W).
  assert (Sz4 : code_size pre <= code_size code - 4).
  { rewrite E in Eb. destruct post as [|y post] using rev_ind.
    - apply app_inj_tail in Eb. destruct Eb as [_ <-]. congruence.
    - clear IHpost. rewrite E, code_size_app. cbn [code_size fold_right]. fold (code_size (post ++ [y])). rewrite code_size_app.
      pose proof (code_size_nonneg post). cbn [code_size fold_right]. pose proof (insn_length_pos (op y)).
      unfold insn_length in *. rewrite T7. destruct (Z.testbit (op p) 6); lia. }
  rewrite write_size. pose proof (code_size_nonneg pre). rewrite u32_small by lia. replace (code_size code - 4 <? roffset r) with false by lia.
  assert (P : exists prog1, (if rli_type (rinfo r) =? RLT_PCAL then fixup_call (write_program code) (roffset r) (lvalue d)
             else if rli_type (rinfo r) =? RLT_LDST then fixup_frame (write_program code) (roffset r) (lvalue d)
             else LOk (write_program code)) = LOk prog1 /\ 
             prog1 = write_program (pre ++ mkOp (op p) (arg1 p) (lvalue d) :: post)).
  { rewrite Ro, E. destruct K as [[K1 K2]|[K1 K2]]; rewrite K1.
    - change (RLT_PCAL =? RLT_PCAL) with true. cbn iota. destruct (fixup_call_total pre p post (lvalue d) K2 Wp V) as (prog1 & X).
      exists prog1. split; [exact X|]. apply (fixup_call_code _ _ _ _ _ K2 Wp (proj1 V) X).
    - change (RLT_LDST =? RLT_PCAL) with false. change (RLT_LDST =? RLT_LDST) with true. cbn iota.
      destruct (fixup_frame_total pre p post (lvalue d) K2 Wp V) as (prog1 & X).
      exists prog1. split; [exact X|]. apply (fixup_frame_code _ _ _ _ _ K2 Wp (proj1 V) X). }
  destruct P as (prog1 & -> & ->). cbn [lbind]. set (q := mkOp (op p) (arg1 p) (lvalue d)).
  assert (EM : map op code = map op (pre ++ q :: post)) by (rewrite E, !map_app; reflexivity).
  apply IH.
  - rewrite E in W. apply Forall_app in W. destruct W as [W1 W2]. apply Forall_cons_iff in W2. apply Forall_app. split; [exact W1|].
    constructor; [|apply W2]. apply (label_codes_wf p q Wp); try reflexivity; [|exact T7]. cbn. lia.
  - eapply Forall_impl; [|exact F]. intros y Fy. apply (fits_map_op code); assumption.
  - intros r' I. apply G. right. exact I.
  - rewrite E in Eb. destruct post as [|y post] using rev_ind.
    + apply app_inj_tail in Eb. destruct Eb as [_ <-]. congruence.
    + rewrite app_comm_cons, app_assoc in Eb. apply app_inj_tail in Eb. destruct Eb as [_ ->].
      exists (pre ++ q :: post), x. split; [rewrite <- app_assoc; reflexivity|exact Bx].
  - rewrite <- (map_op_size _ _ EM). exact Sz.
Qed.

Lemma linked_last n ms opss : Forall2 (module_text n) ms opss -> ms <> [] -> forall base robase,
  exists body x, linked_ops base robase ms opss = body ++ [x] /\ Z.testbit (op x) 7 = false.
Proof.
  intros F. induction F as [|m ops ms opss (_ & T & _) F IH]; intros NE base robase; [contradiction|]. cbn [linked_ops].
  destruct F as [|m' ops' ms opss T' F].
  - cbn [linked_ops]. rewrite app_nil_r. destruct T as (body & -> & _). rewrite map_app. cbn [map].
    eexists. eexists. split; [reflexivity|]. destruct (relocate_op the_end base robase) as [-> _]. reflexivity.
  - destruct (IH ltac:(discriminate) (base + code_size ops) (robase + Z.of_nat (length (m_ro m)))) as (body & x & -> & B).
    rewrite app_assoc. eexists. eexists. split; [reflexivity|exact B].
Qed.

Lemma linked_rels_symbols ms : forall opss base symbase L0, Forall2 relocs_fit opss ms -> symbase = Z.of_nat (length L0) ->
  symbase + symbols_before ms <= 2 ^ 24 -> forall L, L = L0 ++ linked_syms base ms opss ->
  forall r, In r (linked_rels base symbase ms opss) -> exists s, 0 <= rli_sym (rinfo r) /\ nth_error L (Z.to_nat (rli_sym (rinfo r))) = Some s.
Proof.
  induction ms as [|m ms IH]; intros opss base symbase L0 F B S2 L EL r I; inversion F as [|ops ? opss' ? [Fm _] Fms]; subst; [destruct I|].
  cbn [symbols_before fold_right] in S2. fold (symbols_before ms) in S2. pose proof (symbols_before_nonneg ms).
  cbn [linked_rels] in I. apply in_app_iff in I. destruct I as [I|I].
  - apply in_map_iff in I. destruct I as (r0 & <- & I). rewrite Forall_forall in Fm. pose proof (Fm r0 I) as Fr.
    destruct (offset_reloc_fits r0 base (Z.of_nat (length L0)) _ _ Fr ltac:(lia) ltac:(lia)) as (_ & -> & _).
    destruct Fr as (Rr & Lt & _).
    destruct (nth_error (L0 ++ linked_syms base (m :: ms) (ops :: opss')) (Z.to_nat (Z.of_nat (length L0) + rinfo r0 / 256))) as [s|] eqn:E.
    + exists s. split; [lia|reflexivity].
    + apply nth_error_None in E. cbn [linked_syms] in E. unfold moved_symbols in E. rewrite !app_length, map_length in E. lia.
  - apply (IH opss' _ _ (L0 ++ moved_symbols base (m_syms m)) Fms) with (L := L0 ++ linked_syms base (m :: ms) (ops :: opss')) in I; [exact I| | |].
    + unfold moved_symbols. rewrite app_length, map_length. lia.
    + lia.
    + cbn [linked_syms]. rewrite app_assoc. reflexivity.
Qed.

Lemma link_success n ms opss L :
  Forall2 (module_text n) ms opss -> Forall2 relocs_fit opss ms -> all_symbols 0 ms opss L ->
  symbols_before ms <= 2 ^ 24 -> Forall (fun s => 0 <= lvalue s < 65536) L -> code_before opss < 2 ^ 32 ->
  one_program ms -> Forall (fun m => m_files m <> []) ms ->
  (linkable L -> exists img, link n ms = LOk img) /\ (~ linkable L -> link n ms = LFatal).
Proof.
  intros T R A SB V Sz One Ef. pose proof (all_symbols_fun _ _ _ _ A) as EL. pose proof (Forall2_len _ _ _ T) as Len.
  assert (LE : exists e, linked_entry 0 ms opss None = Some (Some e)).
  { destruct One as (a & m & b & -> & P & F). 
    assert (X : exists opsb ops opsa, opss = opsb ++ ops :: opsa /\ length a = length opsb /\ length b = length opsa).
    { apply Forall2_app_inv_l in T. destruct T as (o1 & o2 & T1 & T2 & ->). inversion T2 as [|? ops ? opsa _ T3]; subst.
      exists o1, ops, opsa. split; [reflexivity|]. split; [apply (Forall2_len _ _ _ T1)|apply (Forall2_len _ _ _ T3)]. }
    destruct X as (opsb & ops & opsa & -> & E1 & E2). eexists. apply linked_entry_split; assumption. }
  destruct LE as (e & LE).
  destruct (link_modules_total n ms opss lst0 [] (Some e) T inv0 eq_refl Ef LE) as (s & H).
  destruct (link_modules_spec _ _ _ lst0 _ [] T inv0 eq_refl eq_refl H) as (P1 & _ & _ & _ & P5 & P6 & P7).
  cbn [lst0 l_prog l_ro l_files l_lines l_syms l_rels l_entry l_pc l_fn l_sym app length] in P1, P5, P6, P7.
  change (Z.of_nat 0) with 0 in P1. rewrite <- EL in P5. rewrite LE in P7. injection P7 as P7.
  unfold link. rewrite H. cbn [lbind]. rewrite <- P7. pose proof (verify_spec _ _ P5) as VS. split.
  - intros Lk. rewrite (proj2 VS Lk). rewrite P1, P6.
    destruct (apply_total (l_syms s) (linked_rels 0 0 ms opss) (linked_ops 0 0 ms opss)) as (prog & AP).
    + apply (linked_wf n), T.
    + apply (linked_rels_fit ms opss 0 0 0 []); [exact R|reflexivity|lia|lia].
    + intros r I. destruct (linked_rels_symbols ms opss 0 0 [] R eq_refl ltac:(lia) L EL r I) as (sy & R0 & N).
      destruct (get_symbol_spec _ _ _ _ P5 Lk N) as (d & G & D1 & _ & D3). rewrite Z2Nat.id in G by exact R0.
      exists d. split; [exact G|]. split; [exact D3|]. rewrite Forall_forall in V. apply V, D1.
    + apply (linked_last n); [exact T|]. destruct One as (a & m & b & -> & _). intros X. destruct a; discriminate X.
    + rewrite linked_ops_size by exact Len. exact Sz.
    + rewrite AP. cbn [lbind]. eexists. reflexivity.
  - intros NL. destruct (verify_symbols (l_syms s)); [|reflexivity]. exfalso. apply NL, VS. reflexivity.
Qed.

(** ** Data, lines, entry point, symbol table *)

Lemma link_parts n ms opss img : Forall2 (module_text n) ms opss -> link n ms = LOk img ->
  i_ro img = concat (map m_ro ms) /\ i_files img = concat (map m_files ms) /\ i_lines img = linked_lines 0 0 ms opss /\
  linked_entry 0 ms opss None = Some (Some (i_entry img)).
Proof.
  intros T H. apply link_inv in H. destruct H as (s & H & E & _ & _ & E1 & E2 & E3 & _).
  destruct (link_modules_spec _ _ _ lst0 _ [] T inv0 eq_refl eq_refl H) as (_ & P2 & P3 & P4 & _ & _ & P7).
  cbn [lst0 l_prog l_ro l_files l_lines l_syms l_rels l_entry l_pc l_fn l_sym app length] in *.
  rewrite E1, E2, E3, <- E. split; [exact P2|]. split; [exact P3|]. split; [exact P4|exact P7].
Qed.

Lemma data_before_length ms : data_before ms = Z.of_nat (length (concat (map m_ro ms))).
Proof. induction ms as [|m ms IH]; [reflexivity|]. cbn [data_before fold_right map concat]. fold (data_before ms). rewrite app_length. lia. Qed.

Lemma files_before_length ms : files_before ms = Z.of_nat (length (concat (map m_files ms))).
Proof. induction ms as [|m ms IH]; [reflexivity|]. cbn [files_before fold_right map concat]. fold (files_before ms). rewrite app_length. lia. Qed.

Lemma link_data n ms opss img msb opsb m ops k : Forall2 (module_text n) ms opss -> link n ms = LOk img ->
  placed ms opss msb opsb m ops -> (k < length (m_ro m))%nat ->
  nth_error (i_ro img) (Z.to_nat (data_before msb) + k) = nth_error (m_ro m) k.
Proof.
  intros T H (msa & opsa & -> & -> & El) Lt. destruct (link_parts _ _ _ _ T H) as (-> & _).
  rewrite map_app, concat_app, data_before_length. cbn [map concat]. rewrite Nat2Z.id.
  rewrite nth_error_app2 by lia. replace (_ + k - _)%nat with k by lia. apply nth_error_app1, Lt.
Qed.

Lemma linked_lines_split msb : forall base fnbase opsb m ops msa opsa, length msb = length opsb ->
  linked_lines base fnbase (msb ++ m :: msa) (opsb ++ ops :: opsa) =
  linked_lines base fnbase msb opsb ++ merge_lines m (base + code_before opsb) (fnbase + files_before msb) ++
  linked_lines (base + code_before opsb + code_size ops) (fnbase + files_before msb + Z.of_nat (length (m_files m))) msa opsa.
Proof.
  induction msb as [|b msb IH]; intros base fnbase [|o opsb] m ops msa opsa E; try discriminate E.
  - cbn [app linked_lines code_before files_before fold_right]. rewrite !Z.add_0_r. reflexivity.
  - cbn [app linked_lines]. rewrite IH by (injection E as E; exact E). cbn [code_before files_before fold_right].
    fold (code_before opsb) (files_before msb). rewrite !Z.add_assoc, <- app_assoc. reflexivity.
Qed.

Lemma link_lines n ms opss img msb opsb m ops : Forall2 (module_text n) ms opss -> link n ms = LOk img ->
  placed ms opss msb opsb m ops -> Forall (line_ok m) (m_lines m) -> files_before ms <= 65536 ->
  exists before lines after, i_lines img = before ++ lines ++ after /\
    Forall2 (line_moved (code_before opsb) (m_files m) (i_files img)) (m_lines m) lines.
Proof.
  intros T H (msa & opsa & -> & -> & El) Ok Fb. destruct (link_parts _ _ _ _ T H) as (_ & F & Ln & _).
  rewrite Ln, linked_lines_split by exact El. eexists. eexists. eexists. split; [reflexivity|]. rewrite !Z.add_0_l.
  unfold merge_lines. assert (FB : files_before msb + Z.of_nat (length (m_files m)) <= files_before (msb ++ m :: msa)).
  { rewrite !files_before_length, map_app, concat_app. cbn [map concat]. rewrite !app_length. lia. }
  assert (FB0 : 0 <= files_before msb) by (rewrite files_before_length; lia).
  rewrite F, map_app, concat_app. cbn [map concat]. clear - Ok FB FB0 Fb.
  induction Ok as [|l ls [O1 O2] Ok IH]; cbn [map]; constructor; [|exact IH].
  unfold line_moved. cbn [ln_lineno ln_fileno ln_poffset]. rewrite u16_small by lia. split; [reflexivity|]. split; [reflexivity|].
  rewrite u16_small by lia. rewrite files_before_length in *.
  rewrite nth_error_app2 by lia. replace (_ - _)%nat with (Z.to_nat (ln_fileno l)) by lia. apply nth_error_app1. lia.
Qed.

Lemma link_entry n ms opss img : Forall2 (module_text n) ms opss -> link n ms = LOk img ->
  one_program ms /\ exists msb opsb m ops, placed ms opss msb opsb m ops /\ m_type m = FHT_PROGRAM /\
    i_entry img = m_entry m + code_before opsb.
Proof.
  intros T H. destruct (link_parts _ _ _ _ T H) as (_ & _ & _ & E).
  apply linked_entry_one in E; [|apply (Forall2_len _ _ _ T)]. destruct E as (msb & opsb & m & ops & P & Pt & One & ->).
  split; [exact One|]. exists msb, opsb, m, ops. split; [exact P|]. split; [exact Pt|]. lia.
Qed.

Lemma link_table n ms opss L img : Forall2 (module_text n) ms opss -> all_symbols 0 ms opss L -> link n ms = LOk img ->
  linkable L /\ (forall d, In d (i_syms img) <-> In d L /\ defined d).
Proof.
  intros T A H. apply link_inv in H. destruct H as (s & H & _ & V & _ & _ & _ & _ & Es).
  destruct (link_modules_spec _ _ _ lst0 _ [] T inv0 eq_refl eq_refl H) as (_ & _ & _ & _ & P5 & _).
  cbn [lst0 l_prog l_ro l_files l_lines l_syms l_rels l_entry l_pc l_fn l_sym app length] in *.
  rewrite <- (all_symbols_fun _ _ _ _ A) in P5. assert (Lk : linkable L) by (apply (verify_spec _ _ P5), V).
  split; [exact Lk|]. intros d. rewrite Es. apply table_spec; assumption.
Qed.

Lemma link_table_order n ms opss L img n' ms' opss' L' img' :
  Forall2 (module_text n) ms opss -> all_symbols 0 ms opss L -> link n ms = LOk img ->
  Forall2 (module_text n') ms' opss' -> all_symbols 0 ms' opss' L' -> link n' ms' = LOk img' ->
  Permutation L L' -> i_syms img = i_syms img'.
Proof.
  intros T A H T' A' H' P. destruct (link_table _ _ _ _ _ T A H) as [_ X]. destruct (link_table _ _ _ _ _ T' A' H') as [_ X'].
  apply link_inv in H, H'. destruct H as (s & H & _ & _ & _ & _ & _ & _ & Es). destruct H' as (s' & H' & _ & _ & _ & _ & _ & _ & Es').
  destruct (link_modules_spec _ _ _ lst0 _ [] T inv0 eq_refl eq_refl H) as (_ & _ & _ & _ & P5 & _).
  destruct (link_modules_spec _ _ _ lst0 _ [] T' inv0 eq_refl eq_refl H') as (_ & _ & _ & _ & P5' & _).
  rewrite Es, Es' in *. apply sorted_same; [apply (i_sorted _ _ P5)|apply (i_sorted _ _ P5')|].
  intros d. rewrite X, X'. split; intros [I D]; (split; [|exact D]).
  - apply (Permutation_in _ P I).
  - apply (Permutation_in _ (Permutation_sym P) I).
Qed.

(** ** Bytes *)

Lemma set_byte_other l : forall k i v, k <> i -> nth_error (set_byte l k v) i = nth_error l i.
Proof.
  induction l as [|x l IH]; intros [|k] [|i] v N; cbn [set_byte nth_error]; try reflexivity; [contradiction|].
  apply IH. intros ->. apply N. reflexivity.
Qed.

Lemma apply_frame st rels : forall prog prog', Forall (fun r => 0 <= roffset r) rels -> apply_relocs st rels prog = LOk prog' ->
  length prog' = length prog /\
  forall i, (forall r, In r rels -> ~ patch_byte r (Z.of_nat i)) -> nth_error prog' i = nth_error prog i.
Proof.
  induction rels as [|r rels IH]; intros prog prog' P H; cbn [apply_relocs] in H.
  - injection H as <-. split; reflexivity.
  - apply Forall_cons_iff in P. destruct P as [P0 P].
    destruct (get_symbol st _) as [| |d]; cbn [lbind] in H; try discriminate H. destruct (_ || _); [discriminate H|].
    destruct (if rli_type (rinfo r) =? RLT_PCAL then _ else _) as [| |prog1] eqn:X; cbn [lbind] in H; try discriminate H.
    destruct (IH _ _ P H) as [L1 N1].
    assert (G : length prog1 = length prog /\ forall i, ~ patch_byte r (Z.of_nat i) -> nth_error prog1 i = nth_error prog i).
    { unfold patch_byte. rewrite rli_type_mod in X. destruct (rinfo r mod 256 =? RLT_PCAL) eqn:Y; [|destruct (rinfo r mod 256 =? RLT_LDST) eqn:Y'].
      - unfold fixup_call in X. destruct (nth_error _ _); [|discriminate X]. destruct (negb _); [discriminate X|].
        destruct (_ <? _); [discriminate X|]. destruct (_ <=? _); [discriminate X|]. injection X as <-.
        rewrite !set_byte_length. split; [reflexivity|]. intros i Hi. rewrite !set_byte_other by lia. reflexivity.
      - unfold fixup_frame in X. destruct (nth_error _ _) as [b|]; [|discriminate X]. destruct (negb _); [discriminate X|].
        destruct (_ <? _); [discriminate X|]. destruct (_ <=? _); [discriminate X|]. injection X as <-.
        rewrite !set_byte_length. split; [reflexivity|]. intros i Hi. destruct (has8 (u8 b)); rewrite !set_byte_other by lia; reflexivity.
      - injection X as <-. split; reflexivity. }
    destruct G as [G1 G2]. split; [congruence|]. intros i Hi. rewrite N1.
    + apply G2. apply Hi. left. reflexivity.
    + intros r' I. apply Hi. right. exact I.
Qed.

(** ** For the property file *)

Lemma link_moved n ms opss L img :
  Forall2 (module_text n) ms opss -> Forall2 relocs_fit opss ms -> all_symbols 0 ms opss L ->
  symbols_before ms <= 2 ^ 24 -> (forall m s, In m ms -> In s (m_syms m) -> 0 <= lvalue s) ->
  link n ms = LOk img ->
  forall msb opsb m ops pre p post, placed ms opss msb opsb m ops -> ops = pre ++ p :: post ->
  ~ unsigned_branch (op p) -> (forall r, In r (m_rels m) -> roffset r <> code_size pre) ->
  exists q, fetch (i_prog img) (code_before opsb + code_size pre) = Some q /\ moved (code_before opsb) (data_before msb) p q.
Proof.
  intros T R A SB Pos H msb opsb m ops pre p post Pl E NU NR. destruct (link_code _ _ _ _ _ T R A SB Pos H) as [_ C].
  destruct (C _ _ _ _ _ _ _ Pl E) as (q & Q & _ & _ & U & _). exists q. split; [exact Q|]. rewrite (U NR). apply relocate_moved, NU.
Qed.

Lemma code_before_app a b : code_before (a ++ b) = code_before a + code_before b.
Proof. induction a as [|x a IH]; [reflexivity|]. cbn [app code_before fold_right]. fold (code_before (a ++ b)) (code_before a). lia. Qed.

Lemma code_before_nonneg l : 0 <= code_before l.
Proof. induction l as [|o l IH]; cbn [code_before fold_right]; [lia|]. fold (code_before l). pose proof (code_size_nonneg o). lia. Qed.

Lemma link_landing n ms opss L img :
  Forall2 (module_text n) ms opss -> Forall2 relocs_fit opss ms -> all_symbols 0 ms opss L ->
  symbols_before ms <= 2 ^ 24 -> (forall m s, In m ms -> In s (m_syms m) -> 0 <= lvalue s) ->
  link n ms = LOk img -> code_before opss <= 65536 ->
  forall msb opsb m ops pre p post pre' t post', placed ms opss msb opsb m ops -> ops = pre ++ p :: post ->
  (branch (op p) \/ op p = oPCAL) -> ~ unsigned_branch (op p) -> (forall r, In r (m_rels m) -> roffset r <> code_size pre) ->
  ops = pre' ++ t :: post' -> arg2 p = code_size pre' ->
  exists q t', fetch (i_prog img) (code_before opsb + code_size pre) = Some q /\ op q = op p /\
    fetch (i_prog img) (arg2 q) = Some t' /\ op t' = op t /\ arg1 t' = arg1 t.
Proof.
  intros T R A SB Pos H Sz msb opsb m ops pre p post pre' t post' Pl E Br NU NR E' Ar.
  destruct (link_moved _ _ _ _ _ T R A SB Pos H _ _ _ _ _ _ _ Pl E NU NR) as (q & Q & M).
  destruct (link_code _ _ _ _ _ T R A SB Pos H) as [_ C].
  destruct (C _ _ _ _ _ _ _ Pl E') as (t' & Q' & O1 & O2 & _). exists q, t'. split; [exact Q|]. split; [apply M|].
  split; [|split; assumption]. destruct M as (_ & _ & M & _). rewrite (M Br), Ar.
  destruct Pl as (msa & opsa & -> & -> & El). rewrite code_before_app in Sz. cbn [code_before fold_right] in Sz. fold (code_before opsa) in Sz.
  pose proof (code_before_nonneg opsa). pose proof (code_before_nonneg opsb). rewrite E', code_size_app in Sz. cbn [code_size fold_right] in Sz. fold (code_size post') in Sz.
  pose proof (code_size_nonneg pre'). pose proof (code_size_nonneg post'). pose proof (insn_length_pos (op t)).
  rewrite Z.mod_small by lia. rewrite Z.add_comm. exact Q'.
Qed.

Lemma link_calls n ms opss L img :
  Forall2 (module_text n) ms opss -> Forall2 relocs_fit opss ms -> all_symbols 0 ms opss L ->
  symbols_before ms <= 2 ^ 24 -> (forall m s, In m ms -> In s (m_syms m) -> 0 <= lvalue s) ->
  link n ms = LOk img ->
  forall msb opsb m ops pre p post r, placed ms opss msb opsb m ops -> ops = pre ++ p :: post ->
  In r (m_rels m) -> roffset r = code_size pre ->
  exists s d, nth_error (m_syms m) (Z.to_nat (rinfo r / 256)) = Some s /\ In d L /\ same_symbol d s /\ defined d /\
    fetch (i_prog img) (code_before opsb + code_size pre) = Some (mkOp (op p) (arg1 p) (lvalue d)).
Proof.
  intros T R A SB Pos H msb opsb m ops pre p post r Pl E I Ro. destruct (link_code _ _ _ _ _ T R A SB Pos H) as [_ C].
  destruct (C _ _ _ _ _ _ _ Pl E) as (q & Q & O1 & O2 & _ & V). destruct (V r I Ro) as (s & d & N & D1 & D2 & D3 & Ev).
  exists s, d. split; [exact N|]. split; [exact D1|]. split; [exact D2|]. split; [exact D3|].
  destruct q as [qo q1 q2]. cbn in O1, O2, Ev. subst. exact Q.
Qed.
