(** Operations that consume a temporary string *)

From Coq Require Import ZArith Bool List Lia ZifyBool.
From Verif Require Import Words State WordLemmas StateLemmas HeapModel HeapSpec HeapRegs HeapProofs HeapInv HeapMain
  StringModel StringSpec StringProofs StringOps StringOps2 StringOps3 StringOps4.
Import ListNotations.
Open Scope Z_scope.
Local Ltac Zify.zify_post_hook ::= Z.div_mod_to_equations.

Lemma str_var_ext s s' var buf cap v : cf s' = cf s ->
  (forall b, within buf cap b \/ within var 6 b -> byte_of (mem s') b = byte_of (mem s) b) ->
  str_var s var buf cap v -> str_var s' var buf cap v.
Proof.
  intros Hc E (Hw & Hb & Ha & Hv & Hl & Hi & Hap). unfold within in E. pose proof (len_nonneg v).
  split; [apply (word_ext s); [exact Hc | apply E; lia | apply E; lia | exact Hw]|].
  split; [apply (word_ext s); [exact Hc | apply E; lia | apply E; lia | exact Hb]|].
  split; [destruct Ha as [Ha | Ha]; [left | right]; (apply (word_ext s); [exact Hc | apply E; lia | apply E; lia | exact Ha])|].
  split; [apply (chars_ext (mem s)); [|exact Hv]; unfold within; intros b Hb'; apply E; lia|].
  split; [exact Hl|]. split; [|exact Hap]. unfold inside in *. rewrite Hc. exact Hi.
Qed.

Lemma stable_user s live s' (P : Z -> Prop) : cf s' = cf s -> fch s' = fch s -> only s s' P ->
  (forall b, P b -> ~ in_heap (cf s) b \/ in_live live b) -> user_step s live s'.
Proof.
  intros H1 H2 H3 H4. split; [exact H1|]. split; [exact H2|]. intros b Hb Hn. apply H3. intros HP.
  destruct (H4 b HP) as [H | H]; [exact (H Hb) | exact (Hn H)].
Qed.

Lemma in_live_cons x live b : in_live live b -> in_live (x :: live) b.
Proof. intros (y & H1 & H2). exists y. split; [right; exact H1 | exact H2]. Qed.

(** An assignment that consumes the most recent temporary string *)
Lemma assign_temp_ok sbs si s0 es live n f s var off src al x buf cap v :
  heap_cfg (cf si) -> init_heap si = HV s0 -> hist true s0 es s ((src, n) :: live) ->
  assign_op f s var off src al x -> ~ not_temporary al ->
  str_var s (u16 (var + off)) buf cap v -> str_data s src x -> src <> buf -> apart buf cap src (len x) ->
  stable s live buf cap -> stable s live (u16 (var + off)) 6 ->
  exists s', string_op sbs s f = Ok s' /\ str_var s' (u16 (var + off)) buf cap (truncate cap x) /\
    regs (discard s (assign_words f)) s' /\
    (exists es', hist true s0 es' s' live) /\
    forall b, ~ in_heap (cf s) b \/ in_live live b -> ~ within buf cap b -> ~ within (u16 (var + off)) 2 b ->
              byte_of (mem s') b = byte_of (mem s) b.
Proof.
  intros Hc Hi H Ho Ht Hv Hx Hne Hap S1 S2. set (w := u16 (var + off)) in *.
  assert (Hcap : 0 <= cap) by (destruct Hv as (_ & _ & _ & _ & Hv & _); pose proof (len_nonneg v); lia).
  assert (G : forall k, 0 <= al < 65536 -> exists m, str_cpy (discard s k) src (len x) var off = Some (with_mem (discard s k) m) /\
    exists s', consume (with_mem (discard s k) m) src al Ok = Ok s' /\ str_var s' w buf cap (truncate cap x) /\
    regs (discard s k) s' /\ (exists es', hist true s0 es' s' live) /\
    forall b, ~ in_heap (cf s) b \/ in_live live b -> ~ within buf cap b -> ~ within w 2 b ->
              byte_of (mem s') b = byte_of (mem s) b).
  { intros k Hal. destruct (str_cpy_ok (discard s k) src var off buf cap v x Hv Hx Hne Hap) as (m & E & W & O).
    fold w in W, O. exists m. split; [exact E|].
    assert (H1 : hist true s0 (EUser :: es) (with_mem (discard s k) m) ((src, n) :: live)).
    { apply (h_step _ _ _ _ _ _ _ _ H). apply h_user. eapply stable_user; [reflexivity | reflexivity | exact O|].
      unfold within. intros b Hb. assert (Q : ~ in_heap (cf s) b \/ in_live live b).
      { destruct Hb as [Hb | Hb]; [apply S1 | apply S2]; unfold within; lia. }
      destruct Q as [Q | Q]; [left; exact Q | right; apply in_live_cons; exact Q]. }
    destruct (consume_temp _ _ _ _ _ _ _ al Ok Hc Hi H1) as (s' & C1 & C2 & C3 & C4).
    { apply land_flag_set. unfold not_temporary in Ht. lia. }
    exists s'. split; [exact C1|]. split; [|split; [|split]].
    - apply (str_var_ext (with_mem (discard s k) m)); [apply C2 | | exact W]. intros b Hb. apply C4.
      destruct Hb as [Hb | Hb]; [exact (S1 b Hb) | exact (S2 b Hb)].
    - destruct C2 as (R1 & R2 & R3 & R4 & R5 & R6). repeat (split; [assumption|]). assumption.
    - eexists. exact C3.
    - intros b Hb Hb1 Hb2. unfold within in *. rewrite (C4 b Hb). apply O. unfold within. lia. }
  destruct Ho as [(-> & -> & Ho) | [(-> & -> & Ho) | [(-> & Ho) | (-> & Ho)]]].
  - change (string_op sbs s lbSTRCPY) with (op_strcpy false s). unfold op_strcpy.
    pose proof (operand_range _ _ 1%nat _ Ho eq_refl) as Hal.
    start_pops Ho. pop_one Ho 1%nat. pop_one Ho 2%nat. pop_one Ho 3%nat.
    destruct (G 4 Hal) as (m & E & W). rewrite E. cbn [bindo]. exact W.
  - change (string_op sbs s lbSTRCPY2) with (op_strcpy true s). unfold op_strcpy.
    pose proof (operand_range _ _ 0%nat _ Ho eq_refl) as Hal.
    start_pops Ho. pop_one Ho 1%nat. pop_one Ho 2%nat. pop_one Ho 3%nat.
    destruct (G 4 Hal) as (m & E & W). rewrite E. cbn [bindo]. exact W.
  - change (string_op sbs s lbSTRCPYX) with (op_strcpyx false s). unfold op_strcpyx.
    pose proof (operand_range _ _ 1%nat _ Ho eq_refl) as Hal.
    start_pops Ho. pop_one Ho 1%nat. pop_one Ho 2%nat. pop_one Ho 3%nat. pop_one Ho 4%nat.
    destruct (G 5 Hal) as (m & E & W). rewrite E. cbn [bindo]. exact W.
  - change (string_op sbs s lbSTRCPYX2) with (op_strcpyx true s). unfold op_strcpyx.
    pose proof (operand_range _ _ 0%nat _ Ho eq_refl) as Hal.
    start_pops Ho. pop_one Ho 1%nat. pop_one Ho 2%nat. pop_one Ho 3%nat. pop_one Ho 4%nat.
    destruct (G 5 Hal) as (m & E & W). rewrite E. cbn [bindo]. exact W.
Qed.

(** Assignment of a variable to itself *)
Lemma assign_self sbs f s var off src al x cap v :
  assign_op f s var off src al x -> not_temporary al -> str_var s (u16 (var + off)) src cap v ->
  string_op sbs s f = Ok (discard s (assign_words f)).
Proof.
  intros Ho Ht Hv. set (w := u16 (var + off)) in *.
  destruct (str_var_mask _ _ _ _ _ Hv) as (al' & Hal' & Hm). destruct Hv as (Hw & Hb & _).
  assert (G : forall k, str_cpy (discard s k) src (len x) var off = Some (discard s k)).
  { intros k. unfold str_cpy. fold w. unfold ALLOC_OFF, DATA_OFF. change (4 / 2) with 2.
    change (hget (discard s k)) with (hget s). rewrite (word_hget s w 2 al' (proj1 Hw) Hal'). unfold getstack.
    change (rd (discard s k)) with (rd s). rewrite (word_rd _ _ _ Hb). cbn [bindO].
    replace (src =? src) with true by lia. reflexivity. }
  destruct Ho as [(-> & -> & Ho) | [(-> & -> & Ho) | [(-> & Ho) | (-> & Ho)]]].
  - change (string_op sbs s lbSTRCPY) with (op_strcpy false s). unfold op_strcpy.
    pose proof (operand_range _ _ 1%nat _ Ho eq_refl) as Hal.
    start_pops Ho. pop_one Ho 1%nat. pop_one Ho 2%nat. pop_one Ho 3%nat.
    rewrite G. cbn [bindo]. rewrite consume_plain by assumption. reflexivity.
  - change (string_op sbs s lbSTRCPY2) with (op_strcpy true s). unfold op_strcpy.
    pose proof (operand_range _ _ 0%nat _ Ho eq_refl) as Hal.
    start_pops Ho. pop_one Ho 1%nat. pop_one Ho 2%nat. pop_one Ho 3%nat.
    rewrite G. cbn [bindo]. rewrite consume_plain by assumption. reflexivity.
  - change (string_op sbs s lbSTRCPYX) with (op_strcpyx false s). unfold op_strcpyx.
    pose proof (operand_range _ _ 1%nat _ Ho eq_refl) as Hal.
    start_pops Ho. pop_one Ho 1%nat. pop_one Ho 2%nat. pop_one Ho 3%nat. pop_one Ho 4%nat.
    rewrite G. cbn [bindo]. rewrite consume_plain by assumption. reflexivity.
  - change (string_op sbs s lbSTRCPYX2) with (op_strcpyx true s). unfold op_strcpyx.
    pose proof (operand_range _ _ 0%nat _ Ho eq_refl) as Hal.
    start_pops Ho. pop_one Ho 1%nat. pop_one Ho 2%nat. pop_one Ho 3%nat. pop_one Ho 4%nat.
    rewrite G. cbn [bindo]. rewrite consume_plain by assumption. reflexivity.
Qed.

(** String variables in use *)
Lemma shist_buffers sbs s0 s l : string_map (cf s0) -> csp s0 = 0 -> shist sbs s0 s l ->
  disjoint_blocks (buffers l) /\ forall b n, In (b, n) (buffers l) -> 0 <= b /\ b + n <= c_spb (cf s0).
Proof.
  intros H1 H2 H3. destruct (shist_inv _ _ _ _ H1 H2 H3) as (_ & Hc & Hs). split; [exact (stacked_disjoint _ _ Hs)|].
  intros b n Hin. pose proof (stacked_bound _ _ _ _ Hs Hin). lia.
Qed.
