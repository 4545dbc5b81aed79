(** System I/O: numbers and lines. *)

From Coq Require Import ZArith Bool List Lia ZifyBool.
From Verif Require Import Words State WordLemmas StateLemmas HeapModel StringModel StringSpec StringProofs StringOps3
  SysioModel SysioSpec SysioProofs.
Import ListNotations.
Open Scope Z_scope.
Local Ltac Zify.zify_post_hook ::= Z.div_mod_to_equations.

(** ** Numbers *)

Definition from (v : Z) (ds : list Z) : Z := fold_left (fun v c => 10 * v + (c - 48)) ds v.

Lemma from_mono ds : forall v, 0 <= v -> Forall digit ds -> v <= from v ds.
Proof.
  induction ds as [|c ds IH]; intros v Hv H; unfold from in *; cbn [fold_left]; [lia|].
  inversion H as [|? ? H1 H2]; subst. unfold digit in H1. specialize (IH (10 * v + (c - 48)) ltac:(lia) H2). lia.
Qed.

Lemma digit_b c : digit c <-> isdigit c = true.
Proof. unfold digit, isdigit. lia. Qed.

Lemma convert_digits_ok neg ds r : (forall c q, r = c :: q -> ~ digit c) ->
  forall v, 0 <= v <= 32767 -> Forall digit ds ->
  convert_digits neg v (ds ++ r) = if from v ds <=? 32767 then from v ds else if neg then 32767 else 32768.
Proof.
  intros Hr. induction ds as [|c ds IH]; intros v Hv H; cbn [app].
  - unfold from. cbn [fold_left]. replace (v <=? 32767) with true by lia. destruct r as [|c q]; [reflexivity|].
    cbn [convert_digits]. specialize (Hr c q eq_refl). rewrite digit_b in Hr. destruct (isdigit c); [congruence | reflexivity].
  - inversion H as [|? ? H1 H2]; subst. cbn [convert_digits]. rewrite (proj1 (digit_b c) H1). cbv zeta. unfold digit in H1.
    change (from v (c :: ds)) with (from (10 * v + (c - 48)) ds). replace (10 * v + c - 48) with (10 * v + (c - 48)) by lia.
    destruct (32767 <? 10 * v + (c - 48)) eqn:E.
    + pose proof (from_mono ds (10 * v + (c - 48)) ltac:(lia) H2).
      destruct (from (10 * v + (c - 48)) ds <=? 32767) eqn:E2; [lia | reflexivity].
    + apply IH; [lia | exact H2].
Qed.

Lemma skip_space_ok sp r : Forall (fun c => c = 32 \/ 9 <= c <= 13) sp ->
  (forall c q, r = c :: q -> isspace c = false) -> skip_space (sp ++ r) = r.
Proof.
  induction 1 as [|c sp H _ IH]; intros Hr; cbn [app].
  - destruct r as [|c q]; [reflexivity|]. cbn [skip_space]. rewrite (Hr c q eq_refl). reflexivity.
  - cbn [skip_space]. unfold isspace at 1. replace ((c =? 32) || ((9 <=? c) && (c <=? 13))) with true by lia. auto.
Qed.

(** The number that a numeral is read as *)
Definition read_value (sign ds : list Z) : Z :=
  if value ds <=? 32767 then match sign with [45] => - value ds | _ => value ds end
  else match sign with [45] => -32767 | _ => -32768 end.

Lemma convert_ok sp sign ds r : numeral sp sign ds r ->
  convert_integer (sp ++ sign ++ ds ++ r) = u16 (read_value sign ds).
Proof.
  intros (H1 & H2 & H3 & H4 & H5). unfold convert_integer. cbv zeta.
  assert (D : forall neg, convert_digits neg 0 (ds ++ r) = if value ds <=? 32767 then value ds else if neg then 32767 else 32768)
    by (intros neg; apply (convert_digits_ok neg ds r H5 0); [lia | exact H4]).
  destruct ds as [|d ds]; [congruence|]. assert (H6 : digit d) by (inversion H4; auto). unfold digit in H6.
  rewrite skip_space_ok; [|exact H1|].
  2:{ intros c q E. unfold isspace. destruct H2 as [->|[->| ->]]; cbn in E; injection E as <- _; try reflexivity. lia. }
  unfold read_value. destruct H2 as [->|[->| ->]]; cbn [app] in *.
  - replace ((d =? 43) || (d =? 45)) with false by lia. rewrite D. destruct (value (d :: ds) <=? 32767); reflexivity.
  - cbn [Z.eqb Pos.eqb orb]. rewrite D. destruct (value (d :: ds) <=? 32767); reflexivity.
  - cbn [Z.eqb Pos.eqb orb]. rewrite D. destruct (value (d :: ds) <=? 32767); reflexivity.
Qed.

Lemma value_app ds c : value (ds ++ [c]) = 10 * value ds + (c - 48).
Proof. unfold value. rewrite fold_left_app. reflexivity. Qed.

Lemma digits_ok f : forall n, 0 <= n < 10 ^ Z.of_nat f -> (0 < f)%nat ->
  value (digits f n) = n /\ Forall digit (digits f n) /\ digits f n <> [] /\ (length (digits f n) <= f)%nat.
Proof.
  induction f as [|f IH]; intros n Hn Hf; [lia|]. cbn [digits]. destruct (n <? 10) eqn:E.
  - unfold value. cbn [fold_left]. split; [lia|]. split; [constructor; [unfold digit; lia | constructor]|].
    split; [discriminate | cbn [length]; lia].
  - replace (Z.of_nat (S f)) with (Z.of_nat f + 1) in Hn by lia. rewrite Z.pow_add_r in Hn by lia. change (10 ^ 1) with 10 in Hn.
    assert (f <> 0%nat) by (intros ->; cbn in Hn; lia).
    destruct (IH (n / 10)) as (A & B & C & D); [lia | lia |]. rewrite value_app, A. split; [lia|]. split.
    + apply Forall_app. split; [exact B|]. constructor; [unfold digit; lia | constructor].
    + split; [intros X; apply app_eq_nil in X; destruct X as [_ X]; discriminate X|]. rewrite app_length. cbn [length]. lia.
Qed.

Lemma decimal_ok v : -32768 <= v <= 32767 -> exists sign ds,
  decimal v = sign ++ ds /\ value ds = Z.abs v /\ (sign = [] /\ 0 <= v \/ sign = [45] /\ v < 0) /\
  Forall digit ds /\ ds <> [] /\ (length ds <= 10)%nat.
Proof.
  intros Hv. unfold decimal. destruct (v <? 0) eqn:E.
  - destruct (digits_ok 10 (- v)) as (A & B & C & D); [cbn; lia | lia |]. exists [45], (digits 10 (- v)).
    cbn [app]. rewrite A. repeat split; auto; try lia. right. split; [reflexivity | lia].
  - destruct (digits_ok 10 v) as (A & B & C & D); [cbn; lia | lia |]. exists [], (digits 10 v).
    cbn [app]. rewrite A. repeat split; auto; try lia. left. split; [reflexivity | lia].
Qed.

(** ** Lines *)

Lemma take_line_ok l r : (forall c, In c l -> c <> 10) -> forall n, (length l < n)%nat -> take_line n (l ++ 10 :: r) = (l ++ [10], r).
Proof.
  induction l as [|c l IH]; intros H n Hn; cbn [app].
  - destruct n; [inversion Hn | reflexivity].
  - destruct n; [inversion Hn|]. cbn [take_line]. replace (c =? 10) with false by (symmetry; apply Z.eqb_neq, H; left; reflexivity).
    rewrite IH; [reflexivity | intros; apply H; right; auto | cbn [length] in Hn; lia].
Qed.

Lemma fgets_line size x l r : line l -> rest x = l ++ 10 :: r -> len l + 2 <= size ->
  fgets size x = (Some (l ++ [10]), mkStream r (out x) (ate x)).
Proof.
  intros Hl E Hs. pose proof (len_nonneg l). unfold fgets. replace (size <=? 0) with false by lia. rewrite E.
  rewrite take_line_ok; [|intros c Hc; unfold line in Hl; rewrite Forall_forall in Hl; apply Hl in Hc; lia | unfold len in *; lia].
  destruct (l ++ [10]) as [|c q] eqn:Q; [destruct l; discriminate Q|]. rewrite <- Q. rewrite last_last. cbn [Z.eqb Pos.eqb negb].
  rewrite andb_false_r, orb_false_r. reflexivity.
Qed.

Lemma upto_nul_ok l : ~ In 0 l -> upto_nul l = l.
Proof.
  induction l as [|c l IH]; intros H; [reflexivity|]. cbn [upto_nul]. destruct (c =? 0) eqn:E.
  - elim H. left. lia.
  - rewrite IH; [reflexivity|]. intros X. apply H. right. exact X.
Qed.

Lemma line_no_nul l : line l -> ~ In 0 (l ++ [10]).
Proof.
  unfold line. rewrite Forall_forall. intros H X. apply in_app_or in X. destruct X as [X|[X|[]]]; [apply H in X; lia | lia].
Qed.

Lemma check_eoln_ok l : line l -> l <> [] -> check_eoln (l ++ [10]) = (l, true).
Proof.
  intros Hl Hn. unfold check_eoln. rewrite upto_nul_ok by (apply line_no_nul; exact Hl). cbv zeta. rewrite last_last.
  rewrite app_length. destruct l as [|c l]; [congruence|]. cbn [length]. rewrite removelast_last.
  replace (0 <? Z.of_nat (S (length l) + 1) - 1) with true by lia. reflexivity.
Qed.

Lemma readable_check t n x : readable t n x -> check_read t n = eNOERROR.
Proof. intros (A & _ & B & C). apply check_read_ok. unfold is_open. rewrite B. split; [lia | auto]. Qed.

Lemma ent_put' t n e : (8 <= length (ftab t))%nat -> 0 <= n < 8 -> ent (put t n e) n = e.
Proof. intros. unfold ent, put. cbn [ftab]. apply set_nth_same. lia. Qed.

Lemma after_put t n x r : readable t n x ->
  after_line t (put (put_stream t n (mkStream r (out x) (ate x))) n
                  (set_eoln (ent (put_stream t n (mkStream r (out x) (ate x))) n) true)) n x r.
Proof.
  intros (A & B & C & D). unfold put_stream.
  set (e1 := set_str (ent t n) (Some (mkStream r (out x) (ate x)))).
  assert (L : (8 <= length (ftab (put t n e1)))%nat) by (unfold put; cbn [ftab]; rewrite set_nth_length; exact B).
  rewrite (ent_put' t n e1) by auto. unfold after_line, readable. rewrite !ent_put' by auto. repeat split; auto; try lia.
  - unfold put at 1. cbn [ftab]. rewrite set_nth_length. exact L.
  - intros m Hm Q. unfold ent, put. cbn [ftab]. rewrite !set_nth_other by lia. reflexivity.
Qed.

Lemma read_line_ok e t n x l r : readable t n x -> e_fail e = false -> line l -> l <> [] -> len l <= 254 ->
  rest x = l ++ 10 :: r -> exists t', read_line e t n = (eNOERROR, t') /\ iob t' = l /\ after_line t t' n x r.
Proof.
  intros R F Hl Hn Hs E. unfold read_line. rewrite (readable_check _ _ _ R). cbv zeta. cbn [negb Z.eqb eNOERROR]. rewrite F.
  assert (X : the_stream (ent t n) = x) by (unfold the_stream; destruct R as (_ & _ & -> & _); reflexivity). rewrite X.
  rewrite (fgets_line LINE_SIZE x l r Hl E) by (unfold LINE_SIZE; lia). rewrite check_eoln_ok by auto.
  eexists. split; [reflexivity|]. split; [reflexivity|]. exact (after_put t n x r R).
Qed.

Lemma operands2 s a b : operands s [a; b] -> exists s1, pop s = Some (a, s1) /\ pop s1 = Some (b, discard s 2).
Proof.
  intros H. exists (discard s 1). split.
  - pose proof (operand_pop _ _ 0%nat _ H eq_refl) as E. rewrite discard_0 in E by exact (proj1 H). exact E.
  - exact (operand_pop _ _ 1%nat _ H eq_refl).
Qed.

(** Reading an integer *)
Lemma read_int_ok e s t n x addr w l r : operands s [addr; n] -> readable t n x -> e_fail e = false -> word_at s addr w ->
  line l -> l <> [] -> len l <= 254 -> rest x = l ++ 10 :: r ->
  exists s' t', sysio e s t xREAD_INT = SR eNOERROR s' t' /\ word_at s' addr (convert_integer l) /\ after_line t t' n x r /\
                popped s s' 2 /\ only s s' (within addr 2).
Proof.
  intros Ho R F W Hl Hn Hs E. destruct (operands2 _ _ _ Ho) as (s1 & P1 & P2).
  change (sysio e s t xREAD_INT) with ('(addr, s) <* pop s ;; '(n, s) <* pop s ;; read_integer e s t n addr).
  rewrite P1. cbn [sbind]. rewrite P2. cbn [sbind]. unfold read_integer.
  destruct (read_line_ok _ _ _ _ _ _ R F Hl Hn Hs E) as (t' & L & B & A). rewrite L. cbn [negb Z.eqb eNOERROR].
  assert (W0 : word_at (discard s 2) (addr + 2 * 0) w) by (rewrite Z.add_0_r; exact W).
  destruct (hput_word (discard s 2) addr 0 (convert_integer (iob t')) w (proj1 W) W0) as (m & P & Q & O).
  rewrite P. cbn [shout]. rewrite Z.add_0_r in Q, O. exists (with_mem (discard s 2) m), t'. split; [reflexivity|].
  rewrite B in Q. split.
  - replace (u16 (convert_integer l)) with (convert_integer l) in Q; [exact Q|].
    assert (forall z, 0 <= u16 z < 65536) by (intros; unfold u16; lia). unfold convert_integer. cbv zeta.
    destruct (skip_space l); [reflexivity|]. destruct (_ || _); symmetry; apply u16_small; auto.
  - split; [exact A|]. split; [exact (discard_popped s m 2) | exact O].
Qed.

(** ** C51 *)

Lemma s16_of_u16 v : -32768 <= v <= 32767 -> s16 (u16 v) = v.
Proof. intros H. unfold s16, u16. destruct (_ <? _) eqn:E; lia. Qed.

Lemma reads_ok e s t n x addr w sp sign ds q r : operands s [addr; n] -> readable t n x -> e_fail e = false -> word_at s addr w ->
  numeral sp sign ds q -> line (sp ++ sign ++ ds ++ q) -> len (sp ++ sign ++ ds ++ q) <= 254 ->
  rest x = (sp ++ sign ++ ds ++ q) ++ 10 :: r ->
  exists s' t', sysio e s t xREAD_INT = SR eNOERROR s' t' /\ word_at s' addr (u16 (read_value sign ds)) /\ after_line t t' n x r.
Proof.
  intros Ho R F W N L Hs E.
  assert (Hn : sp ++ sign ++ ds ++ q <> []).
  { intros X. destruct N as (_ & _ & Hd & _). destruct ds; [congruence|]. apply (f_equal (@length Z)) in X.
    rewrite !app_length in X. cbn [length] in X. lia. }
  destruct (read_int_ok _ _ _ _ _ _ _ _ _ Ho R F W L Hn Hs E) as (s' & t' & A & B & C & _).
  exists s', t'. rewrite (convert_ok _ _ _ _ N) in B. auto.
Qed.

Lemma read_in_range e s t n x addr w sp sign ds q r : operands s [addr; n] -> readable t n x -> e_fail e = false -> word_at s addr w ->
  numeral sp sign ds q -> line (sp ++ sign ++ ds ++ q) -> len (sp ++ sign ++ ds ++ q) <= 254 ->
  rest x = (sp ++ sign ++ ds ++ q) ++ 10 :: r -> value ds <= 32767 ->
  exists s' t', sysio e s t xREAD_INT = SR eNOERROR s' t' /\
    word_at s' addr (u16 (match sign with [45] => - value ds | _ => value ds end)) /\ after_line t t' n x r.
Proof.
  intros Ho R F W N L Hs E V. destruct (reads_ok _ _ _ _ _ _ _ _ _ _ _ _ Ho R F W N L Hs E) as (s' & t' & A & B & C).
  exists s', t'. unfold read_value in B. replace (value ds <=? 32767) with true in B by lia. auto.
Qed.

Lemma read_negative_overflow e s t n x addr w sp ds q r : operands s [addr; n] -> readable t n x -> e_fail e = false -> word_at s addr w ->
  numeral sp [45] ds q -> line (sp ++ [45] ++ ds ++ q) -> len (sp ++ [45] ++ ds ++ q) <= 254 ->
  rest x = (sp ++ [45] ++ ds ++ q) ++ 10 :: r -> 32767 < value ds ->
  exists s' t', sysio e s t xREAD_INT = SR eNOERROR s' t' /\ word_at s' addr (u16 (-32767)) /\ after_line t t' n x r.
Proof.
  intros Ho R F W N L Hs E V. destruct (reads_ok _ _ _ _ _ _ _ _ _ _ _ _ Ho R F W N L Hs E) as (s' & t' & A & B & C).
  exists s', t'. unfold read_value in B. replace (value ds <=? 32767) with false in B by lia. auto.
Qed.

Lemma writable_check t n x : writable t n x -> check_write t n = eNOERROR.
Proof. intros (A & _ & B & C). apply check_write_ok. unfold is_open. rewrite B. split; [lia | auto]. Qed.

Lemma write_text_ok e s t n x w l : writable t n x -> e_fail e = false ->
  exists t', write_text e s t n w l = SR eNOERROR s t' /\
             writable t' n (mkStream (rest x) (out x ++ pad (w / 256) l) (ate x)).
Proof.
  intros W F. unfold write_text. rewrite (writable_check _ _ _ W). cbv zeta. cbn [negb Z.eqb eNOERROR]. rewrite F.
  eexists. split; [reflexivity|]. destruct W as (A & B & C & D). unfold emit, put_stream, the_stream. rewrite C.
  unfold writable. rewrite ent_put' by auto. repeat split; try lia; auto. unfold put. cbn [ftab]. rewrite set_nth_length. exact B.
Qed.

Lemma write_int_ok e s t n x w v : operands s [w; u16 v; n] -> -32768 <= v <= 32767 -> writable t n x -> e_fail e = false ->
  exists t', sysio e s t xWRITE_INT = SR eNOERROR (discard s 3) t' /\
             writable t' n (mkStream (rest x) (out x ++ pad (w / 256) (decimal v)) (ate x)).
Proof.
  intros Ho Hv W F. assert (Ev := s16_of_u16 v Hv).
  change (sysio e s t xWRITE_INT) with
    ('(w, s) <* pop s ;; '(v, s) <* pop s ;; '(n, s) <* pop s ;; write_text e s t n w (decimal (s16 v))).
  start_pops Ho. cbn [sbind]. pop_one Ho 1%nat. cbn [sbind]. pop_one Ho 2%nat. cbn [sbind]. rewrite Ev. apply write_text_ok; auto.
Qed.

Lemma pad_line w l : line l -> line (pad w l).
Proof.
  intros H. unfold pad, line. apply Forall_app. split; [|exact H]. apply Forall_forall. intros c Hc. apply repeat_spec in Hc. lia.
Qed.

Lemma round_trip e s t n x w v : operands s [w; u16 v; n] -> writable t n x -> e_fail e = false ->
  -32767 <= v <= 32767 -> w / 256 <= 254 ->
  exists s' t' text, sysio e s t xWRITE_INT = SR eNOERROR s' t' /\
    writable t' n (mkStream (rest x) (out x ++ text) (ate x)) /\
    forall e2 s2 t2 n2 x2 addr w2 r, operands s2 [addr; n2] -> readable t2 n2 x2 -> e_fail e2 = false ->
      word_at s2 addr w2 -> rest x2 = text ++ 10 :: r ->
      exists s3 t3, sysio e2 s2 t2 xREAD_INT = SR eNOERROR s3 t3 /\ word_at s3 addr (u16 v) /\ after_line t2 t3 n2 x2 r.
Proof.
  intros Ho W F Hv Hw. destruct (write_int_ok _ _ _ _ _ _ _ Ho ltac:(lia) W F) as (t' & A & B).
  exists (discard s 3), t', (pad (w / 256) (decimal v)). split; [exact A|]. split; [exact B|].
  destruct (decimal_ok v ltac:(lia)) as (sign & ds & D1 & D2 & D3 & D4 & D5 & D6).
  intros e2 s2 t2 n2 x2 addr w2 r Ho2 R F2 W2 E.
  set (sp := repeat 32 (Z.to_nat (w / 256 - Z.of_nat (length (decimal v))))).
  assert (P : pad (w / 256) (decimal v) = sp ++ sign ++ ds ++ []) by (unfold pad; fold sp; rewrite D1, app_nil_r; reflexivity).
  assert (N : numeral sp sign ds []).
  { split; [apply Forall_forall; intros c Hc; apply repeat_spec in Hc; auto|]. split; [tauto|]. repeat split; auto. discriminate. }
  assert (L : line (sp ++ sign ++ ds ++ [])).
  { rewrite <- P. apply pad_line. rewrite D1. unfold line. apply Forall_app. split.
    - destruct D3 as [[-> _]|[-> _]]; repeat constructor; lia.
    - eapply Forall_impl; [|exact D4]. unfold digit. intros c Hc. cbn beta in Hc. lia. }
  assert (S : len (sp ++ sign ++ ds ++ []) <= 254).
  { rewrite <- P. unfold pad, len. rewrite app_length, repeat_length. rewrite D1, app_length.
    assert (length sign <= 1)%nat by (destruct D3 as [[-> _]|[-> _]]; cbn; lia). lia. }
  rewrite P in E. destruct (reads_ok _ _ _ _ _ _ _ _ _ _ _ _ Ho2 R F2 W2 N L S E) as (s3 & t3 & X & Y & Z0).
  exists s3, t3. split; [exact X|]. split; [|exact Z0]. unfold read_value in Y. rewrite D2 in Y.
  replace (Z.abs v <=? 32767) with true in Y by lia.
  destruct D3 as [[-> Q]|[-> Q]].
  - rewrite Z.abs_eq in Y by lia. exact Y.
  - rewrite Z.abs_neq in Y by lia. rewrite Z.opp_involutive in Y. exact Y.
Qed.

(** ** C54 *)

Lemma read_char_ok e s t n x addr l r : operands s [addr; n] -> readable t n x -> e_fail e = false -> inside s addr 1 ->
  line l -> l <> [] -> len l <= 254 -> rest x = l ++ 10 :: r ->
  exists s' t', sysio e s t xREAD_CHAR = SR eNOERROR s' t' /\ byte_of (mem s') addr = hd 0 l /\ after_line t t' n x r.
Proof.
  intros Ho R F W Hl Hn Hs E. destruct (operands2 _ _ _ Ho) as (s1 & P1 & P2).
  change (sysio e s t xREAD_CHAR) with ('(addr, s) <* pop s ;; '(n, s) <* pop s ;; read_char e s t n addr).
  rewrite P1. cbn [sbind]. rewrite P2. cbn [sbind]. unfold read_char.
  destruct (read_line_ok _ _ _ _ _ _ R F Hl Hn Hs E) as (t' & L & B & A). rewrite L. cbn [negb Z.eqb eNOERROR].
  assert (Hc : 0 <= hd 0 l < 256) by (destruct Hl; cbn; lia).
  destruct (wrbs_ok [hd 0 l] (discard s 2) addr ltac:(constructor; [exact Hc | constructor])) as (m & P & Q & _).
  { unfold inside in *. cbn [len length]. change (cf (discard s 2)) with (cf s). unfold len. cbn [length]. lia. }
  cbn [wrbs] in P. rewrite B. destruct (wrb (discard s 2) addr (hd 0 l)) as [s2|]; [|discriminate P]. cbn [bindO] in P. injection P as ->.
  cbn [sbind]. exists (with_mem (discard s 2) m), t'. split; [reflexivity|]. split; [exact (proj1 Q) | exact A].
Qed.

Lemma read_string_ok e s t n x var buf cap v l r : operands s [var; n] -> readable t n x -> e_fail e = false ->
  str_var s var buf cap v -> line l -> l <> [] -> len l + 2 <= cap -> rest x = l ++ 10 :: r ->
  exists s' t', sysio e s t xREAD_STRING = SR eNOERROR s' t' /\ str_var s' var buf cap l /\ after_line t t' n x r /\
                popped s s' 2 /\ only s s' (fun b => within buf cap b \/ within var 2 b).
Proof.
  intros Ho R F V Hl Hn Hs E. destruct (operands2 _ _ _ Ho) as (s1 & P1 & P2).
  change (sysio e s t xREAD_STRING) with ('(addr, s) <* pop s ;; '(n, s) <* pop s ;; read_string e s t n addr).
  rewrite P1. cbn [sbind]. rewrite P2. cbn [sbind]. clear s1 P1 P2. unfold read_string. rewrite (readable_check _ _ _ R).
  cbv zeta. cbn [negb Z.eqb eNOERROR].
  set (s0 := discard s 2). assert (V0 : str_var s0 var buf cap v) by exact V.
  destruct (str_var_mask _ _ _ _ _ V0) as (al & W4 & M).
  assert (V1 := V0). destruct V1 as (Hw & Hb & _ & _ & Hc & Hi & Ha). assert (Ev : var mod 2 = 0) by exact (proj1 Hw).
  rewrite (word_hget s0 var 2 al Ev W4). cbn [hbind]. rewrite (word_hget s0 var 1 buf Ev Hb). cbn [hbind shout].
  rewrite F, M.
  assert (X : the_stream (ent t n) = x) by (unfold the_stream; destruct R as (_ & _ & -> & _); reflexivity). rewrite X.
  rewrite (fgets_line cap x l r Hl E Hs). pose proof (len_nonneg l) as Hl0.
  assert (Lb : Forall (fun c => 0 <= c < 256) ((l ++ [10]) ++ [0])).
  { rewrite !Forall_app. repeat split; try (constructor; [lia | constructor]). eapply Forall_impl; [|exact Hl]. intros c Hc'. cbn beta in Hc'. lia. }
  assert (Ll : len ((l ++ [10]) ++ [0]) = len l + 2) by (rewrite !len_app; unfold len at 2 3; cbn [length]; lia).
  unfold inside in Hi. destruct (wrbs_ok _ s0 buf Lb) as (m1 & Q1 & C1 & O1).
  { unfold inside. rewrite Ll. lia. }
  rewrite Q1. cbn [sbind]. rewrite Ll in O1.
  apply chars_app in C1. destruct C1 as [C1 Z1]. cbn [chars_at] in Z1. destruct Z1 as [Z1 _].
  rewrite (cstr_ok (with_mem s0 m1) (l ++ [10])).
  2:{ unfold cstr_bound. unfold len in *. rewrite app_length. cbn [length]. lia. }
  2:{ exact C1. }
  2:{ apply line_no_nul. exact Hl. }
  2:{ unfold inside. rewrite len_app. unfold len at 2. cbn [length]. change (cf (with_mem s0 m1)) with (cf s0). lia. }
  2:{ exact Z1. }
  cbn [sbind]. rewrite check_eoln_ok by auto.
  change (Z.of_nat (length l)) with (len l).
  destruct (wrbs_ok [0] (with_mem s0 m1) (buf + len l)) as (m2 & Q2 & C2 & O2); [constructor; [lia | constructor]| |].
  { unfold inside. change (cf (with_mem s0 m1)) with (cf s0). unfold len at 3. cbn [length]. lia. }
  cbn [wrbs] in Q2. destruct (wrb (with_mem s0 m1) (buf + len l) 0) as [s2|]; [|discriminate Q2]. cbn [bindO] in Q2. injection Q2 as ->.
  cbn [sbind]. change (with_mem (with_mem s0 m1) m2) with (with_mem s0 m2). cbn [mem with_mem] in O2.
  change (len [0]) with 1 in O2. unfold within, apart in *.
  assert (W2 : word_at (with_mem s0 m2) (var + 2 * 0) (len v)).
  { rewrite Z.add_0_r. apply (word_ext s0); [reflexivity | | | exact Hw]; cbn [mem with_mem]; rewrite O2 by lia; apply O1; lia. }
  destruct (hput_word _ var 0 (len l) _ Ev W2) as (m3 & Q3 & W3 & O3). rewrite Q3. cbn [shout].
  rewrite Z.add_0_r in W3, O3. unfold within in O3. cbn [mem with_mem] in O3. rewrite u16_small in W3 by lia.
  exists (with_mem s0 m3). eexists. split; [reflexivity|]. split; [|split; [|split]].
  - apply (str_var_after s0 _ _ _ _ v); [exact V0 | reflexivity | lia | exact W3 | |].
    + cbn [mem with_mem]. apply (chars_ext m2); [unfold within; intros b Hb'; apply O3; lia|].
      apply (chars_ext m1); [unfold within; intros b Hb'; apply O2; lia|]. apply chars_app in C1. exact (proj1 C1).
    + unfold within. intros b Hb'. cbn [mem with_mem]. rewrite O3 by lia. rewrite O2 by lia. apply O1. lia.
  - exact (after_put t n x r R).
  - exact (discard_popped s m3 2).
  - intros b Nb. cbn [mem with_mem]. rewrite O3 by tauto. rewrite O2 by lia. rewrite O1 by lia. reflexivity.
Qed.

(** The flag is what Eoln returns *)
Lemma eoln_reports e s t n : number s xEOLN n -> n < 8 -> e_eoln (ent t n) = true ->
  exists s', sysio e s t xEOLN = SR eNOERROR s' t /\ tos s' 0 = Some 65535.
Proof.
  intros [Hs Hn] Hr He. change (Z.of_nat (number_operand xEOLN)) with 0 in Hn.
  change (sysio e s t xEOLN) with ('(n, s) <* pop s ;; eoln s t n). unfold tos in Hn. rewrite Z.sub_0_r in Hn.
  unfold pop. rewrite Hn. cbn [sbind]. unfold eoln, MAX_OPEN_FILES. replace (8 <=? n) with false by lia. rewrite He.
  assert (E : exists s', push (with_sp s (u16 (sp s - 2))) (pbool true) = Some s').
  { unfold push. cbn [sp with_sp]. unfold wr, in_word. cbn [cf with_sp sp].
    replace (u16 (u16 (sp s - 2) + 2)) with (sp s) by (unfold u16; lia). unfold rd, in_word in Hn.
    destruct (_ && _); [eexists; reflexivity | discriminate Hn]. }
  destruct E as [s' E]. rewrite E. cbn [sbind]. exists s'. split; [reflexivity|]. refine (push_top _ _ _ _ E). cbn. lia.
Qed.

(** ReadLn at the end of a line goes to the next one *)
Lemma read_ln_next e s t n x : number s xREADLN n -> readable t n x -> e_eoln (ent t n) = true ->
  exists s' t', sysio e s t xREADLN = SR eNOERROR s' t' /\ readable t' n x /\ e_eoln (ent t' n) = false.
Proof.
  intros [Hs Hn] R He. change (Z.of_nat (number_operand xREADLN)) with 0 in Hn.
  change (sysio e s t xREADLN) with ('(n, s) <* pop s ;; read_ln s t n). unfold tos in Hn. rewrite Z.sub_0_r in Hn.
  unfold pop. rewrite Hn. cbn [sbind]. unfold read_ln. rewrite (readable_check _ _ _ R). cbv zeta. cbn [negb Z.eqb eNOERROR].
  rewrite He. eexists. eexists. split; [reflexivity|]. destruct R as (A & B & C & D). unfold readable.
  rewrite ent_put' by auto. repeat split; try lia; auto. unfold put. cbn [ftab]. rewrite set_nth_length. exact B.
Qed.
