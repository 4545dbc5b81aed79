(** System I/O: the table of files. *)

From Coq Require Import ZArith Bool List Lia ZifyBool.
From Verif Require Import Words State WordLemmas StateLemmas HeapModel StringModel StringSpec StringProofs SysioModel SysioSpec.
Import ListNotations.
Open Scope Z_scope.
Local Ltac Zify.zify_post_hook ::= Z.div_mod_to_equations.

(** ** The table *)

Lemma set_nth_length n : forall l e, length (set_nth n l e) = length l.
Proof. induction n as [|n IH]; intros [|x l] e; cbn; try reflexivity. rewrite IH. reflexivity. Qed.

Lemma set_nth_same n : forall l e, (n < length l)%nat -> nth n (set_nth n l e) no_entry = e.
Proof. induction n as [|n IH]; intros [|x l] e H; cbn in *; try lia; [reflexivity|]. apply IH. lia. Qed.

Lemma set_nth_other n : forall m l e, n <> m -> nth m (set_nth n l e) no_entry = nth m l no_entry.
Proof.
  induction n as [|n IH]; intros [|m] [|x l] e H; cbn; try reflexivity; try congruence. apply IH. congruence.
Qed.

Definition sized (t : io) : Prop := length (ftab t) = 8%nat.

Lemma put_sized t n e : sized t -> sized (put t n e).
Proof. unfold sized, put. cbn [ftab]. rewrite set_nth_length. auto. Qed.

Lemma ent_put t n e m : sized t -> 0 <= n < 8 -> 0 <= m -> ent (put t n e) m = if m =? n then e else ent t m.
Proof.
  unfold sized, ent, put. cbn [ftab]. intros H Hn Hm. destruct (m =? n) eqn:E.
  - assert (m = n) by lia. subst m. apply set_nth_same. lia.
  - apply set_nth_other. lia.
Qed.

Lemma ent_same t n e : sized t -> 0 <= n < 8 -> ent (put t n e) n = e.
Proof. intros. rewrite ent_put by (auto; lia). rewrite Z.eqb_refl. reflexivity. Qed.

Lemma ent_iob l b b' n : ent (mkIo l b) n = ent (mkIo l b') n.
Proof. reflexivity. Qed.

(** ** Operands *)

Lemma tos_discard s j n : 0 <= sp s < 65536 -> 0 <= j -> tos s (j + 1) = Some n ->
  0 <= sp (discard s 1) < 65536 /\ tos (discard s 1) j = Some n.
Proof.
  intros Hs Hj H. unfold tos, rd in *. destruct (in_word s (sp s / 2 - (j + 1))) eqn:E; [|discriminate H].
  unfold in_word in E. unfold discard. cbn [sp with_sp mem cf]. rewrite u16_small by lia.
  split; [lia|]. unfold in_word in *. cbn [cf with_sp sp mem]. replace ((sp s - 2 * 1) / 2 - j) with (sp s / 2 - (j + 1)) by lia.
  rewrite E. exact H.
Qed.

Lemma pop_discard s v s1 : pop s = Some (v, s1) -> s1 = discard s 1.
Proof. unfold pop, discard. destruct (rd s (sp s / 2)); [|discriminate]. intros H. injection H as _ <-. reflexivity. Qed.

Lemma pop_next s v s1 j n : pop s = Some (v, s1) -> 0 <= sp s < 65536 -> 0 <= j -> tos s (j + 1) = Some n ->
  0 <= sp s1 < 65536 /\ tos s1 j = Some n.
Proof. intros H. rewrite (pop_discard _ _ _ H). apply tos_discard. Qed.

Lemma pop_last s v s1 n : pop s = Some (v, s1) -> tos s 0 = Some n -> v = n.
Proof.
  unfold pop, tos. rewrite Z.sub_0_r. destruct (rd s (sp s / 2)); [|discriminate]. congruence.
Qed.

Lemma tos_bound s k n : tos s k = Some n -> 0 <= n < 65536.
Proof. unfold tos, rd. destruct (in_word _ _); [|discriminate]. intros H. injection H as <-. unfold u16. lia. Qed.

(** Turn a sequence of pops in [H : … = SR …] into the operands; [Hs] is the
    range of sp, [Hn] the file number on the stack *)
Ltac pops H Hs Hn :=
  cbn [sbind] in H;
  lazymatch type of H with
  | sbind (pop ?s) _ = _ =>
    let v := fresh "v" in let s1 := fresh "s1" in let P := fresh "P" in
    destruct (pop s) as [[v s1]|] eqn:P; [|discriminate H]; cbn [sbind] in H;
    lazymatch type of Hn with
    | tos _ 0 = Some _ => rewrite (pop_last _ _ _ _ P Hn) in *; clear P
    | tos _ ?k = Some _ =>
      let j := eval vm_compute in (k - 1) in
      change k with (j + 1) in Hn;
      let A := fresh in let B := fresh in
      destruct (pop_next _ _ _ j _ P Hs ltac:(lia) Hn) as [A B]; clear Hs Hn P; rename A into Hs, B into Hn;
      pops H Hs Hn
    end
  | sbind (pop (discard ?s 1)) _ = _ => idtac
  | _ => idtac
  end.

(** ** Operations that leave the ledger alone *)

Definition same_shape (t t' : io) : Prop :=
  sized t' /\ forall m, 0 <= m < 8 ->
    e_use (ent t' m) = e_use (ent t m) /\ e_mode (ent t' m) = e_mode (ent t m) /\ is_open (ent t' m) = is_open (ent t m).

Lemma shape_refl t : sized t -> same_shape t t.
Proof. intros H. split; [exact H|]. auto. Qed.

Lemma shape_trans t1 t2 t3 : same_shape t1 t2 -> same_shape t2 t3 -> same_shape t1 t3.
Proof.
  intros [_ A] [S B]. split; [exact S|]. intros m Hm. specialize (A m Hm). specialize (B m Hm).
  destruct A as (A1 & A2 & A3), B as (B1 & B2 & B3). repeat split; congruence.
Qed.

Lemma shape_put t n e : sized t -> 0 <= n < 8 -> e_use e = e_use (ent t n) -> e_mode e = e_mode (ent t n) ->
  is_open e = is_open (ent t n) -> same_shape t (put t n e).
Proof.
  intros S Hn E1 E2 E3. split; [apply put_sized; exact S|]. intros m Hm. rewrite ent_put by (auto; lia).
  destruct (m =? n) eqn:E; [|auto]. assert (m = n) by lia. subst m. auto.
Qed.

Lemma shape_iob t b : sized t -> same_shape t (mkIo (ftab t) b).
Proof. intros S. split; [exact S|]. intros m Hm. rewrite (ent_iob _ b (iob t)). destruct t; auto. Qed.

Lemma shape_stream t n x : sized t -> 0 <= n < 8 -> is_open (ent t n) = true -> same_shape t (put_stream t n x).
Proof. intros S Hn O. apply shape_put; auto. Qed.

Lemma check_read_ok t n : check_read t n = eNOERROR <-> n < 8 /\ is_open (ent t n) = true /\ e_mode (ent t n) = eOPEN_READ.
Proof.
  unfold check_read, MAX_OPEN_FILES, eNOERROR, eBADFILE, eNOTOPENFORREAD.
  destruct (8 <=? n) eqn:E1; [split; intros; lia|]. destruct (is_open (ent t n)); cbn [negb orb];
  destruct (e_mode (ent t n) =? eOPEN_READ) eqn:E2; cbn [negb orb]; split; intros; try lia; intuition lia.
Qed.

Lemma check_write_ok t n : check_write t n = eNOERROR <->
  n < 8 /\ is_open (ent t n) = true /\ (e_mode (ent t n) = eOPEN_WRITE \/ e_mode (ent t n) = eOPEN_APPEND).
Proof.
  unfold check_write, MAX_OPEN_FILES, eNOERROR, eBADFILE, eNOTOPENFORWRITE.
  destruct (8 <=? n) eqn:E1; [split; intros; lia|]. destruct (is_open (ent t n)); cbn [negb orb];
  destruct (e_mode (ent t n) =? eOPEN_WRITE) eqn:E2; destruct (e_mode (ent t n) =? eOPEN_APPEND) eqn:E3;
  cbn [negb orb]; split; intros; try lia; intuition lia.
Qed.

Ltac sok H := injection H as ? ? ?; subst.

Lemma negb_code c : negb (c =? eNOERROR) = false -> c = eNOERROR.
Proof. destruct (c =? eNOERROR) eqn:E; [lia | discriminate]. Qed.

(** An operation that needs access: denied, it changes nothing; performed, it
    keeps the shape *)
Definition guarded (k : Z) (t : io) (c : Z) (t' : io) : Prop :=
  (k <> eNOERROR /\ c = k /\ t' = t) \/ (k = eNOERROR /\ same_shape t t').

Lemma guard_denied t k c s s' t' : negb (k =? eNOERROR) = true -> SR k s t = SR c s' t' -> guarded k t c t'.
Proof. intros E H. sok H. left. repeat split; lia. Qed.

Lemma read_ln_guard s t n c s' t' : sized t -> 0 <= n -> read_ln s t n = SR c s' t' -> guarded (check_read t n) t c t'.
Proof.
  intros S Hn H. unfold read_ln in H. cbv zeta in H. destruct (negb (check_read t n =? eNOERROR)) eqn:E; [eapply guard_denied; eauto|].
  apply negb_code in E. right. split; [exact E|]. apply check_read_ok in E. destruct E as (E1 & E2 & E3).
  destruct (e_eoln (ent t n)).
  - sok H. apply shape_put; auto; lia.
  - destruct (skip_line _) as [r a]. sok H. apply shape_stream; auto; lia.
Qed.

Lemma read_binary_guard e s t n a z c s' t' : sized t -> 0 <= n -> read_binary e s t n a z = SR c s' t' -> guarded (check_read t n) t c t'.
Proof.
  intros S Hn H. unfold read_binary in H. cbv zeta in H. destruct (negb (check_read t n =? eNOERROR)) eqn:E; [eapply guard_denied; eauto|].
  apply negb_code in E. right. split; [exact E|]. apply check_read_ok in E. destruct E as (E1 & E2 & E3).
  destruct (e_fail e); [sok H; apply shape_refl; auto|].
  destruct (wrbs _ _ _); [|discriminate H]. sok H. apply shape_stream; auto; lia.
Qed.

Lemma read_line_guard e t n c t' : sized t -> 0 <= n -> read_line e t n = (c, t') -> guarded (check_read t n) t c t'.
Proof.
  intros S Hn H. unfold read_line in H. cbv zeta in H. destruct (negb (check_read t n =? eNOERROR)) eqn:E.
  - injection H as <- <-. left. repeat split; lia.
  - apply negb_code in E. right. split; [exact E|]. apply check_read_ok in E. destruct E as (E1 & E2 & E3).
    destruct (e_fail e); [injection H as <- <-; apply shape_iob; auto|].
    destruct (fgets _ _) as [l x]. destruct (check_eoln _) as [b eo]. injection H as <- <-.
    assert (A : same_shape t (put_stream t n x)) by (apply shape_stream; auto; lia).
    assert (A' := proj1 A).
    apply shape_trans with (put (put_stream t n x) n (set_eoln (ent (put_stream t n x) n) eo));
      [|exact (shape_iob _ b (put_sized _ _ _ A'))].
    eapply shape_trans; [exact A|]. apply shape_put; auto; lia.
Qed.

Lemma guard_more t k c1 t1 c2 t2 : guarded k t c1 t1 -> (c1 <> eNOERROR -> c2 = c1) -> t2 = t1 -> guarded k t c2 t2.
Proof. intros [(A & B & C)|[A B]] D ->; [left | right; auto]. rewrite D by congruence. auto. Qed.

Lemma read_integer_guard e s t n a c s' t' : sized t -> 0 <= n -> read_integer e s t n a = SR c s' t' -> guarded (check_read t n) t c t'.
Proof.
  intros S Hn H. unfold read_integer in H. destruct (read_line e t n) as [c1 t1] eqn:R. pose proof (read_line_guard _ _ _ _ _ S Hn R) as G.
  destruct (negb (c1 =? eNOERROR)) eqn:E; [sok H; exact G|]. apply negb_code in E.
  destruct (hput _ _ _ _); cbn [shout] in H; try discriminate H. sok H. eapply guard_more; [exact G | congruence | reflexivity].
Qed.

Lemma read_char_guard e s t n a c s' t' : sized t -> 0 <= n -> read_char e s t n a = SR c s' t' -> guarded (check_read t n) t c t'.
Proof.
  intros S Hn H. unfold read_char in H. destruct (read_line e t n) as [c1 t1] eqn:R. pose proof (read_line_guard _ _ _ _ _ S Hn R) as G.
  destruct (negb (c1 =? eNOERROR)) eqn:E; [sok H; exact G|]. apply negb_code in E.
  destruct (wrb _ _ _); cbn [sbind] in H; try discriminate H. sok H. eapply guard_more; [exact G | congruence | reflexivity].
Qed.

Lemma read_string_guard e s t n a c s' t' : sized t -> 0 <= n -> read_string e s t n a = SR c s' t' -> guarded (check_read t n) t c t'.
Proof.
  intros S Hn H. unfold read_string in H. cbv zeta in H. destruct (negb (check_read t n =? eNOERROR)) eqn:E; [eapply guard_denied; eauto|].
  apply negb_code in E. right. split; [exact E|]. apply check_read_ok in E. destruct E as (E1 & E2 & E3).
  destruct (hbind _ _) as [[al ad]| |]; cbn [shout] in H; try discriminate H.
  destruct (e_fail e); [sok H; apply shape_refl; auto|].
  destruct (fgets _ _) as [l x]. match type of H with sbind ?o _ = _ => destruct o as [s1|]; [|discriminate H] end. cbn [sbind] in H.
  destruct (cstr _ _ _) as [b|]; [|discriminate H]. cbn [sbind] in H. destruct (check_eoln b) as [b' eo].
  match type of H with sbind ?o _ = _ => destruct o as [s2|]; [|discriminate H] end. cbn [sbind] in H.
  destruct (hput _ _ _ _); cbn [shout] in H; try discriminate H. sok H.
  assert (A : same_shape t (put_stream t n x)) by (apply shape_stream; auto; lia).
  eapply shape_trans; [exact A|]. apply shape_put; try exact (proj1 A); auto; lia.
Qed.

Lemma emit_shape t n l : sized t -> 0 <= n < 8 -> is_open (ent t n) = true -> same_shape t (emit t n l).
Proof. intros. apply shape_stream; auto. Qed.

Lemma write_text_guard e s t n w l c s' t' : sized t -> 0 <= n -> write_text e s t n w l = SR c s' t' -> guarded (check_write t n) t c t'.
Proof.
  intros S Hn H. unfold write_text in H. cbv zeta in H. destruct (negb (check_write t n =? eNOERROR)) eqn:E; [eapply guard_denied; eauto|].
  apply negb_code in E. right. split; [exact E|]. apply check_write_ok in E. destruct E as (E1 & E2 & E3).
  destruct (e_fail e); sok H; [apply shape_refl; auto|]. apply emit_shape; auto; lia.
Qed.

Lemma write_binary_guard e s t n a z c s' t' : sized t -> 0 <= n -> write_binary e s t n a z = SR c s' t' -> guarded (check_write t n) t c t'.
Proof.
  intros S Hn H. unfold write_binary in H. cbv zeta in H. destruct (negb (check_write t n =? eNOERROR)) eqn:E; [eapply guard_denied; eauto|].
  apply negb_code in E. right. split; [exact E|]. apply check_write_ok in E. destruct E as (E1 & E2 & E3).
  destruct (rdbs _ _ _); [|discriminate H]. cbn [sbind] in H. sok H.
  destruct (e_fail e); [apply shape_refl; auto|]. apply emit_shape; auto; lia.
Qed.

Lemma write_string_guard e s t n a z al w c s' t' : sized t -> 0 <= n -> write_string e s t n a z al w = SR c s' t' ->
  guarded (check_write t n) t c t'.
Proof.
  intros S Hn H. unfold write_string in H. cbv zeta in H. destruct (negb (check_write t n =? eNOERROR)) eqn:E; [eapply guard_denied; eauto|].
  apply negb_code in E. right. split; [exact E|]. apply check_write_ok in E. destruct E as (E1 & E2 & E3).
  destruct (rdbs _ _ _); [|discriminate H]. cbn [sbind] in H. destruct (free_tmp _ _ _) as [[s2 z2]| |]; cbn [shout] in H; try discriminate H.
  sok H. destruct (e_fail e); [apply shape_refl; auto|]. apply emit_shape; auto; lia.
Qed.

Lemma flush_guard s t n c s' t' : sized t -> flush s t n = SR c s' t' -> guarded (check_write t n) t c t'.
Proof.
  intros S H. unfold flush in H. sok H. destruct (Z.eq_dec (check_write t' n) eNOERROR) as [E|E]; [right | left; auto].
  split; [exact E | apply shape_refl; auto].
Qed.

Lemma eof_shape e s t n c s' t' : eof e s t n = SR c s' t' -> t' = t.
Proof. unfold eof. match goal with |- (let '(_, _) := ?x in _) = _ -> _ => destruct x as [c1 b] end. destruct (push _ _); [|discriminate]. intros H. sok H. reflexivity. Qed.

Lemma eoln_shape s t n c s' t' : eoln s t n = SR c s' t' -> t' = t.
Proof. unfold eoln. match goal with |- (let '(_, _) := ?x in _) = _ -> _ => destruct x as [c1 b] end. destruct (push _ _); [|discriminate]. intros H. sok H. reflexivity. Qed.

Lemma seek_shape b s t n c s' t' : sized t -> 0 <= n -> seek_op b s t n = SR c s' t' -> same_shape t t'.
Proof.
  intros S Hn H. unfold seek_op in H. destruct (MAX_OPEN_FILES <=? n) eqn:E1.
  { destruct (push _ _); [|discriminate H]. sok H. apply shape_refl; auto. }
  destruct (is_open (ent t n)) eqn:E2; cbn [negb] in H.
  2:{ destruct (push _ _); [|discriminate H]. sok H. apply shape_refl; auto. }
  cbv zeta in H. destruct (seek_white _ _) as [[r b1] a]. destruct (push _ _); [|discriminate H]. sok H.
  apply shape_stream; auto. unfold MAX_OPEN_FILES in E1. lia.
Qed.

Lemma assign_shape s t n text a z c t' : sized t -> 0 <= n -> assign_file s t n text a z = Some (c, t') -> same_shape t t'.
Proof.
  intros S Hn H. unfold assign_file in H. destruct (MAX_OPEN_FILES <=? n) eqn:E1; [injection H as <- <-; apply shape_refl; auto|].
  destruct (FNAME_SIZE <? z); [injection H as <- <-; apply shape_refl; auto|].
  destruct (rdbs _ _ _); [|discriminate H]. cbn [bindO] in H. injection H as <- <-. unfold MAX_OPEN_FILES in E1. apply shape_put; auto; lia.
Qed.

(** ** The ledger *)

Definition mode_access (e : entry) : option access :=
  if is_open e then (if e_mode e =? eOPEN_READ then Some Reading else Some Writing) else None.

Definition good_mode (e : entry) : Prop :=
  is_open e = true -> e_mode e = eOPEN_READ \/ e_mode e = eOPEN_WRITE \/ e_mode e = eOPEN_APPEND.

Definition agrees (t : io) (l : ledger) : Prop :=
  sized t /\ forall n, 0 <= n < 8 -> held l n = e_use (ent t n) /\ opened l n = mode_access (ent t n) /\ good_mode (ent t n).

Lemma agrees_shape t t' l : agrees t l -> same_shape t t' -> agrees t' l.
Proof.
  intros [S A] [S' B]. split; [exact S'|]. intros n Hn. specialize (A n Hn). specialize (B n Hn).
  destruct A as (A1 & A2 & A3), B as (B1 & B2 & B3). unfold mode_access, good_mode in *. rewrite B1, B2, B3. auto.
Qed.

Lemma agrees_put t l n e l' : agrees t l -> 0 <= n < 8 ->
  held l' n = e_use e -> opened l' n = mode_access e -> good_mode e ->
  (forall m, 0 <= m < 8 -> m <> n -> held l' m = held l m /\ opened l' m = opened l m) -> agrees (put t n e) l'.
Proof.
  intros [S A] Hn E1 E2 E3 E4. split; [apply put_sized; exact S|]. intros m Hm. rewrite ent_put by (auto; lia).
  destruct (m =? n) eqn:E; [assert (m = n) by lia; subst m; auto|]. destruct (E4 m Hm ltac:(lia)) as [-> ->]. apply A. exact Hm.
Qed.

Lemma set_same {A} (f : Z -> A) n v : set f n v n = v.
Proof. unfold set. rewrite Z.eqb_refl. reflexivity. Qed.

Lemma set_other {A} (f : Z -> A) n v m : m <> n -> set f n v m = f m.
Proof. intros H. unfold set. replace (m =? n) with false by lia. reflexivity. Qed.

Ltac others := intros; cbn [held opened]; rewrite ?set_other by assumption; auto.

(** Allocation *)
Lemma first_free_spec l : forall k, 0 <= k ->
  k <= first_free l k <= k + Z.of_nat (length l) /\
  (first_free l k < k + Z.of_nat (length l) -> e_use (nth (Z.to_nat (first_free l k - k)) l no_entry) = false) /\
  (forall j, 0 <= j < first_free l k - k -> e_use (nth (Z.to_nat j) l no_entry) = true).
Proof.
  induction l as [|x l IH]; intros k Hk; cbn [first_free length nth].
  - repeat split; try lia.
  - destruct (e_use x) eqn:E.
    + destruct (IH (k + 1) ltac:(lia)) as (A & B & C). split; [lia|]. split.
      * intros H. replace (Z.to_nat (first_free l (k + 1) - k)) with (S (Z.to_nat (first_free l (k + 1) - (k + 1)))) by lia.
        cbn [nth]. apply B. lia.
      * intros j Hj. destruct (Z.to_nat j) as [|j'] eqn:J; cbn [nth]; [exact E|].
        replace j' with (Z.to_nat (j - 1)) by lia. apply C. lia.
    + rewrite Z.sub_diag. cbn [nth Z.to_nat]. repeat split; try lia. intros _. exact E.
Qed.

Lemma allocate_spec t l n t' : agrees t l -> allocate_file t = (n, t') ->
  (0 <= n < 8 /\ held l n = false /\ agrees t' (mkLedger (set (held l) n true) (opened l))) \/
  (n = 8 /\ t' = t /\ forall m, 0 <= m < 8 -> held l m = true).
Proof.
  intros G H. unfold allocate_file in H. cbv zeta in H.
  assert (S : length (ftab t) = 8%nat) by exact (proj1 G).
  destruct (first_free_spec (ftab t) 0 ltac:(lia)) as (A & B & C). rewrite S in A, B. cbn in A, B.
  rewrite Z.sub_0_r in B. destruct (first_free (ftab t) 0 <? MAX_OPEN_FILES) eqn:E; injection H as <- <-;
  unfold MAX_OPEN_FILES in E.
  - left. assert (Hn : 0 <= first_free (ftab t) 0 < 8) by lia. split; [exact Hn|].
    destruct (proj2 G _ Hn) as (G1 & G2 & G3). split; [rewrite G1; apply B; lia|].
    apply agrees_put with (l := l); auto.
    + cbn. apply set_same.
    + others.
  - right. split; [lia|]. split; [reflexivity|]. intros m Hm. destruct (proj2 G _ Hm) as (G1 & _). rewrite G1.
    apply C. lia.
Qed.

Lemma push_top s v s' : 0 <= v < 65536 -> push s v = Some s' -> tos s' 0 = Some v.
Proof.
  unfold push, wr, tos, rd. cbn [sp with_sp]. intros Hv. destruct (in_word _ _) eqn:E; [|discriminate]. intros H. injection H as <-.
  cbn [sp with_sp with_mem mem cf] in *. rewrite Z.sub_0_r. unfold in_word in *. cbn [cf with_sp with_mem] in *. rewrite E.
  unfold upd. rewrite Z.eqb_refl. rewrite !u16_small; [reflexivity | lia | rewrite u16_small; lia].
Qed.

Lemma alloc_step e s t l c s' t' n : agrees t l -> sysio e s t xALLOCFILE = SR c s' t' -> tos s' 0 = Some n ->
  ((c = eNOERROR /\ 0 <= n < 8 /\ held l n = false) \/ (c = eTOOMANYFILES /\ n = 8 /\ t' = t /\ forall m, 0 <= m < 8 -> held l m = true)) /\
  agrees t' (effect xALLOCFILE n false l).
Proof.
  intros G H T. unfold sysio in H. cbn [Z.eqb xALLOCFILE Pos.eqb] in H. destruct (allocate_file t) as [k t1] eqn:A.
  destruct (push s k) as [s1|] eqn:P; [|discriminate H]. cbn [sbind] in H. sok H.
  destruct (allocate_spec _ _ _ _ G A) as [(A1 & A2 & A3)|(A1 & A2 & A3)].
  - assert (Hk : 0 <= k < 65536) by lia. rewrite (push_top _ _ _ Hk P) in T. injection T as ->. unfold effect. cbn [Z.eqb xALLOCFILE Pos.eqb].
    replace (n <? 8) with true by lia. split; [|exact A3]. left. unfold MAX_OPEN_FILES. replace (8 <=? n) with false by lia. auto.
  - assert (Hk : 0 <= k < 65536) by lia. rewrite (push_top _ _ _ Hk P) in T. injection T as <-. subst k t'. unfold effect. cbn [Z.eqb xALLOCFILE Pos.eqb].
    split; [right; auto | exact G].
Qed.

(** Release, opening, closing *)
Lemma close_agrees t l n c t' : agrees t l -> 0 <= n -> close_file t n = (c, t') ->
  agrees t' (if n <? 8 then mkLedger (held l) (set (opened l) n None) else l).
Proof.
  intros G Hn H. unfold close_file in H. unfold MAX_OPEN_FILES in H. destruct (8 <=? n) eqn:E.
  - injection H as <- <-. replace (n <? 8) with false by lia. exact G.
  - replace (n <? 8) with true by lia. assert (Hn' : 0 <= n < 8) by lia. destruct (proj2 G _ Hn') as (G1 & G2 & G3).
    destruct (is_open (ent t n)) eqn:O; cbn [negb] in H; injection H as <- <-.
    + apply agrees_put with (l := l); auto.
      * cbn. apply set_same.
      * intros X. discriminate X.
      * others.
    + split; [exact (proj1 G)|]. intros m Hm. cbn [held opened]. destruct (Z.eq_dec m n) as [->|Q].
      * rewrite set_same. repeat split; auto. unfold mode_access. rewrite O. reflexivity.
      * rewrite set_other by auto. apply (proj2 G). exact Hm.
Qed.

Lemma free_agrees t l n c t' : agrees t l -> 0 <= n -> free_file t n = (c, t') ->
  (c = eNOERROR <-> n < 8 /\ held l n = true) /\ (c <> eNOERROR -> t' = t) /\
  agrees t' (if (n <? 8) && held l n then mkLedger (set (held l) n false) (set (opened l) n None) else l).
Proof.
  intros G Hn H. unfold free_file in H. unfold MAX_OPEN_FILES in H. unfold eBADFILE, eFILENOTINUSE, eNOERROR in *. destruct (8 <=? n) eqn:E.
  - injection H as <- <-. replace (n <? 8) with false by lia. cbn [andb]. repeat split; auto; try lia; exact (proj1 G) || apply (proj2 G); auto.
  - replace (n <? 8) with true by lia. cbn [andb]. assert (Hn' : 0 <= n < 8) by lia. destruct (proj2 G _ Hn') as (G1 & G2 & G3).
    rewrite G1. destruct (e_use (ent t n)) eqn:U; cbn [negb] in H.
    + injection H as <- <-. split; [split; auto; lia|]. split; [congruence|].
      assert (G' : exists l', agrees (if is_open (ent t n) then snd (close_file t n) else t) l' /\ held l' = held l /\
                    forall m, m <> n -> opened l' m = opened l m).
      { destruct (is_open (ent t n)); [|exists l; auto]. destruct (close_file t n) as [c1 t1] eqn:C. cbn [snd].
        exists (if n <? 8 then mkLedger (held l) (set (opened l) n None) else l). split; [exact (close_agrees _ _ _ _ _ G Hn C)|].
        replace (n <? 8) with true by lia. cbn [held opened]. split; [reflexivity|]. intros. apply set_other. auto. }
      destruct G' as (l' & G' & L1 & L2). apply agrees_put with (l := l'); auto.
      * cbn. apply set_same.
      * cbn. apply set_same.
      * intros X. discriminate X.
      * intros m Hm Q. cbn [held opened]. rewrite !set_other by auto. rewrite L1, L2 by auto. auto.
    + injection H as <- <-. split; [split; intros; lia|]. split; [auto | exact G].
Qed.

Lemma open_agrees e t l n mode a c t' : agrees t l -> 0 <= n -> open_file e t n mode = (c, t') ->
  (mode = eOPEN_READ /\ a = Reading \/ (mode = eOPEN_WRITE \/ mode = eOPEN_APPEND) /\ a = Writing) ->
  let ok := match e_open e with Some _ => true | None => false end in
  let l' := if (n <? 8) && ok && match opened l n with None => true | _ => false end
            then mkLedger (held l) (set (opened l) n (Some a)) else l in
  (c = eNOERROR <-> n < 8 /\ ok = true /\ opened l n = None) /\ (c <> eNOERROR -> t' = t) /\ agrees t' l'.
Proof.
  intros G Hn H M. cbv zeta. unfold open_file in H. unfold MAX_OPEN_FILES in H.
  unfold eBADFILE, eFILEALREADYOPEN, eOPENFAILED, eNOERROR in *. destruct (8 <=? n) eqn:E.
  - injection H as <- <-. replace (n <? 8) with false by lia. cbn [andb]. split; [split; intros; lia|]. auto.
  - replace (n <? 8) with true by lia. cbn [andb]. assert (Hn' : 0 <= n < 8) by lia. destruct (proj2 G _ Hn') as (G1 & G2 & G3).
    rewrite G2. unfold mode_access at 1 2. destruct (is_open (ent t n)) eqn:O.
    + injection H as <- <-. split.
      * split; [intros; lia|]. intros (_ & _ & X). destruct (e_mode _ =? _); discriminate X.
      * split; [auto|]. destruct (e_mode (ent t n) =? eOPEN_READ); rewrite andb_false_r; exact G.
    + destruct (e_open e) as [f|]; cbn [andb] in *.
      * injection H as <- <-. split; [split; intros; [split; [lia | auto] | reflexivity]|]. split; [congruence|].
        apply agrees_put with (l := l); auto.
        -- cbn [opened]. rewrite set_same. unfold mode_access. cbn. destruct M as [[-> ->]|[[->| ->] ->]]; reflexivity.
        -- intros _. cbn. tauto.
        -- others.
      * injection H as <- <-. split; [split; intros; [lia | intuition discriminate]|]. auto.
Qed.
