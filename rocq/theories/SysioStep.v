(** System I/O: the operations and the ledger of a program. *)

From Coq Require Import ZArith Bool List Lia ZifyBool.
From Verif Require Import Words State WordLemmas StateLemmas HeapModel StringModel StringSpec StringProofs SysioModel SysioSpec
  SysioProofs.
Import ListNotations.
Open Scope Z_scope.
Local Ltac Zify.zify_post_hook ::= Z.div_mod_to_equations.

Definition opened_ok (e : env) : bool := match e_open e with Some _ => true | None => false end.

(** The result of an operation, by its kind *)
Inductive kind (e : env) (t : io) (f n c : Z) (t' : io) : Prop :=
| k_free : f = xFREEFILE -> free_file t n = (c, t') -> kind e t f n c t'
| k_close : f = xCLOSEFILE -> close_file t n = (c, t') -> kind e t f n c t'
| k_open mode : (f = xRESET /\ mode = eOPEN_READ \/ f = xREWRITE /\ mode = eOPEN_WRITE \/ f = xAPPEND /\ mode = eOPEN_APPEND) ->
    open_file e t n mode = (c, t') -> kind e t f n c t'
| k_openr mode c1 t1 z : (f = xRESETR /\ mode = eOPEN_READ \/ f = xREWRITER /\ mode = eOPEN_WRITE) ->
    open_file e t n mode = (c1, t1) -> record_size t1 n z = (c, t') -> kind e t f n c t'
| k_read : is_read f -> guarded (check_read t n) t c t' -> kind e t f n c t'
| k_write : is_write f -> guarded (check_write t n) t c t' -> kind e t f n c t'
| k_other : (forall l ok, effect f n ok l = l) -> ~ is_read f -> ~ is_write f -> opens f = None -> same_shape t t' -> kind e t f n c t'.

Ltac is_f E := apply Z.eqb_eq in E; subst.
Ltac number_of Hn :=
  match type of Hn with tos _ (Z.of_nat (number_operand ?F)) = _ =>
    let k := eval vm_compute in (Z.of_nat (number_operand F)) in change (Z.of_nat (number_operand F)) with k in Hn end.
Ltac split_done H :=
  match type of H with done _ ?r = _ =>
    let c := fresh "c1" in let t := fresh "t1" in let R := fresh "R" in
    destruct r as [c t] eqn:R; unfold done in H; cbn [fst snd] in H; sok H end.

Lemma not_read (f : Z) : existsb (Z.eqb f) [xREADLN; xREAD_BINARY; xREAD_INT; xREAD_CHAR; xREAD_STRING] = false -> ~ is_read f.
Proof. unfold is_read. cbn [existsb]. intros H X. lia. Qed.

Lemma not_write (f : Z) : negb (((xWRITELN <=? f) && (f <=? xWRITE_STRING)) || (f =? xFLUSH)) = true -> ~ is_write f.
Proof. unfold is_write. intros H X. lia. Qed.

Lemma a_write (f : Z) : (xWRITELN <=? f) && (f <=? xWRITE_STRING) || (f =? xFLUSH) = true -> is_write f.
Proof. unfold is_write. intros H. lia. Qed.

Ltac other := apply k_other; [reflexivity | apply not_read; reflexivity | apply not_write; reflexivity | reflexivity |].

Lemma sysio_kind e s t f n c s' t' : sized t -> f <> xALLOCFILE -> number s f n -> sysio e s t f = SR c s' t' ->
  kind e t f n c t'.
Proof.
  intros S Hf [Hs Hn] H. assert (N := proj1 (tos_bound _ _ _ Hn)). unfold sysio in H.
  destruct (f =? xALLOCFILE) eqn:E0; [lia|].
  destruct (f =? xFREEFILE) eqn:E1; [is_f E1; number_of Hn; pops H Hs Hn; split_done H; apply k_free; auto|].
  destruct (f =? xEOF) eqn:E; [is_f E; number_of Hn; pops H Hs Hn; apply eof_shape in H; subst; other; apply shape_refl; auto|]. 
  destruct (f =? xEOLN) eqn:E'; [is_f E'; number_of Hn; pops H Hs Hn; apply eoln_shape in H; subst; other; apply shape_refl; auto|].
  destruct (f =? xSEEKEOF) eqn:E2; [is_f E2; number_of Hn; pops H Hs Hn; apply seek_shape in H; auto; other; auto|].
  destruct (f =? xSEEKEOLN) eqn:E3; [is_f E3; number_of Hn; pops H Hs Hn; apply seek_shape in H; auto; other; auto|].
  destruct (f =? xASSIGNFILE) eqn:E4.
  { is_f E4. number_of Hn. change 4 with (3 + 1) in Hn. apply tos_discard in Hn; [|exact Hs | lia]. destruct Hn as [Hs' Hn].
    pops H Hs' Hn. destruct (assign_file _ _ _ _ _ _) as [[c1 t1]|] eqn:A; [|discriminate H]. cbn [sbind] in H.
    unfold done in H. cbn [fst snd] in H. sok H. apply assign_shape in A; auto. other. auto. }
  destruct (f =? xRESET) eqn:E5; [is_f E5; number_of Hn; pops H Hs Hn; split_done H; eapply k_open; eauto|].
  destruct (f =? xRESETR) eqn:E6.
  { is_f E6. number_of Hn. pops H Hs Hn. destruct (open_file e t n eOPEN_READ) as [c0 t0] eqn:O. cbn [snd] in H. split_done H.
    eapply k_openr; eauto. }
  destruct (f =? xREWRITE) eqn:E7; [is_f E7; number_of Hn; pops H Hs Hn; split_done H; eapply k_open; eauto|].
  destruct (f =? xREWRITER) eqn:E8.
  { is_f E8. number_of Hn. pops H Hs Hn. destruct (open_file e t n eOPEN_WRITE) as [c0 t0] eqn:O. cbn [snd] in H. split_done H.
    eapply k_openr; eauto. }
  destruct (f =? xAPPEND) eqn:E9; [is_f E9; number_of Hn; pops H Hs Hn; split_done H; eapply k_open; eauto 6|].
  destruct (f =? xCLOSEFILE) eqn:E10; [is_f E10; number_of Hn; pops H Hs Hn; split_done H; apply k_close; auto|].
  destruct (f =? xREADLN) eqn:E11; [is_f E11; number_of Hn; pops H Hs Hn; apply read_ln_guard in H; auto; apply k_read; [unfold is_read; tauto | auto]|].
  destruct (f =? xREAD_BINARY) eqn:E12; [is_f E12; number_of Hn; pops H Hs Hn; apply read_binary_guard in H; auto; apply k_read; [unfold is_read; tauto | auto]|].
  destruct (f =? xREAD_INT) eqn:E13; [is_f E13; number_of Hn; pops H Hs Hn; apply read_integer_guard in H; auto; apply k_read; [unfold is_read; tauto | auto]|].
  destruct (f =? xREAD_CHAR) eqn:E14; [is_f E14; number_of Hn; pops H Hs Hn; apply read_char_guard in H; auto; apply k_read; [unfold is_read; tauto | auto]|].
  destruct (f =? xREAD_STRING) eqn:E15; [is_f E15; number_of Hn; pops H Hs Hn; apply read_string_guard in H; auto; apply k_read; [unfold is_read; tauto | auto]|].
  destruct (f =? xWRITELN) eqn:E16; [is_f E16; number_of Hn; pops H Hs Hn; apply write_text_guard in H; auto; apply k_write; [apply a_write; reflexivity | auto]|].
  destruct (f =? xWRITE_PAGE) eqn:E17; [is_f E17; number_of Hn; pops H Hs Hn; apply write_text_guard in H; auto; apply k_write; [apply a_write; reflexivity | auto]|].
  destruct (f =? xWRITE_BINARY) eqn:E18; [is_f E18; number_of Hn; pops H Hs Hn; apply write_binary_guard in H; auto; apply k_write; [apply a_write; reflexivity | auto]|].
  destruct (f =? xWRITE_INT) eqn:E19; [is_f E19; number_of Hn; pops H Hs Hn; apply write_text_guard in H; auto; apply k_write; [apply a_write; reflexivity | auto]|].
  destruct (f =? xWRITE_WORD) eqn:E20; [is_f E20; number_of Hn; pops H Hs Hn; apply write_text_guard in H; auto; apply k_write; [apply a_write; reflexivity | auto]|].
  destruct (f =? xWRITE_LONGINT) eqn:E21; [is_f E21; number_of Hn; pops H Hs Hn; apply write_text_guard in H; auto; apply k_write; [apply a_write; reflexivity | auto]|].
  destruct (f =? xWRITE_LONGWORD) eqn:E22; [is_f E22; number_of Hn; pops H Hs Hn; apply write_text_guard in H; auto; apply k_write; [apply a_write; reflexivity | auto]|].
  destruct (f =? xWRITE_CHAR) eqn:E23; [is_f E23; number_of Hn; pops H Hs Hn; apply write_text_guard in H; auto; apply k_write; [apply a_write; reflexivity | auto]|].
  destruct (f =? xWRITE_STRING) eqn:E24; [is_f E24; number_of Hn; pops H Hs Hn; apply write_string_guard in H; auto; apply k_write; [apply a_write; reflexivity | auto]|].
  destruct (f =? xFLUSH) eqn:E25; [is_f E25; number_of Hn; pops H Hs Hn; apply flush_guard in H; auto; apply k_write; [apply a_write; reflexivity | auto]|].
  match type of H with (if ?b then _ else _) = _ => destruct b eqn:E26; [discriminate H|] end. sok H.
  apply k_other.
  - intros l ok. unfold effect, opens. rewrite E1, E5, E6, E7, E8, E9, E10, E0. reflexivity.
  - unfold is_read. clear - E11 E12 E13 E14 E15. lia.
  - unfold is_write. clear - E16 E17 E18 E19 E20 E21 E22 E23 E24 E25 E26. clear E26; unfold xWRITELN, xWRITE_PAGE, xWRITE_BINARY, xWRITE_INT, xWRITE_WORD, xWRITE_LONGINT, xWRITE_LONGWORD, xWRITE_CHAR, xWRITE_STRING, xFLUSH in *. lia.
  - unfold opens. rewrite E5, E6, E7, E8, E9. reflexivity.
  - apply shape_refl. exact S.
Qed.

Lemma op_step e s t l f n c s' t' : agrees t l -> f <> xALLOCFILE -> number s f n -> sysio e s t f = SR c s' t' ->
  agrees t' (effect f n (opened_ok e) l).
Proof.
  intros G Hf N H. assert (Hn : 0 <= n) by exact (proj1 (tos_bound _ _ _ (proj2 N))).
  destruct (sysio_kind _ _ _ _ _ _ _ _ (proj1 G) Hf N H) as [-> K| -> K|mode M K|mode c1 t1 z M K R|M K|M K|M _ _ _ K].
  - exact (proj2 (proj2 (free_agrees _ _ _ _ _ G Hn K))).
  - exact (close_agrees _ _ _ _ _ G Hn K).
  - assert (exists a, opens f = Some a /\ (mode = eOPEN_READ /\ a = Reading \/ (mode = eOPEN_WRITE \/ mode = eOPEN_APPEND) /\ a = Writing))
      as (a & A1 & A2) by (destruct M as [[-> ->]|[[-> ->]|[-> ->]]]; eexists; (split; [reflexivity | tauto])).
    replace (effect f n (opened_ok e) l) with
      (if (n <? 8) && opened_ok e && match opened l n with None => true | _ => false end
       then mkLedger (held l) (set (opened l) n (Some a)) else l).
    + exact (proj2 (proj2 (open_agrees _ _ _ _ _ _ _ _ G Hn K A2))).
    + unfold effect. rewrite A1. destruct M as [[-> ->]|[[-> ->]|[-> ->]]]; reflexivity.
  - assert (exists a, opens f = Some a /\ (mode = eOPEN_READ /\ a = Reading \/ (mode = eOPEN_WRITE \/ mode = eOPEN_APPEND) /\ a = Writing))
      as (a & A1 & A2) by (destruct M as [[-> ->]|[-> ->]]; eexists; (split; [reflexivity | tauto])).
    replace (effect f n (opened_ok e) l) with
      (if (n <? 8) && opened_ok e && match opened l n with None => true | _ => false end
       then mkLedger (held l) (set (opened l) n (Some a)) else l).
    + assert (G1 := proj2 (proj2 (open_agrees _ _ _ _ _ _ _ _ G Hn K A2))). cbv zeta in G1. eapply agrees_shape; [exact G1|].
      unfold record_size in R. destruct (MAX_OPEN_FILES <=? n) eqn:Q; injection R as <- <-; [apply shape_refl; exact (proj1 G1)|].
      unfold MAX_OPEN_FILES in Q. apply shape_put; auto; [exact (proj1 G1) | lia].
    + unfold effect. rewrite A1. destruct M as [[-> ->]|[-> ->]]; reflexivity.
  - replace (effect f n (opened_ok e) l) with l by (destruct M as [->|[->|[->|[->| ->]]]]; reflexivity).
    destruct K as [(_ & _ & ->)|[_ K]]; [exact G | eapply agrees_shape; eauto].
  - replace (effect f n (opened_ok e) l) with l.
    + destruct K as [(_ & _ & ->)|[_ K]]; [exact G | eapply agrees_shape; eauto].
    + assert (F : forallb (fun x => negb (f =? x)) [xALLOCFILE; xFREEFILE; xCLOSEFILE; xRESET; xRESETR; xREWRITE; xREWRITER; xAPPEND] = true).
      { clear - M. unfold is_write, xWRITELN, xWRITE_STRING, xFLUSH, xALLOCFILE, xFREEFILE, xCLOSEFILE, xRESET, xRESETR, xREWRITE, xREWRITER, xAPPEND in *.
        cbn [forallb]. lia. }
      cbn [forallb] in F. unfold effect, opens.
      repeat (apply andb_prop in F; let A := fresh in destruct F as [A F]; apply negb_true_iff in A; rewrite ?A; clear A). reflexivity.
  - rewrite M. eapply agrees_shape; eauto.
Qed.

Lemma start_agrees inp b : agrees (initialize_file inp b) at_start.
Proof.
  split; [reflexivity|]. intros n Hn.
  assert (n = 0 \/ n = 1 \/ n = 2 \/ n = 3 \/ n = 4 \/ n = 5 \/ n = 6 \/ n = 7) as X by lia.
  unfold good_mode. destruct X as [->|[->|[->|[->|[->|[->|[->| ->]]]]]]]; cbn; unfold eOPEN_READ, eOPEN_WRITE; repeat split; auto; discriminate.
Qed.

Lemma fhist_agrees inp b t l : fhist inp b t l -> agrees t l.
Proof.
  induction 1 as [|t l e s n c s' t' _ IH H T|t l e s f n c s' t' _ IH Hf N H].
  - apply start_agrees.
  - exact (proj2 (alloc_step _ _ _ _ _ _ _ _ IH H T)).
  - exact (op_step _ _ _ _ _ _ _ _ _ IH Hf N H).
Qed.

(** ** C52 *)

Lemma alloc_exclusive inp b t l e s c s' t' n : fhist inp b t l ->
  sysio e s t xALLOCFILE = SR c s' t' -> tos s' 0 = Some n ->
  (c = eNOERROR /\ 0 <= n < 8 /\ held l n = false) \/
  (c = eTOOMANYFILES /\ t' = t /\ forall m, 0 <= m < 8 -> held l m = true).
Proof.
  intros F H T. destruct (alloc_step _ _ _ _ _ _ _ _ (fhist_agrees _ _ _ _ F) H T) as [[A|A] _]; [auto|]. right. tauto.
Qed.

Lemma free_reported inp b t l e s c s' t' n : fhist inp b t l -> number s xFREEFILE n ->
  sysio e s t xFREEFILE = SR c s' t' ->
  (c = eNOERROR <-> n < 8 /\ held l n = true) /\ (c <> eNOERROR -> t' = t).
Proof.
  intros F N H. assert (G := fhist_agrees _ _ _ _ F). assert (Hn : 0 <= n) by exact (proj1 (tos_bound _ _ _ (proj2 N))).
  unfold number in N. change (Z.of_nat (number_operand xFREEFILE)) with 0 in N. destruct N as [Hs Hn0].
  unfold sysio in H. change (xFREEFILE =? xALLOCFILE) with false in H. cbv iota in H. rewrite Z.eqb_refl in H.
  pops H Hs Hn0. split_done H. destruct (free_agrees _ _ _ _ _ G Hn R) as (A & B & _). auto.
Qed.

(** ** C53 *)

Lemma mode_reading e : good_mode e -> (mode_access e = Some Reading <-> is_open e = true /\ e_mode e = eOPEN_READ).
Proof.
  unfold mode_access, good_mode. intros _. destruct (is_open e); [|split; [discriminate | intros [A _]; discriminate A]].
  destruct (e_mode e =? eOPEN_READ) eqn:E; split; try discriminate; intros; try lia; auto; intuition lia.
Qed.

Lemma mode_writing e : good_mode e ->
  (mode_access e = Some Writing <-> is_open e = true /\ (e_mode e = eOPEN_WRITE \/ e_mode e = eOPEN_APPEND)).
Proof.
  unfold mode_access, good_mode. intros G. destruct (is_open e); [|split; [discriminate | intros [A _]; discriminate A]].
  specialize (G eq_refl). unfold eOPEN_READ, eOPEN_WRITE, eOPEN_APPEND in *.
  destruct (e_mode e =? 1) eqn:E; split; try discriminate; intros; try lia; auto.
Qed.

Lemma read_needs inp b t l e s f n c s' t' : fhist inp b t l -> is_read f -> number s f n -> sysio e s t f = SR c s' t' ->
  (c = eNOERROR -> n < 8 /\ opened l n = Some Reading) /\
  (~ (n < 8 /\ opened l n = Some Reading) -> t' = t).
Proof.
  intros F Rd N H. assert (G := fhist_agrees _ _ _ _ F). assert (Hn : 0 <= n) by exact (proj1 (tos_bound _ _ _ (proj2 N))).
  assert (K : guarded (check_read t n) t c t').
  { destruct N as [Hs Hn']. destruct Rd as [->|[->|[->|[->| ->]]]]; number_of Hn';
    match type of H with sysio _ _ _ ?F = _ => let d := eval cbv in F in unfold sysio in H; change F with d in H end;
    cbn [Z.eqb Pos.eqb xALLOCFILE xFREEFILE xEOF xEOLN xSEEKEOF xSEEKEOLN xASSIGNFILE xRESET xRESETR xREWRITE xREWRITER xAPPEND
         xCLOSEFILE xREADLN xREAD_BINARY xREAD_INT xREAD_CHAR xREAD_STRING] in H; pops H Hs Hn'.
    - eapply read_ln_guard; eauto; exact (proj1 G).
    - eapply read_binary_guard; eauto; exact (proj1 G).
    - eapply read_integer_guard; eauto; exact (proj1 G).
    - eapply read_char_guard; eauto; exact (proj1 G).
    - eapply read_string_guard; eauto; exact (proj1 G). }
  assert (Q : check_read t n = eNOERROR <-> n < 8 /\ opened l n = Some Reading).
  { rewrite check_read_ok. split; intros [A B]; (split; [exact A|]); destruct (proj2 G n ltac:(lia)) as (_ & G2 & G3);
    rewrite G2 in *; apply mode_reading; auto. }
  rewrite <- Q. destruct K as [(A & B & C)|[A B]]; [split; [congruence | auto] | split; [auto | intros X; elim (X A)]].
Qed.

Lemma write_needs inp b t l e s f n c s' t' : fhist inp b t l -> is_write f -> number s f n -> sysio e s t f = SR c s' t' ->
  (c = eNOERROR -> n < 8 /\ opened l n = Some Writing) /\
  (~ (n < 8 /\ opened l n = Some Writing) -> t' = t).
Proof.
  intros F Wr N H. assert (G := fhist_agrees _ _ _ _ F). assert (Hn : 0 <= n) by exact (proj1 (tos_bound _ _ _ (proj2 N))).
  assert (Ha : f <> xALLOCFILE) by (clear - Wr; unfold is_write, xWRITELN, xWRITE_STRING, xFLUSH, xALLOCFILE in *; lia).
  assert (K : guarded (check_write t n) t c t').
  { destruct (sysio_kind _ _ _ _ _ _ _ _ (proj1 G) Ha N H) as [M K|M K|mode M K|mode c1 t1 z M K R|M K|M K|M _ X _ K].
    all: try contradiction. all: clear - Wr M K; try exact K.
    all: try (unfold is_read, is_write, xWRITELN, xWRITE_STRING, xFLUSH, xFREEFILE, xCLOSEFILE, xRESET, xRESETR, xREWRITE, xREWRITER, xAPPEND,
                xREADLN, xREAD_BINARY, xREAD_INT, xREAD_CHAR, xREAD_STRING in *; lia). }
  assert (Q : check_write t n = eNOERROR <-> n < 8 /\ opened l n = Some Writing).
  { rewrite check_write_ok. split; intros [A B]; (split; [exact A|]); destruct (proj2 G n ltac:(lia)) as (_ & G2 & G3);
    rewrite G2 in *; apply mode_writing; auto. }
  rewrite <- Q. destruct K as [(A & B & C)|[A B]]; [split; [congruence | auto] | split; [auto | intros X; elim (X A)]].
Qed.

Lemma open_reported inp b t l e s f n c s' t' : fhist inp b t l -> f = xRESET \/ f = xREWRITE \/ f = xAPPEND -> number s f n ->
  sysio e s t f = SR c s' t' ->
  (c = eNOERROR <-> n < 8 /\ e_open e <> None /\ opened l n = None) /\ (c <> eNOERROR -> t' = t).
Proof.
  intros F Op N H. assert (G := fhist_agrees _ _ _ _ F). assert (Hn : 0 <= n) by exact (proj1 (tos_bound _ _ _ (proj2 N))).
  assert (exists mode a, (mode = eOPEN_READ /\ a = Reading \/ (mode = eOPEN_WRITE \/ mode = eOPEN_APPEND) /\ a = Writing) /\
            open_file e t n mode = (c, t')) as (mode & a & A & K).
  { destruct N as [Hs Hn']. destruct Op as [->|[->| ->]]; number_of Hn';
    match type of H with sysio _ _ _ ?F = _ => let d := eval cbv in F in unfold sysio in H; change F with d in H end;
    cbn [Z.eqb Pos.eqb xALLOCFILE xFREEFILE xEOF xEOLN xSEEKEOF xSEEKEOLN xASSIGNFILE xRESET xRESETR xREWRITE xREWRITER xAPPEND] in H;
    pops H Hs Hn'; split_done H; eexists; eexists; (split; [|eassumption]); tauto. }
  destruct (open_agrees _ _ _ _ _ _ _ _ G Hn K A) as (B & C & _). split; [|exact C]. rewrite B.
  destruct (e_open e); split; intros (X & Y & Z0); repeat split; auto; congruence.
Qed.
