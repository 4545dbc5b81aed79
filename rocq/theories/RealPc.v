(** Instructions that are neither jumps nor calls do not depend on the program counter. *)

From Coq Require Import ZArith Bool List Lia ZifyBool.
From Verif Require Import Words State Opcodes SetModel LongModel Machine.
Import ListNotations.
Open Scope Z_scope.

Definition at_pc (p : Z) (o : outcome) : outcome :=
  match o with Ok s => Ok (with_pc s p) | Err e s => Err e (with_pc s p) | r => r end.
Definition opc (p : Z) (o : option st) : option st := match o with Some s => Some (with_pc s p) | None => None end.
Definition opc2 {A} (p : Z) (o : option (A * st)) : option (A * st) := match o with Some (v, s) => Some (v, with_pc s p) | None => None end.

Lemma pc_rd s p i : rd (with_pc s p) i = rd s i. Proof. reflexivity. Qed.
Lemma pc_rdb s p i : rdb (with_pc s p) i = rdb s i. Proof. reflexivity. Qed.
Lemma pc_tos s p i : tos (with_pc s p) i = tos s i. Proof. reflexivity. Qed.
Lemma pc_getstack s p i : getstack (with_pc s p) i = getstack s i. Proof. reflexivity. Qed.
Lemma pc_wr s p i v : wr (with_pc s p) i v = opc p (wr s i v).
Proof. unfold wr. change (in_word (with_pc s p) i) with (in_word s i). destruct (in_word s i); reflexivity. Qed.
Lemma pc_wrb s p i v : wrb (with_pc s p) i v = opc p (wrb s i v).
Proof. unfold wrb. change (in_byte (with_pc s p) i) with (in_byte s i). destruct (in_byte s i); reflexivity. Qed.
Lemma pc_with_sp s p v : with_sp (with_pc s p) v = with_pc (with_sp s v) p. Proof. reflexivity. Qed.
Lemma pc_discard s p n : discard (with_pc s p) n = with_pc (discard s n) p. Proof. reflexivity. Qed.
Lemma pc_putstack s p v a : putstack (with_pc s p) v a = opc p (putstack s v a). Proof. apply pc_wr. Qed.
Lemma pc_puttos s p o v : puttos (with_pc s p) o v = opc p (puttos s o v). Proof. apply pc_wr. Qed.
Lemma pc_pop s p : pop (with_pc s p) = opc2 p (pop s).
Proof. unfold pop. cbn [sp with_pc]. rewrite pc_rd. destruct (rd s (sp s / 2)); reflexivity. Qed.
Lemma pc_push s p v : push (with_pc s p) v = opc p (push s v).
Proof. unfold push. rewrite pc_with_sp. cbn [sp with_pc]. apply pc_wr. Qed.
Lemma pc_follow n : forall s p b, follow_links (with_pc s p) n b = follow_links s n b.
Proof. induction n as [|n IH]; intros; [reflexivity|]. cbn [follow_links]. rewrite pc_rd. destruct (rd s (b / 2)); cbn [bindO]; auto. Qed.
Lemma pc_base s p l o : get_base (with_pc s p) l o = get_base s l o.
Proof. unfold get_base. rewrite pc_follow. reflexivity. Qed.
Lemma pc_load n : forall s p z a, load_loop n (with_pc s p) z a = opc p (load_loop n s z a).
Proof.
  induction n as [|n IH]; intros; [reflexivity|]. cbn [load_loop]. rewrite pc_getstack, pc_rdb.
  destruct (2 <=? z); [destruct (getstack s a) as [v|]|destruct (rdb s a) as [v|]]; cbn [bindO]; try reflexivity; rewrite pc_push;
    destruct (push s v); cbn [bindO opc]; auto.
Qed.
Lemma pc_load_multi s p z a : load_multi (with_pc s p) z a = opc p (load_multi s z a).
Proof. apply pc_load. Qed.
Lemma pc_store n : forall s p z a k, store_loop n (with_pc s p) z a k = opc p (store_loop n s z a k).
Proof.
  induction n as [|n IH]; intros; [reflexivity|]. cbn [store_loop]. rewrite pc_tos. destruct (tos s k) as [v|]; cbn [bindO]; [|reflexivity].
  rewrite pc_putstack, pc_wrb. destruct (2 <=? z); [destruct (putstack s v a)|destruct (wrb s a v)]; cbn [bindO opc]; auto.
Qed.
Lemma pc_store_multi s p z a k : store_multi (with_pc s p) z a k = opc p (store_multi s z a k).
Proof. apply pc_store. Qed.

Lemma bindo_opc p o (k1 k2 : st -> outcome) : (forall s, k1 (with_pc s p) = at_pc p (k2 s)) -> bindo (opc p o) k1 = at_pc p (bindo o k2).
Proof. intros H. destruct o; cbn; auto. Qed.
Lemma bindo_opc2 {A} p o (k1 k2 : A * st -> outcome) : (forall v s, k1 (v, with_pc s p) = at_pc p (k2 (v, s))) -> bindo (opc2 p o) k1 = at_pc p (bindo o k2).
Proof. intros H. destruct o as [[v s]|]; cbn; auto. Qed.
Lemma bindo_val {A} p (o : option A) (k1 k2 : A -> outcome) : (forall v, k1 v = at_pc p (k2 v)) -> bindo o k1 = at_pc p (bindo o k2).
Proof. intros H. destruct o; cbn; auto. Qed.
Lemma ret_opc p o : ret (opc p o) = at_pc p (ret o).
Proof. destruct o; reflexivity. Qed.
Lemma bindO_opc p o (k1 k2 : st -> option st) : (forall s, k1 (with_pc s p) = opc p (k2 s)) -> bindO (opc p o) k1 = opc p (bindO o k2).
Proof. intros H. destruct o; cbn; auto. Qed.
Lemma bindO_val {A} p (o : option A) (k1 k2 : A -> option st) : (forall v, k1 v = opc p (k2 v)) -> bindO o k1 = opc p (bindO o k2).
Proof. intros H. destruct o; cbn; auto. Qed.

Lemma pc_upop s p : upop32 (with_pc s p) = opc2 p (upop32 s).
Proof. unfold upop32. rewrite pc_pop. destruct (pop s) as [[v t]|]; cbn [bindO opc2]; [|reflexivity]. rewrite pc_pop. destruct (pop t) as [[w u]|]; reflexivity. Qed.
Lemma pc_upush s p v : upush32 (with_pc s p) v = opc p (upush32 s v).
Proof. unfold upush32. rewrite pc_push. apply bindO_opc. intros t. apply pc_push. Qed.
Lemma pc_uget s p o : ugettos32 (with_pc s p) o = ugettos32 s o. Proof. reflexivity. Qed.
Lemma pc_uput s p v o : uputtos32 (with_pc s p) v o = opc p (uputtos32 s v o).
Proof. unfold uputtos32. rewrite pc_puttos. apply bindO_opc. intros t. apply pc_puttos. Qed.
Lemma pc_rd4 s p i : rd4 (with_pc s p) i = rd4 s i. Proof. reflexivity. Qed.

Ltac pcs := repeat first
  [ reflexivity
  | progress cbn [sp cf fp csp lsp with_pc]
  | rewrite pc_rd | rewrite pc_rdb | rewrite pc_tos | rewrite pc_getstack | rewrite pc_wr | rewrite pc_wrb | rewrite pc_with_sp | rewrite pc_discard
  | rewrite pc_putstack | rewrite pc_puttos | rewrite pc_pop | rewrite pc_push | rewrite pc_base | rewrite pc_load_multi | rewrite pc_store_multi
  | rewrite pc_upop | rewrite pc_upush | rewrite pc_uget | rewrite pc_uput | rewrite pc_rd4
  | apply bindo_opc; intros ? | apply bindo_opc2; intros ? ? | apply bindo_val; intros ? | apply bindO_opc; intros ? | apply bindO_val; intros ? | apply ret_opc
  | match goal with |- context [if ?b then _ else _] => destruct b end ].

Lemma pc_words4 f s p d i : words4 f (with_pc s p) d i = opc p (words4 f s d i).
Proof. unfold words4. pcs. Qed.
Lemma pc_zero4 s p i : zero4 (with_pc s p) i = opc p (zero4 s i).
Proof. unfold zero4. pcs. Qed.
Lemma pc_subrange n : forall s p a b c d e f g, subrange_loop n (with_pc s p) a b c d e f g = at_pc p (subrange_loop n s a b c d e f g).
Proof.
  induction n as [|n IH]; intros; cbn [subrange_loop]; destruct (0 <? e); try reflexivity. pcs; apply IH.
Qed.
Lemma pc_set s p k : set_operation (with_pc s p) k = at_pc p (set_operation s k).
Proof.
  unfold set_operation. destruct (decode_set k) as [[]|]; try reflexivity;
    unfold set_empty, set_binary, set_compare, set_member, set_include, set_exclude, set_card, set_singleton, set_subrange; try rewrite pc_words4; pcs.
  1: destruct v as (((a & b) & c) & d); pcs.
  all: rewrite pc_zero4; apply bindo_opc; intros; try apply pc_subrange; pcs.
Qed.
Lemma pc_long s p k : long_operation8 (with_pc s p) k = at_pc p (long_operation8 s k).
Proof.
  unfold long_operation8. destruct (decode_long8 k) as [[]|]; try reflexivity;
    unfold long_unary, long_binary, long_shift, long_cmpz, long_scmp, long_ucmp; pcs.
Qed.
Lemma pc_exec8 o s p : o <> RET -> o <> END -> exec8 o (with_pc s p) = at_pc p (exec8 o s).
Proof.
  intros N1 N2. destruct o; try congruence; cbn [exec8]; unfold unary, binary, cmpz, scmp, ucmp, binary; pcs.
Qed.
Lemma pc_exec24 o s p i : exec24 o (with_pc s p) i = at_pc p (exec24 o s i).
Proof. destruct o; cbn [exec24]; pcs. Qed.
Lemma pc_exec32 o s p i j : o <> PCAL -> exec32 o (with_pc s p) i j = at_pc p (exec32 o s i j).
Proof. intros N. destruct o; try congruence; cbn [exec32]; pcs. Qed.
