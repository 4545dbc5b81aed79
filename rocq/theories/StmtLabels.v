(** The labels the statement compiler makes. *)

From Coq Require Import ZArith Bool List Lia ZifyBool.
From Verif Require Import Words State Opcodes EncodeModel Machine VmSpec OptSpec ExprModel ExprSpec ExprOps ExprLoad ExprProofs ExprParse ExprTotal StmtModel StmtSpec StmtPlain StmtMain StmtTotal.
Import ListNotations.
Open Scope Z_scope.

Fixpoint occ (x : Z) (l : list Z) : Z := match l with [] => 0 | y :: l' => Z.b2z (x =? y) + occ x l' end.
Lemma occ_app x l m : occ x (l ++ m) = occ x l + occ x m.
Proof. induction l as [|y l IH]; cbn [app occ]; lia. Qed.
Lemma occ_pos x l : 0 <= occ x l.
Proof. induction l as [|y l IH]; cbn [occ]; lia. Qed.
Lemma occ_in x l : In x l <-> 0 < occ x l.
Proof.
  induction l as [|y l IH]; cbn [In occ]; [lia|]. pose proof (occ_pos x l). rewrite IH. destruct (Z.eqb_spec x y); lia.
Qed.
Lemma occ_nodup l : (forall x, occ x l <= 1) -> NoDup l.
Proof.
  induction l as [|y l IH]; intros H; constructor.
  - rewrite occ_in. specialize (H y). cbn [occ] in H. rewrite Z.eqb_refl in H. cbn [Z.b2z] in H. lia.
  - apply IH. intros x. specialize (H x). cbn [occ] in H. lia.
Qed.

Lemma labels_app p q : labels (p ++ q) = labels p ++ labels q.
Proof. unfold labels. rewrite filter_app, map_app. reflexivity. Qed.
Lemma targets_app p q : targets (p ++ q) = targets p ++ targets q.
Proof. unfold targets. rewrite filter_app, map_app. reflexivity. Qed.
Lemma plain_labels ps : Forall plain ps -> labels ps = [] /\ targets ps = [].
Proof.
  induction 1 as [|p ps P _ (A & B)]; [split; reflexivity|].
  unfold plain, plain_code in P. apply negb_true_iff in P. cbn [existsb] in P.
  apply orb_false_iff in P. destruct P as (P1 & P). apply orb_false_iff in P. destruct P as (_ & P).
  do 3 (apply orb_false_iff in P; destruct P as (_ & P)).
  unfold labels, targets in *. cbn [filter]. unfold is_jump at 1. rewrite P1, P. auto.
Qed.

Section Labels.
(** The labels that may be called *)
Variable called : Z -> Prop.
Definition good (p : opType) : Prop := written p /\ (op p = oPCAL -> called (arg2 p)).
Definition quiet (k : Z) : bool := known_code k && negb (k =? oPCAL).
Lemma emit_good k a b : quiet k = true -> good (mkOp k (if has8 k then u8 a else 0) (if has16 k then u16 b else 0)).
Proof.
  unfold quiet. intros H. apply andb_true_iff in H. destruct H as (K & N). split; [apply emit_written; exact K|].
  cbn [op]. intros ->. discriminate.
Qed.
Lemma plain_call p : plain p -> op p <> oPCAL.
Proof. intros P E. unfold plain in P. rewrite E in P. discriminate. Qed.

(** The compiler went from [c0] to [c]: the counter, the loop labels and the stack
    adjustment are now [l], [C], [B] and [A]; it placed the label [x] [d x] times and
    made [j x] jumps to it; there were at least [e] errors. *)
Record has (c0 : comp) (l C B A e : Z) (d j : Z -> Z) (c : comp) : Prop :=
  { h_out : exists ps, out c = out c0 ++ ps /\ (forall x, occ x (labels ps) = d x) /\ (forall x, occ x (targets ps) = j x);
    h_err : exists es, errs c = errs c0 ++ es /\ e <= Z.of_nat (length es);
    h_label : g_label c = l; h_level : g_level c = g_level c0;
    h_cont : g_continue c = C; h_brk : g_break c = B; h_adj : g_adjust c = A;
    h_text : exists ps, out c = out c0 ++ ps /\ Forall good ps }.

Lemma has_start c : has c (g_label c) (g_continue c) (g_break c) (g_adjust c) 0 (fun _ => 0) (fun _ => 0) c.
Proof. constructor; try reflexivity; exists []; rewrite app_nil_r; cbn; repeat split; try reflexivity; try lia; auto. Qed.

Section Has.
  Variables (c0 : comp) (l C B A e : Z) (d j : Z -> Z) (c : comp).
  Hypothesis H : has c0 l C B A e d j c.
  Lemma has_get : has c0 l C B A e d j (getToken c).
  Proof. destruct H. constructor; assumption. Qed.
  Lemma has_error k : has c0 l C B A (e + 1) d j (error k c).
  Proof.
    destruct H as [O (es & E1 & E2) X1 X2 X3 X4 X5 X6]. constructor; try assumption.
    exists (es ++ [k]). cbn. rewrite E1, app_assoc. split; [reflexivity|]. rewrite app_length. cbn. lia.
  Qed.
  Lemma has_less e' : e' <= e -> has c0 l C B A e' d j c.
  Proof. intros L. destruct H as [O (es & E1 & E2) X1 X2 X3 X4 X5 X6]. constructor; try assumption. exists es. split; [exact E1|lia]. Qed.
  Lemma has_count : has c0 (u16 (l + 1)) C B A e d j (count c).
  Proof. destruct H. constructor; cbn; try assumption. unfold new_label. f_equal. lia. Qed.
  Lemma has_loop C' B' A' : has c0 l C' B' A' e d j (with_loop C' B' A' c).
  Proof. destruct H. constructor; try assumption; reflexivity. Qed.
  Lemma has_adds c' : adds c c' -> grows c c' -> has c0 l C B A e d j c'.
  Proof.
    intros [(ps & P1 & P2) ? ? ? ? ? ad_text] (es' & G). destruct H as [(qs & Q1 & Q2 & Q3) (es & E1 & E2) X1 X2 X3 X4 X5 X6].
    constructor; try congruence.
    3:{ destruct X6 as (gs & G1 & G2), ad_text as (ws & W1 & W2). exists (gs ++ ws). rewrite W1, G1, app_assoc. split; [reflexivity|].
      apply Forall_app. split; [exact G2|]. apply Forall_forall. intros p Ip. split; [rewrite Forall_forall in W2; apply W2, Ip|].
      rewrite W1 in P1. apply app_inv_head in P1. subst ws.
      intros E. rewrite Forall_forall in P2. apply P2, plain_call in Ip. contradiction. }
    - exists (qs ++ ps). rewrite P1, Q1, app_assoc. split; [reflexivity|].
      destruct (plain_labels ps P2) as (L & T). rewrite labels_app, targets_app, L, T, !app_nil_r. auto.
    - exists (es ++ es'). rewrite G, E1, app_assoc. split; [reflexivity|]. rewrite app_length. lia.
  Qed.
  Lemma has_append p : good p -> has c0 l C B A e
    (fun x => d x + Z.b2z ((op p =? oLABEL) && (x =? arg2 p)))
    (fun x => j x + Z.b2z (is_jump p && (x =? arg2 p))) (append p c).
  Proof.
    intros Wp. destruct H as [(qs & Q1 & Q2 & Q3) X0 X1 X2 X3 X4 X5 X6]. constructor; try assumption;
      [|destruct X6 as (gs & G1 & G2); exists (gs ++ [p]); cbn [append out]; rewrite G1, app_assoc; split; [reflexivity|apply Forall_app; auto]].
    exists (qs ++ [p]). cbn [append out]. rewrite Q1, app_assoc. split; [reflexivity|].
    rewrite labels_app, targets_app. unfold labels at 2, targets at 2. cbn [filter].
    split; intros x; rewrite occ_app; [rewrite Q2; destruct (op p =? oLABEL)|rewrite Q3; destruct (is_jump p)]; cbn; lia.
  Qed.
End Has.

Lemma has_ext c0 l C B A e d j d' j' c : has c0 l C B A e d j c -> (forall x, d x = d' x) -> (forall x, j x = j' x) ->
  has c0 l C B A e d' j' c.
Proof.
  intros [(ps & P1 & P2 & P3) X0 X1 X2 X3 X4 X5 X6] D J. constructor; try assumption.
  exists ps. split; [exact P1|]. split; intros x; [rewrite P2; apply D|rewrite P3; apply J].
Qed.
Lemma has_error_if c0 l C B A e d j b k c : has c0 l C B A e d j c -> has c0 l C B A e d j (error_if b k c).
Proof. intros H. destruct b; [|exact H]. eapply has_less; [apply has_error; exact H|lia]. Qed.
Lemma has_expect c0 l C B A e d j t k c : has c0 l C B A e d j c -> has c0 l C B A e d j (expect t k c).
Proof.
  intros H. unfold expect. destruct (token c =? t); [apply has_get; exact H|].
  eapply has_less; [apply has_error; exact H|lia].
Qed.
Lemma has_emit c0 l C B A e d j k a v c : quiet k = true -> has c0 l C B A e d j c -> has c0 l C B A e
    (fun x => d x + Z.b2z ((k =? oLABEL) && (x =? (if has16 k then u16 v else 0))))
    (fun x => j x + Z.b2z (existsb (Z.eqb k) jump_codes && (x =? (if has16 k then u16 v else 0)))) (emit k a v c).
Proof. intros Wk H. unfold emit.
  apply (has_append _ _ _ _ _ _ _ _ _ (has_error_if _ _ _ _ _ _ _ _ _ _ _ (has_error_if _ _ _ _ _ _ _ _ _ _ _ H))
    (mkOp k (if has8 k then u8 a else 0) (if has16 k then u16 v else 0)) (emit_good k a v Wk)).
Qed.
(** Neither a label nor a jump *)
Lemma has_quiet c0 l C B A e d j k a v c : (k =? oLABEL) = false -> existsb (Z.eqb k) jump_codes = false -> quiet k = true ->
  has c0 l C B A e d j c -> has c0 l C B A e d j (emit k a v c).
Proof.
  intros K K' Wk H. eapply has_ext; [apply has_emit; [exact Wk|exact H]| |]; intros x; cbn beta; rewrite ?K, ?K'; cbn [andb Z.b2z]; lia.
Qed.
Lemma has_simple c0 l C B A e d j k c : (k =? oLABEL) = false -> existsb (Z.eqb k) jump_codes = false -> quiet k = true ->
  has c0 l C B A e d j c -> has c0 l C B A e d j (simple_op k c).
Proof. apply has_quiet. Qed.
Lemma has_ref c0 l C B A e d j k v c : (k =? oLABEL) = false -> existsb (Z.eqb k) jump_codes = false ->
  (level0 k =? oLABEL) = false -> existsb (Z.eqb (level0 k)) jump_codes = false -> quiet k = true -> quiet (level0 k) = true ->
  has c0 l C B A e d j c -> has c0 l C B A e d j (stack_ref k v c).
Proof.
  intros K1 K2 K3 K4 K5 K6 H. unfold stack_ref. destruct (_ && _); [destruct (_ <? _)|]; try (apply has_quiet; assumption).
  eapply has_less; [apply has_error; exact H|lia].
Qed.
Lemma has_label c0 l C B A e d j v c : 0 <= v <= 65535 -> has c0 l C B A e d j c ->
  has c0 l C B A e (fun x => d x + Z.b2z (x =? v)) j (data_op oLABEL v c).
Proof.
  intros R H. eapply has_ext; [apply has_emit; [reflexivity|exact H]| |]; intros x; cbn beta.
  - change (has16 oLABEL) with true. change (oLABEL =? oLABEL) with true. cbn [andb]. unfold u16. rewrite Z.mod_small by lia. reflexivity.
  - change (existsb (Z.eqb oLABEL) jump_codes) with false. cbn [andb Z.b2z]. lia.
Qed.
Lemma has_jump c0 l C B A e d j k v c : existsb (Z.eqb k) jump_codes && quiet k = true -> 0 <= v <= 65535 -> has c0 l C B A e d j c ->
  has c0 l C B A e d (fun x => j x + Z.b2z (x =? v)) (data_op k v c).
Proof.
  intros K R H. apply andb_true_iff in K. destruct K as (K & Wk). assert (K' : (k =? oLABEL) = false /\ has16 k = true).
  { clear Wk. cbv [jump_codes existsb] in K. repeat (apply orb_true_iff in K; destruct K as [K|K]; [apply Z.eqb_eq in K; subst k; split; reflexivity|]). discriminate. }
  destruct K' as (K1 & K2).
  eapply has_ext; [apply has_emit; [exact Wk|exact H]| |]; intros x; cbn beta; rewrite ?K, ?K1, ?K2; cbn [andb Z.b2z]; [lia|].
  unfold u16. rewrite Z.mod_small by lia. reflexivity.
Qed.
Lemma has_expr c0 l C B A e d j n f c t c' : expression n f c = Done t c' -> has c0 l C B A e d j c -> has c0 l C B A e d j c'.
Proof. intros X H. eapply has_adds; [exact H|eapply expression_adds; exact X|]. exact (proj1 (all_grow n) f c t c' X). Qed.

(** What a statement does: [l'] is the counter after it, [dd], [jj] and [ee] count its labels, jumps and errors. *)
Definition fresh (l l' : Z) (dd : Z -> Z) : Prop := forall x, 0 <= dd x <= Z.b2z ((l <? x) && (x <=? l')).
Definition closed (ok : Z -> Prop) (dd jj : Z -> Z) : Prop := forall x, 0 < jj x -> 0 < dd x \/ ok x.
Definition loops (C B x : Z) : Prop := x <> 0 /\ (x = C \/ x = B).
Definition regs_ok (l C B A : Z) : Prop := 0 <= l /\ 0 <= C <= 65535 /\ 0 <= B <= 65535 /\ -32768 <= A <= 32767.
Definition L (c : comp) : Z := Z.of_nat (len c).

Definition spans (c0 c : comp) (l C B A e : Z) (d j : Z -> Z) (r : sres) : Prop :=
  spost (fun c' => exists l' ee dd jj, has c0 l' C B A (e + ee) (fun x => d x + dd x) (fun x => j x + jj x) c' /\
    0 <= ee /\ l <= l' /\ l' + 4 * L c' <= l + 4 * L c /\ fresh l l' dd /\ (ee = 0 -> closed (loops C B) dd jj)) r.
Definition spans_cases (c0 c : comp) (this fin l C B A e : Z) (d j : Z -> Z) (r : sres) : Prop :=
  spost (fun c' => exists l' ee dd jj, has c0 l' C B A (e + ee) (fun x => d x + dd x) (fun x => j x + jj x) c' /\
    0 <= ee /\ l <= l' /\ l' + 4 * L c' <= l + 2 + 4 * L c /\
    (forall x, 0 <= dd x <= Z.b2z (((l <? x) && (x <=? l')) || (x =? this))) /\
    (ee = 0 -> 0 < dd this /\ closed (fun x => loops C B x \/ x = fin) dd jj)) r.

Definition Spans (f : comp -> sres) : Prop := forall c0 c l C B A e d j,
  has c0 l C B A e d j c -> regs_ok l C B A -> l + 4 * L c <= 65535 -> spans c0 c l C B A e d j (f c).
(** [c] stands at the token before the first statement *)
Definition Spans_seq (f : comp -> sres) : Prop := forall c0 c l C B A e d j,
  token c <> 0 -> has c0 l C B A e d j c -> regs_ok l C B A -> l + 4 * L c - 4 <= 65535 ->
  spost (fun c' => exists l' ee dd jj, has c0 l' C B A (e + ee) (fun x => d x + dd x) (fun x => j x + jj x) c' /\
    0 <= ee /\ l <= l' /\ l' + 4 * L c' + 4 <= l + 4 * L c /\ fresh l l' dd /\ (ee = 0 -> closed (loops C B) dd jj)) (f c).
Definition Spans_cases (f : Z -> Z -> comp -> sres) : Prop := forall this fin c0 c l C B A e d j,
  has c0 l C B A e d j c -> regs_ok l C B A -> 0 < this <= l -> 0 < fin <= l -> l + 2 + 4 * L c <= 65535 ->
  spans_cases c0 c this fin l C B A e d j (f this fin c).

Lemma has_consts c0 l C B A e a b n : 0 <= a <= 65535 -> 0 <= b <= 65535 -> forall d j c, has c0 l C B A e d j c ->
  spost (fun c' => (len c' <= len c)%nat /\ exists jj, has c0 l C B A e d (fun x => j x + jj x) c' /\
    forall x, 0 <= jj x /\ (0 < jj x -> x = a \/ x = b)) (case_constants n a b c).
Proof.
  intros Ra Rb. induction n as [|n IH]; intros d j c H; [exact I|]. cbn [case_constants]. cbv zeta.
  apply (has_simple _ _ _ _ _ _ _ _ oDUP) in H; try reflexivity.
  destruct (is_constant _).
  - set (v := if _ <? _ then _ else _). set (c1 := error_if _ _ _).
    assert (H1 : has c0 l C B A e d j (getToken (data_op oPUSH v c1))).
    { apply has_get. apply has_quiet; try reflexivity. unfold c1. apply has_error_if. exact H. }
    assert (L1 : (len (getToken (data_op oPUSH v c1)) <= len c)%nat) by (unfold c1; lens).
    set (c2 := getToken _) in *. clearbody c2. clear c1 v H.
    destruct (token c2 =? tCOMMA).
    + eapply spost_weaken; [apply IH; apply has_get; apply has_jump; [reflexivity|exact Ra|exact H1]|].
      cbn beta. intros c' (L' & jj & HH & JJ). split; [lens|].
      exists (fun x => Z.b2z (x =? a) + jj x). split.
      * eapply has_ext; [exact HH|reflexivity|]. intros x. cbn beta. lia.
      * intros x. specialize (JJ x). lia.
    + cbn [spost]. split; [rewrite len_data; exact L1|]. exists (fun x => Z.b2z (x =? b)).
      split; [apply has_jump; [reflexivity|exact Rb|exact H1]|]. intros x. lia.
  - destruct (_ =? tSTDFUNC); [exact I|]. cbn [spost]. split; [lens|].
    exists (fun _ => 0). split; [|intros x; lia].
    eapply has_less; [apply has_error|]; [|instantiate (1 := e); lia].
    eapply has_ext; [exact H|reflexivity|]. intros x. cbn beta. lia.
Qed.

Lemma spost_expr (Q : comp -> Prop) c0 l C B A e d j n f c k : has c0 l C B A e d j c ->
  (forall c', (len c' <= len c)%nat -> has c0 l C B A e d j c' -> spost Q (k c')) -> spost Q (binde (expression n f c) k).
Proof.
  intros H K. destruct (expression n f c) eqn:E; cbn [binde]; try exact I.
  apply K; [eapply len_expr; exact E|eapply has_expr; eassumption].
Qed.
Lemma has_assign (Q : comp -> Prop) c0 l C B A e d j n o t v c k : o = oSTS \/ o = oSTSB -> has c0 l C B A e d j c ->
  (forall c', (len c' <= len c)%nat -> has c0 l C B A e d j c' -> spost Q (k c')) -> spost Q (binds (assignment n o t v c) k).
Proof.
  intros O H K. unfold assignment.
  destruct (expression n t (expect tASSIGN eASSIGN c)) eqn:E; cbn [binde binds]; try exact I.
  pose proof (len_expr _ _ _ _ _ E) as LE.
  apply K; [lens|]. eapply has_expr in E; [|apply has_expect; exact H]. destruct O as [-> | ->]; apply has_ref; try reflexivity; exact E.
Qed.
Lemma binds_done r : binds r SDone = r.
Proof. destruct r; reflexivity. Qed.

Ltac at_x x := repeat match goal with H : forall x : Z, _ |- _ => specialize (H x) end.
Ltac done_with := match goal with |- has _ _ _ _ _ _ _ _ _ => eapply has_ext; [eassumption| |]; intros ?x; cbn beta; lia end.
Ltac gets c T G := assert (G := len_get_lt c); rewrite (proj1 (Z.eqb_eq _ _) T) in G; specialize (G ltac:(discriminate)).

Lemma s16_range x : -32768 <= s16 x <= 32767.
Proof. unfold s16, u16. pose proof (Z.mod_pos_bound x 65536 ltac:(lia)). destruct (_ <? _) eqn:E; lia. Qed.
Lemma s16_undo x : -32768 <= x <= 32767 -> s16 (s16 (x - 2) + 2) = x.
Proof.
  intros R. unfold s16. cbv zeta. unfold u16.
  destruct ((x - 2) mod 65536 <? 32768) eqn:E; match goal with |- (if ?b then _ else _) = _ => destruct b eqn:E2 end;
    apply Z.ltb_lt in E || apply Z.ltb_ge in E; apply Z.ltb_lt in E2 || apply Z.ltb_ge in E2;
    Z.div_mod_to_equations; lia.
Qed.

Section Step.
  (** What compiles the statements inside of a statement *)
  Variables (n : nat) (stmt seq : comp -> sres) (more : Z -> Z -> comp -> sres).
  Hypothesis HS : Spans stmt.
  Hypothesis HQ : Spans_seq seq.
  Hypothesis HC : Spans_cases more.

  Lemma spans_quiet c0 c l C B A e d j c' : has c0 l C B A e d j c' -> (len c' <= len c)%nat -> spans c0 c l C B A e d j (SDone c').
  Proof using.
    intros H Le. exists l, 0, (fun _ => 0), (fun _ => 0). split; [|split; [|split; [|split; [|split]]]]; try lia.
    - rewrite Z.add_0_r. eapply has_ext; [exact H| |]; intros x; lia.
    - unfold L. lia.
    - intros x. lia.
    - intros _ x. lia.
  Qed.
  Lemma has_new c0 l C B A e d j c : has c0 l C B A e d j c -> 0 <= l < 65535 -> new_label c = l + 1.
  Proof using. intros H R. destruct H as [_ _ H _ _ _ _]. unfold new_label. rewrite H. unfold u16. rewrite Z.mod_small; lia. Qed.
  Lemma has_counted c0 l C B A e d j c : has c0 l C B A e d j c -> 0 <= l < 65535 -> has c0 (l + 1) C B A e d j (count c).
  Proof using. intros H R. apply has_count in H. unfold u16 in H. rewrite Z.mod_small in H by lia. exact H. Qed.

  Lemma spans_if c0 c l C B A e d j : token c = tIF -> has c0 l C B A e d j c -> regs_ok l C B A -> l + 4 * L c <= 65535 ->
    spans c0 c l C B A e d j (if_statement n stmt c).
  Proof.
    intros T H R W. assert (G : (len (getToken (count c)) < len c)%nat).
    { change (len (getToken (count c))) with (len (getToken c)). apply len_get_lt. rewrite T. discriminate. }
    unfold if_statement. cbv zeta. unfold spans, closed, loops, fresh.
    assert (Rl : 0 <= l < 65535) by (unfold regs_ok, L in *; lia).
    rewrite (has_new _ _ _ _ _ _ _ _ _ H Rl).
    eapply spost_expr; [apply has_get; apply has_counted; [exact H|exact Rl]|].
    intros c1 L1 H1. destruct (negb _).
    { cbn [spost]. exists (l + 1), 1, (fun _ => 0), (fun _ => 0). apply (has_error _ _ _ _ _ _ _ _ _ ) with (k := eTHEN) in H1.
      split; [done_with|]. rewrite ?len_error in *. unfold L in *. rewrite len_error.
      split; [lia|]. split; [lia|]. split; [lia|]. split; [intros x; lia|]. intros E; lia. }
    eapply spost_bind; [apply HS|].
    - apply has_jump; [reflexivity| |apply has_get; exact H1]. lia.
    - unfold regs_ok in *. lia.
    - unfold L in *. rewrite len_data. pose proof (len_get c1). lia.
    - cbn beta. intros c2 (l2 & e2 & d2 & j2 & H2 & P2 & Q2 & W2 & F2 & K2). unfold closed, loops, fresh in F2, K2.
      unfold L in W2. rewrite len_data in W2. pose proof (len_get c1) as L1'.
      destruct (token c2 =? tELSE) eqn:T2.
      + gets c2 T2 G2. assert (R2 : 0 <= l2 < 65535) by (unfold regs_ok, L in *; lia).
        rewrite (has_new _ _ _ _ _ _ _ _ _ H2 R2).
        eapply spost_bind; [apply HS|].
        * eapply has_label; [lia|]. eapply has_jump; [reflexivity|lia|].
          apply has_get. apply has_counted; [exact H2|exact R2].
        * unfold regs_ok in *. lia.
        * unfold L in *. rewrite !len_data. change (len (getToken (count c2))) with (len (getToken c2)). lia.
        * cbn beta. intros c3 (l3 & e3 & d3 & j3 & H3 & P3 & Q3 & W3 & F3 & K3). unfold closed, loops, fresh in F3, K3.
          unfold L in W3. rewrite !len_data in W3. change (len (getToken (count c2))) with (len (getToken c2)) in W3.
          apply (has_label _ _ _ _ _ _ _ _ (l2 + 1)) in H3; [|lia].
          cbn [spost]. exists l3, (e2 + e3), (fun x => d2 x + Z.b2z (x =? l + 1) + d3 x + Z.b2z (x =? l2 + 1)),
            (fun x => Z.b2z (x =? l + 1) + j2 x + Z.b2z (x =? l2 + 1) + j3 x).
          split; [rewrite Z.add_assoc; done_with|]. unfold L. rewrite !len_data. unfold L in W.
          split; [lia|]. split; [lia|]. split; [lia|].
          split; [intros x; specialize (F2 x); specialize (F3 x); lia|].
          intros E. specialize (K2 ltac:(lia)). specialize (K3 ltac:(lia)). intros x. specialize (K2 x). specialize (K3 x).
          specialize (F2 x); specialize (F3 x). lia.
      + cbn [spost]. apply (has_label _ _ _ _ _ _ _ _ (l + 1)) in H2; [|lia].
        exists l2, e2, (fun x => d2 x + Z.b2z (x =? l + 1)), (fun x => Z.b2z (x =? l + 1) + j2 x).
        split; [done_with|]. unfold L. rewrite !len_data. unfold L in W.
        split; [lia|]. split; [lia|]. split; [lia|].
        split; [intros x; specialize (F2 x); lia|].
        intros E. specialize (K2 E). intros x. specialize (K2 x). specialize (F2 x). lia.
  Qed.

  Lemma spans_while c0 c l C B A e d j : token c = tWHILE -> has c0 l C B A e d j c -> regs_ok l C B A -> l + 4 * L c <= 65535 ->
    spans c0 c l C B A e d j (while_statement n stmt c).
  Proof.
    intros T H R W. assert (G : (len (getToken c) < len c)%nat) by (apply len_get_lt; rewrite T; discriminate).
    unfold while_statement. cbv beta iota zeta. unfold spans, closed, loops, fresh, L in *.
    assert (Rl : 0 <= l < 65535) by (unfold regs_ok in *; lia).
    rewrite (has_new _ _ _ _ _ _ _ _ _ H Rl). apply has_counted in H; [|exact Rl].
    assert (Rl' : 0 <= l + 1 < 65535) by (unfold regs_ok in *; lia).
    rewrite (has_new _ _ _ _ _ _ _ _ _ H Rl'). apply has_counted in H; [|exact Rl'].
    rewrite (h_cont _ _ _ _ _ _ _ _ _ H), (h_brk _ _ _ _ _ _ _ _ _ H), (h_adj _ _ _ _ _ _ _ _ _ H).
    eapply spost_expr; [eapply has_label; [lia|]; apply has_get; eapply has_loop; exact H|].
    intros c1 L1 H1. rewrite len_data in L1.
    change (len (getToken (with_loop (l + 1) (l + 1 + 1) 0 (count (count c))))) with (len (getToken c)) in L1.
    eapply spost_bind; [apply HS|].
    - apply has_expect. eapply has_jump; [reflexivity|lia|exact H1].
    - unfold regs_ok in *. lia.
    - unfold L. pose proof (len_expect tDO eDO (data_op oJEQUZ (l + 1 + 1) c1)) as X. rewrite len_data in X. lia.
    - cbn beta. intros c2 (l2 & e2 & d2 & j2 & H2 & P2 & Q2 & W2 & F2 & K2). unfold closed, loops, fresh, L in *.
      pose proof (len_expect tDO eDO (data_op oJEQUZ (l + 1 + 1) c1)) as X. rewrite len_data in X.
      cbn [spost].
      exists l2, e2, (fun x => Z.b2z (x =? l + 1) + d2 x + Z.b2z (x =? l + 1 + 1)), (fun x => Z.b2z (x =? l + 1 + 1) + j2 x + Z.b2z (x =? l + 1)).
      split.
      { eapply has_ext; [eapply has_loop; eapply has_label; [lia|]; eapply has_jump; [reflexivity|lia|exact H2]| |]; intros x; cbn beta; lia. }
      rewrite !len_loop, !len_data.
      split; [lia|]. split; [lia|]. split; [lia|].
      split; [intros x; specialize (F2 x); lia|].
      intros E. specialize (K2 E). intros x. specialize (K2 x). specialize (F2 x). lia.
  Qed.

  Lemma spans_repeat c0 c l C B A e d j : token c = tREPEAT -> has c0 l C B A e d j c -> regs_ok l C B A -> l + 4 * L c <= 65535 ->
    spans c0 c l C B A e d j (repeat_statement n seq c).
  Proof.
    intros T H R W. unfold repeat_statement. cbv beta iota zeta. unfold spans, closed, loops, fresh, L in *.
    assert (Ge : (1 <= len c)%nat). { pose proof (len_get_lt c). rewrite T in H0. specialize (H0 ltac:(discriminate)). lia. }
    assert (Rl : 0 <= l < 65535) by (unfold regs_ok in *; lia).
    rewrite (has_new _ _ _ _ _ _ _ _ _ H Rl). apply has_counted in H; [|exact Rl].
    assert (Rl' : 0 <= l + 1 < 65535) by (unfold regs_ok in *; lia).
    rewrite (has_new _ _ _ _ _ _ _ _ _ H Rl'). apply has_counted in H; [|exact Rl'].
    rewrite (h_cont _ _ _ _ _ _ _ _ _ H), (h_brk _ _ _ _ _ _ _ _ _ H), (h_adj _ _ _ _ _ _ _ _ _ H).
    eapply spost_bind; [apply HQ|].
    - rewrite token_data. change (token c <> 0). rewrite T. discriminate.
    - eapply has_label; [lia|]. eapply has_loop. exact H.
    - unfold regs_ok in *. lia.
    - unfold L. rewrite len_data. change (len (with_loop (l + 1) (l + 1 + 1) 0 (count (count c)))) with (len c). lia.
    - cbn beta. intros c2 (l2 & e2 & d2 & j2 & H2 & P2 & Q2 & W2 & F2 & K2).
      unfold closed, loops, fresh, L in *. rewrite len_data in W2. change (len (with_loop (l + 1) (l + 1 + 1) 0 (count (count c)))) with (len c) in W2.
      eapply spost_expr; [apply has_expect; exact H2|]. intros c3 L3 H3. pose proof (len_expect tUNTIL eUNTIL c2) as X.
      cbn [spost].
      exists l2, e2, (fun x => Z.b2z (x =? l + 1) + d2 x + Z.b2z (x =? l + 1 + 1)), (fun x => j2 x + Z.b2z (x =? l + 1)).
      split.
      { eapply has_ext; [eapply has_loop; eapply has_label; [lia|]; eapply has_jump; [reflexivity|lia|exact H3]| |]; intros x; cbn beta; lia. }
      rewrite !len_loop, !len_data.
      split; [lia|]. split; [lia|]. split; [lia|].
      split; [intros x; specialize (F2 x); lia|].
      intros E. specialize (K2 E). intros x. specialize (K2 x). specialize (F2 x). lia.
  Qed.

  Lemma spans_for c0 c l C B A e d j : token c = tFOR -> has c0 l C B A e d j c -> regs_ok l C B A -> l + 4 * L c <= 65535 ->
    spans c0 c l C B A e d j (for_statement n stmt c).
  Proof.
    intros T H R W. assert (G : (len (getToken c) < len c)%nat) by (apply len_get_lt; rewrite T; discriminate).
    unfold for_statement. cbv beta iota zeta. unfold spans, closed, loops, fresh, L in *.
    assert (Rl : 0 <= l < 65535) by (unfold regs_ok in *; lia).
    rewrite (has_new _ _ _ _ _ _ _ _ _ H Rl). apply has_counted in H; [|exact Rl].
    assert (Rl' : 0 <= l + 1 < 65535) by (unfold regs_ok in *; lia).
    rewrite (has_new _ _ _ _ _ _ _ _ _ H Rl'). apply has_counted in H; [|exact Rl'].
    assert (Rl'' : 0 <= l + 1 + 1 < 65535) by (unfold regs_ok in *; lia).
    rewrite (has_new _ _ _ _ _ _ _ _ _ H Rl''). apply has_counted in H; [|exact Rl''].
    rewrite (h_cont _ _ _ _ _ _ _ _ _ H), (h_brk _ _ _ _ _ _ _ _ _ H), (h_adj _ _ _ _ _ _ _ _ _ H).
    set (c1 := getToken (with_loop _ _ _ _)).
    assert (H1 : has c0 (l + 1 + 1 + 1) (l + 1 + 1 + 1) (l + 1 + 1) 0 e d j c1) by (apply has_get; eapply has_loop; exact H).
    assert (L1 : (len c1 < len c)%nat) by exact G. clearbody c1. clear H G.
    destruct (_ || _); [exact I|]. destruct (negb _).
    { cbn [spost]. exists (l + 1 + 1 + 1), 1, (fun _ => 0), (fun _ => 0).
      split; [eapply has_ext; [eapply has_loop; apply has_error; exact H1| |]; intros x; lia|]. rewrite len_loop, len_error.
      split; [lia|]. split; [lia|]. split; [lia|]. split; [intros x; lia|]. intros E; lia. }
    eapply has_assign; [left; reflexivity|apply has_get; exact H1|]. intros c2 L2 H2. pose proof (len_get c1) as G1.
    destruct (negb _); [exact I|]. generalize (token c2 =? tDOWNTO) as down. intros down.
    eapply spost_expr; [apply has_get; exact H2|]. intros c3 L3 H3. pose proof (len_get c2) as G2.
    pose proof (len_expect tDO eDO c3) as G3.
    eapply spost_bind; [apply HS|].
    - eapply has_jump; [destruct down; reflexivity|lia|]. apply has_ref; try reflexivity. apply has_simple; try reflexivity.
      eapply has_label; [lia|]. apply has_expect. exact H3.
    - unfold regs_ok in *. lia.
    - unfold L. rewrite len_data, len_ref, len_simple, len_data. lia.
    - cbn beta. intros c4 (l4 & e4 & d4 & j4 & H4 & P4 & Q4 & W4 & F4 & K4). unfold closed, loops, fresh, L in *.
      rewrite len_data, len_ref, len_simple, len_data in W4.
      cbn [spost].
      exists l4, e4, (fun x => Z.b2z (x =? l + 1) + d4 x + Z.b2z (x =? l + 1 + 1 + 1) + Z.b2z (x =? l + 1 + 1)),
        (fun x => Z.b2z (x =? l + 1 + 1) + j4 x + Z.b2z (x =? l + 1)).
      split.
      { eapply has_ext; [eapply has_loop; apply has_quiet; [reflexivity|reflexivity|reflexivity|]; eapply has_label; [lia|];
          eapply has_jump; [reflexivity|lia|]; apply has_ref; try reflexivity; apply has_simple;
          [destruct down; reflexivity|destruct down; reflexivity|destruct down; reflexivity|]; apply has_ref; try reflexivity; eapply has_label; [lia|exact H4]| |];
          intros x; cbn beta; lia. }
      rewrite !len_loop. repeat rewrite ?len_data, ?len_ref, ?len_simple.
      split; [lia|]. split; [lia|]. split; [lia|].
      split; [intros x; specialize (F4 x); lia|].
      intros E. specialize (K4 E). intros x. specialize (K4 x). specialize (F4 x). lia.
  Qed.

  Lemma spans_case c0 c l C B A e d j : token c = tCASE -> has c0 l C B A e d j c -> regs_ok l C B A -> l + 4 * L c <= 65535 ->
    spans c0 c l C B A e d j (case_statement n more c).
  Proof.
    intros T H R W. assert (G : (len (getToken c) < len c)%nat) by (apply len_get_lt; rewrite T; discriminate).
    unfold case_statement. cbv beta iota zeta. unfold spans, closed, loops, fresh, L in *.
    assert (Rl : 0 <= l < 65535) by (unfold regs_ok in *; lia).
    rewrite (has_new _ _ _ _ _ _ _ _ _ H Rl). apply has_counted in H; [|exact Rl].
    assert (Rl' : 0 <= l + 1 < 65535) by (unfold regs_ok in *; lia).
    rewrite (has_new _ _ _ _ _ _ _ _ _ H Rl'). apply has_counted in H; [|exact Rl'].
    eapply spost_expr; [apply has_get; exact H|]. intros c1 L1 H1.
    change (len (getToken (count (count c)))) with (len (getToken c)) in L1.
    pose proof (len_expect tOF eOF c1) as L2. apply (has_expect _ _ _ _ _ _ _ _ tOF eOF) in H1.
    set (c2 := expect tOF eOF c1) in *. clearbody c2.
    rewrite (h_cont _ _ _ _ _ _ _ _ _ H1), (h_brk _ _ _ _ _ _ _ _ _ H1), (h_adj _ _ _ _ _ _ _ _ _ H1).
    eapply spost_bind; [apply HC|].
    - eapply has_loop. exact H1.
    - unfold regs_ok in *. pose proof (s16_range (A - 2)). lia.
    - unfold regs_ok in *. lia.
    - unfold regs_ok in *. lia.
    - unfold L. rewrite len_loop. lia.
    - cbn beta. intros c4 (l4 & e4 & d4 & j4 & H4 & P4 & Q4 & W4 & F4 & K4). unfold closed, loops, L in *.
      rewrite len_loop in W4. cbn [spost].
      apply (has_label _ _ _ _ _ _ _ _ (l + 1 + 1)) in H4; [|lia].
      apply (has_quiet _ _ _ _ _ _ _ _ oINDS 0 (-2)) in H4; try reflexivity.
      change (emit oINDS 0 (-2) (data_op oLABEL (l + 1 + 1) c4)) with (data_op oINDS (-2) (data_op oLABEL (l + 1 + 1) c4)) in H4.
      assert (L4 : len (data_op oINDS (-2) (data_op oLABEL (l + 1 + 1) c4)) = len c4) by (rewrite !len_data; reflexivity).
      set (c5 := data_op oINDS (-2) (data_op oLABEL (l + 1 + 1) c4)) in *. clearbody c5.
      rewrite (h_cont _ _ _ _ _ _ _ _ _ H4), (h_brk _ _ _ _ _ _ _ _ _ H4), (h_adj _ _ _ _ _ _ _ _ _ H4).
      assert (EA : s16 (s16 (A - 2) + 2) = A).
      { unfold regs_ok in R. apply s16_undo. lia. }
      rewrite EA.
      exists l4, e4, (fun x => d4 x + Z.b2z (x =? l + 1 + 1)), j4. split.
      { eapply has_ext; [eapply has_loop; exact H4| |]; intros x; cbn beta; lia. }
      rewrite len_loop, L4.
      split; [lia|]. split; [lia|]. split; [lia|].
      split; [intros x; specialize (F4 x); lia|].
      intros E. specialize (K4 E). destruct K4 as (K & K4). intros x. specialize (K4 x). specialize (F4 x). lia.
  Qed.

  Lemma spans_begin c0 c l C B A e d j : token c = tBEGIN -> has c0 l C B A e d j c -> regs_ok l C B A -> l + 4 * L c <= 65535 ->
    spans c0 c l C B A e d j (binds (seq c) (fun c => SDone (expect tEND eEND c))).
  Proof.
    intros T H R W. eapply spost_bind; [apply HQ|].
    - rewrite T. discriminate.
    - exact H.
    - exact R.
    - lia.
    - cbn beta. intros c2 (l2 & e2 & d2 & j2 & H2 & P2 & Q2 & W2 & F2 & K2). cbn [spost].
      exists l2, e2, d2, j2. unfold L in *. pose proof (len_expect tEND eEND c2).
      split; [apply has_expect; exact H2|]. split; [lia|]. split; [lia|]. split; [lia|]. split; [exact F2|exact K2].
  Qed.

  Lemma has_leave c0 l C B A e d j lab c : 0 <= lab <= 65535 -> has c0 l C B A e d j c -> exists ee,
    has c0 l C B A (e + ee) d (fun x => j x + (if lab =? 0 then 0 else Z.b2z (x =? lab))) (continue_break lab c) /\ 0 <= ee.
  Proof using.
    intros R H. unfold continue_break. destruct (lab =? 0).
    - exists 1. split; [|lia]. eapply has_ext; [apply has_error; exact H| |]; intros x; lia.
    - exists 0. split; [|lia]. rewrite Z.add_0_r. eapply has_jump; [reflexivity|exact R|].
      destruct (g_adjust c =? 0); [exact H|]. apply has_quiet; try reflexivity. exact H.
  Qed.
  Lemma len_leave lab c : len (continue_break lab c) = len c.
  Proof using. unfold continue_break. cbv zeta. destruct (lab =? 0); [apply len_error|]. rewrite len_data. destruct (_ =? 0); [reflexivity|apply len_data]. Qed.

  Lemma spans_std c0 c l C B A e d j : has c0 l C B A e d j c -> regs_ok l C B A -> l + 4 * L c <= 65535 ->
    spans c0 c l C B A e d j (standard_procedure c).
  Proof.
    intros H R W. unfold standard_procedure. destruct (token c =? tSTDPROC); [|apply spans_quiet; [exact H|lia]].
    assert (X : forall lab, 0 <= lab <= 65535 -> (lab = C \/ lab = B) -> spans c0 c l C B A e d j (SDone (continue_break lab (getToken c)))).
    { intros lab Rl E. destruct (has_leave _ _ _ _ _ _ _ _ lab (getToken c) Rl (has_get _ _ _ _ _ _ _ _ _ H)) as (ee & H1 & Pe).
      exists l, ee, (fun _ => 0), (fun x => if lab =? 0 then 0 else Z.b2z (x =? lab)). unfold L. rewrite len_leave. pose proof (len_get c).
      split; [eapply has_ext; [exact H1| |]; intros x; cbn beta; [lia|reflexivity]|]. split; [lia|]. split; [lia|]. split; [lia|]. split; [intros x; lia|].
      intros _ x. unfold loops. destruct (lab =? 0) eqn:Z0; lia. }
    pose proof (h_cont _ _ _ _ _ _ _ _ _ H). pose proof (h_brk _ _ _ _ _ _ _ _ _ H). unfold regs_ok in R.
    destruct (_ =? txBREAK); [|destruct (_ =? txCONTINUE); [|exact I]]; cbv zeta; apply X; cbn [getToken g_break g_continue]; lia.
  Qed.

  Lemma spans_assign o t v c0 c l C B A e d j : o = oSTS \/ o = oSTSB -> has c0 l C B A e d j c ->
    spans c0 c l C B A e d j (assignment n o t v (getToken c)).
  Proof using.
    intros O H. rewrite <- (binds_done (assignment _ _ _ _ _)).
    eapply has_assign; [exact O|apply has_get; exact H|]. intros c' L' H'. pose proof (len_get c). apply spans_quiet; [exact H'|lia].
  Qed.
  Lemma spans_large t v c0 c l C B A e d j : has c0 l C B A e d j c ->
    spans c0 c l C B A e d j (large_assignment n t v (getToken c)).
  Proof using.
    intros H. unfold large_assignment. eapply spost_expr; [apply has_expect; apply has_get; exact H|].
    intros c' L' H'. pose proof (len_get c). pose proof (len_expect tASSIGN eASSIGN (getToken c)). apply spans_quiet.
    - apply has_ref; try reflexivity. apply has_quiet; try reflexivity. exact H'.
    - rewrite len_ref, len_data. lia.
  Qed.

  Lemma spans_any : Spans (any_statement n stmt seq more).
  Proof.
    intros c0 c l C B A e d j H R W. unfold any_statement. cbv zeta.
    apply (has_quiet _ _ _ _ _ _ _ _ oLINE 0 (tline (cur c))) in H; try reflexivity.
    assert (E : len c = len (emit oLINE 0 (tline (cur c)) c)) by (symmetry; apply len_emit).
    set (c1 := emit _ _ _ c) in *. clearbody c1.
    unfold spans, L in *. rewrite E in *. clear E c. change (spans c0 c1 l C B A e d j (
      if is_word_var (token c1) then assignment n oSTS (var_type (token c1)) (tsym (cur c1)) (getToken c1)
      else if is_byte_var (token c1) then assignment n oSTSB (var_type (token c1)) (tsym (cur c1)) (getToken c1)
      else if is_long_var (token c1) then large_assignment n (var_type (token c1)) (tsym (cur c1)) (getToken c1)
      else if token c1 =? tIF then if_statement n stmt c1
      else if token c1 =? tCASE then case_statement n more c1
      else if token c1 =? tREPEAT then repeat_statement n seq c1
      else if token c1 =? tWHILE then while_statement n stmt c1
      else if token c1 =? tFOR then for_statement n stmt c1
      else if token c1 =? tBEGIN then binds (seq c1) (fun c => SDone (expect tEND eEND c))
      else if existsb (Z.eqb (token c1)) other_statements then SNotModelled
      else standard_procedure c1)).
    destruct (is_word_var _); [apply spans_assign; auto|].
    destruct (is_byte_var _); [apply spans_assign; auto|].
    destruct (is_long_var _); [apply spans_large; auto|].
    destruct (token c1 =? tIF) eqn:T1; [apply Z.eqb_eq in T1; apply spans_if; assumption|].
    destruct (token c1 =? tCASE) eqn:T2; [apply Z.eqb_eq in T2; apply spans_case; assumption|].
    destruct (token c1 =? tREPEAT) eqn:T3; [apply Z.eqb_eq in T3; apply spans_repeat; assumption|].
    destruct (token c1 =? tWHILE) eqn:T4; [apply Z.eqb_eq in T4; apply spans_while; assumption|].
    destruct (token c1 =? tFOR) eqn:T5; [apply Z.eqb_eq in T5; apply spans_for; assumption|].
    destruct (token c1 =? tBEGIN) eqn:T6; [apply Z.eqb_eq in T6; apply spans_begin; assumption|].
    destruct (existsb _ _); [exact I|]. apply spans_std; assumption.
  Qed.

  Lemma spans_seq : Spans_seq (fun c => binds (stmt (getToken c)) (fun c => if token c =? tSEMICOLON then seq c else SDone c)).
  Proof.
    intros c0 c l C B A e d j N H R W. pose proof (len_get_lt c N) as G. unfold L in *.
    eapply spost_bind; [apply HS|].
    - apply has_get. exact H.
    - exact R.
    - unfold L. lia.
    - cbn beta. intros c2 (l2 & e2 & d2 & j2 & H2 & P2 & Q2 & W2 & F2 & K2). unfold L in *.
      destruct (token c2 =? tSEMICOLON) eqn:T.
      + apply Z.eqb_eq in T. assert (N2 : token c2 <> 0) by (rewrite T; discriminate).
        eapply spost_weaken; [apply HQ|].
        * exact N2.
        * exact H2.
        * unfold regs_ok in *. lia.
        * unfold L. lia.
        * cbn beta. intros c3 (l3 & e3 & d3 & j3 & H3 & P3 & Q3 & W3 & F3 & K3). unfold L in *.
          exists l3, (e2 + e3), (fun x => d2 x + d3 x), (fun x => j2 x + j3 x).
          split; [rewrite Z.add_assoc; done_with|]. split; [lia|]. split; [lia|]. split; [lia|].
          split; [intros x; specialize (F2 x); specialize (F3 x); lia|].
          intros E. specialize (K2 ltac:(lia)). specialize (K3 ltac:(lia)). intros x. specialize (K2 x). specialize (K3 x).
          specialize (F2 x). specialize (F3 x). unfold loops in *. lia.
      + cbn [spost]. exists l2, e2, d2, j2. split; [exact H2|]. split; [lia|]. split; [lia|]. split; [lia|]. split; [exact F2|exact K2].
  Qed.

  Lemma spans_one : Spans_cases (one_case n stmt more).
  Proof.
    intros this fin c0 c l C B A e d j H R Rt Rf W. unfold one_case. cbv zeta. unfold L in *.
    assert (Rl : 0 <= l < 65535) by (unfold regs_ok in *; lia).
    rewrite (has_new _ _ _ _ _ _ _ _ _ H Rl). apply has_counted in H; [|exact Rl].
    assert (Lc : len (count c) = len c) by reflexivity. set (c1 := count c) in *. clearbody c1.
    unfold spans_cases, L. rewrite <- Lc in *. clear c Lc.
    destruct (token c1 =? tELSE) eqn:T.
    - gets c1 T G. eapply spost_bind; [apply HS|].
      + eapply has_label; [|apply has_get; exact H]. lia.
      + unfold regs_ok in *. lia.
      + unfold L. rewrite len_data. lia.
      + cbn beta. intros c2 (l2 & e2 & d2 & j2 & H2 & P2 & Q2 & W2 & F2 & K2). unfold L in *. rewrite len_data in W2. cbn [spost].
        exists l2, e2, (fun x => Z.b2z (x =? this) + d2 x), j2. split.
        { eapply has_ext; [apply has_expect; destruct (token c2 =? tSEMICOLON); [apply has_get|]; exact H2| |]; intros x; cbn beta; lia. }
        match goal with |- context [expect tEND eEND ?c] => pose proof (len_expect tEND eEND c) as X; assert (Y : (len c <= len c2)%nat) by (destruct (token c2 =? tSEMICOLON); [apply len_get|lia]) end.
        split; [lia|]. split; [lia|]. split; [lia|].
        split; [intros x; specialize (F2 x); lia|].
        intros E. split; [specialize (F2 this); lia|]. specialize (K2 E). intros x. specialize (K2 x). specialize (F2 x). unfold loops in *. lia.
    - assert (Rl' : 0 <= l + 1 < 65535) by (unfold regs_ok in *; lia).
      rewrite (has_new _ _ _ _ _ _ _ _ _ H Rl'). apply has_counted in H; [|exact Rl'].
      eapply spost_bind; [apply (has_consts c0 (l + 1 + 1) C B A e); [| |eapply has_label; [|exact H]]; lia|].
      cbn beta. intros c2 (L2 & jj & H2 & J2). rewrite len_data in L2. change (len (count c1)) with (len c1) in L2.
      pose proof (len_expect tCOLON eCOLON c2) as L2'.
      eapply spost_bind; [apply HS|].
      + eapply has_label; [|apply has_expect; exact H2]. lia.
      + unfold regs_ok in *. lia.
      + unfold L. rewrite len_data. lia.
      + cbn beta. intros c3 (l3 & e3 & d3 & j3 & H3 & P3 & Q3 & W3 & F3 & K3). unfold L in *. rewrite len_data in W3.
        assert (Rfin : 0 <= fin <= 65535) by lia.
        apply (has_jump _ _ _ _ _ _ _ _ oJMP fin _ eq_refl Rfin) in H3.
        assert (L3 : len (data_op oJMP fin c3) = len c3) by apply len_data.
        set (c4 := data_op oJMP fin c3) in *. clearbody c4.
        destruct (negb (token c4 =? tSEMICOLON) && negb (token c4 =? tEND)) eqn:T4.
        { cbn [spost]. exists l3, (e3 + 1), (fun x => Z.b2z (x =? this) + Z.b2z (x =? l + 1 + 1) + d3 x), (fun x => jj x + j3 x + Z.b2z (x =? fin)).
          split; [eapply has_ext; [rewrite Z.add_assoc; apply has_error; exact H3| |]; intros x; cbn beta; lia|].
          rewrite len_error. split; [lia|]. split; [lia|]. split; [lia|]. split; [intros x; specialize (F3 x); lia|]. lia. }
        set (c5 := if token c4 =? tSEMICOLON then getToken c4 else c4).
        assert (H5 : has c0 l3 C B A (e + e3) (fun x => d x + Z.b2z (x =? this) + Z.b2z (x =? l + 1 + 1) + d3 x)
          (fun x => j x + jj x + j3 x + Z.b2z (x =? fin)) c5).
        { unfold c5. destruct (token c4 =? tSEMICOLON); [apply has_get|]; exact H3. }
        assert (L5 : (len c5 <= len c3)%nat /\ (token c5 <> tEND -> len c5 < len c3)%nat).
        { unfold c5. rewrite <- L3. destruct (token c4 =? tSEMICOLON) eqn:T5.
          - gets c4 T5 G. lia.
          - cbn [negb andb] in T4. apply negb_false_iff, Z.eqb_eq in T4. split; [lia|]. intros K. contradiction. }
        clearbody c5.
        destruct (token c5 =? tEND) eqn:T5.
        { cbn [spost]. pose proof (len_get (data_op oLABEL (l + 1) c5)) as X. rewrite len_data in X.
          exists l3, e3, (fun x => Z.b2z (x =? this) + Z.b2z (x =? l + 1 + 1) + d3 x + Z.b2z (x =? l + 1)), (fun x => jj x + j3 x + Z.b2z (x =? fin)).
          split; [eapply has_ext; [apply has_get; eapply has_label; [|exact H5]; lia| |]; intros x; cbn beta; lia|].
          split; [lia|]. split; [lia|]. split; [lia|]. split; [intros x; specialize (F3 x); lia|].
          intros E. split; [specialize (F3 this); lia|].
          specialize (K3 E). intros x. specialize (K3 x). specialize (F3 x). specialize (J2 x). intros Hx.
          assert (D : 0 < jj x \/ 0 < j3 x \/ x = fin) by (clear -Hx; lia). destruct J2 as (_ & J2).
          destruct D as [D|[D|D]]; [destruct (J2 D) as [X1|X1]; left; clear -X1 F3; lia| |right; right; exact D].
          destruct (K3 D) as [X1|X1]; [left; clear -X1; lia|right; left; exact X1]. }
        apply Z.eqb_neq in T5. destruct L5 as (_ & L5). specialize (L5 T5).
        eapply spost_weaken; [apply HC|].
        * exact H5.
        * unfold regs_ok in *. lia.
        * lia.
        * lia.
        * unfold L. lia.
        * cbn beta. intros c6 (l6 & e6 & d6 & j6 & H6 & P6 & Q6 & W6 & F6 & K6). unfold L in *.
          exists l6, (e3 + e6), (fun x => Z.b2z (x =? this) + Z.b2z (x =? l + 1 + 1) + d3 x + d6 x), (fun x => jj x + j3 x + Z.b2z (x =? fin) + j6 x).
          split; [rewrite Z.add_assoc; done_with|].
          split; [lia|]. split; [lia|]. split; [lia|]. split; [clear -F3 F6 Q3 Q6 Rt; intros x; specialize (F3 x); specialize (F6 x); lia|].
          intros E. specialize (K3 ltac:(lia)). specialize (K6 ltac:(lia)). destruct K6 as (K6' & K6).
          split; [specialize (F3 this); specialize (F6 this); lia|].
          intros x Hx. specialize (K3 x). specialize (K6 x). specialize (F3 x). specialize (F6 x). specialize (J2 x).
          assert (D : 0 < jj x \/ 0 < j3 x \/ x = fin \/ 0 < j6 x) by (clear -Hx; lia). destruct J2 as (_ & J2).
          destruct D as [D|[D|[D|D]]]; [destruct (J2 D) as [X1|X1]| |right; right; exact D|].
          -- left. clear -X1 F3 F6. lia.
          -- left. clear -X1 F3 K6'. subst x. lia.
          -- destruct (K3 D) as [X1|X1]; [left; clear -X1 F6; lia|right; left; exact X1].
          -- destruct (K6 D) as [X1|X1]; [left; clear -X1 F3; lia|right; exact X1].
  Qed.
End Step.

Lemma all_spans n : Spans (statement n) /\ Spans_seq (statements n) /\ Spans_cases (cases n).
Proof.
  induction n as [|n (HS & HQ & HC)].
  { repeat match goal with |- _ /\ _ => split end; intro; intros; exact I. }
  repeat match goal with |- _ /\ _ => split end.
  - intros c0 c l C B A e d j. rewrite (statement_S n). apply spans_any; assumption.
  - intros c0 c l C B A e d j. rewrite (statements_S n). apply (spans_seq (statement n) (statements n)); assumption.
  - intros this fin c0 c l C B A e d j. rewrite (cases_S n). apply spans_one; assumption.
Qed.

End Labels.

Theorem statement_labels n c c' : statement n c = SDone c' ->
  0 <= g_label c -> g_label c + 4 * Z.of_nat (length (toks c)) <= 65535 ->
  0 <= g_continue c <= 65535 -> 0 <= g_break c <= 65535 -> -32768 <= g_adjust c <= 32767 ->
  exists ps, out c' = out c ++ ps /\ NoDup (labels ps) /\
    (forall x, In x (labels ps) -> g_label c < x <= g_label c') /\
    g_label c <= g_label c' <= g_label c + 4 * (Z.of_nat (length (toks c)) - Z.of_nat (length (toks c'))) /\
    g_level c' = g_level c /\ g_continue c' = g_continue c /\ g_break c' = g_break c /\ g_adjust c' = g_adjust c /\
    (errs c' = errs c -> forall x, In x (targets ps) -> In x (labels ps) \/ (x <> 0 /\ (x = g_continue c \/ x = g_break c))).
Proof.
  intros H R1 R2 R3 R4 R5. pose proof (proj1 (all_spans (fun _ => True) n) c c _ _ _ _ 0 _ _ (has_start _ c)) as X.
  specialize (X ltac:(unfold regs_ok; lia) R2). rewrite H in X.
  destruct X as (l' & ee & dd & jj & [(ps & P1 & P2 & P3) (es & E1 & E2) X1 X2 X3 X4 X5 X6] & Pe & Ql & Wl & F & K). unfold L, len in Wl.
  exists ps. split; [exact P1|]. split; [apply occ_nodup; intros x; rewrite P2; specialize (F x); lia|].
  split; [intros x I; apply occ_in in I; rewrite P2 in I; specialize (F x); lia|].
  split; [lia|]. repeat (split; [assumption|]).
  intros E. assert (es = []).
  { apply (app_inv_head (errs c)). rewrite app_nil_r. congruence. }
  subst es. cbn [length] in E2. specialize (K ltac:(lia)). intros x I. apply occ_in in I. rewrite P3 in I.
  destruct (K x) as [J|J]; [lia|left; apply occ_in; rewrite P2; lia|right; exact J].
Qed.
