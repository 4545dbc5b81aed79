(** Programs: the start of the machine and the main block together. *)

From Coq Require Import ZArith Bool List Lia ZifyBool.
From Verif Require Import Words WordLemmas State StateLemmas Opcodes EncodeModel Machine VmSpec VmProofs HeapModel
  OptSpec ExprModel ExprSpec ExprRun ExprOps ExprLoad StmtModel StmtSpec StmtPlain StmtRun StmtStep StmtMain
  ActModel ActSpec BlockModel BlockSpec BlockProofs BlockFrame StartModel StartSpec StartProofs.
From Verif Require Import StmtSpec.
Import ListNotations.
Open Scope Z_scope.

(** ** The state at the start *)

Section Started.
  Variables (a : attr) (s : st).
  Hypothesis St : startable a.
  Hypothesis A : at_start a s.

  Lemma start_facts : fp s = stack_at a /\ sp s = fp s + 10 /\ c_spb (cf s) = sp s /\ c_ssz (cf s) = end_at a /\ c_ssz (cf s) <= 65535 /\
    c_ssz (cf s) mod 2 = 0 /\ sp s mod 2 = 0 /\ 0 <= fp s /\ sp s + a_stk a - 10 <= c_ssz (cf s) /\ 12 <= a_stk a.
  Proof.
    destruct A as [(M1 & M2 & M3 & M4 & M5) (R1 & R2 & R3 & R4 & R5) _]. destruct St as [(P1 & P2 & P3 & P4) Su _ _ _].
    rewrite R1, R2, M2, M5. unfold end_at, heap_at, stack_at, ro_at, up in *. repeat split; try lia.
  Qed.
  Lemma start_chain : static_chain s (fp s) 0.
  Proof.
    apply chain_main. destruct A as [_ (R1 & _) (_ & _ & _ & _ & L)]. exists 0, 0. rewrite R1. split; [exact L|lia].
  Qed.
  Lemma start_regular : regular s.
  Proof.
    pose proof start_facts as F. destruct A as [_ (R1 & R2 & R3 & R4 & R5) _]. unfold regular. rewrite R3, R4. intuition lia.
  Qed.
  Lemma start_room n : 0 <= n -> 10 + 2 * n < a_stk a -> room s n.
  Proof. intros N L. pose proof start_facts as F. unfold room. intuition lia. Qed.

  (** Global variables *)
  Variables (dstack : Z) (xs : list var).
  Hypothesis Lo : locals 0 dstack xs.
  Hypothesis Ds : 0 <= dstack <= 32766.
  Hypothesis Fit : 10 + whole dstack < a_stk a.
  Definition global_adr (x : var) : Z := c_spb (cf s) + voff x.

  Lemma global_placed : placed 0 xs global_adr (fun _ => False) ((sp s + whole dstack) / 2) s.
  Proof.
    pose proof start_facts as (F1 & F2 & F3 & F4 & F5 & F6 & F7 & F8 & F9 & F10).
    assert (W : dstack <= whole dstack <= dstack + 1 /\ whole dstack mod 2 = 0) by (unfold whole; lia). constructor.
    - lia.
    - intros s' (R1 & _) _ x Hx. destruct (lo_at _ _ _ Lo x Hx) as (L1 & L2 & L3 & L4). pose proof (sizes_small (vty x)).
      unfold var_address. rewrite L1. cbn [Z.eqb]. unfold global_ea, global_adr. rewrite R1. split; [lia|]. exists 0. lia.
    - intros i [].
    - intros x Hx. destruct (lo_at _ _ _ Lo x Hx) as (L1 & L2 & L3 & L4). pose proof (sizes_small (vty x)). unfold global_adr. rewrite F3.
      split; [lia|]. split; [lia|]. intros Z1. specialize (L4 Z1). lia.
    - intros x y Hx Hy N. pose proof (lo_sep _ _ _ Lo x y Hx Hy N) as D. unfold disjoint, global_adr in *. lia.
  Qed.
  Lemma global_values : exists r, holding xs global_adr s r.
  Proof.
    apply (choose (fun x z => contains s (vty x) (global_adr x) z) xs). intros x Hx. pose proof start_facts as (F1 & F2 & F3 & F4 & F5 & F6 & F7 & F8 & F9 & F10).
    assert (W : dstack <= whole dstack <= dstack + 1 /\ whole dstack mod 2 = 0) by (unfold whole; lia).
    destruct (lo_at _ _ _ Lo x Hx) as (L1 & L2 & L3 & L4). pose proof (sizes_small (vty x)).
    apply any_contents; unfold global_adr; rewrite ?F3; try lia.
  Qed.
End Started.

(** ** Programs *)

Lemma program_ok xs dstack inits ini ts ss : block_text 0 xs dstack inits ini ts ss -> locals 0 dstack xs ->
  forall c b rest label inner, toks c = ts ++ b :: rest -> tk b = tPERIOD -> g_level c = 0 -> g_adjust c = 0 ->
  0 <= g_label c -> g_label c + 2 * Z.of_nat (length ts) <= 65535 -> 0 <= label <= 65535 ->
  exists c' main,
    (forall n, (4 * length (toks c) + 2 <= n)%nat -> program_block n label dstack inner inits c = SDone c') /\
    errs c' = errs c /\
    out c' = out c ++ match inner with Some code => code | None => [] end ++ main ++ [mkOp oEND 0 0] /\
    hd_error main = Some (mkOp oLABEL 0 label) /\
    forall prog i, stands prog i (main ++ [mkOp oEND 0 0]) ->
    forall a junk, startable a -> 10 + whole dstack + 4 * Z.of_nat (length ts) + 4 < a_stk a ->
    forall Q : env -> Prop, (forall r r1, started ini r r1 -> exists r', means_seq ss r1 Normal r' /\ Q r') ->
    exists s s' r', initialize a junk = HV s /\ runs prog (i, s) ((i + length main)%nat, s') /\
      nth_error prog (i + length main) = Some (mkOp oEND 0 0) /\ Q r' /\
      same_regs s s' /\ sp s' = sp s /\ holding xs (fun x => stack_at a + 10 + voff x) s' r'.
Proof.
  intros Bt Lo [T O E l L C B A] b rest label inner. cbn [toks out errs g_label g_level g_continue g_break g_adjust].
  intros -> Tb -> -> H1 H2 Hl.
  destruct (block_ok 0 xs dstack inits ini ts ss Bt label Hl inner (b :: rest) O E l C B H1 H2) as (main & l' & Hl' & Hd & Hc & Hs).
  exists (mkComp (b :: rest) (O ++ match inner with Some code => code | None => [] end ++ main ++ [mkOp oEND 0 0]) E l' 0 C B 0), main.
  split; [|split; [reflexivity|split; [reflexivity|split; [exact Hd|]]]].
  - intros n Hn. unfold program_block. rewrite Hc by exact Hn. cbn [binds]. unfold error_if.
    match goal with |- context [token ?q =? tPERIOD] => replace (token q =? tPERIOD) with true by (unfold token; cbn; rewrite Tb; reflexivity) end.
    cbn [negb].
    rewrite c_simple by reflexivity. rewrite <- !app_assoc.
    replace (nested_code 0 label inner) with (match inner with Some code => code | None => [] end)
      by (unfold nested_code; destruct inner; [destruct (0 <? label); reflexivity|reflexivity]). reflexivity.
  - intros prog i Si a junk Sa Fit Q Me. pose proof (bt_stack _ _ _ _ _ _ _ Bt) as Ds.
    apply stands_app in Si. destruct Si as (S1 & S2).
    destruct (start_ok a junk Sa) as (s & I & As & _).
    pose proof (start_facts a s Sa As) as (F1 & F2 & F3 & F4 & F5 & F6 & F7 & F8 & F9 & F10).
    assert (W : dstack <= whole dstack <= dstack + 1 /\ whole dstack mod 2 = 0) by (unfold whole; lia).
    destruct (global_values a s Sa As dstack xs Lo ltac:(lia)) as (r & R).
    assert (Sta : started ini r (assigned ini r)).
    { split; [intros x z Hx; destruct (assigned_in ini r x) as (w & W1 & W2); [apply (in_map fst) in Hx; exact Hx|]; rewrite W2; eapply once_fun; [exact (bt_once _ _ _ _ _ _ _ Bt)|eassumption|eassumption]|intros x Hx; apply assigned_other, Hx]. }
    destruct (Me r _ Sta) as (r' & M & Hq).
    assert (G : placed 0 xs (global_adr s) (fun _ => False) ((sp s + whole dstack) / 2) s) by (apply (global_placed a s Sa As dstack xs Lo Ds); lia).
    destruct (Hs (global_adr s) (fun _ => False) _ s G F6 prog i S1 s r (assigned ini r) r') as (s' & X & (M1 & M2 & M3 & M4)).
    + apply same_regs_refl.
    + intros j [].
    + lia.
    + exact R.
    + apply (start_room a s Sa As); unfold room_for; lia.
    + exact Sta.
    + exact M.
    + exists s, s', r'. split; [exact I|]. split; [exact X|]. split; [|split; [exact Hq|split; [exact M1|split; [lia|]]]].
      * specialize (S2 0%nat (mkOp oEND 0 0) eq_refl). rewrite Nat.add_0_r in S2. exact S2.
      * intros x Hx. specialize (M3 x Hx). unfold global_adr in M3. rewrite F3, F2, F1 in M3. exact M3.
Qed.
