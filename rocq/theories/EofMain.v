(** The functions that ask for the end of a file or of a line. *)

From Coq Require Import ZArith Bool List Lia ZifyBool.
From Verif Require Import Words WordLemmas State StateLemmas Opcodes EncodeModel SetModel LongModel Machine VmSpec
  VmProofs MemProofs MultiProofs ExprModel ExprSpec ExprRun ExprOps ExprLoad ExprProofs ExprMain
  StmtModel ArrModel ArrProofs ArrCases WriteModel WriteSpec WriteRun WriteProofs WriteMain FileModel FileSpec FileMain EofModel EofSpec.
From Verif Require SysioModel SysioSpec SysioProofs SysioText StringSpec StringProofs.
Import ListNotations.
Open Scope Z_scope.
Local Ltac Zify.zify_post_hook ::= Z.div_mod_to_equations.

Definition qcode (q : query) : Z :=
  match q with QEof => SysioModel.xEOF | QEoln => SysioModel.xEOLN | QSeekEof => SysioModel.xSEEKEOF | QSeekEoln => SysioModel.xSEEKEOLN end.
Definition ask (q : query) (e : SysioModel.env) (s : st) (t : SysioModel.io) (n : Z) : SysioModel.sres :=
  match q with
  | QEof => SysioModel.eof e s t n
  | QEoln => SysioModel.eoln s t n
  | QSeekEof => SysioModel.seek_op false s t n
  | QSeekEoln => SysioModel.seek_op true s t n
  end.
Lemma sysio_ask q e s t : SysioModel.sysio e s t (qcode q) = SysioModel.sbind (pop s) (fun '(n, s) => ask q e s t n).
Proof. destruct q; reflexivity. Qed.

Lemma space_iff c : SysioModel.isspace c = true <-> white c.
Proof. unfold SysioModel.isspace, white. lia. Qed.

Lemma seek_spec stop : forall l, exists w, l = w ++ fst (fst (SysioModel.seek_white stop l)) /\
  (stop = false -> (snd (fst (SysioModel.seek_white stop l)) = true <-> Forall white l) /\
     (snd (fst (SysioModel.seek_white stop l)) = true -> fst (fst (SysioModel.seek_white stop l)) = [])) /\
  (stop = true -> In 10 l -> (snd (fst (SysioModel.seek_white stop l)) = true <-> exists w r, l = w ++ 10 :: r /\ Forall white w)).
Proof.
  induction l as [|c l IH]; cbn [SysioModel.seek_white].
  - exists []. cbn. split; [reflexivity|]. split; [intros ->; split; [split; [constructor|reflexivity]|reflexivity]|intros _ []].
  - destruct IH as (w & E & F & G). destruct stop; cbn [andb].
    + destruct (Z.eqb_spec c 10) as [->|C].
      * exists [10]. cbn. split; [reflexivity|]. split; [discriminate|]. intros _ _. split; [intros _; exists [], l; split; [reflexivity|constructor]|reflexivity].
      * destruct (SysioModel.isspace c) eqn:Sp.
        -- exists (c :: w). cbn [app]. split; [f_equal; exact E|]. split; [discriminate|]. intros _ I. destruct I as [I|I]; [congruence|].
           rewrite (G eq_refl I). split.
           ++ intros (v & r & -> & H). exists (c :: v), r. split; [reflexivity|]. constructor; [apply space_iff; exact Sp|exact H].
           ++ intros ([|d v] & r & Q & H); cbn [app] in Q; [injection Q as -> _; congruence|]. injection Q as -> ->. exists v, r. split; [reflexivity|]. inversion H; assumption.
        -- exists [c]. cbn. split; [reflexivity|]. split; [discriminate|]. intros _ _. split; [discriminate|].
           intros ([|d v] & r & Q & H); cbn [app] in Q; [injection Q as -> _; congruence|]. injection Q as -> _. inversion H as [|? ? W _]; subst.
           apply space_iff in W. congruence.
    + destruct (SysioModel.isspace c) eqn:Sp.
      * exists (c :: w). cbn [app]. split; [f_equal; exact E|]. split; [|discriminate]. intros _. destruct (F eq_refl) as (F1 & F2). split; [|exact F2].
        rewrite F1. split; [intros H; constructor; [apply space_iff; exact Sp|exact H]|intros H; inversion H; assumption].
      * exists [c]. cbn. split; [reflexivity|]. split; [|discriminate]. intros _. split; [|discriminate]. split; [discriminate|].
        intros H. inversion H as [|? ? W _]; subst. apply space_iff in W. congruence.
Qed.

(** The function gives an answer [b] and a new table. *)
Lemma ask_ok q e s t n y : SysioSpec.readable t n y -> suited q e n y ->
  exists (b : bool) t' y', ask q e s t n = SysioModel.sbind (push s (if b then 65535 else 0)) (fun s => SysioModel.SR eNOERROR s t') /\
    (b = true <-> holds q (SysioModel.rest y) (SysioModel.e_eoln (SysioModel.ent t n))) /\
    (forall m, 0 <= m < 8 -> m <> n -> SysioModel.ent t' m = SysioModel.ent t m) /\
    SysioSpec.readable t' n y' /\ SysioModel.out y' = SysioModel.out y /\
    (exists w, SysioModel.rest y = w ++ SysioModel.rest y') /\
    (b = true -> q = QSeekEof -> SysioModel.rest y' = []) /\ (q = QEof \/ q = QEoln -> t' = t).
Proof.
  intros R Su. pose proof R as (N & L & E & M). assert (Sm : (SysioModel.MAX_OPEN_FILES <=? n) = false) by (apply Z.leb_gt; unfold SysioModel.MAX_OPEN_FILES; lia).
  assert (X : SysioModel.the_stream (SysioModel.ent t n) = y) by (unfold SysioModel.the_stream; rewrite E; reflexivity).
  assert (Seek : forall stop, exists t' y', SysioModel.seek_op stop s t n =
      SysioModel.sbind (push s (if snd (fst (SysioModel.seek_white stop (SysioModel.rest y))) then 65535 else 0)) (fun s => SysioModel.SR eNOERROR s t') /\
      (forall m, 0 <= m < 8 -> m <> n -> SysioModel.ent t' m = SysioModel.ent t m) /\ SysioSpec.readable t' n y' /\ SysioModel.out y' = SysioModel.out y /\
      SysioModel.rest y' = fst (fst (SysioModel.seek_white stop (SysioModel.rest y)))).
  { intros stop. unfold SysioModel.seek_op, SysioModel.is_open. rewrite Sm, E, X. cbn [negb]. cbv zeta.
    destruct (SysioModel.seek_white stop (SysioModel.rest y)) as [[r b] a]. cbn [fst snd].
    eexists _, (SysioModel.mkStream r (SysioModel.out y) (SysioModel.ate y || a)). split; [reflexivity|].
    split; [intros m M1 M2; unfold SysioModel.put_stream; apply put_other; assumption|]. split; [|split; reflexivity].
    unfold SysioSpec.readable, SysioModel.put_stream. rewrite SysioText.ent_put' by assumption.
    split; [exact N|]. split; [unfold SysioModel.put; cbn [SysioModel.ftab]; rewrite SysioProofs.set_nth_length; exact L|]. split; [reflexivity|exact M]. }
  destruct q; cbn [ask holds suited] in *.
  - destruct Su as (S1 & S2 & S3). exists (match SysioModel.rest y with [] => true | _ => false end), t, y. split.
    + unfold SysioModel.eof, SysioModel.is_open. rewrite Sm, E, X, S2. cbn [negb]. destruct (SysioModel.ate y) eqn:At; [rewrite (S3 eq_refl); reflexivity|].
      replace (n =? 0) with false by lia. reflexivity.
    + split; [destruct (SysioModel.rest y); split; congruence|]. split; [auto|]. split; [exact R|]. split; [reflexivity|]. split; [exists []; reflexivity|].
      split; [discriminate|reflexivity].
  - exists (SysioModel.e_eoln (SysioModel.ent t n)), t, y. split; [unfold SysioModel.eoln; rewrite Sm; reflexivity|]. split; [reflexivity|]. split; [auto|]. split; [exact R|]. split; [reflexivity|].
    split; [exists []; reflexivity|]. split; [discriminate|reflexivity].
  - destruct (Seek false) as (t' & y' & A1 & A2 & A3 & A4 & A5). destruct (seek_spec false (SysioModel.rest y)) as (w & B1 & B2 & _).
    destruct (B2 eq_refl) as (B3 & B4). eexists _, t', y'. split; [exact A1|]. split; [exact B3|]. split; [exact A2|]. split; [exact A3|]. split; [exact A4|].
    split; [exists w; rewrite A5; exact B1|]. split; [intros Hb _; rewrite A5; exact (B4 Hb)|intros [Q|Q]; discriminate Q].
  - destruct (Seek true) as (t' & y' & A1 & A2 & A3 & A4 & A5). destruct (seek_spec true (SysioModel.rest y)) as (w & B1 & _ & B2).
    eexists _, t', y'. split; [exact A1|]. split; [exact (B2 eq_refl Su)|]. split; [exact A2|]. split; [exact A3|]. split; [exact A4|].
    split; [exists w; rewrite A5; exact B1|]. split; [intros _ Q; discriminate Q|intros [Q|Q]; discriminate Q].
Qed.

Lemma ask_closed q e s t n : q <> QEoln -> 0 <= n < 8 -> SysioModel.e_str (SysioModel.ent t n) = None ->
  exists v c, ask q e s t n = SysioModel.sbind (push s v) (fun s => SysioModel.SR c s t) /\ 0 <= v < 65536 /\ c <> eNOERROR.
Proof.
  intros Q N E. assert (Sm : (SysioModel.MAX_OPEN_FILES <=? n) = false) by (apply Z.leb_gt; unfold SysioModel.MAX_OPEN_FILES; lia).
  destruct q; [|congruence|..]; cbn [ask]; unfold SysioModel.eof, SysioModel.seek_op, SysioModel.is_open; rewrite Sm, E; cbn [negb];
    eexists _, _; (split; [reflexivity|split; [unfold SysioModel.pbool; lia|discriminate]]).
Qed.

Lemma answers_run lev x q : vty x = xWord -> answers lev ([refer lev oLDS x] ++ [io_code (qcode q)]) x q.
Proof.
  intros T env e s t R Lo.
  assert (K : 0 <= env x < 8 -> exists s1, pushed s s1 [] /\ room s1 1 /\
    forall v c t', ask q e s1 t (env x) = SysioModel.sbind (push s1 v) (fun s => SysioModel.SR c s t') -> 0 <= v < 65536 ->
      exists s', pushed s s' [v] /\ exec_io e ([refer lev oLDS x] ++ [io_code (qcode q)]) s t = if c =? eNOERROR then Some (s', t') else None).
  { intros B. destruct (run_file lev x env s T R Lo B) as (s1 & E1 & P1). pose proof R as (R1 & R2 & R3 & R4).
    assert (B1 : 0 <= sp s1 < 65536) by (destruct P1 as (_ & Sp & _); cbn [length] in Sp; lia).
    pose proof (pushed_operands _ _ _ B1 P1) as Ho. cbn [rev app] in Ho.
    assert (P2 : pushed s (with_pc (discard s1 1) (pc s1)) []) by (eapply pushed_discard; [lia|exact P1|reflexivity]).
    change (with_pc (discard s1 1) (pc s1)) with (discard s1 1) in P2.
    assert (Rm : room (discard s1 1) 1) by (pose proof (room_pushed _ _ _ _ P2 R) as Q; exact Q).
    exists (discard s1 1). split; [exact P2|]. split; [exact Rm|]. intros v c t' A V.
    destruct (push_effect (discard s1 1) v Rm V) as (s2 & E2 & F2 & _).
    pose proof (pushed_app _ _ _ _ _ P2 (effect_pushed _ _ _ F2)) as P3. cbn [app] in P3.
    exists (with_pc s2 (u16 (pc s1 + 3))). split; [exact P3|].
    rewrite exec_io_app, (exec_io_ok e t _ _ _ E1), one_io, sysio_ask. StringProofs.start_pops Ho. cbn [SysioModel.sbind].
    rewrite A, E2. cbn [SysioModel.sbind]. reflexivity. }
  split.
  - intros y Rd Su. destruct (K (proj1 Rd)) as (s1 & P & Rm & H).
    destruct (ask_ok q e s1 t (env x) y Rd Su) as (b & t' & y' & A & D).
    destruct (H _ _ _ A) as (s' & P' & X); [destruct b; lia|]. change (eNOERROR =? eNOERROR) with true in X. cbv iota in X.
    exists s', t', b, y'. split; [exact X|]. split; [exact P'|exact D].
  - intros Q B E. destruct (K B) as (s1 & P & Rm & H).
    destruct (ask_closed q e s1 t (env x) Q B E) as (v & c & A & V & D).
    destruct (H _ _ _ A V) as (s' & _ & X). rewrite X, (proj2 (Z.eqb_neq c eNOERROR) D). reflexivity.
Qed.

Lemma qcode_range q : 0 <= qcode q <= 65535. Proof. destruct q; vm_compute; split; discriminate. Qed.

Lemma asked : forall lev inx inf ts x q,
  gquery lev inx ts x q -> sLevel inf = vlev inx -> vOffset inf = voff inx -> vty inx = xWord -> addressable lev inx ->
  exists code,
    (forall c rest, toks c = ts ++ rest -> (length ts = 1%nat -> tk (hd eoftok rest) <> tLPAREN) -> g_level c = lev ->
       exists c', file_function inf c = Done xBoolean c' /\ errorless c c' rest code) /\
    answers lev code x q.
Proof.
  intros lev inx inf ts x q G Lv Of To Ad.
  destruct G as [a b f x d q A1 A2 B Nf Af D|a q A1 A2].
  - exists ([refer lev oLDS x] ++ [io_code (qcode q)]). split; [|apply answers_run, Nf].
    intros c rest Tk _ L. cbn [app] in Tk. exists (after c rest ([refer lev oLDS x] ++ [io_code (qcode q)])). split; [|apply after_errorless].
    assert (Cu : cur c = a) by (unfold cur; rewrite Tk; reflexivity).
    assert (Tc : token c = tSTDFUNC) by (unfold token; rewrite Cu; exact A1).
    unfold file_function. rewrite Tc, Cu, A2. cbn [Z.eqb Pos.eqb negb tSTDFUNC].
    assert (FP : file_func inf (qcode q) c = Done xBoolean (after c rest ([refer lev oLDS x] ++ [io_code (qcode q)]))).
    { unfold file_func. rewrite (get_at c a _ Tk), token_after. cbn [hd]. rewrite B, Z.eqb_refl, get_after.
      destruct (file_any lev f x (d :: rest) (after c (f :: d :: rest) []) inf Nf Af eq_refl L) as (bb & ->).
      rewrite io_op_eq by apply qcode_range. rewrite append_after. unfold expect. rewrite token_after. cbn [hd]. rewrite D, Z.eqb_refl, get_after, after_after. reflexivity. }
    destruct q; exact FP.
  - exists ([refer lev oLDS inx] ++ [io_code (qcode q)]). split; [|apply answers_run, To].
    intros c rest Tk Np L. cbn [app] in Tk. specialize (Np eq_refl).
    exists (after c rest ([refer lev oLDS inx] ++ [io_code (qcode q)])). split; [|apply after_errorless].
    assert (Cu : cur c = a) by (unfold cur; rewrite Tk; reflexivity).
    assert (Tc : token c = tSTDFUNC) by (unfold token; rewrite Cu; exact A1).
    unfold file_function. rewrite Tc, Cu, A2. cbn [Z.eqb Pos.eqb negb tSTDFUNC].
    assert (FP : file_func inf (qcode q) c = Done xBoolean (after c rest ([refer lev oLDS inx] ++ [io_code (qcode q)]))).
    { unfold file_func. rewrite (get_at c a _ Tk), token_after. replace (tk (hd eoftok rest) =? tLPAREN) with false by lia.
      rewrite (stack_ref_eq lev oLDS inf inx); [|cbn; tauto|exact Lv|exact Of|exact L|exact Ad].
      rewrite append_after, io_op_eq by apply qcode_range. rewrite append_after. reflexivity. }
    destruct q; exact FP.
Qed.
