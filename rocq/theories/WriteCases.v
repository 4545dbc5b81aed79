(** The statement about Write and WriteLn, and what contradicts it. *)

From Coq Require Import ZArith Bool List Lia ZifyBool.
From Verif Require Import Words State Opcodes EncodeModel Machine VmSpec ExprModel ExprSpec ExprRun ExprOps ExprLoad ExprProofs ExprCases
  StmtModel ArrCases WriteModel WriteSpec WriteRun WriteProofs WriteMain.
From Verif Require SysioModel SysioSpec ActRun.
Import ListNotations.
Open Scope Z_scope.

(** The code [code] leaves registers and stack as they are and adds [l] to the file. *)
Definition only_writes (lev : Z) (code : list opType) (k : Z) (env : var -> Z) (vs : list var) (x : var) (ro l : list Z) : Prop :=
  forall e s t y, room s k -> (forall z, In z (x :: vs) -> located lev s z (env z)) -> constants s ro ->
    SysioSpec.writable t (env x) y -> SysioModel.e_fail e = false ->
    exists s' t', exec_io e code s t = Some (s', t') /\ same_regs s s' /\ sp s' = sp s /\
      (forall i, i <= sp s / 2 -> rd s' i = rd s i) /\ got t t' (env x) l.

Lemma written : forall str lev outx outf ts x is ln,
  gwrite str lev outx ts x is ln -> sLevel outf = vlev outx -> vOffset outf = voff outx -> vty outx = xWord -> addressable lev outx ->
  forall ro, Z.of_nat (length ro) + strings_size is <= 32767 ->
  exists code more,
    (forall c rest n, toks c = ts ++ rest -> (length ts = 1%nat -> tk (hd eoftok rest) <> tLPAREN) -> g_level c = lev -> (5 * length (toks c) + 5 <= n)%nat ->
       exists c', write_statement str outf n ro c = WDone c' (ro ++ more) /\ errorless c c' rest code) /\
    forall env l later, items_text env is l -> Z.of_nat (length ((ro ++ more) ++ later)) <= 32767 ->
      only_writes lev code (2 * Z.of_nat (length ts) + 8) env (flat_map ivars is) x ((ro ++ more) ++ later) (l ++ if ln then [10] else []).
Proof.
  intros str lev outx outf ts x is ln G L O T A ro N.
  destruct (statement str lev outx outf L O T A ts x is ln G ro N) as (code & ro' & (more & ->) & C & R).
  exists code, more. split.
  - intros c rest n Tk P Lv F. exists (after c rest code). split; [exact (C c rest n Tk P Lv F)|apply after_errorless].
  - intros env l later It Ln e s t y Rm Lo Co W F.
    destruct (R env l It ((ro ++ more) ++ later) (ex_intro _ later eq_refl) Ln e s t y Rm Lo Co W F) as (s' & t' & E & (P1 & P2 & _ & P4) & V).
    exists s', t'. split; [exact E|]. split; [exact P1|]. cbn [length] in P2. split; [lia|]. split; [exact P4|]. exact (wrote_got _ _ _ _ _ W V).
Qed.

(** The text of the parameters is determined. *)
Lemma one_text : forall env is l m, items_text env is l -> items_text env is m -> l = m.
Proof.
  intros env is l m H. revert m. induction H as [|i l is ls I _ IH]; intros m M; inversion M as [|? l' ? ls' I' M']; subst; [reflexivity|].
  rewrite (IH _ M'). f_equal. destruct i as [t e|t e w|k]; cbn [item_text] in I, I'.
  - destruct I as (z & V & S), I' as (z' & V' & S'). rewrite V in V'. injection V' as <-. exact (shown_unique _ _ _ _ S S').
  - destruct I as (z & k & l0 & V & S & K & _ & ->), I' as (z' & k' & l1 & V' & S' & K' & _ & ->). rewrite V in V'. rewrite K in K'.
    injection V' as <-. injection K' as <-. rewrite (shown_unique _ _ _ _ S S'). reflexivity.
  - congruence.
Qed.

(** ** Cases *)

(** WriteLn('n=', x : 5) *)
Definition std (p : Z) := mkTok tSTDPROC 0 p nosym 1.
Definition strs (_ : tok) : list Z := [110; 61].
Definition outv := mkVar xWord 0 0.
Definition outs := mkSym 0 0 2 0.
Definition xw := mkVar xInteger 0 2.
Definition evar (x : var) : expr := ESimple (STerm false (TFactor (FVar x))).
Definition wr_tokens := [std txWRITELN; kt tLPAREN; kt tSTRING_CONST; kt tCOMMA; vt xw; kt tCOLON; nt 5; kt tRPAREN].
Definition wr_items := [IString [110; 61]; IWidth xInteger (evar xw) (ESimple (ten 5))].

Lemma gvar x : ~ In (vty x) [xUnknown; xAnyOrdinal] -> gexpr [vt x] (evar x).
Proof. intros H. apply g_simple, g_term, g_factor, g_var. repeat split; try reflexivity. exact H. Qed.
Lemma wr_grammar : gwrite strs 0 outv wr_tokens outv wr_items true.
Proof.
  apply (gw_writeln strs 0 outv (std txWRITELN) (kt tLPAREN) ([kt tSTRING_CONST] ++ kt tCOMMA :: [vt xw; kt tCOLON; nt 5]) wr_items (kt tRPAREN)); try reflexivity.
  apply gis_more; [apply (gi_string strs 0 (kt tSTRING_CONST)); reflexivity|reflexivity|]. apply gis_one.
  apply (gi_width strs 0 [vt xw] (evar xw) xInteger (kt tCOLON) [nt 5] (ESimple (ten 5))); try reflexivity.
  - apply gvar. cbn. intuition discriminate.
  - apply g_simple, gten.
  - intros x [<-|[]]. repeat split; vm_compute; congruence.
Qed.
Definition wr_env (x : var) : Z := if voff x =? 0 then 1 else -42.
Lemma wr_text : items_text wr_env wr_items [110; 61; 32; 32; 45; 52; 50].
Proof.
  apply (it_cons _ _ [110; 61] _ [32; 32; 45; 52; 50]); [reflexivity|]. apply (it_cons _ _ [32; 32; 45; 52; 50] _ []); [|constructor].
  exists (-42), 5, [45; 52; 50]. repeat split; try reflexivity; try lia. exists [52; 50]. repeat split; try reflexivity; try discriminate.
  repeat constructor; vm_compute; congruence.
Qed.
Definition wr_ro := [110; 61; 0; 0].
Definition vmw := mkSt (fun i => if i =? 0 then 110 + 256 * 61 else if i =? 100 then 1 else if i =? 101 then 65494 else 0)
                       (mkCfg 4096 200 2000 0 1000) 202 0 200 0 0 0.
Definition io0 := SysioModel.initialize_file [] [].
Lemma wr_state : room vmw 24 /\ (forall z, In z (outv :: flat_map ivars wr_items) -> located 0 vmw z (wr_env z)) /\ constants vmw wr_ro /\
  SysioSpec.writable io0 (wr_env outv) (SysioModel.mkStream [] [] false).
Proof.
  split; [run|]. split; [|split].
  - intros z [<-|[<-|[]]] s' R S; [exists 200|exists 202]; (split; [|split; [vm_compute; congruence|]]).
    + destruct R as (C & _). unfold var_address, global_ea, word16. cbn [vlev Z.eqb outv xw voff]. rewrite C. split; [lia|exists 0; reflexivity].
    + unfold contains. cbn [vty outv]. rewrite S by (vm_compute; congruence). vm_compute. reflexivity.
    + destruct R as (C & _). unfold var_address, global_ea, word16. cbn [vlev Z.eqb outv xw voff]. rewrite C. split; [lia|exists 0; reflexivity].
    + unfold contains. cbn [vty xw]. rewrite S by (vm_compute; congruence). vm_compute. reflexivity.
  - split; [vm_compute; congruence|]. split; [vm_compute; congruence|].
    intros [|[|[|[|i]]]] b H; cbn in H; try (injection H as <-; vm_compute; reflexivity). destruct i; discriminate H.
  - split; [cbn; lia|]. split; [cbn; lia|]. split; [reflexivity|left; reflexivity].
Qed.
Lemma wr_compiled : exists c', write_statement strs outs 60 [] (start wr_tokens) = WDone c' wr_ro /\ errs c' = [] /\ toks c' = [].
Proof. eexists. split; [vm_compute; reflexivity|split; reflexivity]. Qed.

(** ** What contradicts Pascal *)

(** Write('n=' : 5) is rejected. *)
Definition str_width := [std txWRITE; kt tLPAREN; kt tSTRING_CONST; kt tCOLON; nt 5; kt tRPAREN].
Lemma string_width_refuted : exists ts c' ro, ts = str_width /\
  (forall n, write_statement strs outs (60 + n) [] (start ts) = WDone c' ro) /\ errs c' <> [].
Proof. exists str_width. eexists. eexists. split; [reflexivity|]. split; [intros n; vm_compute; reflexivity|vm_compute; discriminate]. Qed.

(** WriteLn(f) is rejected. *)
Definition filev := mkTok sTEXTFILE 0 0 (mkSym 0 4 2 0) 1.
Definition fx := mkVar xWord 0 4.
Definition line_tokens := [std txWRITELN; kt tLPAREN; filev; kt tRPAREN].
Lemma line_of_file_refuted : exists ts c' ro, ts = line_tokens /\ spells_file filev fx /\
  (forall n, write_statement strs outs (60 + n) [] (start ts) = WDone c' ro) /\ errs c' <> [].
Proof.
  exists line_tokens. eexists. eexists. split; [reflexivity|]. split; [repeat split|].
  split; [intros n; vm_compute; reflexivity|vm_compute; discriminate].
Qed.

(** Write(true) is rejected. *)
Definition bool_tokens := [std txWRITE; kt tLPAREN; bt true; kt tRPAREN].
Lemma boolean_refuted : exists ts c' ro, ts = bool_tokens /\ gexpr [bt true] (ESimple (tbo true)) /\ etype_of xUnknown (ESimple (tbo true)) = Some xBoolean /\
  (forall n, write_statement strs outs (60 + n) [] (start ts) = WDone c' ro) /\ errs c' = [eWRITEPARM].
Proof.
  exists bool_tokens. eexists. eexists. split; [reflexivity|].
  split; [apply g_simple, g_term, g_factor, g_bool; reflexivity|]. split; [reflexivity|].
  split; [intros n; vm_compute; reflexivity|vm_compute; reflexivity].
Qed.

(** Write(, 7) is accepted; it is no Write statement. *)
Definition comma_tokens := [std txWRITE; kt tLPAREN; kt tCOMMA; nt 7; kt tRPAREN].
Lemma comma_refuted : (forall str lev outx x is ln, ~ gwrite str lev outx comma_tokens x is ln) /\
  exists c' ro, (forall n, write_statement strs outs (60 + n) [] (start comma_tokens) = WDone c' ro) /\ errs c' = [] /\ toks c' = [].
Proof.
  split; [|eexists; eexists; split; [intros n; vm_compute; reflexivity|split; reflexivity]].
  intros str lev outx x is ln H. unfold comma_tokens in H. inversion H; subst; try discriminate.
  match goal with G : gitems _ _ ?ts _, E : ?ts ++ _ = _ |- _ =>
      apply (gitems_plain _ _ _ _ G (start (ts ++ [kt tRPAREN])) [kt tRPAREN] eq_refl); unfold token, cur, start, start_at; cbn [toks]; destruct ts as [|a ts]; [discriminate E|]; injection E as -> _; cbn; tauto end.
Qed.

(** Write(7 : s + s + s) with s = 100 writes 44 characters. *)
Definition sv := mkVar xShortInteger 0 2.
Definition sterm := TFactor (FVar sv).
Definition wide := ESimple (SBin (SBin (STerm false sterm) Plus sterm) Plus sterm).
Definition wide_tokens := [vt sv; kt tPLUS; vt sv; kt tPLUS; vt sv].
Definition vms := mkSt (fun i => if i =? 100 then 1 else if i =? 101 then 100 else 0) (mkCfg 4096 200 2000 0 1000) 202 0 200 0 0 0.
Definition env_ok := SysioModel.mkEnv None false [].
Definition printed (r : option (st * SysioModel.io)) : option (list Z) :=
  match r with
  | Some (_, t) => match SysioModel.e_str (SysioModel.ent t 1) with Some x => Some (SysioModel.out x) | None => None end
  | None => None
  end.
Definition of_width (ws : list tok) := [std txWRITE; kt tLPAREN; nt 7; kt tCOLON] ++ ws ++ [kt tRPAREN].
Lemma gsv : gterm [vt sv] sterm.
Proof. apply g_factor, g_var. repeat split; try reflexivity. cbn. intuition discriminate. Qed.
Lemma width_refuted : exists ws e k code,
  gexpr ws e /\ etype_of xShortInteger e = Some xShortInteger /\ evalue (fun _ => 100) xShortInteger e = Some k /\ k = 300 /\
  (exists c', write_statement strs outs 60 [] (start (of_width ws)) = WDone c' [] /\ errorless (start (of_width ws)) c' [] code) /\
  located 0 vms sv 100 /\ printed (exec_io env_ok code vms io0) = Some (right_justified 44 [55]).
Proof.
  exists wide_tokens, wide. eexists. eexists. split.
  { apply g_simple, (g_add ([vt sv] ++ kt tPLUS :: [vt sv]) _ (kt tPLUS) Plus [vt sv]); [|reflexivity|exact gsv].
    apply (g_add [vt sv] _ (kt tPLUS) Plus [vt sv]); [apply g_term, gsv|reflexivity|exact gsv]. }
  split; [reflexivity|]. split; [vm_compute; reflexivity|]. split; [reflexivity|].
  split; [eexists; split; [vm_compute; reflexivity|repeat split; vm_compute; reflexivity]|].
  split; [|vm_compute; reflexivity].
  intros s' R S. exists 202. split; [|split; [vm_compute; congruence|]].
  - destruct R as (C & _). unfold var_address, global_ea, word16. cbn [vlev Z.eqb sv voff]. rewrite C. split; [lia|exists 0; reflexivity].
  - cbn [contains vty sv]. exists 100. split; [|reflexivity]. exists 100. split; [|split; [lia|exists 0; reflexivity]].
    destruct R as (C & _). assert (E : rd s' 101 = Some 100) by (rewrite S by (vm_compute; congruence); vm_compute; reflexivity).
    apply (ActRun.rdb_low s' 101 100); [rewrite C; reflexivity|exact E].
Qed.
