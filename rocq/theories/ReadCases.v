(** The statement about Read and ReadLn, and what contradicts it. *)

From Coq Require Import ZArith Bool List Lia ZifyBool.
From Verif Require Import Words WordLemmas State Opcodes EncodeModel Machine VmSpec ExprModel ExprSpec ExprRun ExprOps ExprLoad ExprProofs ExprCases
  StmtModel StmtRun ArrModel ArrCases WriteModel WriteSpec WriteRun WriteProofs WriteMain WriteCases ReadModel ReadSpec ReadRun ReadMain.
From Verif Require Import StmtSpec StmtRun.
From Verif Require SysioModel SysioSpec SysioText ActRun.
Import ListNotations.
Open Scope Z_scope.
Local Ltac Zify.zify_post_hook ::= Z.div_mod_to_equations.

(** The code [code] gives the variables [vs] their values and takes the text from the
    file [x]. *)
Definition only_reads (lev : Z) (code : list opType) (x : var) (vs : list var) (ln : bool) : Prop :=
  forall xs adr links base s0, placed lev xs adr links base s0 -> c_ssz (cf s0) mod 2 = 0 -> (forall z, In z (x :: vs) -> In z xs) ->
  forall e s t y text q r r', ready xs adr links base s0 s r -> room s 3 -> SysioSpec.readable t (r x) y -> SysioModel.e_fail e = false ->
    SysioModel.rest y = text ++ q -> consumes r (SysioModel.e_eoln (SysioModel.ent t (r x))) vs ln text r' ->
    exists s' t', exec_io e code s t = Some (s', t') /\ effect xs adr s s' 0 r' /\ read_upto t t' (r x) y q (negb ln).

Lemma was_read : forall lev inx inf ts x vs ln,
  gread lev inx ts x vs ln -> sLevel inf = vlev inx -> vOffset inf = voff inx -> vty inx = xWord -> addressable lev inx ->
  exists code,
    (forall c rest n, toks c = ts ++ rest -> (length ts = 1%nat -> tk (hd eoftok rest) <> tLPAREN) -> g_level c = lev -> (length (toks c) <= n)%nat ->
       exists c', read_statement inf n c = ADone c' /\ errorless c c' rest code) /\
    only_reads lev code x vs ln.
Proof.
  intros lev inx inf ts x vs ln G L O T A. destruct (statement lev inx inf L O T A ts x vs ln G) as (Tx & Ty & C).
  exists (statement_code lev x vs ln). split.
  - intros c rest n Tk P Lv F. eexists. split; [exact (C c rest n Tk P Lv F)|apply after_errorless].
  - intros xs adr links base s0 P Ev I e s t y text q r r' Rd Rm Rb F E Co.
    destruct (run_statement lev xs adr links base s0 P Ev e s t y text q r r' x vs ln Tx) as (s' & t' & X & (M1 & M2 & _ & M4 & M5) & U); auto.
    + apply I. left. reflexivity.
    + intros z Hz. split; [apply I; right; exact Hz|apply Ty, Hz].
    + exists s', t'. split; [exact X|]. split; [|exact U]. cbn [length] in M2. split; [exact M1|]. split; [lia|]. split; [exact M5|].
      intros i Hi N. apply M4; [|exact N]. replace (sp s) with (sp s') by lia. exact Hi.
Qed.

(** ** The values are determined by the text. *)

Lemma denotes_unique l z z' : denotes l z -> denotes l z' -> z = z'.
Proof.
  intros (sp & sign & ds & q & -> & N & V & ->) (sp' & sign' & ds' & q' & E & N' & V' & ->).
  pose proof (SysioText.convert_ok _ _ _ _ N) as H. rewrite E, (SysioText.convert_ok _ _ _ _ N') in H.
  unfold SysioText.read_value in H. replace (SysioSpec.value ds <=? 32767) with true in H by lia. replace (SysioSpec.value ds' <=? 32767) with true in H by lia.
  assert (B : forall ds, Forall SysioSpec.digit ds -> 0 <= SysioSpec.value ds) by (intros d D; apply (value_bound d D)).
  destruct N as (_ & S1 & _ & D & _), N' as (_ & S2 & _ & D' & _). apply B in D, D'. unfold u16 in H.
  destruct S1 as [->|[->| ->]], S2 as [->|[->| ->]]; lia.
Qed.
Lemma given_unique t l z z' : given t l z -> given t l z' -> z = z'.
Proof. destruct t; cbn [given]; try apply denotes_unique. congruence. Qed.
Lemma line_split (l l' a b : list Z) : ~ In 10 l -> ~ In 10 l' -> l ++ 10 :: a = l' ++ 10 :: b -> l = l' /\ a = b.
Proof.
  revert l'. induction l as [|c l IH]; intros [|c' l'] N N' E; cbn [app] in E.
  - injection E as ->. auto.
  - injection E as <- _. destruct N'. left. reflexivity.
  - injection E as -> _. destruct N. left. reflexivity.
  - injection E as -> E. destruct (IH l') with (3 := E) as (-> & ->); [intros Q; apply N; right; exact Q|intros Q; apply N'; right; exact Q|]. auto.
Qed.
Lemma line_no_newline l : SysioSpec.line l -> ~ In 10 l.
Proof. intros H I. unfold SysioSpec.line in H. rewrite Forall_forall in H. destruct (H 10 I). congruence. Qed.
Lemma takes_unique vs : forall r ls r1 ls' r2 q q', takes r vs ls r1 -> takes r vs ls' r2 -> text_of ls ++ q = text_of ls' ++ q' -> ls = ls' /\ r1 = r2 /\ q = q'.
Proof.
  induction vs as [|x vs IH]; intros r ls r1 ls' r2 q q' T T' E.
  - inversion T; inversion T'; subst. cbn in E. auto.
  - inversion T as [|? ? ? l m z ? (P & _) G H]; inversion T' as [|? ? ? l' m' z' ? (P' & _) G' H']; subst.
    cbn [text_of flat_map] in E. rewrite <- !app_assoc in E. cbn [app] in E. fold (text_of m) in E. fold (text_of m') in E.
    destruct (line_split _ _ _ _ (line_no_newline _ P) (line_no_newline _ P') E) as (<- & E').
    rewrite (given_unique _ _ _ _ G' G) in H'. destruct (IH _ _ _ _ _ _ _ H H' E') as (<- & <- & <-). auto.
Qed.
Lemma one_value : forall r p vs ln text text' q q' r1 r2,
  consumes r p vs ln text r1 -> consumes r p vs ln text' r2 -> text ++ q = text' ++ q' -> text = text' /\ r1 = r2.
Proof.
  intros r p vs ln text text' q q' r1 r2 H H' E. inversion H as [? ? ls ? Ne T|Pe|l Pe Nl]; subst.
  - inversion H' as [? ? ls' ? Ne' T'|Pe|l Pe Nl]; subst; try congruence.
    destruct (takes_unique _ _ _ _ _ _ _ _ T T' E) as (-> & -> & _). auto.
  - inversion H' as [? ? ls' ? Ne' T'|Pe'|l Pe' Nl]; subst; try congruence. auto.
  - inversion H' as [? ? ls' ? Ne' T'|Pe'|l' Pe' Nl']; subst; try congruence.
    rewrite <- !app_assoc in E. cbn [app] in E. destruct (line_split _ _ _ _ Nl Nl' E) as (-> & _). auto.
Qed.

(** ** Cases *)

(** ReadLn(x, c) with the input " -12 " and "q" *)
Definition inv := mkVar xWord 0 0.
Definition ins := mkSym 0 0 2 0.
Definition xr := mkVar xInteger 0 2.
Definition cr := mkVar xChar 0 5.
Definition yr := mkVar xInteger 0 6.
Definition rd_tokens := [std txREADLN; kt tLPAREN; vt xr; kt tCOMMA; vt cr; kt tRPAREN].
Lemma spells_vt x : ~ In (vty x) [xUnknown; xAnyOrdinal] -> spells_var (vt x) x.
Proof. intros H. repeat split. exact H. Qed.
Lemma rd_grammar : gread 0 inv rd_tokens inv [xr; cr] true.
Proof.
  apply (gr_readln 0 inv (std txREADLN) (kt tLPAREN) [vt xr; kt tCOMMA; vt cr] [xr; cr] (kt tRPAREN)); try reflexivity.
  apply gv_more; try reflexivity; [apply spells_vt; cbn; intuition discriminate|left; reflexivity|repeat split; vm_compute; congruence|].
  apply gv_one; [apply spells_vt; cbn; intuition discriminate|right; reflexivity|repeat split; vm_compute; congruence].
Qed.
Definition rd_adr (x : var) : Z := 200 + voff x.
Definition vmr := mkSt (fun _ => 0) (mkCfg 4096 200 2000 0 1000) 208 0 200 0 0 0.
Definition rd_in : list Z := [32; 45; 49; 50; 32; 10; 113; 10; 55; 10].
Definition io_in (l : list Z) := SysioModel.initialize_file l [].
Definition rd_result := set (set (fun _ => 0) xr (-12)) cr 113.
Lemma rd_placed : placed 0 [inv; xr; cr; yr] rd_adr (fun _ => False) 103 vmr.
Proof.
  constructor.
  - lia.
  - intros s (C & _) _ x [<-|[<-|[<-|[<-|[]]]]]; unfold var_address, global_ea, word16; cbn [vlev Z.eqb inv xr cr yr voff]; rewrite C; (split; [vm_compute; intuition congruence|exists 0; reflexivity]).
  - intros i [].
  - intros x [<-|[<-|[<-|[<-|[]]]]]; vm_compute; intuition congruence.
  - intros x y [<-|[<-|[<-|[<-|[]]]]] [<-|[<-|[<-|[<-|[]]]]] N; try (destruct N; reflexivity); vm_compute; intuition congruence.
Qed.
Lemma rd_ready : ready [inv; xr; cr; yr] rd_adr (fun _ => False) 103 vmr vmr (fun _ => 0).
Proof.
  split; [repeat split|]. split; [intros i []|]. split; [vm_compute; congruence|]. intros x [<-|[<-|[<-|[<-|[]]]]]; try reflexivity.
  exists 0. split; reflexivity.
Qed.
Lemma rd_consumes : consumes (fun _ => 0) false [xr; cr] true [32; 45; 49; 50; 32; 10; 113; 10] rd_result.
Proof.
  apply (cs_vars _ _ [xr; cr] true [[32; 45; 49; 50; 32]; [113]] rd_result); [discriminate|].
  apply (tk_cons _ xr [cr] [32; 45; 49; 50; 32] [[113]] (-12)).
  - split; [repeat constructor; lia|]. split; [discriminate|vm_compute; congruence].
  - exists [32], [45], [49; 50], [32]. split; [reflexivity|]. split; [|split; [vm_compute; congruence|reflexivity]].
    split; [repeat constructor; lia|]. split; [tauto|]. split; [discriminate|]. split; [repeat constructor; vm_compute; congruence|].
    intros c q [= <- <-] H. unfold SysioSpec.digit in H. lia.
  - apply (tk_cons _ cr [] [113] [] 113); [|reflexivity|constructor].
    split; [repeat constructor; lia|]. split; [discriminate|vm_compute; congruence].
Qed.
Lemma rd_compiled : exists c', read_statement ins 60 (start rd_tokens) = ADone c' /\ errs c' = [] /\ toks c' = [].
Proof. eexists. split; [vm_compute; reflexivity|split; reflexivity]. Qed.

(** ** What contradicts Pascal *)

(** Read(x, y) with the input "1 2": the second number is not read but skipped.  In
    Pascal the statement means Read(x); Read(y), and reading a number ends with its
    last digit. *)
Definition two_tokens := [std txREAD; kt tLPAREN; vt xr; kt tCOMMA; vt yr; kt tRPAREN].
Lemma two_grammar : gread 0 inv two_tokens inv [xr; yr] false.
Proof.
  apply (gr_read 0 inv (std txREAD) (kt tLPAREN) [vt xr; kt tCOMMA; vt yr] [xr; yr] (kt tRPAREN)); try reflexivity.
  apply gv_more; try reflexivity; [apply spells_vt; cbn; intuition discriminate|left; reflexivity|repeat split; vm_compute; congruence|].
  apply gv_one; [apply spells_vt; cbn; intuition discriminate|left; reflexivity|repeat split; vm_compute; congruence].
Qed.
Definition value_of (r : option (st * SysioModel.io)) (x : var) : option Z :=
  match r with Some (s, _) => rd s (rd_adr x / 2) | None => None end.
Lemma one_line_refuted : exists ts code c', gread 0 inv ts inv [xr; yr] false /\
  read_statement ins 60 (start ts) = ADone c' /\ errorless (start ts) c' [] code /\
  placed 0 [inv; xr; cr; yr] rd_adr (fun _ => False) 103 vmr /\ ready [inv; xr; cr; yr] rd_adr (fun _ => False) 103 vmr vmr (fun _ => 0) /\
  (* "1 2", "3" *)
  let end_ := exec_io env_ok code vmr (io_in [49; 32; 50; 10; 51; 10]) in
  value_of end_ xr = Some 1 /\ value_of end_ yr = Some 3.
Proof.
  exists two_tokens. eexists. eexists. split; [exact two_grammar|]. split; [vm_compute; reflexivity|].
  split; [repeat split; vm_compute; reflexivity|]. split; [exact rd_placed|]. split; [exact rd_ready|]. split; vm_compute; reflexivity.
Qed.

(** Read(c) with an empty line in front: the character is the newline, and the
    character behind it is skipped by a following ReadLn. *)
Definition chr_tokens := [std txREADLN; kt tLPAREN; vt cr; kt tRPAREN].
Definition left_of (r : option (st * SysioModel.io)) : option (list Z) :=
  match r with
  | Some (_, t) => match SysioModel.e_str (SysioModel.ent t 0) with Some x => Some (SysioModel.rest x) | None => None end
  | None => None
  end.
Lemma chr_grammar : gread 0 inv chr_tokens inv [cr] true.
Proof.
  apply (gr_readln 0 inv (std txREADLN) (kt tLPAREN) [vt cr] [cr] (kt tRPAREN)); try reflexivity.
  apply gv_one; [apply spells_vt; cbn; intuition discriminate|right; reflexivity|repeat split; vm_compute; congruence].
Qed.
Lemma empty_line_refuted : exists ts code c', gread 0 inv ts inv [cr] true /\
  read_statement ins 60 (start ts) = ADone c' /\ errorless (start ts) c' [] code /\
  placed 0 [inv; xr; cr; yr] rd_adr (fun _ => False) 103 vmr /\ ready [inv; xr; cr; yr] rd_adr (fun _ => False) 103 vmr vmr (fun _ => 0) /\
  (* "", "a", "b": two lines are taken *)
  left_of (exec_io env_ok code vmr (io_in [10; 97; 10; 98; 10])) = Some [98; 10].
Proof.
  exists chr_tokens. eexists. eexists. split; [exact chr_grammar|]. split; [vm_compute; reflexivity|].
  split; [repeat split; vm_compute; reflexivity|]. split; [exact rd_placed|]. split; [exact rd_ready|]. vm_compute; reflexivity.
Qed.

(** ReadLn(f) is rejected. *)
Definition skip_tokens := [std txREADLN; kt tLPAREN; filev; kt tRPAREN].
Lemma line_of_file_refuted : exists ts c', ts = skip_tokens /\ spells_file filev fx /\
  (forall n, read_statement ins (60 + n) (start ts) = ADone c') /\ errs c' <> [].
Proof.
  exists skip_tokens. eexists. split; [reflexivity|]. split; [repeat split|].
  split; [intros n; vm_compute; reflexivity|vm_compute; discriminate].
Qed.

(** Read(x : y) is accepted; it is no Read statement. *)
Definition colon_tokens := [std txREAD; kt tLPAREN; vt xr; kt tCOLON; vt yr; kt tRPAREN].
Lemma colon_refuted : (forall lev inx x vs ln, ~ gread lev inx colon_tokens x vs ln) /\
  exists c', (forall n, read_statement ins (60 + n) (start colon_tokens) = ADone c') /\ errs c' = [] /\ toks c' = [].
Proof.
  split; [|eexists; split; [intros n; vm_compute; reflexivity|split; reflexivity]].
  intros lev inx x vs ln H. unfold colon_tokens in H. inversion H; subst; try discriminate.
  match goal with G : gvars _ ?ts _, E : ?ts ++ _ = _ |- _ => inversion G; subst; discriminate E || (injection E as; subst; discriminate) end.
Qed.
