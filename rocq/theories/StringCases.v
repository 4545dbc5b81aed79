(** Concrete states for the string library: checks that decide the predicates of
    the specification, and states for which the library does not behave as
    expected. *)

From Coq Require Import ZArith Bool List Lia ZifyBool.
From Verif Require Import Words State WordLemmas StateLemmas HeapModel HeapSpec HeapRegs HeapProofs HeapInv HeapMain
  StringModel StringSpec StringProofs StringOps4.
Import ListNotations.
Open Scope Z_scope.
Local Ltac Zify.zify_post_hook ::= Z.div_mod_to_equations.

(** ** States *)

Fixpoint put_words (m : Z -> Z) (i : Z) (l : list Z) : Z -> Z :=
  match l with [] => m | w :: r => put_words (upd m i w) (i + 1) r end.

Fixpoint put_chars (m : Z -> Z) (a : Z) (l : list Z) : Z -> Z :=
  match l with [] => m | c :: r => put_chars (set_byte m a c) (a + 1) r end.

Lemma put_words_other l : forall m i j, j < i \/ i + len l <= j -> put_words m i l j = m j.
Proof.
  induction l as [|w r IH]; intros m i j H; [reflexivity|]. cbn [put_words]. rewrite len_cons in H. pose proof (len_nonneg r).
  rewrite IH by lia. apply upd_other. lia.
Qed.

Lemma put_chars_other l : forall m a j, j < a / 2 \/ a + len l <= 2 * j -> put_chars m a l j = m j.
Proof.
  induction l as [|w r IH]; intros m a j H; [reflexivity|]. cbn [put_chars]. rewrite len_cons in H. pose proof (len_nonneg r).
  rewrite IH by lia. unfold set_byte. apply upd_other. lia.
Qed.

(** 1200 bytes: string stack 0-255, constants 256-511, stack 512-767, heap
    768-1023; the top of the stack is at 600.  [vs]: words, [ts]: characters. *)
Definition map1 : cfg := mkCfg 1200 512 768 256 256.

Definition scene (m : Z -> Z) (f : Z) (stack : list Z) (vs ts : list (Z * list Z)) : st :=
  let m := fold_left (fun m x => put_words m (fst x / 2) (snd x)) vs m in
  let m := fold_left (fun m x => put_chars m (fst x) (snd x)) ts m in
  mkSt (put_words m (301 - len stack) (rev stack)) map1 600 20 0 0 0 f.

Definition zero : Z -> Z := fun _ => 0.

(** ** Decisions *)

Definition word_b (s : st) (a w : Z) : bool :=
  (a mod 2 =? 0) && (0 <=? a) && (a + 2 <=? c_ssz (cf s)) && (byte_of (mem s) a + 256 * byte_of (mem s) (a + 1) =? w).

Lemma word_b_ok s a w : word_b s a w = true -> word_at s a w.
Proof. unfold word_b, word_at, inside. intros H. repeat split; lia. Qed.

Fixpoint chars_b (m : Z -> Z) (a : Z) (l : list Z) : bool :=
  match l with [] => true | x :: r => (byte_of m a =? x) && chars_b m (a + 1) r end.

Lemma chars_b_ok m l : forall a, chars_b m a l = true -> chars_at m a l.
Proof.
  induction l as [|x r IH]; intros a H; [exact I|]. cbn [chars_b] in H. apply andb_true_iff in H. destruct H as [H1 H2].
  split; [lia | exact (IH _ H2)].
Qed.

Fixpoint oper_b (s : st) (k : Z) (l : list Z) : bool :=
  match l with
  | [] => true
  | w :: r => match tos s k with Some x => x =? w | None => false end && oper_b s (k + 1) r
  end.

Lemma oper_b_ok s l : forall k, oper_b s (Z.of_nat k) l = true ->
  forall j w, nth_error l j = Some w -> tos s (Z.of_nat (k + j)) = Some w.
Proof.
  induction l as [|x r IH]; intros k H j w E; [destruct j; discriminate E|].
  cbn [oper_b] in H. apply andb_true_iff in H. destruct H as [H1 H2]. destruct j as [|j].
  - cbn in E. injection E as ->. rewrite Nat.add_0_r. destruct (tos s (Z.of_nat k)); [|discriminate H1]. f_equal. lia.
  - cbn in E. replace (k + S j)%nat with (S k + j)%nat by lia. apply IH; [|exact E].
    replace (Z.of_nat (S k)) with (Z.of_nat k + 1) by lia. exact H2.
Qed.

Definition operands_b (s : st) (l : list Z) : bool := (0 <=? sp s) && (sp s <? 65536) && oper_b s 0 l.

Lemma operands_b_ok s l : operands_b s l = true -> operands s l.
Proof.
  unfold operands_b. intros H. apply andb_true_iff in H. destruct H as [H1 H2]. split; [lia|].
  exact (oper_b_ok s l 0%nat H2).
Qed.

Definition str_var_b (s : st) (var buf cap : Z) (v : list Z) : bool :=
  word_b s var (len v) && word_b s (var + 2) buf && (word_b s (var + 4) cap || word_b s (var + 4) (cap + 32768)) &&
  chars_b (mem s) buf v && (len v <=? cap) && (cap <? 4096) && (0 <=? buf) && (buf + cap <=? c_ssz (cf s)) &&
  ((var + 6 <=? buf) || (buf + cap <=? var)).

Lemma str_var_b_ok s var buf cap v : str_var_b s var buf cap v = true -> str_var s var buf cap v.
Proof.
  unfold str_var_b. rewrite !andb_true_iff, !orb_true_iff. intros ((((((((H1 & H2) & H3) & H4) & H5) & H6) & H7) & H8) & H9).
  split; [apply word_b_ok, H1|]. split; [apply word_b_ok, H2|].
  split; [destruct H3 as [H3 | H3]; [left | right]; apply word_b_ok, H3|].
  split; [apply chars_b_ok, H4|]. unfold inside, apart. lia.
Qed.

Definition str_data_b (s : st) (a : Z) (v : list Z) : bool :=
  chars_b (mem s) a v && (0 <=? a) && (a + len v <=? c_ssz (cf s)).

Lemma str_data_b_ok s a v : str_data_b s a v = true -> str_data s a v.
Proof.
  unfold str_data_b. rewrite !andb_true_iff. intros ((H1 & H2) & H3). split; [apply chars_b_ok, H1|]. unfold inside. lia.
Qed.

(** The result of an operation *)
Definition result (o : outcome) : st := match o with Ok s | Err _ s => s | _ => scene zero NULL [] [] [] end.
Definition is_ok (o : outcome) : bool := match o with Ok _ => true | _ => false end.
Definition is_err (o : outcome) (e : Z) : bool := match o with Err c _ => c =? e | _ => false end.

Lemma is_ok_eq o : is_ok o = true -> o = Ok (result o).
Proof. destruct o; cbn; intros H; first [reflexivity | discriminate H]. Qed.

Lemma is_err_eq o e : is_err o e = true -> o = Err e (result o).
Proof. destruct o as [s | c s | | |]; cbn; intros H; try discriminate H. apply Z.eqb_eq in H. subst c. reflexivity. Qed.

Ltac decided :=
  lazymatch goal with
  | |- operands _ _ => apply operands_b_ok; vm_compute; reflexivity
  | |- str_var _ _ _ _ _ => apply str_var_b_ok; vm_compute; reflexivity
  | |- str_data _ _ _ => apply str_data_b_ok; vm_compute; reflexivity
  | |- chars_at _ _ _ => apply chars_b_ok; vm_compute; reflexivity
  | |- word_at _ _ _ => apply word_b_ok; vm_compute; reflexivity
  | |- _ = Ok _ => apply is_ok_eq; vm_compute; reflexivity
  | |- _ = Err _ _ => apply is_err_eq; vm_compute; reflexivity
  | |- _ => vm_compute; reflexivity
  end.

(** ** Findings *)

Definition abc : list Z := [97; 98; 99].

(** Delete(s, 0, 2), s = 'abc': the length becomes 65535 *)
Definition s_del0 : st := scene zero NULL [2; 0; 520] [(520, [3; 40; 10])] [(40, abc)].

Lemma delete_zero_refuted : exists s var buf cap v pos n s',
  operands s [n; pos; var] /\ str_var s var buf cap v /\ string_op 80 s lbDELSUBSTR = Ok s' /\
  delete v pos n = v /\ word_at s' var 65535.
Proof.
  exists s_del0, 520, 40, 10, abc, 0, 2, (result (string_op 80 s_del0 lbDELSUBSTR)).
  split; [decided|]. split; [decided|]. split; [decided|]. split; [decided|]. decided.
Qed.

(** Delete(s, 5, 1), s = 'abc': the length becomes 4 *)
Definition s_del5 : st := scene zero NULL [1; 5; 520] [(520, [3; 40; 10])] [(40, abc)].

Lemma delete_beyond_refuted : exists s var buf cap v pos n s',
  operands s [n; pos; var] /\ str_var s var buf cap v /\ string_op 80 s lbDELSUBSTR = Ok s' /\
  delete v pos n = v /\ len v = 3 /\ word_at s' var 4.
Proof.
  exists s_del5, 520, 40, 10, abc, 5, 1, (result (string_op 80 s_del5 lbDELSUBSTR)).
  split; [decided|]. split; [decided|]. split; [decided|]. split; [decided|]. split; [decided|]. decided.
Qed.

(** Insert('xy', s, 0), s = 'abc': nothing is inserted, the length becomes 5 *)
Definition s_ins (pos : Z) : st := scene zero NULL [pos; 520; 2; 60; 2] [(520, [3; 40; 10])] [(40, abc); (60, [120; 121])].

Lemma insert_zero_refuted : exists s var buf cap v src al x pos s',
  operands s [pos; var; al; src; len x] /\ str_var s var buf cap v /\ str_data s src x /\ not_temporary al /\
  apart buf cap src (len x) /\ string_op 80 s lbINSERTSTR = Ok s' /\ pos = 0 /\
  ~ In 0 v /\ ~ In 0 x /\ str_var s' var buf cap (v ++ [0; 0]).
Proof.
  exists (s_ins 0), 520, 40, 10, abc, 60, 2, [120; 121], 0, (result (string_op 80 (s_ins 0) lbINSERTSTR)).
  split; [decided|]. split; [decided|]. split; [decided|]. split; [vm_compute; reflexivity|]. split; [left; vm_compute; discriminate|].
  split; [decided|]. split; [reflexivity|]. split; [cbn; lia|]. split; [cbn; lia|]. decided.
Qed.

(** Insert('xy', s, 6): the characters are stored beyond the end of the string *)
Lemma insert_beyond_refuted : exists s var buf cap v src al x pos s',
  operands s [pos; var; al; src; len x] /\ str_var s var buf cap v /\ str_data s src x /\ not_temporary al /\
  apart buf cap src (len x) /\ string_op 80 s lbINSERTSTR = Ok s' /\ len v + 2 < pos /\
  ~ In 0 v /\ ~ In 0 x /\ str_var s' var buf cap (v ++ [0; 0]).
Proof.
  exists (s_ins 6), 520, 40, 10, abc, 60, 2, [120; 121], 6, (result (string_op 80 (s_ins 6) lbINSERTSTR)).
  split; [decided|]. split; [decided|]. split; [decided|]. split; [vm_compute; reflexivity|]. split; [left; vm_compute; discriminate|].
  split; [decided|]. split; [vm_compute; reflexivity|]. split; [cbn; lia|]. split; [cbn; lia|]. decided.
Qed.

(** Copy of an empty string constant, for which no memory is allocated: there
    is never memory for the result *)
Definition s_copy0 : st := scene zero NULL [3; 1; 0; 300; 0] [] [].

Lemma copy_empty_refuted : exists s n pos al a s',
  operands s [n; pos; al; a; len []] /\ str_data s a [] /\ len [] <= al mod 4096 /\
  string_op 80 s lbCOPYSUBSTR = Err eNOMEMORY s'.
Proof.
  exists s_copy0, 3, 1, 0, 300, (result (string_op 80 s_copy0 lbCOPYSUBSTR)).
  split; [decided|]. split; [decided|]. split; [vm_compute; discriminate | decided].
Qed.

(** Pos('b', 'abc', 5) is 5: the search continues in the copy of 'b' made
    behind the copy of 'abc' *)
Definition s_pos (pos : Z) (v x : list Z) : st :=
  scene zero NULL [pos; 10; 80; len v; 10; 100; len x] [] [(80, v); (100, x)].

Lemma find_beyond_refuted : exists s pos al a v sal sa x s',
  operands s [pos; al; a; len v; sal; sa; len x] /\ str_data s a v /\ str_data s sa x /\
  not_temporary al /\ not_temporary sal /\ string_op 80 s lbFINDSUBSTR = Ok s' /\
  len v < pos /\ tos s' 0 = Some 5 /\ (forall r, first_occurrence x v pos r -> r = 0).
Proof.
  exists (s_pos 5 abc [98]), 5, 10, 80, abc, 10, 100, [98], (result (string_op 80 (s_pos 5 abc [98]) lbFINDSUBSTR)).
  split; [decided|]. split; [decided|]. split; [decided|]. split; [vm_compute; reflexivity|]. split; [vm_compute; reflexivity|].
  split; [decided|]. split; [vm_compute; reflexivity|]. split; [vm_compute; reflexivity|].
  intros r [(H1 & (v1 & v2 & E & Er) & _) | (H & _)]; [|exact H]. exfalso.
  assert (L : len abc = len v1 + (1 + len v2)) by (rewrite E, len_app, len_app; reflexivity).
  change (len abc) with 3 in L. pose proof (len_nonneg v2). lia.
Qed.

(** A string that contains NUL is searched up to there only *)
Lemma find_nul_refuted : exists s pos al a v sal sa x s',
  operands s [pos; al; a; len v; sal; sa; len x] /\ str_data s a v /\ str_data s sa x /\
  not_temporary al /\ not_temporary sal /\ string_op 80 s lbFINDSUBSTR = Ok s' /\
  tos s' 0 = Some 0 /\ pos = 1 /\ occurs x v 3.
Proof.
  exists (s_pos 1 [97; 0; 98] [98]), 1, 10, 80, [97; 0; 98], 10, 100, [98],
    (result (string_op 80 (s_pos 1 [97; 0; 98] [98]) lbFINDSUBSTR)).
  split; [decided|]. split; [decided|]. split; [decided|]. split; [vm_compute; reflexivity|]. split; [vm_compute; reflexivity|].
  split; [decided|]. split; [vm_compute; reflexivity|]. split; [reflexivity|].
  exists [97; 0], []. split; reflexivity.
Qed.

(** A string variable of 5000 characters has a capacity of 904: the size of the
    buffer is masked as if it were the one of a temporary string *)
Definition s_big : st :=
  let s := mkSt (put_words zero (5301 - 4) (rev [10520; 1000; 100; 1000])) (mkCfg 12000 10500 11500 6000 256) 10600 0 0 0 0 NULL in
  with_mem s (put_words (mem s) 5260 [0; 1200; 5000]).

Lemma assign_large_refuted : exists s var src al x buf cap s',
  assign_op lbSTRCPY s var 0 src al x /\ not_temporary al /\
  word_at s var 0 /\ word_at s (var + 2) buf /\ word_at s (var + 4) cap /\ inside s buf cap /\
  str_data s src x /\ apart buf cap src (len x) /\ apart var 6 buf cap /\ len x = 1000 /\ cap = 5000 /\
  string_op 80 s lbSTRCPY = Ok s' /\ word_at s' var 904.
Proof.
  exists s_big, 10520, 100, 1000, (repeat 0 1000), 1200, 5000, (result (string_op 80 s_big lbSTRCPY)).
  split; [left; split; [reflexivity|]; split; [reflexivity | decided]|].
  split; [vm_compute; reflexivity|]. split; [decided|]. split; [decided|]. split; [decided|].
  split; [split; vm_compute; discriminate|]. split; [decided|]. split; [right; vm_compute; discriminate|].
  split; [right; vm_compute; discriminate|]. split; [vm_compute; reflexivity|]. split; [reflexivity|]. split; [decided|]. decided.
Qed.

(** 'abc' + 'de' with room for four characters: 'abc' *)
Definition s_cat : st := scene zero NULL [2; 60; 2; 4; 40; 3] [] [(40, abc); (60, [100; 101])].

Lemma concat_refuted : exists s sal src x dal dest v s',
  operands s [sal; src; len x; dal; dest; len v] /\ not_temporary sal /\
  str_data s src x /\ chars_at (mem s) dest v /\ inside s dest (dal mod 4096) /\ len v <= dal mod 4096 /\
  apart dest (dal mod 4096) src (len x) /\ apart dest (dal mod 4096) (2 * (sp s / 2 - 5)) 6 /\
  string_op 80 s lbSTRCAT = Ok s' /\ top_string s' dal dest v /\ len (truncate (dal mod 4096) (v ++ x)) = 4 /\ len v = 3.
Proof.
  exists s_cat, 2, 60, [100; 101], 4, 40, abc, (result (string_op 80 s_cat lbSTRCAT)).
  split; [decided|]. split; [vm_compute; reflexivity|]. split; [decided|]. split; [decided|].
  split; [split; vm_compute; discriminate|]. split; [vm_compute; discriminate|].
  split; [left; vm_compute; discriminate|]. split; [left; vm_compute; discriminate|].
  split; [decided|]. split; [split; decided|]. split; vm_compute; reflexivity.
Qed.

(** Appending a character to a temporary string that is full: the byte behind
    the buffer is overwritten *)
Definition s_catc : st := scene zero NULL [65; 3 + 32768; 800; 3] [] [(800, abc)].

Lemma catc_temporary_refuted : exists s ch dal dest v s',
  operands s [ch; dal; dest; len v] /\ str_data s dest v /\ len v = dal mod 4096 /\ dal = len v + 32768 /\
  string_op 80 s lbSTRCATC = Ok s' /\ byte_of (mem s) (dest + dal mod 4096) = 0 /\ byte_of (mem s') (dest + dal mod 4096) = 65.
Proof.
  exists s_catc, 65, (3 + 32768), 800, abc, (result (string_op 80 s_catc lbSTRCATC)).
  split; [decided|]. split; [decided|]. split; [vm_compute; reflexivity|]. split; [reflexivity|]. split; [decided|].
  split; vm_compute; reflexivity.
Qed.

(** A string of three characters assigned to an array of two *)
Definition s_arr : st := scene zero NULL [530; 2; 3; 40; 3] [] [(40, abc)].

Lemma array_refuted : exists s array asize al buf off v s' b,
  array_op false s array asize al buf off v /\ not_temporary al /\ str_data s buf v /\
  inside s (array + off) asize /\ apart (array + off) asize buf (len v) /\
  string_op 80 s lbSTR2BSTR = Ok s' /\ ~ within (array + off) asize b /\ byte_of (mem s') b <> byte_of (mem s) b.
Proof.
  exists s_arr, 530, 2, 3, 40, 0, abc, (result (string_op 80 s_arr lbSTR2BSTR)), 532.
  split; [split; [reflexivity | decided]|]. split; [vm_compute; reflexivity|]. split; [decided|].
  split; [split; vm_compute; discriminate|]. split; [right; vm_compute; discriminate|]. split; [decided|].
  split; [unfold within; lia | vm_compute; discriminate].
Qed.

(** A string variable of 300 characters is allocated although the string stack
    has 256 bytes: its buffer includes bytes of the constants *)
Definition s_ini : st := with_csp (scene zero NULL [520; 300] [] []) 0.

Lemma strinit_refuted : exists s0 s l b n,
  string_map (cf s0) /\ csp s0 = 0 /\ shist 80 s0 s l /\ In (b, n) (buffers l) /\ c_rop (cf s) < b + n.
Proof.
  exists s_ini, (result (string_op 80 s_ini lbSTRINIT)), [Buf 0 300], 0, 300.
  split; [repeat split; vm_compute; discriminate|]. split; [reflexivity|]. split.
  - apply (sh_step _ _ s_ini []); [apply sh_start|].
    apply (ss_init _ _ _ 520); [decided | reflexivity | lia | decided | decided].
  - split; [left; reflexivity | vm_compute; reflexivity].
Qed.

(** A variable of 65535 characters gets no bytes at all *)
Definition s_max : st := with_csp (scene zero NULL [520; 65535] [] []) 0.

Lemma strinit_max_refuted : exists s var s',
  operands s [var; 65535] /\ string_op 80 s lbSTRINIT = Ok s' /\ csp s' = csp s /\ word_at s' (var + 4) 0.
Proof.
  exists s_max, 520, (result (string_op 80 s_max lbSTRINIT)).
  split; [decided|]. split; [decided|]. split; [vm_compute; reflexivity | decided].
Qed.

(** ** States that meet the hypotheses of the theorems *)

Lemma below_scene s stack vs ts live : cf s = map1 -> len stack <= 40 ->
  Forall (fun x => fst x + 2 * len (snd x) <= 768) vs -> Forall (fun x => fst x + len (snd x) <= 768) ts ->
  user_step s live (scene (mem s) (fch s) stack vs ts).
Proof.
  intros H0 H1 H2 H3. apply regs_user; [symmetry; exact H0 | reflexivity|]. rewrite H0. unfold in_heap, map1. cbn [c_hpb c_hpsz].
  intros b Hb. assert (E : forall j, 384 <= j -> mem (scene (mem s) (fch s) stack vs ts) j = mem s j).
  { intros j Hj. unfold scene. cbn [mem]. pose proof (len_nonneg stack).
    assert (Hr : len (rev stack) = len stack) by (unfold len; rewrite rev_length; reflexivity).
    rewrite put_words_other by lia. clear Hb H0 H1 Hr.
    assert (G : forall m, fold_left (fun m x => put_words m (fst x / 2) (snd x)) vs m j = m j).
    { induction H2 as [|x vs Hx Hvs IH]; intros m; [reflexivity|]. cbn [fold_left]. rewrite IH. apply put_words_other.
      pose proof (len_nonneg (snd x)). lia. }
    rewrite <- (G (mem s)). generalize (fold_left (fun m x => put_words m (fst x / 2) (snd x)) vs (mem s)) as m.
    clear G H2. induction H3 as [|x ts Hx Hts IH]; intros m; [reflexivity|]. cbn [fold_left]. rewrite IH. apply put_chars_other.
    pose proof (len_nonneg (snd x)). lia. }
  unfold byte_of. rewrite E by lia. reflexivity.
Qed.

Definition heap1 : st := match init_heap (scene zero NULL [] [] []) with HV s => s | _ => scene zero NULL [] [] [] end.

Lemma heap1_cfg : heap_cfg (cf (scene zero NULL [] [] [])).
Proof. unfold heap_cfg, cfg_ok. cbn. lia. Qed.

Lemma heap1_eq : init_heap (scene zero NULL [] [] []) = HV heap1.
Proof. unfold heap1. destruct (init_heap (scene zero NULL [] [] [])) as [s | | ] eqn:E; [reflexivity | vm_compute in E; discriminate E | vm_compute in E; discriminate E]. Qed.

(** Copy('abc', 2, 5) *)
Definition s_copy : st := scene (mem heap1) (fch heap1) [5; 2; 10; 40; 3] [] [(40, abc)].

Lemma s_copy_hist : hist true heap1 [EUser] s_copy [].
Proof.
  apply (h_step _ _ [] heap1 []); [apply h_start|]. apply h_user. unfold s_copy.
  apply below_scene; [reflexivity | vm_compute; discriminate | constructor | repeat constructor; vm_compute; discriminate].
Qed.

(** A temporary string on the heap, assigned to a variable *)
Definition tmp1 : st := match alloc_tmp heap1 10 with HV (s, _, _) => s | _ => heap1 end.

Lemma tmp1_eq : alloc_tmp heap1 10 = HV (tmp1, 776, 10 + 32768).
Proof.
  unfold tmp1. destruct (alloc_tmp heap1 10) as [[[s a] al] | | ] eqn:E; [|vm_compute in E; discriminate E|vm_compute in E; discriminate E].
  assert (G : match alloc_tmp heap1 10 with HV (_, a, al) => (a =? 776) && (al =? 10 + 32768) | _ => false end = true) by (vm_compute; reflexivity).
  rewrite E in G. f_equal. f_equal; [f_equal|]; lia.
Qed.

Definition tmp2 : st := with_mem tmp1 (put_chars (mem tmp1) 776 abc).
Definition s_asg : st := scene (mem tmp2) (fch tmp2) [520; 10 + 32768; 776; 3] [(520, [0; 40; 2])] [].

Lemma put_user s a n live l : len l <= n -> user_step s ((a, n) :: live) (with_mem s (put_chars (mem s) a l)).
Proof.
  intros H. split; [reflexivity|]. split; [reflexivity|]. intros b _ Hb. cbn [mem with_mem].
  assert (N : ~ a <= b < a + n) by (intros Q; apply Hb; exists (a, n); split; [left; reflexivity | exact Q]).
  clear Hb. revert a n N H. generalize (mem s) as m. induction l as [|x l IH]; intros m a n N H; [reflexivity|].
  cbn [put_chars]. rewrite len_cons in H. pose proof (len_nonneg l).
  rewrite (IH (set_byte m a x) (a + 1) (n - 1)) by lia. apply set_byte_other. lia.
Qed.

Lemma s_asg_hist : hist true heap1 [EUser; EUser; ENew 776 10] s_asg [(776, 10)].
Proof.
  apply (h_step _ _ [EUser; ENew 776 10] tmp2 [(776, 10)]).
  - apply (h_step _ _ [ENew 776 10] tmp1 [(776, 10)]).
    + apply (h_step _ _ [] heap1 []); [apply h_start|]. apply (h_tmp _ _ _ _ _ _ _ tmp1_eq). discriminate.
    + apply h_user. unfold tmp2. apply (put_user tmp1 776 10 []); vm_compute; discriminate.
  - apply h_user. unfold s_asg.
    apply below_scene; [vm_compute; reflexivity | vm_compute; discriminate | repeat constructor; vm_compute; discriminate | constructor].
Qed.
