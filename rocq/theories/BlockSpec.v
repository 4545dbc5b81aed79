(** Specification of blocks, of calls and of the memory of a procedure.
    Independent of the functions of BlockModel.v. *)

From Coq Require Import ZArith Bool List.
From Verif Require Import State Opcodes Machine VmSpec ExprModel ExprSpec StmtModel StmtSpec ActModel ActSpec BlockModel.
From Verif Require FinalSpec.
Import ListNotations.
Open Scope Z_scope.

(** begin … end *)
Inductive gblock : list tok -> stmts -> Prop :=
| gb_block a us ss b : tk a = tBEGIN -> gstmts us ss -> tk b = tEND -> gblock (a :: us ++ [b]) ss.

(** ** Initial values *)

(** The initializer gives the variable the value [z]: a file its number, a variable
    of one word or byte a value that it can hold *)
Inductive gives : initial -> var -> Z -> Prop :=
| gives_file v x n : sLevel v = vlev x -> vOffset v = voff x -> vty x = xWord -> 0 <= n <= 65535 ->
    gives (IFile v n) x n
| gives_value v x z junk : sLevel v = vlev x -> vOffset v = voff x -> class_of (vty x) <> None -> size_of (vty x) <> 4 ->
    storable (vty x) z = true -> gives (add_var_initializer v (kind_of (vty x)) z junk) x z.

(** [r1] are the values of the variables [r] after the initialization. *)
Definition started (ini : list (var * Z)) (r r1 : env) : Prop :=
  (forall x z, In (x, z) ini -> r1 x = z) /\ (forall x, ~ In x (map fst ini) -> r1 x = r x).

(** ** The text of a block at level [k], in which the variables [xs] can be used *)
Record block_text (k : Z) (xs : list var) (dstack : Z) (inits : list initial) (ini : list (var * Z)) (ts : list tok) (ss : stmts) : Prop :=
  { bt_block : gblock ts ss;
    bt_wf : wf_stmts false false ss;
    bt_vars : forall x, In x (stmts_vars ss) -> In x xs /\ addressable k x;
    bt_lines : Forall (fun t => 0 <= tline t <= 65535) ts;
    bt_short : 2 * Z.of_nat (length ts) <= 32768;
    bt_inits : Forall2 (fun i xz => gives i (fst xz) (snd xz)) inits ini;
    bt_once : NoDup (map fst ini);
    bt_ini_vars : forall x, In x (map fst ini) -> In x xs /\ addressable k x;
    bt_stack : 0 <= dstack <= 32766 }.

(** The bytes that are allocated *)
Definition whole (dstack : Z) : Z := dstack + dstack mod 2.

(** ** Execution of code with calls: where to return to is kept beside the state.
    The machine stores the address of the next instruction in the frame, and a return
    leads there. *)
Definition address_of (prog : list opType) (i : nat) : Z := FinalSpec.code_size (FinalSpec.instructions (firstn i prog)).
Inductive cstep (prog : list opType) : nat * list nat * st -> nat * list nat * st -> Prop :=
| cstep_step i s j s' ks : step prog (i, s) (j, s') -> cstep prog (i, ks, s) (j, ks, s')
| cstep_call i s lv l s' j ks : nth_error prog i = Some (mkOp oPCAL lv l) ->
    exec_insn (with_pc s (address_of prog i)) (mkOp oPCAL lv l) = Ok s' ->
    labelled prog l j -> cstep prog (i, ks, s) (j, S i :: ks, s')
| cstep_return i s a b s' k ks : nth_error prog i = Some (mkOp oRET a b) -> exec_insn s (mkOp oRET a b) = Ok s' ->
    pc s' = address_of prog k mod 65536 -> cstep prog (i, k :: ks, s) (k, ks, s').
Inductive cruns (prog : list opType) : nat * list nat * st -> nat * list nat * st -> Prop :=
| cruns_refl a : cruns prog a a
| cruns_step a b c : cstep prog a b -> cruns prog b c -> cruns prog a c.

(** ** The variables of a procedure at level [k] *)

(** Those passed by value *)
Definition by_value (p : parm) : bool := match p with ByValue _ => true | ByVar _ => false end.
Fixpoint value_vars (k : Z) (ps : list parm) : list var :=
  match ps with [] => [] | p :: ps => if by_value p then parm_var k p ps :: value_vars k ps else value_vars k ps end.
Definition result_vars (k : Z) (res : option etype) (ps : list parm) : list var :=
  match res with None => [] | Some t => [result_var k t ps] end.

(** The local variables lie within the [dstack] bytes behind the frame header. *)
Record locals (k dstack : Z) (ls : list var) : Prop :=
  { lo_at : forall x, In x ls -> vlev x = k /\ 0 <= voff x /\ voff x + size_of (vty x) <= dstack /\
      (size_of (vty x) <> 1 -> voff x mod 2 = 0);
    lo_sep : forall x y, In x ls -> In y ls -> x <> y -> disjoint (voff x) (size_of (vty x)) (voff y) (size_of (vty y)) }.

(** [h] is the frame of the procedure at level [n] that surrounds what is called:
    the static chain leads from frames of higher levels to it; this is so in [s], and
    in every state that differs from [s] above the top of the stack only *)
Definition surrounded (s : st) (n h : Z) : Prop :=
  forall s', same_regs s s' -> (forall i, i <= sp s / 2 -> rd s' i = rd s i) ->
  (exists l, static_chain s' (fp s') l) /\
  exists m, reaches s' (fp s') m h /\ frame_level s' h n /\
    forall j g, (j < m)%nat -> reaches s' (fp s') j g -> exists l, frame_level s' g l /\ n < l.

(** The parameters passed by value have the values [vs]. *)
Fixpoint arrived (k : Z) (ps : list parm) (vs : list Z) (r : env) : Prop :=
  match ps, vs with
  | p :: ps, v :: vs => (by_value p = true -> r (parm_var k p ps) = v) /\ arrived k ps vs r
  | _, _ => True
  end.

(** [call], executed at level [lev], calls [body]: the body is executed with the
    parameters and the variables [os] of the surrounding blocks; afterwards these
    have the values that the statements [ss] give them, the stack and the registers
    are as before; the result of a function has been pushed; no other word has
    changed. *)
Definition performs (lev : Z) (p : proc) (res : option etype) (ps : list parm) (l : list arg) (need : Z)
  (os : list var) (ini : list (var * Z)) (ss : stmts) (call body : list opType) : Prop :=
  forall prog i j, stands prog i call -> stands prog j body ->
  forall env0 adr vs s ks h oadr olinks obase ro (Q : env -> Prop),
  all_passed env0 adr ps l vs -> Forall (provided lev s env0 adr) l -> regular s -> room s need -> surrounded s (pLevel p) h ->
  placed (pLevel p) os oadr olinks obase (with_fp s h) -> obase <= sp s / 2 -> holding os oadr s ro ->
  (forall r r1, (forall x, In x os -> r x = ro x) -> arrived (pLevel p + 1) ps vs r -> started ini r r1 ->
     exists r', means_seq ss r1 Normal r' /\ Q r') ->
  exists s' r', cruns prog (i, ks, s) ((i + length call)%nat, ks, s') /\ Q r' /\ same_regs s s' /\
    sp s' = sp s + match res with None => 0 | Some t => slot (ByValue t) end /\
    holding os oadr s' r' /\
    (forall w, w <= sp s / 2 -> (forall x, In x os -> ~ within oadr x w) -> rd s' w = rd s w) /\
    match res with None => True | Some t => contains s' t (sp s + 2) (r' (result_var (pLevel p + 1) t ps)) end.

(** [call] calls every body that is compiled for the procedure: its text is that of
    a block in which the variables [os] of the surrounding blocks, the parameters, the
    result and the local variables [ls] can be used; the compiler comes to an end
    without a further error, and what it has generated is performed. *)
Definition compiled_body (lev : Z) (p : proc) (ps : list parm) (l : list arg) (res : option etype) (need : Z) (call : list opType) : Prop :=
  forall os ls dstack inits ini bts ss, (forall x, In x os -> vlev x <= pLevel p) -> locals (pLevel p + 1) dstack ls ->
  block_text (pLevel p + 1) (os ++ (result_vars (pLevel p + 1) res ps ++ value_vars (pLevel p + 1) ps) ++ ls) dstack inits ini bts ss ->
  forall c b rest label inner, toks c = bts ++ b :: rest -> tk b = tSEMICOLON -> g_level c = pLevel p + 1 -> g_adjust c = 0 ->
  0 <= g_label c -> g_label c + 2 * Z.of_nat (length bts) <= 65535 -> 0 < label <= 65535 ->
  exists c' body,
    (forall n, (4 * length (toks c) + 2 <= n)%nat -> routine n (pLabel p) label dstack inner inits c = SDone c') /\
    toks c' = rest /\ errs c' = errs c /\ g_level c' = pLevel p /\ out c' = out c ++ body /\
    performs lev p res ps l (need + whole dstack / 2 + 2 * Z.of_nat (length bts)) os ini ss call body.
