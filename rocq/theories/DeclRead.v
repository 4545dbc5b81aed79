(** The compiler reading a well-formed type: simple types, pointers, sets. *)

From Coq Require Import ZArith Bool List Lia ZifyBool.
From Verif Require Import Words ExprModel DeclModel DeclTypes DeclSpec DeclRun.
Import ListNotations.
Open Scope Z_scope.

Lemma bind_assoc {A B C} (m : M A) (f : A -> M B) (g : B -> M C) d :
  bind (bind m f) g d = bind m (fun a => bind (f a) g) d.
Proof. unfold bind. destruct (m d); reflexivity. Qed.
Lemma bind_ret {A B} (a : A) (k : A -> M B) d : bind (ret a) k d = k a d.
Proof. reflexivity. Qed.

Lemma updl_last m s f : updl (length m) f (m ++ [s]) = m ++ [f s].
Proof.
  unfold updl. rewrite firstn_app, firstn_all, Nat.sub_diag. cbn [firstn].
  rewrite skipn_app, skipn_all, Nat.sub_diag. cbn. rewrite app_nil_r. reflexivity.
Qed.

Section Read.

Variable own : Z.
Variables (lev : nat) (stk np : Z) (fw : list fref) (er : list Z).
Notation st := (st lev stk np fw er).

Lemma bind_token {B} (k : Z -> M B) d : bind token k d = k (gTok d) d. Proof using. reflexivity. Qed.
Lemma bind_uint {B} (k : Z -> M B) d : bind tkn_uint k d = k (gUInt d) d. Proof using. reflexivity. Qed.
Lemma bind_ptr {B} (k : option nat -> M B) d : bind tkn_ptr k d = k (gPtr d) d. Proof using. reflexivity. Qed.
Lemma bind_str {B} (k : Z -> M B) d : bind tkn_str k d = k (gStr d) d. Proof using. reflexivity. Qed.
Lemma bind_vsize {B} (k : Z -> M B) u v l m : bind var_size k (st u v l m) = k v (st u v l m).
Proof using. unfold bind, var_size. rewrite vsize_st. reflexivity. Qed.
Lemma bind_nsym {B} (k : nat -> M B) u v l m : bind nsym k (st u v l m) = k (length m) (st u v l m).
Proof using. unfold bind, nsym. rewrite syms_st. reflexivity. Qed.
Lemma get_k u v c l m : getToken (st u v (RK c :: l) m) = Done tt (st u v l m).
Proof using. apply get_st. Qed.
Lemma get_i u v z l m : getToken (st u v (RInt z :: l) m) = Done tt (st z v l m).
Proof using. apply get_st. Qed.
Lemma get_c u v z l m : getToken (st u v (RChr z :: l) m) = Done tt (st z v l m).
Proof using. apply get_st. Qed.
Lemma expect_k u v c l m e : expect c e (st u v (RK c :: l) m) = Done tt (st u v l m).
Proof using. apply expect_st. Qed.
Lemma uint_i u v z l m : gUInt (st u v (RInt z :: l) m) = z. Proof using. reflexivity. Qed.
Lemma uint_c u v z l m : gUInt (st u v (RChr z :: l) m) = z. Proof using. reflexivity. Qed.

Lemma add_type_st u v l m name ty size par : posh own l -> ~ seen own name -> 0 <= size < 65536 ->
  add_type name ty size par (st u v l m) =
  Done (length m) (st u v l (m ++ [mkS name sTYPE (PType (mkTy ty 0 0 size 0 0 par None))])).
Proof using.
  intros P N S. unfold add_type, u16. rewrite Z.mod_small by lia. apply (add_st own); [exact P|]. left. exact N.
Qed.

End Read.

(** Conditions on numbers *)
Ltac ck :=
  repeat (match goal with
          | |- context [(?a =? ?b)%Z] =>
            let r := eval vm_compute in (a =? b)%Z in
            match r with true => change (a =? b) with true | false => change (a =? b) with false end
          end); cbv beta iota delta [orb andb negb].

Ltac sx :=
  cbv beta;
  match goal with
  | |- bind (bind _ _) _ _ = _ => rewrite bind_assoc
  | |- bind (ret _) _ _ = _ => rewrite bind_ret
  | |- bind token _ _ = _ => rewrite bind_token; rewrite ?tok_k, ?tok_i, ?tok_c; cbv beta; ck
  | |- bind tkn_uint _ _ = _ => rewrite bind_uint; rewrite ?uint_i, ?uint_c; cbv beta
  | |- bind var_size _ _ = _ => rewrite bind_vsize; cbv beta
  | |- bind nsym _ _ = _ => rewrite bind_nsym; cbv beta
  | |- bind getToken _ (DeclRun.st _ _ _ _ _ _ _ (RK _ :: _) _) = _ => erewrite bind_run by apply get_k
  | |- bind getToken _ (DeclRun.st _ _ _ _ _ _ _ (RInt _ :: _) _) = _ => erewrite bind_run by apply get_i
  | |- bind getToken _ (DeclRun.st _ _ _ _ _ _ _ (RChr _ :: _) _) = _ => erewrite bind_run by apply get_c
  | |- bind getToken _ (DeclRun.st _ _ _ _ _ _ _ (RId _ :: _) _) = _ => erewrite bind_run by apply get_st
  | |- bind (expect _ _) _ (DeclRun.st _ _ _ _ _ _ _ (RK _ :: _) _) = _ => erewrite bind_run by apply expect_k
  | |- bind (upd_type _ _) _ _ = _ => erewrite bind_run by apply upd_type_st
  | |- bind (upd_field _ _) _ _ = _ => erewrite bind_run by apply upd_field_st
  | |- bind (set_var_size _) _ _ = _ => erewrite bind_run by apply set_vsize_st
  end.

Section Simple.

Variable own : Z.
Variables (lev : nat) (stk np : Z) (fw : list fref) (er : list Z).
Notation st := (st lev stk np fw er).

Lemma s16_id z : -32768 <= z < 32768 -> s16 z = z.
Proof using.
  intros H. unfold s16, u16. cbv zeta. destruct (z mod 65536 <? 32768) eqn:E.
  - destruct (Z_lt_le_dec z 0); [|rewrite Z.mod_small; lia].
    rewrite <- (Z.mod_add z 1 65536) in E by lia. rewrite Z.mod_small in E; lia.
  - destruct (Z_lt_le_dec z 0); [|rewrite Z.mod_small in E; lia].
    rewrite <- (Z.mod_add z 1 65536) by lia. rewrite Z.mod_small; lia.
Qed.
Lemma s32_id z : -2147483648 <= z < 2147483648 -> s32 z = z.
Proof using.
  intros H. unfold s32, u32. cbv zeta. destruct (z mod 4294967296 <? 2147483648) eqn:E.
  - destruct (Z_lt_le_dec z 0); [|rewrite Z.mod_small; lia].
    rewrite <- (Z.mod_add z 1 4294967296) in E by lia. rewrite Z.mod_small in E; lia.
  - destruct (Z_lt_le_dec z 0); [|rewrite Z.mod_small in E; lia].
    rewrite <- (Z.mod_add z 1 4294967296) by lia. rewrite Z.mod_small; lia.
Qed.

(** [sign] literal *)
Lemma signed_st z u v l m : -32768 < z < 32768 ->
  exists u', subrange_signed (st u v (w_int z ++ l) m) = Done (Some z) (st u' v (RInt (Z.abs z) :: l) m).
Proof using.
  intros H. unfold w_int, subrange_signed. destruct (z <? 0) eqn:E; cbn [app].
  - exists u. sx. sx. sx. unfold subrange_value. sx. sx.
    replace (65535 <? - z) with false by lia. sx. unfold ret. rewrite (s16_id (- z)) by lia.
    rewrite Z.opp_involutive, s16_id by lia. rewrite Z.abs_neq by lia. reflexivity.
  - exists u. sx. unfold subrange_value. sx. sx. replace (65535 <? z) with false by lia. sx. unfold ret.
    rewrite s16_id by lia. rewrite Z.abs_eq by lia. reflexivity.
Qed.

Lemma first_signed z u v l m :
  (gTok (st u v (w_int z ++ l) m) = tINT_CONST \/ gTok (st u v (w_int z ++ l) m) = tMINUS) /\ posh own (w_int z ++ l).
Proof using. unfold w_int. destruct (z <? 0); cbn; auto. Qed.

(** What a subrange of integers adds to the table *)
Definition e_range (name lo hi : Z) : sym := mkS name sTYPE (PType (mkTy sSUBRANGE sINT 0 2 lo hi None None)).
Definition e_chars (name lo hi : Z) : sym := mkS name sTYPE (PType (mkTy sSUBRANGE sCHAR 0 1 lo hi None None)).

Lemma range_st k name lo hi u v y r m : -32768 < lo <= hi -> hi < 32768 -> ~ seen own name -> posh own (y :: r) ->
  exists u', new_simple_type k name (st u v (w_int lo ++ RK 0x0b :: w_int hi ++ y :: r) m) =
             Done (Some (length m)) (st u' v (y :: r) (m ++ [e_range name lo hi])).
Proof using.
  intros L H N P. unfold new_simple_type.
  destruct (signed_st lo u v (RK 0x0b :: w_int hi ++ y :: r) m ltac:(lia)) as (u1 & S1).
  destruct (signed_st hi (Z.abs lo) v (y :: r) (m ++ [e_range name lo 32767]) ltac:(lia)) as (u2 & S2).
  exists (Z.abs hi). rewrite bind_token. cbv beta.
  assert (T : gTok (st u v (w_int lo ++ RK 11 :: w_int hi ++ y :: r) m) =? tLPAREN = false /\
    (gTok (st u v (w_int lo ++ RK 11 :: w_int hi ++ y :: r) m) =? tINT_CONST)
    || (gTok (st u v (w_int lo ++ RK 11 :: w_int hi ++ y :: r) m) =? tMINUS)
    || (gTok (st u v (w_int lo ++ RK 11 :: w_int hi ++ y :: r) m) =? tPLUS) = true).
  { destruct (first_signed lo u v (RK 11 :: w_int hi ++ y :: r) m) as ([-> | ->] & _); auto. }
  destruct T as (-> & ->). erewrite bind_run by exact S1. cbv beta iota.
  erewrite bind_run by (apply (add_type_st own); [exact I|exact N|unfold sINT_SIZE; lia]). sx.
  rewrite updl_last. cbn [ftype sParm set_max set_min set_sub sName sKind tType tDim tSize tMin tMax tPar tIdx tSub].
  sx. sx. change (mkS name sTYPE _) with (e_range name lo 32767) at 1.
  rewrite bind_token. cbv beta.
  assert (T : (gTok (st (Z.abs lo) v (w_int hi ++ y :: r) (m ++ [e_range name lo 32767])) =? tINT_CONST)
    || (gTok (st (Z.abs lo) v (w_int hi ++ y :: r) (m ++ [e_range name lo 32767])) =? tMINUS)
    || (gTok (st (Z.abs lo) v (w_int hi ++ y :: r) (m ++ [e_range name lo 32767])) =? tPLUS) = true).
  { destruct (first_signed hi (Z.abs lo) v (y :: r) (m ++ [e_range name lo 32767])) as ([-> | ->] & _); auto. }
  rewrite T. sx. erewrite bind_run by exact S2. sx. cbv beta iota. replace (hi <? lo) with false by lia.
  sx. rewrite updl_last. sx. reflexivity.
Qed.

Lemma chars_st k name lo hi u v y r m : 0 <= lo <= hi -> ~ seen own name -> posh own (y :: r) ->
  new_simple_type k name (st u v (RChr lo :: RK 0x0b :: RChr hi :: y :: r) m) =
  Done (Some (length m)) (st hi v (y :: r) (m ++ [e_chars name lo hi])).
Proof using.
  intros L N P. unfold new_simple_type. sx. sx.
  erewrite bind_run by (apply (add_type_st own); [exact I|exact N|unfold sCHAR_SIZE; lia]). sx. sx. sx. sx. sx.
  replace (hi <? lo) with false by lia. cbv beta iota delta [orb].
  sx. sx. sx. rewrite !updl_last. reflexivity.
Qed.

Lemma tid_none d : gTok d <> sTYPE -> type_identifier d = Done None d.
Proof using.
  intros H. unfold type_identifier. rewrite bind_token. apply Z.eqb_neq in H. rewrite H. reflexivity.
Qed.

Lemma tid_named n y r u v m p s t : latest m n p s -> sKind s = 0x44 -> sParm s = PType t ->
  0 <= tSize t < 65536 -> y <> tLBRACK ->
  exists u', type_identifier (st u v (RId n :: RK y :: r) m) = Done (Some p) (st u' (tSize t) (RK y :: r) m).
Proof using.
  intros La K E S Y. destruct (st_named lev stk np fw er u v n (RK y :: r) m p s La) as (T1 & T2).
  exists (gUInt (st u v (RId n :: RK y :: r) m)).
  unfold type_identifier. rewrite bind_token, T1, K. ck. rewrite bind_ptr, T2. cbv beta iota.
  sx. destruct La as (N & _). erewrite bind_run by (eapply get_type_st; eassumption). cbv beta. sx.
  rewrite s32_id by lia.
  destruct (tType t =? sSTRING); [|reflexivity]. rewrite bind_token, tok_k. cbv beta.
  replace (y =? tLBRACK) with false by lia. reflexivity.
Qed.

End Simple.
