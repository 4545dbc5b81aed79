(** The pass of the optimizer for strings, insn16/popt/popt_strconst.c.  Definitions
    only.

    Simplified: as in PoptModel.v; in particular the relocations are not part of this
    model. *)

From Coq Require Import ZArith Bool List.
From Verif Require Import Words Opcodes Machine PoptModel PoptLongModel.
From Verif Require StringModel.
Import ListNotations.
Open Scope Z_scope.

(** The instructions tested in the conditions :118-135, :152-163 *)
Definition lib_call (fs : list Z) (o : opType) : bool := (op o =? oSTRLIB) && existsb (Z.eqb (arg2 o)) fs.
Definition string_load : opType -> bool := one_of [oLD; oLDS; oPUSH; oPUSHB].
Definition copy_calls : list Z :=
  [StringModel.lbSTRCPY2; StringModel.lbSTRCPYX2; StringModel.lbSTRDUP; StringModel.lbSTRCAT; StringModel.lbSTRCMP].
Definition case1 (v : list opType) (i : nat) : bool :=
  match nth_error v (i + 2), nth_error v (i + 3) with
  | Some p, Some q => string_load p && lib_call copy_calls q
  | _, _ => false
  end.
Definition case2 (v : list opType) (i : nat) : bool :=
  match nth_error v (i + 2), nth_error v (i + 3), nth_error v (i + 4) with
  | Some p, Some a, Some q => string_load p && one_of [oLA; oLAS] a && lib_call [StringModel.lbSTRCPY; StringModel.lbSTRCPYX] q
  | _, _, _ => false
  end.

(** An iteration of the loop :114-168 of popt_StringConstOptimize; [v] are the entries
    that g_opPtr points to.  In the first case nchanges is not increased. *)
Definition string_body (v : list opType) (i : nat) : option rout :=
  if (i + 2 <? length v)%nat then
    match nth_error v i, nth_error v (i + 1) with
    | Some a, Some b =>
      Some (if negb (op a =? oLAC) || negb (lib_call [StringModel.lbSTRDUP] b) then Rw i [] [] (S i) 0
            else if case1 v i then Rw (S i) [nop] [] (S i) 0
            else if case2 v i then Rw (S i) [nop] [] (S i) 1
            else Rw i [] [] (S i) 0)
    | _, _ => None
    end
  else None.
Definition string_step := table_step string_body.

(** The inner loop of popt_StringLocalOptimization :203-207 *)
Fixpoint string_sweeps (m n : nat) (t : list opType) : lout :=
  match m with
  | O => Diverges
  | S m' => match pass n string_step t 0 0 with
            | Result t' c => if (c =? 0)%nat then Result t' 0 else string_sweeps m' n t'
            | r => r
            end
  end.

(** The outer loop :196-210 with popt_UpdatePeephole, popt_peephole.c:289-352 *)
Fixpoint string_loop (k m n : nat) (t l out : list opType) : oout :=
  match k with
  | O => ODiverges
  | S k' =>
    match string_sweeps m n t with
    | Diverges => ODiverges
    | Breaks => OBreaks
    | Result t' _ =>
      match t' with
      | [] => OBreaks
      | o :: r =>
        let out' := if not_nop o then out ++ [o] else out in
        if op o =? oEND then OResult out'
        else let '(t2, l2) := refill (filter not_nop r) l in string_loop k' m n t2 l2 out'
      end
    end
  end.

(** popt_StringLocalOptimization :183-220, and popt_StringOptimization,
    popt_strings.c:62-90 *)
Definition string_optimize (k m n : nat) (l : list opType) : oout :=
  let '(pre, r) := leading l in
  let '(t, r') := refill [] r in
  match string_loop k m n t r' [] with
  | OResult out => OResult (pre ++ out)
  | x => x
  end.
