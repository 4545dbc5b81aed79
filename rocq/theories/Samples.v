(** Concrete machine states used by the examples beside the theorems. *)

From Coq Require Import ZArith List.
From Verif Require Import Words State.
Import ListNotations.
Open Scope Z_scope.

Definition words (l : list Z) : Z -> Z := fun i => if i <? 0 then 0 else nth (Z.to_nat i) l 0.

(** 128 bytes: string stack 0..7, constants 8..15, Pascal stack 16..95, heap 96..127 *)
Definition demo_cfg : cfg := mkCfg 128 16 96 8 32.

(** The main program's frame lies at 16 (words 8-12) with variables at 26..31
    (words 13-15), the frame of a procedure of level 1 at 36 (words 18-22) with
    parameters at 32..35 and locals at 46..51 (words 23-25); the operands 7, 3, 5 lie on the
    stack at 52, 54, 56. *)
Definition demo : st :=
  mkSt (words [0;0;0;0; 0x4142;0x4344;0;0;
               0;0;0;0;0; 11;22;33; 100;200;
               16;16;0x123;0;1; 44;55;66; 7;3;5])
       demo_cfg 56 0 36 0x40 1 (-1).

(** The same with other operands on the top of the stack *)
Definition demo_with (l : list Z) : st :=
  mkSt (words ([0;0;0;0; 0x4142;0x4344;0;0;
               0;0;0;0;0; 11;22;33; 100;200;
               16;16;0x123;0;1; 44;55;66] ++ l))
       demo_cfg (50 + 2 * Z.of_nat (length l)) 0 36 0x40 1 (-1).
