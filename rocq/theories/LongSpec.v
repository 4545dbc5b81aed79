(** Specification of the long-integer operations. *)

From Coq Require Import ZArith List.
From Verif Require Import State VmSpec.
Import ListNotations.
Open Scope Z_scope.

Definition signed32 (v z : Z) : Prop :=
  -2147483648 <= z <= 2147483647 /\ exists k, v = z + 4294967296 * k.
Definition word32 (r z : Z) : Prop :=
  0 <= r <= 4294967295 /\ exists k, r = z + 4294967296 * k.
Definition fits32 (z : Z) : Prop := -2147483648 <= z <= 2147483647.
Definition bitwise32 (f : bool -> bool -> bool) (a b r : Z) : Prop :=
  0 <= r <= 4294967295 /\ forall i, 0 <= i < 32 -> Z.testbit r i = f (Z.testbit a i) (Z.testbit b i).

(** The long value [k] words below the top of the stack: high half on top *)
Definition long_at (s : st) (k v : Z) : Prop :=
  exists lo hi, tos s k = Some hi /\ tos s (k + 1) = Some lo /\ v = lo + 65536 * hi.

Definition lsgn1 (R : Z -> Z -> Prop) (a r : Z) : Prop := exists x, signed32 a x /\ R x r.
Definition lsgn2 (R : Z -> Z -> Z -> Prop) (a b r : Z) : Prop :=
  exists x y, signed32 a x /\ signed32 b y /\ R x y r.
(** Both operands' signed readings satisfy [P] *)
Definition ldom1 (P : Z -> Prop) (a : Z) : Prop := forall x, signed32 a x -> P x.
Definition ldom2 (P : Z -> Z -> Prop) (a b : Z) : Prop :=
  forall x y, signed32 a x -> signed32 b y -> P x y.

(** Numbers of the operations in insn16/include/longops.h *)
Definition nDNEG := 0x41. Definition nDABS := 0x42. Definition nDINC := 0x43.
Definition nDDEC := 0x44. Definition nDNOT := 0x45. Definition nDADD := 0x46.
Definition nDSUB := 0x47. Definition nDMUL := 0x48. Definition nDDIV := 0x49.
Definition nDMOD := 0x4a. Definition nDSLL := 0x4b. Definition nDSRL := 0x4c.
Definition nDSRA := 0x4d. Definition nDOR := 0x4e. Definition nDAND := 0x4f.
Definition nDEQUZ := 0x50. Definition nDNEQZ := 0x51. Definition nDLTZ := 0x52.
Definition nDGTEZ := 0x53. Definition nDGTZ := 0x54. Definition nDLTEZ := 0x55.
Definition nDEQU := 0x56. Definition nDNEQ := 0x57. Definition nDLT := 0x58.
Definition nDGTE := 0x59. Definition nDGT := 0x5a. Definition nDLTE := 0x5b.
Definition nDDUP := 0x5c. Definition nDXCHG := 0x5d. Definition nCNVD := 0x5e.
Definition nUCNVD := 0x5f. Definition nDCNV := 0x60. Definition nDUMUL := 0x61.
Definition nDUDIV := 0x62. Definition nDUMOD := 0x63. Definition nDULT := 0x64.
Definition nDUGTE := 0x65. Definition nDUGT := 0x66. Definition nDULTE := 0x67.
Definition nDXOR := 0x68.

(** long -> long: (operation, domain, relation operand/result) *)
Definition long_unary_ops : list (Z * (Z -> Prop) * (Z -> Z -> Prop)) :=
  [ (nDNEG, ldom1 (fun x => fits32 (- x)), lsgn1 (fun x r => word32 r (- x)));
    (nDABS, ldom1 (fun x => fits32 (Z.abs x)), lsgn1 (fun x r => word32 r (Z.abs x)));
    (nDINC, any1, lsgn1 (fun x r => word32 r (x + 1)));
    (nDDEC, any1, lsgn1 (fun x r => word32 r (x - 1)));
    (nDNOT, any1, fun a r => bitwise32 (fun x _ => negb x) a 0 r) ].

(** long x long -> long *)
Definition long_binary_ops : list (Z * (Z -> Z -> Prop) * (Z -> Z -> Z -> Prop)) :=
  [ (nDADD, ldom2 (fun x y => fits32 (x + y)), lsgn2 (fun x y r => word32 r (x + y)));
    (nDSUB, ldom2 (fun x y => fits32 (x - y)), lsgn2 (fun x y r => word32 r (x - y)));
    (nDMUL, ldom2 (fun x y => fits32 (x * y)), lsgn2 (fun x y r => word32 r (x * y)));
    (nDUMUL, any2, fun a b r => word32 r (a * b));
    (nDDIV, ldom2 (fun x y => y <> 0 /\ ~ (x = -2147483648 /\ y = -1)),
      lsgn2 (fun x y r => exists q m, truncdiv x y q m /\ word32 r q));
    (nDMOD, ldom2 (fun x y => y <> 0 /\ ~ (x = -2147483648 /\ y = -1)),
      lsgn2 (fun x y r => exists q m, truncdiv x y q m /\ word32 r m));
    (nDUDIV, (fun _ b => b <> 0), fun a b r => exists m, a = b * r + m /\ 0 <= m < b);
    (nDUMOD, (fun _ b => b <> 0), fun a b r => exists q, a = b * q + r /\ 0 <= r < b);
    (nDOR, any2, bitwise32 orb);
    (nDAND, any2, bitwise32 andb);
    (nDXOR, any2, bitwise32 xorb) ].

(** long x 16-bit count -> long *)
Definition long_shift_ops : list (Z * (Z -> Z -> Z -> Prop)) :=
  [ (nDSLL, fun a n r => word32 r (a * 2 ^ n));
    (nDSRL, fun a n r => exists m, a = 2 ^ n * r + m /\ 0 <= m < 2 ^ n);
    (nDSRA, fun a n r => exists x q m, signed32 a x /\ x = 2 ^ n * q + m /\ 0 <= m < 2 ^ n /\ word32 r q) ].

(** long -> truth value *)
Definition long_test_ops : list (Z * (Z -> Z -> Prop)) :=
  [ (nDEQUZ, lsgn1 (fun x r => truth r (x = 0)));
    (nDNEQZ, lsgn1 (fun x r => truth r (x <> 0)));
    (nDLTZ, lsgn1 (fun x r => truth r (x < 0)));
    (nDGTEZ, lsgn1 (fun x r => truth r (x >= 0)));
    (nDGTZ, lsgn1 (fun x r => truth r (x > 0)));
    (nDLTEZ, lsgn1 (fun x r => truth r (x <= 0))) ].

(** long x long -> truth value: the relation the operation is named after *)
Definition long_relation_ops : list (Z * (Z -> Z -> Z -> Prop)) :=
  [ (nDEQU, lsgn2 (fun x y r => truth r (x = y)));
    (nDNEQ, lsgn2 (fun x y r => truth r (x <> y)));
    (nDLT, lsgn2 (fun x y r => truth r (x < y)));
    (nDGTE, lsgn2 (fun x y r => truth r (x >= y)));
    (nDGT, lsgn2 (fun x y r => truth r (x > y)));
    (nDLTE, lsgn2 (fun x y r => truth r (x <= y)));
    (nDULT, fun a b r => truth r (a < b));
    (nDUGTE, fun a b r => truth r (a >= b));
    (nDUGT, fun a b r => truth r (a > b));
    (nDULTE, fun a b r => truth r (a <= b)) ].

Definition symmetric_relations : list Z := [nDEQU; nDNEQ].
