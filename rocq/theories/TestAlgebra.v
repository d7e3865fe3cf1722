(** The tests of the operators, monoids and semirings, /repo/src/test/test_algebra_{unary,binary,monoid,semiring}.cpp,
    run on the model.  Generated translation; not here are the checks with operands of a mixed
    integer and floating point type. *)
From Coq Require Import ZArith SpecFloat.
From Verif Require Import Base ModelAlgebra ModelOps ModelFloat.
Open Scope Z_scope.

Definition i8 := CInt true W8.    Definition u8 := CInt false W8.
Definition i16 := CInt true W16.  Definition u16 := CInt false W16.
Definition i32 := CInt true W32.  Definition u32 := CInt false W32.
Definition i64 := CInt true W64.  Definition u64 := CInt false W64.
Definition gives (r : res Z) (x : Z) : bool := match r with Ok y => y =? x | _ => false end.
(** The arguments are converted to the parameter types of the operator. *)
Definition one (f : unop) (t1 t2 : ctype) (a r : Z) : bool := gives (f t1 t2 (convert t1 a)) r.
Definition two (f : binop) (t : ctype) (a b r : Z) : bool := gives (f t (convert t a) (convert t b)) r.
Definition three (f : binop3) (t1 t2 t3 : ctype) (a b r : Z) : bool :=
  gives (f t1 t2 t3 (convert t1 a) (convert t2 b)) r.
Definition m_zero (s : semiring) (t : ctype) (r : Z) : bool := s_zero s t =? r.
Definition m_ident (m : monoid) (t : ctype) (r : Z) : bool := m_id m t =? r.
Definition all_true (l : list bool) : Prop := l = map (fun _ => true) l.

(** test_algebra_unary.cpp:53-77 *)
Example unary_misc_math_tests : all_true
 [ SFeqb (FAbs CFloat (FDiv CFloat (of_int CFloat (-2560)) (of_int CFloat 1024))) (FDiv CFloat (of_int CFloat 2560) (of_int CFloat 1024));
   one Abs i32 i32 (-2) 2;
   SFeqb (FAdditiveInverse CDouble (of_int CDouble (-10))) (of_int CDouble 10);
   SFeqb (FAdditiveInverse CDouble (of_int CDouble 500)) (of_int CDouble (-500));
   one LogicalNot i32 i32 1 0;
   one BitwiseNot u32 u32 1 4294967294;
   two LogicalOr CBool 1 0 1;
   two LogicalAnd CBool 0 1 0;
   two LogicalXor CBool 0 1 1;
   two LogicalXnor CBool 0 1 0;
   three BitwiseOr u16 u16 u16 255 3855 4095;
   three BitwiseAnd u16 u16 u16 255 3855 15;
   three BitwiseXor u16 u16 u16 255 3855 4080;
   three BitwiseXnor u16 u16 u16 255 3855 61455 ].
Proof. vm_compute. reflexivity. Qed.

(** test_algebra_unary.cpp:117-134 *)
Example unary_identity_same_domain_test : all_true
 [ one Identity u64 u64 2 2;
   one Identity u32 u32 2 2;
   one Identity u16 u16 2 2;
   one Identity u8 u8 2 2;
   one Identity i64 i64 (-2) (-2);
   one Identity i32 i32 (-2) (-2);
   one Identity i16 i16 (-2) (-2);
   one Identity i8 i8 (-2) (-2);
   one Identity CBool CBool 0 0;
   one Identity CBool CBool 1 1 ].
Proof. vm_compute. reflexivity. Qed.

(** test_algebra_unary.cpp:137-223 *)
Example unary_identity_different_domain_test : all_true
 [ one Identity u64 i64 2 2;
   one Identity u64 u32 2 2;
   one Identity u64 CBool 2 1;
   one Identity u64 CBool 0 0;
   one Identity u32 u64 2 2;
   one Identity u32 i64 2 2;
   one Identity u32 i32 2 2;
   one Identity u32 u16 2 2;
   one Identity u32 i16 2 2;
   one Identity u32 CBool 2 1;
   one Identity u32 CBool 0 0;
   one Identity u16 u32 2 2;
   one Identity u16 i32 2 2;
   one Identity u16 i16 2 2;
   one Identity u16 u8 2 2;
   one Identity u16 i8 2 2;
   one Identity u16 CBool 2 1;
   one Identity u16 CBool 0 0;
   one Identity u8 i8 2 2;
   one Identity u8 u16 2 2;
   one Identity u8 i16 2 2;
   one Identity u8 CBool 2 1;
   one Identity u8 CBool 0 0;
   one Identity i64 i32 (-2) (-2);
   one Identity i64 i16 (-2) (-2);
   one Identity i64 CBool (-2) 1;
   one Identity i64 CBool 0 0;
   one Identity i32 i64 (-2) (-2);
   one Identity i32 i16 (-2) (-2);
   one Identity i32 CBool (-2) 1;
   one Identity i32 CBool 0 0;
   one Identity i16 i32 (-2) (-2);
   one Identity i16 i8 (-2) (-2);
   one Identity i16 CBool (-2) 1;
   one Identity i16 CBool 0 0;
   one Identity i8 i16 (-2) (-2);
   one Identity i8 CBool (-2) 1;
   one Identity i8 CBool 0 0;
   one Identity CBool u32 0 0;
   one Identity CBool u32 1 1;
   one Identity CBool i32 0 0;
   one Identity CBool i32 1 1 ].
Proof. vm_compute. reflexivity. Qed.

(** test_algebra_unary.cpp:226-277 *)
Example unary_Abs_test : all_true
 [ one Abs CBool CBool 1 1 ].
Proof. vm_compute. reflexivity. Qed.

(** test_algebra_unary.cpp:280-324 *)
Example unary_additive_inverse_test : all_true
 [ SFeqb (FAdditiveInverse CDouble (of_int CDouble 0)) (of_int CDouble 0);
   SFeqb (FAdditiveInverse CDouble (of_int CDouble (-2))) (of_int CDouble 2);
   SFeqb (FAdditiveInverse CFloat (of_int CFloat 0)) (of_int CFloat 0);
   one AdditiveInverse u64 u64 2 18446744073709551614;
   one AdditiveInverse u64 u64 0 0;
   one AdditiveInverse u64 u64 (-2) 2;
   one AdditiveInverse u32 u32 2 4294967294;
   one AdditiveInverse u32 u32 0 0;
   one AdditiveInverse u32 u32 (-2) 2;
   one AdditiveInverse u16 u16 2 65534;
   one AdditiveInverse u16 u16 0 0;
   one AdditiveInverse u16 u16 (-2) 2;
   one AdditiveInverse u8 u8 2 254;
   one AdditiveInverse u8 u8 0 0;
   one AdditiveInverse u8 u8 (-2) 2;
   one AdditiveInverse i64 i64 (-2) 2;
   one AdditiveInverse i64 i64 0 0;
   one AdditiveInverse i64 i64 2 (-2);
   one AdditiveInverse i32 i32 (-2) 2;
   one AdditiveInverse i32 i32 0 0;
   one AdditiveInverse i32 i32 2 (-2);
   one AdditiveInverse i16 i16 (-2) 2;
   one AdditiveInverse i16 i16 0 0;
   one AdditiveInverse i16 i16 2 (-2);
   one AdditiveInverse i8 i8 (-2) 2;
   one AdditiveInverse i8 i8 0 0;
   one AdditiveInverse i8 i8 2 (-2);
   one AdditiveInverse CBool CBool 0 0;
   one AdditiveInverse CBool CBool 1 1 ].
Proof. vm_compute. reflexivity. Qed.

(** test_algebra_unary.cpp:327-359 *)
Example unary_multiplicative_inverse_same_domain_test : all_true
 [ one MultiplicativeInverse u64 u64 2 0;
   one MultiplicativeInverse u32 u32 2 0;
   one MultiplicativeInverse u16 u16 2 0;
   one MultiplicativeInverse u8 u8 2 0;
   one MultiplicativeInverse i64 i64 (-2) 0;
   one MultiplicativeInverse i32 i32 (-2) 0;
   one MultiplicativeInverse i16 i16 (-2) 0;
   one MultiplicativeInverse i8 i8 (-2) 0;
   one MultiplicativeInverse CBool CBool 1 1 ].
Proof. vm_compute. reflexivity. Qed.

(** test_algebra_unary.cpp:362-394 *)
Example unary_logical_not_same_domain_test : all_true
 [ one LogicalNot u64 u64 2 0;
   one LogicalNot u64 u64 0 1;
   one LogicalNot u32 u32 2 0;
   one LogicalNot u32 u32 0 1;
   one LogicalNot u16 u16 2 0;
   one LogicalNot u16 u16 0 1;
   one LogicalNot u8 u8 2 0;
   one LogicalNot u8 u8 0 1;
   one LogicalNot i64 i64 (-2) 0;
   one LogicalNot i64 i64 0 1;
   one LogicalNot i32 i32 (-2) 0;
   one LogicalNot i32 i32 0 1;
   one LogicalNot i16 i16 (-2) 0;
   one LogicalNot i16 i16 0 1;
   one LogicalNot i8 i8 (-2) 0;
   one LogicalNot i8 i8 0 1;
   one LogicalNot i32 i32 1 0;
   one LogicalNot i32 i32 0 1;
   one LogicalNot CBool CBool 0 1;
   one LogicalNot CBool CBool 1 0 ].
Proof. vm_compute. reflexivity. Qed.

(** test_algebra_unary.cpp:397-527 *)
Example unary_logical_not_different_domain_test : all_true
 [ one LogicalNot u64 i64 2 0;
   one LogicalNot u64 i64 0 1;
   one LogicalNot u64 u32 2 0;
   one LogicalNot u64 u32 0 1;
   one LogicalNot u64 CBool 2 0;
   one LogicalNot u64 CBool 0 1;
   one LogicalNot u32 u64 2 0;
   one LogicalNot u32 u64 0 1;
   one LogicalNot u32 i64 2 0;
   one LogicalNot u32 i64 0 1;
   one LogicalNot u32 i32 2 0;
   one LogicalNot u32 i32 0 1;
   one LogicalNot u32 u16 2 0;
   one LogicalNot u32 u16 0 1;
   one LogicalNot u32 i16 2 0;
   one LogicalNot u32 i16 0 1;
   one LogicalNot u32 CBool 2 0;
   one LogicalNot u32 CBool 0 1;
   one LogicalNot u16 u32 2 0;
   one LogicalNot u16 u32 0 1;
   one LogicalNot u16 i32 2 0;
   one LogicalNot u16 i32 0 1;
   one LogicalNot u16 i16 2 0;
   one LogicalNot u16 i16 0 1;
   one LogicalNot u16 u8 2 0;
   one LogicalNot u16 u8 0 1;
   one LogicalNot u16 i8 2 0;
   one LogicalNot u16 i8 0 1;
   one LogicalNot u16 CBool 2 0;
   one LogicalNot u16 CBool 0 1;
   one LogicalNot u8 i8 2 0;
   one LogicalNot u8 i8 0 1;
   one LogicalNot u8 u16 2 0;
   one LogicalNot u8 u16 0 1;
   one LogicalNot u8 i16 2 0;
   one LogicalNot u8 i16 0 1;
   one LogicalNot u8 CBool 2 0;
   one LogicalNot u8 CBool 0 1;
   one LogicalNot i64 i32 (-2) 0;
   one LogicalNot i64 i32 0 1;
   one LogicalNot i64 i16 (-2) 0;
   one LogicalNot i64 i16 0 1;
   one LogicalNot i64 CBool (-2) 0;
   one LogicalNot i64 CBool 0 1;
   one LogicalNot i32 i64 (-2) 0;
   one LogicalNot i32 i64 0 1;
   one LogicalNot i32 i16 (-2) 0;
   one LogicalNot i32 i16 0 1;
   one LogicalNot i32 CBool (-2) 0;
   one LogicalNot i32 CBool 0 1;
   one LogicalNot i16 i32 (-2) 0;
   one LogicalNot i16 i32 0 1;
   one LogicalNot i16 i8 (-2) 0;
   one LogicalNot i16 i8 0 1;
   one LogicalNot i16 CBool (-2) 0;
   one LogicalNot i16 CBool 0 1;
   one LogicalNot i8 i16 (-2) 0;
   one LogicalNot i8 i16 0 1;
   one LogicalNot i8 CBool (-2) 0;
   one LogicalNot i8 CBool 0 1;
   one LogicalNot CBool u32 0 1;
   one LogicalNot CBool u32 1 0;
   one LogicalNot CBool i32 0 1;
   one LogicalNot CBool i32 1 0 ].
Proof. vm_compute. reflexivity. Qed.

(** test_algebra_unary.cpp:571-627 *)
Example unary_logical_or_same_domain_test : all_true
 [ two LogicalOr u64 0 0 0;
   two LogicalOr u64 1 0 1;
   two LogicalOr u64 0 1 1;
   two LogicalOr u64 1 1 1;
   two LogicalOr u32 0 0 0;
   two LogicalOr u32 1 0 1;
   two LogicalOr u32 0 1 1;
   two LogicalOr u32 1 1 1;
   two LogicalOr u16 0 0 0;
   two LogicalOr u16 1 0 1;
   two LogicalOr u16 0 1 1;
   two LogicalOr u16 1 1 1;
   two LogicalOr u8 0 0 0;
   two LogicalOr u8 1 0 1;
   two LogicalOr u8 0 1 1;
   two LogicalOr u8 1 1 1;
   two LogicalOr i64 0 0 0;
   two LogicalOr i64 (-1) 0 1;
   two LogicalOr i64 0 (-1) 1;
   two LogicalOr i64 (-1) (-1) 1;
   two LogicalOr i32 0 0 0;
   two LogicalOr i32 (-1) 0 1;
   two LogicalOr i32 0 (-1) 1;
   two LogicalOr i32 (-1) (-1) 1;
   two LogicalOr i16 0 0 0;
   two LogicalOr i16 (-1) 0 1;
   two LogicalOr i16 0 (-1) 1;
   two LogicalOr i16 (-1) (-1) 1;
   two LogicalOr i8 0 0 0;
   two LogicalOr i8 (-1) 0 1;
   two LogicalOr i8 0 (-1) 1;
   two LogicalOr i8 (-1) (-1) 1;
   two LogicalOr CBool 0 0 0;
   two LogicalOr CBool 0 1 1;
   two LogicalOr CBool 1 0 1;
   two LogicalOr CBool 1 1 1 ].
Proof. vm_compute. reflexivity. Qed.

(** test_algebra_unary.cpp:669-725 *)
Example unary_logical_and_same_domain_test : all_true
 [ two LogicalAnd u64 0 0 0;
   two LogicalAnd u64 1 0 0;
   two LogicalAnd u64 0 1 0;
   two LogicalAnd u64 1 1 1;
   two LogicalAnd u32 0 0 0;
   two LogicalAnd u32 1 0 0;
   two LogicalAnd u32 0 1 0;
   two LogicalAnd u32 1 1 1;
   two LogicalAnd u16 0 0 0;
   two LogicalAnd u16 1 0 0;
   two LogicalAnd u16 0 1 0;
   two LogicalAnd u16 1 1 1;
   two LogicalAnd u8 0 0 0;
   two LogicalAnd u8 1 0 0;
   two LogicalAnd u8 0 1 0;
   two LogicalAnd u8 1 1 1;
   two LogicalAnd i64 0 0 0;
   two LogicalAnd i64 (-1) 0 0;
   two LogicalAnd i64 0 (-1) 0;
   two LogicalAnd i64 (-1) (-1) 1;
   two LogicalAnd i32 0 0 0;
   two LogicalAnd i32 (-1) 0 0;
   two LogicalAnd i32 0 (-1) 0;
   two LogicalAnd i32 (-1) (-1) 1;
   two LogicalAnd i16 0 0 0;
   two LogicalAnd i16 (-1) 0 0;
   two LogicalAnd i16 0 (-1) 0;
   two LogicalAnd i16 (-1) (-1) 1;
   two LogicalAnd i8 0 0 0;
   two LogicalAnd i8 (-1) 0 0;
   two LogicalAnd i8 0 (-1) 0;
   two LogicalAnd i8 (-1) (-1) 1;
   two LogicalAnd CBool 0 0 0;
   two LogicalAnd CBool 0 1 0;
   two LogicalAnd CBool 1 0 0;
   two LogicalAnd CBool 1 1 1 ].
Proof. vm_compute. reflexivity. Qed.

(** test_algebra_unary.cpp:767-823 *)
Example unary_logical_xor_same_domain_test : all_true
 [ two LogicalXor u64 0 0 0;
   two LogicalXor u64 1 0 1;
   two LogicalXor u64 0 1 1;
   two LogicalXor u64 1 1 0;
   two LogicalXor u32 0 0 0;
   two LogicalXor u32 1 0 1;
   two LogicalXor u32 0 1 1;
   two LogicalXor u32 1 1 0;
   two LogicalXor u16 0 0 0;
   two LogicalXor u16 1 0 1;
   two LogicalXor u16 0 1 1;
   two LogicalXor u16 1 1 0;
   two LogicalXor u8 0 0 0;
   two LogicalXor u8 1 0 1;
   two LogicalXor u8 0 1 1;
   two LogicalXor u8 1 1 0;
   two LogicalXor i64 0 0 0;
   two LogicalXor i64 (-1) 0 1;
   two LogicalXor i64 0 (-1) 1;
   two LogicalXor i64 (-1) (-1) 0;
   two LogicalXor i32 0 0 0;
   two LogicalXor i32 (-1) 0 1;
   two LogicalXor i32 0 (-1) 1;
   two LogicalXor i32 (-1) (-1) 0;
   two LogicalXor i16 0 0 0;
   two LogicalXor i16 (-1) 0 1;
   two LogicalXor i16 0 (-1) 1;
   two LogicalXor i16 (-1) (-1) 0;
   two LogicalXor i8 0 0 0;
   two LogicalXor i8 (-1) 0 1;
   two LogicalXor i8 0 (-1) 1;
   two LogicalXor i8 (-1) (-1) 0;
   two LogicalXor CBool 0 0 0;
   two LogicalXor CBool 0 1 1;
   two LogicalXor CBool 1 0 1;
   two LogicalXor CBool 1 1 0 ].
Proof. vm_compute. reflexivity. Qed.

(** test_algebra_unary.cpp:865-921 *)
Example unary_logical_xnor_same_domain_test : all_true
 [ two LogicalXnor u64 0 0 1;
   two LogicalXnor u64 1 0 0;
   two LogicalXnor u64 0 1 0;
   two LogicalXnor u64 1 1 1;
   two LogicalXnor u32 0 0 1;
   two LogicalXnor u32 1 0 0;
   two LogicalXnor u32 0 1 0;
   two LogicalXnor u32 1 1 1;
   two LogicalXnor u16 0 0 1;
   two LogicalXnor u16 1 0 0;
   two LogicalXnor u16 0 1 0;
   two LogicalXnor u16 1 1 1;
   two LogicalXnor u8 0 0 1;
   two LogicalXnor u8 1 0 0;
   two LogicalXnor u8 0 1 0;
   two LogicalXnor u8 1 1 1;
   two LogicalXnor i64 0 0 1;
   two LogicalXnor i64 (-1) 0 0;
   two LogicalXnor i64 0 (-1) 0;
   two LogicalXnor i64 (-1) (-1) 1;
   two LogicalXnor i32 0 0 1;
   two LogicalXnor i32 (-1) 0 0;
   two LogicalXnor i32 0 (-1) 0;
   two LogicalXnor i32 (-1) (-1) 1;
   two LogicalXnor i16 0 0 1;
   two LogicalXnor i16 (-1) 0 0;
   two LogicalXnor i16 0 (-1) 0;
   two LogicalXnor i16 (-1) (-1) 1;
   two LogicalXnor i8 0 0 1;
   two LogicalXnor i8 (-1) 0 0;
   two LogicalXnor i8 0 (-1) 0;
   two LogicalXnor i8 (-1) (-1) 1;
   two LogicalXnor CBool 0 0 1;
   two LogicalXnor CBool 0 1 0;
   two LogicalXnor CBool 1 0 0;
   two LogicalXnor CBool 1 1 1 ].
Proof. vm_compute. reflexivity. Qed.

(** test_algebra_unary.cpp:963-981 *)
Example unary_bitwise_or_test : all_true
 [ three BitwiseOr CBool CBool CBool 1 0 1;
   three BitwiseOr u8 u8 u8 51 60 63;
   three BitwiseOr u16 u16 u16 255 3855 4095;
   three BitwiseOr u32 u32 u32 16711935 252645135 268374015;
   three BitwiseOr u64 u64 u64 4294967295 281470681808895 281474976710655;
   three BitwiseOr i8 i8 i8 51 60 63;
   three BitwiseOr i16 i16 i16 255 3855 4095;
   three BitwiseOr i32 i32 i32 16711935 252645135 268374015;
   three BitwiseOr i64 i64 i64 4294967295 281470681808895 281474976710655 ].
Proof. vm_compute. reflexivity. Qed.

(** test_algebra_unary.cpp:984-1001 *)
Example unary_bitwise_and_test : all_true
 [ three BitwiseAnd CBool CBool CBool 1 0 0;
   three BitwiseAnd u8 u8 u8 51 60 48;
   three BitwiseAnd u16 u16 u16 255 3855 15;
   three BitwiseAnd u32 u32 u32 16711935 252645135 983055;
   three BitwiseAnd u64 u64 u64 4294967295 281470681808895 65535;
   three BitwiseAnd i8 i8 i8 51 60 48;
   three BitwiseAnd i16 i16 i16 255 3855 15;
   three BitwiseAnd i32 i32 i32 16711935 252645135 983055;
   three BitwiseAnd i64 i64 i64 4294967295 281470681808895 65535 ].
Proof. vm_compute. reflexivity. Qed.

(** test_algebra_unary.cpp:1004-1021 *)
Example unary_bitwise_xor_test : all_true
 [ three BitwiseXor CBool CBool CBool 1 0 1;
   three BitwiseXor u8 u8 u8 51 60 15;
   three BitwiseXor u16 u16 u16 255 3855 4080;
   three BitwiseXor u32 u32 u32 16711935 252645135 267390960;
   three BitwiseXor u64 u64 u64 4294967295 281470681808895 281474976645120;
   three BitwiseXor i8 i8 i8 51 60 15;
   three BitwiseXor i16 i16 i16 255 3855 4080;
   three BitwiseXor i32 i32 i32 16711935 252645135 267390960;
   three BitwiseXor i64 i64 i64 4294967295 281470681808895 281474976645120 ].
Proof. vm_compute. reflexivity. Qed.

(** test_algebra_unary.cpp:1024-1043 *)
Example unary_bitwise_xnor_test : all_true
 [ three BitwiseXnor CBool CBool CBool 1 0 1;
   three BitwiseXnor u8 u8 u8 51 60 240;
   three BitwiseXnor u16 u16 u16 255 3855 61455;
   three BitwiseXnor u32 u32 u32 16711935 252645135 4027576335;
   three BitwiseXnor u64 u64 u64 4294967295 281470681808895 18446462598732906495;
   three BitwiseXnor i8 i8 i8 51 60 (-16);
   three BitwiseXnor i16 i16 i16 255 3855 (-4081);
   three BitwiseXnor i32 i32 i32 16711935 252645135 (-267390961);
   three BitwiseXnor i64 i64 i64 4294967295 281470681808895 (-281474976645121) ].
Proof. vm_compute. reflexivity. Qed.

(** test_algebra_binary.cpp:53-80 *)
Example binary_misc_math_tests : all_true
 [ Bool.eqb (FEqual (of_int CDouble 1) (of_int CDouble 1)) true;
   Bool.eqb (FEqual (of_int CDouble 12648430) (of_int CDouble 51966)) false;
   Bool.eqb (FNotEqual (of_int CDouble 1) (of_int CDouble 1)) false;
   Bool.eqb (FNotEqual (of_int CDouble 12648430) (of_int CDouble 51966)) true;
   Bool.eqb (FGreaterThan (of_int CDouble 1) (of_int CDouble 2)) false;
   Bool.eqb (FLessThan (of_int CDouble 1) (of_int CDouble 2)) true;
   Bool.eqb (FGreaterEqual (of_int CDouble 1) (of_int CDouble 2)) false;
   Bool.eqb (FLessEqual (of_int CDouble 1) (of_int CDouble 1)) true;
   SFeqb (FFirst CDouble (of_int CDouble 5) (of_int CDouble 1337)) (of_int CDouble 5);
   SFeqb (FSecond CDouble (of_int CDouble 5) (of_int CDouble 1337)) (of_int CDouble 1337);
   SFeqb (FMin CDouble (of_int CDouble 0) (of_int CDouble 1000000)) (of_int CDouble 0);
   SFeqb (FMin CDouble (of_int CDouble (-5)) (of_int CDouble 0)) (of_int CDouble (-5));
   SFeqb (FMin CDouble (of_int CDouble 7) (of_int CDouble 3)) (of_int CDouble 3);
   SFeqb (FMax CDouble (of_int CDouble 0) (of_int CDouble 1000000)) (of_int CDouble 1000000);
   SFeqb (FMax CDouble (of_int CDouble (-5)) (of_int CDouble 0)) (of_int CDouble 0);
   SFeqb (FMax CDouble (of_int CDouble 7) (of_int CDouble 3)) (of_int CDouble 7);
   SFeqb (FPlus CDouble (of_int CDouble 2) (of_int CDouble 6)) (of_int CDouble 8);
   SFeqb (FMinus CDouble (of_int CDouble 2) (of_int CDouble 6)) (of_int CDouble (-4));
   SFeqb (FTimes CDouble (of_int CDouble 3) (of_int CDouble 10)) (of_int CDouble 30);
   SFeqb (FDiv CDouble (of_int CDouble 500) (of_int CDouble 5)) (of_int CDouble 100) ].
Proof. vm_compute. reflexivity. Qed.

(** test_algebra_binary.cpp:87-143 *)
Example binary_equal_same_domain_test : all_true
 [ Bool.eqb (FEqual (of_int CDouble 0) (of_int CDouble 0)) true;
   Bool.eqb (FEqual (of_int CDouble 1) (of_int CDouble 0)) false;
   Bool.eqb (FEqual (of_int CDouble 0) (of_int CDouble 1)) false;
   Bool.eqb (FEqual (of_int CDouble 1) (of_int CDouble 1)) true;
   Bool.eqb (FEqual (of_int CFloat 0) (of_int CFloat 0)) true;
   Bool.eqb (FEqual (of_int CFloat 1) (of_int CFloat 0)) false;
   Bool.eqb (FEqual (of_int CFloat 0) (of_int CFloat 1)) false;
   Bool.eqb (FEqual (of_int CFloat 1) (of_int CFloat 1)) true;
   three Equal u64 u64 CBool 0 0 1;
   three Equal u64 u64 CBool 1 0 0;
   three Equal u64 u64 CBool 0 1 0;
   three Equal u64 u64 CBool 1 1 1;
   three Equal u32 u32 CBool 0 0 1;
   three Equal u32 u32 CBool 1 0 0;
   three Equal u32 u32 CBool 0 1 0;
   three Equal u32 u32 CBool 1 1 1;
   three Equal u16 u16 CBool 0 0 1;
   three Equal u16 u16 CBool 1 0 0;
   three Equal u16 u16 CBool 0 1 0;
   three Equal u16 u16 CBool 1 1 1;
   three Equal u8 u8 CBool 0 0 1;
   three Equal u8 u8 CBool 1 0 0;
   three Equal u8 u8 CBool 0 1 0;
   three Equal u8 u8 CBool 1 1 1;
   three Equal i64 i64 CBool 0 0 1;
   three Equal i64 i64 CBool (-1) 0 0;
   three Equal i64 i64 CBool 0 (-1) 0;
   three Equal i64 i64 CBool (-1) (-1) 1;
   three Equal i32 i32 CBool 0 0 1;
   three Equal i32 i32 CBool (-1) 0 0;
   three Equal i32 i32 CBool 0 (-1) 0;
   three Equal i32 i32 CBool (-1) (-1) 1;
   three Equal i16 i16 CBool 0 0 1;
   three Equal i16 i16 CBool (-1) 0 0;
   three Equal i16 i16 CBool 0 (-1) 0;
   three Equal i16 i16 CBool (-1) (-1) 1;
   three Equal i8 i8 CBool 0 0 1;
   three Equal i8 i8 CBool (-1) 0 0;
   three Equal i8 i8 CBool 0 (-1) 0;
   three Equal i8 i8 CBool (-1) (-1) 1;
   three Equal CBool CBool CBool 0 0 1;
   three Equal CBool CBool CBool 0 1 0;
   three Equal CBool CBool CBool 1 0 0;
   three Equal CBool CBool CBool 1 1 1 ].
Proof. vm_compute. reflexivity. Qed.

(** test_algebra_binary.cpp:146-202 *)
Example binary_equal_different_domain_test : all_true
 [ three Equal u64 CBool CBool 0 0 1;
   three Equal u64 i32 CBool 1 0 0;
   three Equal u64 u64 CBool 0 1 0;
   three Equal u32 CBool CBool 0 0 1;
   three Equal u32 i32 CBool 1 0 0;
   three Equal u32 u64 CBool 0 1 0;
   three Equal u16 CBool CBool 0 0 1;
   three Equal u16 i32 CBool 1 0 0;
   three Equal u16 u64 CBool 0 1 0;
   three Equal u8 CBool CBool 0 0 1;
   three Equal u8 i32 CBool 1 0 0;
   three Equal u8 u64 CBool 0 1 0;
   three Equal i64 CBool CBool 0 0 1;
   three Equal i64 u32 CBool (-1) 0 0;
   three Equal i64 i64 CBool 0 (-1) 0;
   three Equal i32 CBool CBool 0 0 1;
   three Equal i32 u32 CBool (-1) 0 0;
   three Equal i32 i64 CBool 0 (-1) 0;
   three Equal i16 CBool CBool 0 0 1;
   three Equal i16 u32 CBool (-1) 0 0;
   three Equal i16 i64 CBool 0 (-1) 0;
   three Equal i8 CBool CBool 0 0 1;
   three Equal i8 u32 CBool (-1) 0 0;
   three Equal i8 i64 CBool 0 (-1) 0;
   three Equal CBool i8 CBool 0 0 1;
   three Equal CBool i32 CBool 0 1 0;
   three Equal CBool u64 CBool 1 0 0 ].
Proof. vm_compute. reflexivity. Qed.

(** test_algebra_binary.cpp:205-261 *)
Example binary_not_equal_same_domain_test : all_true
 [ Bool.eqb (FNotEqual (of_int CDouble 0) (of_int CDouble 0)) false;
   Bool.eqb (FNotEqual (of_int CDouble 1) (of_int CDouble 0)) true;
   Bool.eqb (FNotEqual (of_int CDouble 0) (of_int CDouble 1)) true;
   Bool.eqb (FNotEqual (of_int CDouble 1) (of_int CDouble 1)) false;
   Bool.eqb (FNotEqual (of_int CFloat 0) (of_int CFloat 0)) false;
   Bool.eqb (FNotEqual (of_int CFloat 1) (of_int CFloat 0)) true;
   Bool.eqb (FNotEqual (of_int CFloat 0) (of_int CFloat 1)) true;
   Bool.eqb (FNotEqual (of_int CFloat 1) (of_int CFloat 1)) false;
   three NotEqual u64 u64 CBool 0 0 0;
   three NotEqual u64 u64 CBool 1 0 1;
   three NotEqual u64 u64 CBool 0 1 1;
   three NotEqual u64 u64 CBool 1 1 0;
   three NotEqual u32 u32 CBool 0 0 0;
   three NotEqual u32 u32 CBool 1 0 1;
   three NotEqual u32 u32 CBool 0 1 1;
   three NotEqual u32 u32 CBool 1 1 0;
   three NotEqual u16 u16 CBool 0 0 0;
   three NotEqual u16 u16 CBool 1 0 1;
   three NotEqual u16 u16 CBool 0 1 1;
   three NotEqual u16 u16 CBool 1 1 0;
   three NotEqual u8 u8 CBool 0 0 0;
   three NotEqual u8 u8 CBool 1 0 1;
   three NotEqual u8 u8 CBool 0 1 1;
   three NotEqual u8 u8 CBool 1 1 0;
   three NotEqual i64 i64 CBool 0 0 0;
   three NotEqual i64 i64 CBool (-1) 0 1;
   three NotEqual i64 i64 CBool 0 (-1) 1;
   three NotEqual i64 i64 CBool (-1) (-1) 0;
   three NotEqual i32 i32 CBool 0 0 0;
   three NotEqual i32 i32 CBool (-1) 0 1;
   three NotEqual i32 i32 CBool 0 (-1) 1;
   three NotEqual i32 i32 CBool (-1) (-1) 0;
   three NotEqual i16 i16 CBool 0 0 0;
   three NotEqual i16 i16 CBool (-1) 0 1;
   three NotEqual i16 i16 CBool 0 (-1) 1;
   three NotEqual i16 i16 CBool (-1) (-1) 0;
   three NotEqual i8 i8 CBool 0 0 0;
   three NotEqual i8 i8 CBool (-1) 0 1;
   three NotEqual i8 i8 CBool 0 (-1) 1;
   three NotEqual i8 i8 CBool (-1) (-1) 0;
   three NotEqual CBool CBool CBool 0 0 0;
   three NotEqual CBool CBool CBool 0 1 1;
   three NotEqual CBool CBool CBool 1 0 1;
   three NotEqual CBool CBool CBool 1 1 0 ].
Proof. vm_compute. reflexivity. Qed.

(** test_algebra_binary.cpp:264-320 *)
Example binary_not_equal_different_domain_test : all_true
 [ three NotEqual u64 CBool CBool 0 0 0;
   three NotEqual u64 i32 CBool 1 0 1;
   three NotEqual u64 u64 CBool 0 1 1;
   three NotEqual u32 CBool CBool 0 0 0;
   three NotEqual u32 i32 CBool 1 0 1;
   three NotEqual u32 u64 CBool 0 1 1;
   three NotEqual u16 CBool CBool 0 0 0;
   three NotEqual u16 i32 CBool 1 0 1;
   three NotEqual u16 u64 CBool 0 1 1;
   three NotEqual u8 CBool CBool 0 0 0;
   three NotEqual u8 i32 CBool 1 0 1;
   three NotEqual u8 u64 CBool 0 1 1;
   three NotEqual i64 CBool CBool 0 0 0;
   three NotEqual i64 u32 CBool (-1) 0 1;
   three NotEqual i64 i64 CBool 0 (-1) 1;
   three NotEqual i32 CBool CBool 0 0 0;
   three NotEqual i32 u32 CBool (-1) 0 1;
   three NotEqual i32 i64 CBool 0 (-1) 1;
   three NotEqual i16 CBool CBool 0 0 0;
   three NotEqual i16 u32 CBool (-1) 0 1;
   three NotEqual i16 i64 CBool 0 (-1) 1;
   three NotEqual i8 CBool CBool 0 0 0;
   three NotEqual i8 u32 CBool (-1) 0 1;
   three NotEqual i8 i64 CBool 0 (-1) 1;
   three NotEqual CBool i8 CBool 0 0 0;
   three NotEqual CBool i32 CBool 0 1 1;
   three NotEqual CBool u64 CBool 1 0 1 ].
Proof. vm_compute. reflexivity. Qed.

(** test_algebra_binary.cpp:323-379 *)
Example binary_greater_than_same_domain_test : all_true
 [ Bool.eqb (FGreaterThan (of_int CDouble 0) (of_int CDouble 0)) false;
   Bool.eqb (FGreaterThan (of_int CDouble 1) (of_int CDouble 0)) true;
   Bool.eqb (FGreaterThan (of_int CDouble 0) (of_int CDouble 1)) false;
   Bool.eqb (FGreaterThan (of_int CDouble 1) (of_int CDouble 1)) false;
   Bool.eqb (FGreaterThan (of_int CFloat 0) (of_int CFloat 0)) false;
   Bool.eqb (FGreaterThan (of_int CFloat 1) (of_int CFloat 0)) true;
   Bool.eqb (FGreaterThan (of_int CFloat 0) (of_int CFloat 1)) false;
   Bool.eqb (FGreaterThan (of_int CFloat 1) (of_int CFloat 1)) false;
   three GreaterThan u64 u64 CBool 0 0 0;
   three GreaterThan u64 u64 CBool 1 0 1;
   three GreaterThan u64 u64 CBool 0 1 0;
   three GreaterThan u64 u64 CBool 1 1 0;
   three GreaterThan u32 u32 CBool 0 0 0;
   three GreaterThan u32 u32 CBool 1 0 1;
   three GreaterThan u32 u32 CBool 0 1 0;
   three GreaterThan u32 u32 CBool 1 1 0;
   three GreaterThan u16 u16 CBool 0 0 0;
   three GreaterThan u16 u16 CBool 1 0 1;
   three GreaterThan u16 u16 CBool 0 1 0;
   three GreaterThan u16 u16 CBool 1 1 0;
   three GreaterThan u8 u8 CBool 0 0 0;
   three GreaterThan u8 u8 CBool 1 0 1;
   three GreaterThan u8 u8 CBool 0 1 0;
   three GreaterThan u8 u8 CBool 1 1 0;
   three GreaterThan i64 i64 CBool 0 0 0;
   three GreaterThan i64 i64 CBool (-1) 0 0;
   three GreaterThan i64 i64 CBool 0 (-1) 1;
   three GreaterThan i64 i64 CBool (-1) (-1) 0;
   three GreaterThan i32 i32 CBool 0 0 0;
   three GreaterThan i32 i32 CBool (-1) 0 0;
   three GreaterThan i32 i32 CBool 0 (-1) 1;
   three GreaterThan i32 i32 CBool (-1) (-1) 0;
   three GreaterThan i16 i16 CBool 0 0 0;
   three GreaterThan i16 i16 CBool (-1) 0 0;
   three GreaterThan i16 i16 CBool 0 (-1) 1;
   three GreaterThan i16 i16 CBool (-1) (-1) 0;
   three GreaterThan i8 i8 CBool 0 0 0;
   three GreaterThan i8 i8 CBool (-1) 0 0;
   three GreaterThan i8 i8 CBool 0 (-1) 1;
   three GreaterThan i8 i8 CBool (-1) (-1) 0;
   three GreaterThan CBool CBool CBool 0 0 0;
   three GreaterThan CBool CBool CBool 0 1 0;
   three GreaterThan CBool CBool CBool 1 0 1;
   three GreaterThan CBool CBool CBool 1 1 0 ].
Proof. vm_compute. reflexivity. Qed.

(** test_algebra_binary.cpp:382-441 *)
Example binary_greater_than_different_domain_test : all_true
 [ three GreaterThan u64 CBool CBool 0 0 0;
   three GreaterThan u64 i32 CBool 1 0 1;
   three GreaterThan u64 u64 CBool 0 1 0;
   three GreaterThan u32 CBool CBool 0 0 0;
   three GreaterThan u32 i32 CBool 1 0 1;
   three GreaterThan u32 u64 CBool 0 1 0;
   three GreaterThan u16 CBool CBool 0 0 0;
   three GreaterThan u16 i32 CBool 1 0 1;
   three GreaterThan u16 u64 CBool 0 1 0;
   three GreaterThan u8 CBool CBool 0 0 0;
   three GreaterThan u8 i32 CBool 1 0 1;
   three GreaterThan u8 u64 CBool 0 1 0;
   three GreaterThan i64 CBool CBool 0 0 0;
   three GreaterThan i64 u32 CBool (-1) 0 0;
   three GreaterThan i64 i64 CBool 0 (-1) 1;
   three GreaterThan i32 CBool CBool 0 0 0;
   three GreaterThan i32 u32 CBool (-1) 0 1;
   three GreaterThan i32 i64 CBool 0 (-1) 1;
   three GreaterThan i16 CBool CBool 0 0 0;
   three GreaterThan i16 u32 CBool (-1) 0 1;
   three GreaterThan i16 i64 CBool 0 (-1) 1;
   three GreaterThan i8 CBool CBool 0 0 0;
   three GreaterThan i8 u32 CBool (-1) 0 1;
   three GreaterThan i8 i64 CBool 0 (-1) 1;
   three GreaterThan CBool i8 CBool 0 0 0;
   three GreaterThan CBool i32 CBool 0 1 0;
   three GreaterThan CBool u64 CBool 1 0 1 ].
Proof. vm_compute. reflexivity. Qed.

(** test_algebra_binary.cpp:444-500 *)
Example binary_less_than_same_domain_test : all_true
 [ Bool.eqb (FLessThan (of_int CDouble 0) (of_int CDouble 0)) false;
   Bool.eqb (FLessThan (of_int CDouble 1) (of_int CDouble 0)) false;
   Bool.eqb (FLessThan (of_int CDouble 0) (of_int CDouble 1)) true;
   Bool.eqb (FLessThan (of_int CDouble 1) (of_int CDouble 1)) false;
   Bool.eqb (FLessThan (of_int CFloat 0) (of_int CFloat 0)) false;
   Bool.eqb (FLessThan (of_int CFloat 1) (of_int CFloat 0)) false;
   Bool.eqb (FLessThan (of_int CFloat 0) (of_int CFloat 1)) true;
   Bool.eqb (FLessThan (of_int CFloat 1) (of_int CFloat 1)) false;
   three LessThan u64 u64 CBool 0 0 0;
   three LessThan u64 u64 CBool 1 0 0;
   three LessThan u64 u64 CBool 0 1 1;
   three LessThan u64 u64 CBool 1 1 0;
   three LessThan u32 u32 CBool 0 0 0;
   three LessThan u32 u32 CBool 1 0 0;
   three LessThan u32 u32 CBool 0 1 1;
   three LessThan u32 u32 CBool 1 1 0;
   three LessThan u16 u16 CBool 0 0 0;
   three LessThan u16 u16 CBool 1 0 0;
   three LessThan u16 u16 CBool 0 1 1;
   three LessThan u16 u16 CBool 1 1 0;
   three LessThan u8 u8 CBool 0 0 0;
   three LessThan u8 u8 CBool 1 0 0;
   three LessThan u8 u8 CBool 0 1 1;
   three LessThan u8 u8 CBool 1 1 0;
   three LessThan i64 i64 CBool 0 0 0;
   three LessThan i64 i64 CBool (-1) 0 1;
   three LessThan i64 i64 CBool 0 (-1) 0;
   three LessThan i64 i64 CBool (-1) (-1) 0;
   three LessThan i32 i32 CBool 0 0 0;
   three LessThan i32 i32 CBool (-1) 0 1;
   three LessThan i32 i32 CBool 0 (-1) 0;
   three LessThan i32 i32 CBool (-1) (-1) 0;
   three LessThan i16 i16 CBool 0 0 0;
   three LessThan i16 i16 CBool (-1) 0 1;
   three LessThan i16 i16 CBool 0 (-1) 0;
   three LessThan i16 i16 CBool (-1) (-1) 0;
   three LessThan i8 i8 CBool 0 0 0;
   three LessThan i8 i8 CBool (-1) 0 1;
   three LessThan i8 i8 CBool 0 (-1) 0;
   three LessThan i8 i8 CBool (-1) (-1) 0;
   three LessThan CBool CBool CBool 0 0 0;
   three LessThan CBool CBool CBool 0 1 1;
   three LessThan CBool CBool CBool 1 0 0;
   three LessThan CBool CBool CBool 1 1 0 ].
Proof. vm_compute. reflexivity. Qed.

(** test_algebra_binary.cpp:503-562 *)
Example binary_less_than_different_domain_test : all_true
 [ three LessThan u64 CBool CBool 0 0 0;
   three LessThan u64 i32 CBool 1 0 0;
   three LessThan u64 u64 CBool 0 1 1;
   three LessThan u32 CBool CBool 0 0 0;
   three LessThan u32 i32 CBool 1 0 0;
   three LessThan u32 u64 CBool 0 1 1;
   three LessThan u16 CBool CBool 0 0 0;
   three LessThan u16 i32 CBool 1 0 0;
   three LessThan u16 u64 CBool 0 1 1;
   three LessThan u8 CBool CBool 0 0 0;
   three LessThan u8 i32 CBool 1 0 0;
   three LessThan u8 u64 CBool 0 1 1;
   three LessThan i64 CBool CBool 0 0 0;
   three LessThan i64 u32 CBool (-1) 0 1;
   three LessThan i64 i64 CBool 0 (-1) 0;
   three LessThan i32 CBool CBool 0 0 0;
   three LessThan i32 u32 CBool (-1) 0 0;
   three LessThan i32 i64 CBool 0 (-1) 0;
   three LessThan i16 CBool CBool 0 0 0;
   three LessThan i16 u32 CBool (-1) 0 0;
   three LessThan i16 i64 CBool 0 (-1) 0;
   three LessThan i8 CBool CBool 0 0 0;
   three LessThan i8 u32 CBool (-1) 0 0;
   three LessThan i8 i64 CBool 0 (-1) 0;
   three LessThan CBool i8 CBool 0 0 0;
   three LessThan CBool i32 CBool 0 1 1;
   three LessThan CBool u64 CBool 1 0 0 ].
Proof. vm_compute. reflexivity. Qed.

(** test_algebra_binary.cpp:565-621 *)
Example binary_greater_equal_same_domain_test : all_true
 [ Bool.eqb (FGreaterEqual (of_int CDouble 0) (of_int CDouble 0)) true;
   Bool.eqb (FGreaterEqual (of_int CDouble 1) (of_int CDouble 0)) true;
   Bool.eqb (FGreaterEqual (of_int CDouble 0) (of_int CDouble 1)) false;
   Bool.eqb (FGreaterEqual (of_int CDouble 1) (of_int CDouble 1)) true;
   Bool.eqb (FGreaterEqual (of_int CFloat 0) (of_int CFloat 0)) true;
   Bool.eqb (FGreaterEqual (of_int CFloat 1) (of_int CFloat 0)) true;
   Bool.eqb (FGreaterEqual (of_int CFloat 0) (of_int CFloat 1)) false;
   Bool.eqb (FGreaterEqual (of_int CFloat 1) (of_int CFloat 1)) true;
   three GreaterEqual u64 u64 CBool 0 0 1;
   three GreaterEqual u64 u64 CBool 1 0 1;
   three GreaterEqual u64 u64 CBool 0 1 0;
   three GreaterEqual u64 u64 CBool 1 1 1;
   three GreaterEqual u32 u32 CBool 0 0 1;
   three GreaterEqual u32 u32 CBool 1 0 1;
   three GreaterEqual u32 u32 CBool 0 1 0;
   three GreaterEqual u32 u32 CBool 1 1 1;
   three GreaterEqual u16 u16 CBool 0 0 1;
   three GreaterEqual u16 u16 CBool 1 0 1;
   three GreaterEqual u16 u16 CBool 0 1 0;
   three GreaterEqual u16 u16 CBool 1 1 1;
   three GreaterEqual u8 u8 CBool 0 0 1;
   three GreaterEqual u8 u8 CBool 1 0 1;
   three GreaterEqual u8 u8 CBool 0 1 0;
   three GreaterEqual u8 u8 CBool 1 1 1;
   three GreaterEqual i64 i64 CBool 0 0 1;
   three GreaterEqual i64 i64 CBool (-1) 0 0;
   three GreaterEqual i64 i64 CBool 0 (-1) 1;
   three GreaterEqual i64 i64 CBool (-1) (-1) 1;
   three GreaterEqual i32 i32 CBool 0 0 1;
   three GreaterEqual i32 i32 CBool (-1) 0 0;
   three GreaterEqual i32 i32 CBool 0 (-1) 1;
   three GreaterEqual i32 i32 CBool (-1) (-1) 1;
   three GreaterEqual i16 i16 CBool 0 0 1;
   three GreaterEqual i16 i16 CBool (-1) 0 0;
   three GreaterEqual i16 i16 CBool 0 (-1) 1;
   three GreaterEqual i16 i16 CBool (-1) (-1) 1;
   three GreaterEqual i8 i8 CBool 0 0 1;
   three GreaterEqual i8 i8 CBool (-1) 0 0;
   three GreaterEqual i8 i8 CBool 0 (-1) 1;
   three GreaterEqual i8 i8 CBool (-1) (-1) 1;
   three GreaterEqual CBool CBool CBool 0 0 1;
   three GreaterEqual CBool CBool CBool 0 1 0;
   three GreaterEqual CBool CBool CBool 1 0 1;
   three GreaterEqual CBool CBool CBool 1 1 1 ].
Proof. vm_compute. reflexivity. Qed.

(** test_algebra_binary.cpp:624-683 *)
Example binary_greater_equal_different_domain_test : all_true
 [ three GreaterEqual u64 CBool CBool 0 0 1;
   three GreaterEqual u64 i32 CBool 1 0 1;
   three GreaterEqual u64 u64 CBool 0 1 0;
   three GreaterEqual u32 CBool CBool 0 0 1;
   three GreaterEqual u32 i32 CBool 1 0 1;
   three GreaterEqual u32 u64 CBool 0 1 0;
   three GreaterEqual u16 CBool CBool 0 0 1;
   three GreaterEqual u16 i32 CBool 1 0 1;
   three GreaterEqual u16 u64 CBool 0 1 0;
   three GreaterEqual u8 CBool CBool 0 0 1;
   three GreaterEqual u8 i32 CBool 1 0 1;
   three GreaterEqual u8 u64 CBool 0 1 0;
   three GreaterEqual i64 CBool CBool 0 0 1;
   three GreaterEqual i64 u32 CBool (-1) 0 0;
   three GreaterEqual i64 i64 CBool 0 (-1) 1;
   three GreaterEqual i32 CBool CBool 0 0 1;
   three GreaterEqual i32 u32 CBool (-1) 0 1;
   three GreaterEqual i32 i64 CBool 0 (-1) 1;
   three GreaterEqual i16 CBool CBool 0 0 1;
   three GreaterEqual i16 u32 CBool (-1) 0 1;
   three GreaterEqual i16 i64 CBool 0 (-1) 1;
   three GreaterEqual i8 CBool CBool 0 0 1;
   three GreaterEqual i8 u32 CBool (-1) 0 1;
   three GreaterEqual i8 i64 CBool 0 (-1) 1;
   three GreaterEqual CBool i8 CBool 0 0 1;
   three GreaterEqual CBool i32 CBool 0 1 0;
   three GreaterEqual CBool u64 CBool 1 0 1 ].
Proof. vm_compute. reflexivity. Qed.

(** test_algebra_binary.cpp:686-742 *)
Example binary_less_equal_same_domain_test : all_true
 [ Bool.eqb (FLessEqual (of_int CDouble 0) (of_int CDouble 0)) true;
   Bool.eqb (FLessEqual (of_int CDouble 1) (of_int CDouble 0)) false;
   Bool.eqb (FLessEqual (of_int CDouble 0) (of_int CDouble 1)) true;
   Bool.eqb (FLessEqual (of_int CDouble 1) (of_int CDouble 1)) true;
   Bool.eqb (FLessEqual (of_int CFloat 0) (of_int CFloat 0)) true;
   Bool.eqb (FLessEqual (of_int CFloat 1) (of_int CFloat 0)) false;
   Bool.eqb (FLessEqual (of_int CFloat 0) (of_int CFloat 1)) true;
   Bool.eqb (FLessEqual (of_int CFloat 1) (of_int CFloat 1)) true;
   three LessEqual u64 u64 CBool 0 0 1;
   three LessEqual u64 u64 CBool 1 0 0;
   three LessEqual u64 u64 CBool 0 1 1;
   three LessEqual u64 u64 CBool 1 1 1;
   three LessEqual u32 u32 CBool 0 0 1;
   three LessEqual u32 u32 CBool 1 0 0;
   three LessEqual u32 u32 CBool 0 1 1;
   three LessEqual u32 u32 CBool 1 1 1;
   three LessEqual u16 u16 CBool 0 0 1;
   three LessEqual u16 u16 CBool 1 0 0;
   three LessEqual u16 u16 CBool 0 1 1;
   three LessEqual u16 u16 CBool 1 1 1;
   three LessEqual u8 u8 CBool 0 0 1;
   three LessEqual u8 u8 CBool 1 0 0;
   three LessEqual u8 u8 CBool 0 1 1;
   three LessEqual u8 u8 CBool 1 1 1;
   three LessEqual i64 i64 CBool 0 0 1;
   three LessEqual i64 i64 CBool (-1) 0 1;
   three LessEqual i64 i64 CBool 0 (-1) 0;
   three LessEqual i64 i64 CBool (-1) (-1) 1;
   three LessEqual i32 i32 CBool 0 0 1;
   three LessEqual i32 i32 CBool (-1) 0 1;
   three LessEqual i32 i32 CBool 0 (-1) 0;
   three LessEqual i32 i32 CBool (-1) (-1) 1;
   three LessEqual i16 i16 CBool 0 0 1;
   three LessEqual i16 i16 CBool (-1) 0 1;
   three LessEqual i16 i16 CBool 0 (-1) 0;
   three LessEqual i16 i16 CBool (-1) (-1) 1;
   three LessEqual i8 i8 CBool 0 0 1;
   three LessEqual i8 i8 CBool (-1) 0 1;
   three LessEqual i8 i8 CBool 0 (-1) 0;
   three LessEqual i8 i8 CBool (-1) (-1) 1;
   three LessEqual CBool CBool CBool 0 0 1;
   three LessEqual CBool CBool CBool 0 1 1;
   three LessEqual CBool CBool CBool 1 0 0;
   three LessEqual CBool CBool CBool 1 1 1 ].
Proof. vm_compute. reflexivity. Qed.

(** test_algebra_binary.cpp:745-804 *)
Example binary_less_equal_different_domain_test : all_true
 [ three LessEqual u64 CBool CBool 0 0 1;
   three LessEqual u64 i32 CBool 1 0 0;
   three LessEqual u64 u64 CBool 0 1 1;
   three LessEqual u32 CBool CBool 0 0 1;
   three LessEqual u32 i32 CBool 1 0 0;
   three LessEqual u32 u64 CBool 0 1 1;
   three LessEqual u16 CBool CBool 0 0 1;
   three LessEqual u16 i32 CBool 1 0 0;
   three LessEqual u16 u64 CBool 0 1 1;
   three LessEqual u8 CBool CBool 0 0 1;
   three LessEqual u8 i32 CBool 1 0 0;
   three LessEqual u8 u64 CBool 0 1 1;
   three LessEqual i64 CBool CBool 0 0 1;
   three LessEqual i64 u32 CBool (-1) 0 1;
   three LessEqual i64 i64 CBool 0 (-1) 0;
   three LessEqual i32 CBool CBool 0 0 1;
   three LessEqual i32 u32 CBool (-1) 0 0;
   three LessEqual i32 i64 CBool 0 (-1) 0;
   three LessEqual i16 CBool CBool 0 0 1;
   three LessEqual i16 u32 CBool (-1) 0 0;
   three LessEqual i16 i64 CBool 0 (-1) 0;
   three LessEqual i8 CBool CBool 0 0 1;
   three LessEqual i8 u32 CBool (-1) 0 0;
   three LessEqual i8 i64 CBool 0 (-1) 0;
   three LessEqual CBool i8 CBool 0 0 1;
   three LessEqual CBool i32 CBool 0 1 1;
   three LessEqual CBool u64 CBool 1 0 0 ].
Proof. vm_compute. reflexivity. Qed.

(** test_algebra_binary.cpp:807-863 *)
Example binary_first_same_domain_test : all_true
 [ SFeqb (FFirst CDouble (of_int CDouble 0) (of_int CDouble 0)) (of_int CDouble 0);
   SFeqb (FFirst CDouble (of_int CDouble 1) (of_int CDouble 0)) (of_int CDouble 1);
   SFeqb (FFirst CDouble (of_int CDouble 0) (of_int CDouble 1)) (of_int CDouble 0);
   SFeqb (FFirst CDouble (of_int CDouble 1) (of_int CDouble 1)) (of_int CDouble 1);
   SFeqb (FFirst CFloat (of_int CFloat 0) (of_int CFloat 0)) (of_int CFloat 0);
   SFeqb (FFirst CFloat (of_int CFloat 1) (of_int CFloat 0)) (of_int CFloat 1);
   SFeqb (FFirst CFloat (of_int CFloat 0) (of_int CFloat 1)) (of_int CFloat 0);
   SFeqb (FFirst CFloat (of_int CFloat 1) (of_int CFloat 1)) (of_int CFloat 1);
   three First3 u64 u64 u64 0 0 0;
   three First3 u64 u64 u64 1 0 1;
   three First3 u64 u64 u64 0 1 0;
   three First3 u64 u64 u64 1 1 1;
   three First3 u32 u32 u32 0 0 0;
   three First3 u32 u32 u32 1 0 1;
   three First3 u32 u32 u32 0 1 0;
   three First3 u32 u32 u32 1 1 1;
   three First3 u16 u16 u16 0 0 0;
   three First3 u16 u16 u16 1 0 1;
   three First3 u16 u16 u16 0 1 0;
   three First3 u16 u16 u16 1 1 1;
   three First3 u8 u8 u8 0 0 0;
   three First3 u8 u8 u8 1 0 1;
   three First3 u8 u8 u8 0 1 0;
   three First3 u8 u8 u8 1 1 1;
   three First3 i64 i64 i64 0 0 0;
   three First3 i64 i64 i64 (-1) 0 (-1);
   three First3 i64 i64 i64 0 (-1) 0;
   three First3 i64 i64 i64 (-1) (-1) (-1);
   three First3 i32 i32 i32 0 0 0;
   three First3 i32 i32 i32 (-1) 0 (-1);
   three First3 i32 i32 i32 0 (-1) 0;
   three First3 i32 i32 i32 (-1) (-1) (-1);
   three First3 i16 i16 i16 0 0 0;
   three First3 i16 i16 i16 (-1) 0 (-1);
   three First3 i16 i16 i16 0 (-1) 0;
   three First3 i16 i16 i16 (-1) (-1) (-1);
   three First3 i8 i8 i8 0 0 0;
   three First3 i8 i8 i8 (-1) 0 (-1);
   three First3 i8 i8 i8 0 (-1) 0;
   three First3 i8 i8 i8 (-1) (-1) (-1);
   three First3 CBool CBool CBool 0 0 0;
   three First3 CBool CBool CBool 0 1 0;
   three First3 CBool CBool CBool 1 0 1;
   three First3 CBool CBool CBool 1 1 1 ].
Proof. vm_compute. reflexivity. Qed.

(** test_algebra_binary.cpp:866-922 *)
Example binary_first_different_domain_test : all_true
 [ three First3 u64 CBool u64 0 0 0;
   three First3 u64 i32 u64 1 0 1;
   three First3 u64 u64 u64 0 1 0;
   three First3 u32 CBool u32 0 0 0;
   three First3 u32 i32 u32 1 0 1;
   three First3 u32 u64 u32 0 1 0;
   three First3 u16 CBool u16 0 0 0;
   three First3 u16 i32 u16 1 0 1;
   three First3 u16 u64 u16 0 1 0;
   three First3 u8 CBool u8 0 0 0;
   three First3 u8 i32 u8 1 0 1;
   three First3 u8 u64 u8 0 1 0;
   three First3 i64 CBool i64 0 0 0;
   three First3 i64 u32 i64 (-1) 0 (-1);
   three First3 i64 i64 i64 0 (-1) 0;
   three First3 i32 CBool i32 0 0 0;
   three First3 i32 u32 i32 (-1) 0 (-1);
   three First3 i32 i64 i32 0 (-1) 0;
   three First3 i16 CBool i16 0 0 0;
   three First3 i16 u32 i16 (-1) 0 (-1);
   three First3 i16 i64 i16 0 (-1) 0;
   three First3 i8 CBool i8 0 0 0;
   three First3 i8 u32 i8 (-1) 0 (-1);
   three First3 i8 i64 i8 0 (-1) 0;
   three First3 CBool i8 CBool 0 0 0;
   three First3 CBool i32 CBool 0 1 0;
   three First3 CBool u64 CBool 1 0 1 ].
Proof. vm_compute. reflexivity. Qed.

(** test_algebra_binary.cpp:925-981 *)
Example binary_second_same_domain_test : all_true
 [ SFeqb (FSecond CDouble (of_int CDouble 0) (of_int CDouble 0)) (of_int CDouble 0);
   SFeqb (FSecond CDouble (of_int CDouble 1) (of_int CDouble 0)) (of_int CDouble 0);
   SFeqb (FSecond CDouble (of_int CDouble 0) (of_int CDouble 1)) (of_int CDouble 1);
   SFeqb (FSecond CDouble (of_int CDouble 1) (of_int CDouble 1)) (of_int CDouble 1);
   SFeqb (FSecond CFloat (of_int CFloat 0) (of_int CFloat 0)) (of_int CFloat 0);
   SFeqb (FSecond CFloat (of_int CFloat 1) (of_int CFloat 0)) (of_int CFloat 0);
   SFeqb (FSecond CFloat (of_int CFloat 0) (of_int CFloat 1)) (of_int CFloat 1);
   SFeqb (FSecond CFloat (of_int CFloat 1) (of_int CFloat 1)) (of_int CFloat 1);
   three Second3 u64 u64 u64 0 0 0;
   three Second3 u64 u64 u64 1 0 0;
   three Second3 u64 u64 u64 0 1 1;
   three Second3 u64 u64 u64 1 1 1;
   three Second3 u32 u32 u32 0 0 0;
   three Second3 u32 u32 u32 1 0 0;
   three Second3 u32 u32 u32 0 1 1;
   three Second3 u32 u32 u32 1 1 1;
   three Second3 u16 u16 u16 0 0 0;
   three Second3 u16 u16 u16 1 0 0;
   three Second3 u16 u16 u16 0 1 1;
   three Second3 u16 u16 u16 1 1 1;
   three Second3 u8 u8 u8 0 0 0;
   three Second3 u8 u8 u8 1 0 0;
   three Second3 u8 u8 u8 0 1 1;
   three Second3 u8 u8 u8 1 1 1;
   three Second3 i64 i64 i64 0 0 0;
   three Second3 i64 i64 i64 (-1) 0 0;
   three Second3 i64 i64 i64 0 (-1) (-1);
   three Second3 i64 i64 i64 (-1) (-1) (-1);
   three Second3 i32 i32 i32 0 0 0;
   three Second3 i32 i32 i32 (-1) 0 0;
   three Second3 i32 i32 i32 0 (-1) (-1);
   three Second3 i32 i32 i32 (-1) (-1) (-1);
   three Second3 i16 i16 i16 0 0 0;
   three Second3 i16 i16 i16 (-1) 0 0;
   three Second3 i16 i16 i16 0 (-1) (-1);
   three Second3 i16 i16 i16 (-1) (-1) (-1);
   three Second3 i8 i8 i8 0 0 0;
   three Second3 i8 i8 i8 (-1) 0 0;
   three Second3 i8 i8 i8 0 (-1) (-1);
   three Second3 i8 i8 i8 (-1) (-1) (-1);
   three Second3 CBool CBool CBool 0 0 0;
   three Second3 CBool CBool CBool 0 1 1;
   three Second3 CBool CBool CBool 1 0 0;
   three Second3 CBool CBool CBool 1 1 1 ].
Proof. vm_compute. reflexivity. Qed.

(** test_algebra_binary.cpp:984-1040 *)
Example binary_second_different_domain_test : all_true
 [ three Second3 u64 CBool CBool 0 0 0;
   three Second3 u64 i32 i32 1 0 0;
   three Second3 u64 u64 u64 0 1 1;
   three Second3 u32 CBool CBool 0 0 0;
   three Second3 u32 i32 i32 1 0 0;
   three Second3 u32 u64 u64 0 1 1;
   three Second3 u16 CBool CBool 0 0 0;
   three Second3 u16 i32 i32 1 0 0;
   three Second3 u16 u64 u64 0 1 1;
   three Second3 u8 CBool CBool 0 0 0;
   three Second3 u8 i32 i32 1 0 0;
   three Second3 u8 u64 u64 0 1 1;
   three Second3 i64 CBool CBool 0 0 0;
   three Second3 i64 u32 u32 (-1) 0 0;
   three Second3 i64 i64 i64 0 (-1) (-1);
   three Second3 i32 CBool CBool 0 0 0;
   three Second3 i32 u32 u32 (-1) 0 0;
   three Second3 i32 i64 i64 0 (-1) (-1);
   three Second3 i16 CBool CBool 0 0 0;
   three Second3 i16 u32 u32 (-1) 0 0;
   three Second3 i16 i64 i64 0 (-1) (-1);
   three Second3 i8 CBool CBool 0 0 0;
   three Second3 i8 u32 u32 (-1) 0 0;
   three Second3 i8 i64 i64 0 (-1) (-1);
   three Second3 CBool i8 i8 0 0 0;
   three Second3 CBool i32 i32 0 1 1;
   three Second3 CBool u64 u64 1 0 0 ].
Proof. vm_compute. reflexivity. Qed.

(** test_algebra_binary.cpp:1043-1099 *)
Example binary_min_same_domain_test : all_true
 [ SFeqb (FMin CDouble (of_int CDouble 0) (of_int CDouble 0)) (of_int CDouble 0);
   SFeqb (FMin CDouble (of_int CDouble 1) (of_int CDouble 0)) (of_int CDouble 0);
   SFeqb (FMin CDouble (of_int CDouble 0) (of_int CDouble 1)) (of_int CDouble 0);
   SFeqb (FMin CDouble (of_int CDouble 1) (of_int CDouble 1)) (of_int CDouble 1);
   SFeqb (FMin CFloat (of_int CFloat 0) (of_int CFloat 0)) (of_int CFloat 0);
   SFeqb (FMin CFloat (of_int CFloat 1) (of_int CFloat 0)) (of_int CFloat 0);
   SFeqb (FMin CFloat (of_int CFloat 0) (of_int CFloat 1)) (of_int CFloat 0);
   SFeqb (FMin CFloat (of_int CFloat 1) (of_int CFloat 1)) (of_int CFloat 1);
   three Min3 u64 u64 u64 0 0 0;
   three Min3 u64 u64 u64 1 0 0;
   three Min3 u64 u64 u64 0 1 0;
   three Min3 u64 u64 u64 1 1 1;
   three Min3 u32 u32 u32 0 0 0;
   three Min3 u32 u32 u32 1 0 0;
   three Min3 u32 u32 u32 0 1 0;
   three Min3 u32 u32 u32 1 1 1;
   three Min3 u16 u16 u16 0 0 0;
   three Min3 u16 u16 u16 1 0 0;
   three Min3 u16 u16 u16 0 1 0;
   three Min3 u16 u16 u16 1 1 1;
   three Min3 u8 u8 u8 0 0 0;
   three Min3 u8 u8 u8 1 0 0;
   three Min3 u8 u8 u8 0 1 0;
   three Min3 u8 u8 u8 1 1 1;
   three Min3 i64 i64 i64 0 0 0;
   three Min3 i64 i64 i64 (-1) 0 (-1);
   three Min3 i64 i64 i64 0 (-1) (-1);
   three Min3 i64 i64 i64 (-1) (-1) (-1);
   three Min3 i32 i32 i32 0 0 0;
   three Min3 i32 i32 i32 (-1) 0 (-1);
   three Min3 i32 i32 i32 0 (-1) (-1);
   three Min3 i32 i32 i32 (-1) (-1) (-1);
   three Min3 i16 i16 i16 0 0 0;
   three Min3 i16 i16 i16 (-1) 0 (-1);
   three Min3 i16 i16 i16 0 (-1) (-1);
   three Min3 i16 i16 i16 (-1) (-1) (-1);
   three Min3 i8 i8 i8 0 0 0;
   three Min3 i8 i8 i8 (-1) 0 (-1);
   three Min3 i8 i8 i8 0 (-1) (-1);
   three Min3 i8 i8 i8 (-1) (-1) (-1);
   three Min3 CBool CBool CBool 0 0 0;
   three Min3 CBool CBool CBool 0 1 0;
   three Min3 CBool CBool CBool 1 0 0;
   three Min3 CBool CBool CBool 1 1 1 ].
Proof. vm_compute. reflexivity. Qed.

(** test_algebra_binary.cpp:1102-1161 *)
Example binary_min_different_domain_test : all_true
 [ three Min3 u64 CBool u64 0 0 0;
   three Min3 u64 i32 u64 1 0 0;
   three Min3 u64 u64 u64 0 1 0;
   three Min3 u32 CBool u32 0 0 0;
   three Min3 u32 i32 u32 1 0 0;
   three Min3 u32 u64 u32 0 1 0;
   three Min3 u16 CBool u16 0 0 0;
   three Min3 u16 i32 u16 1 0 0;
   three Min3 u16 u64 u16 0 1 0;
   three Min3 u8 CBool u8 0 0 0;
   three Min3 u8 i32 u8 1 0 0;
   three Min3 u8 u64 u8 0 1 0;
   three Min3 i64 CBool i64 0 0 0;
   three Min3 i64 u32 i64 (-1) 0 (-1);
   three Min3 i64 i64 i64 0 (-1) (-1);
   three Min3 i32 CBool i32 0 0 0;
   three Min3 i32 u32 i32 (-1) 0 0;
   three Min3 i32 i64 i32 0 (-1) (-1);
   three Min3 i16 CBool i16 0 0 0;
   three Min3 i16 u32 i16 (-1) 0 0;
   three Min3 i16 i64 i16 0 (-1) (-1);
   three Min3 i8 CBool i8 0 0 0;
   three Min3 i8 u32 i8 (-1) 0 0;
   three Min3 i8 i64 i8 0 (-1) (-1);
   three Min3 CBool i8 CBool 0 0 0;
   three Min3 CBool i32 CBool 0 1 0;
   three Min3 CBool u64 CBool 1 0 0 ].
Proof. vm_compute. reflexivity. Qed.

(** test_algebra_binary.cpp:1164-1220 *)
Example binary_max_same_domain_test : all_true
 [ SFeqb (FMax CDouble (of_int CDouble 0) (of_int CDouble 0)) (of_int CDouble 0);
   SFeqb (FMax CDouble (of_int CDouble 1) (of_int CDouble 0)) (of_int CDouble 1);
   SFeqb (FMax CDouble (of_int CDouble 0) (of_int CDouble 1)) (of_int CDouble 1);
   SFeqb (FMax CDouble (of_int CDouble 1) (of_int CDouble 1)) (of_int CDouble 1);
   SFeqb (FMax CFloat (of_int CFloat 0) (of_int CFloat 0)) (of_int CFloat 0);
   SFeqb (FMax CFloat (of_int CFloat 1) (of_int CFloat 0)) (of_int CFloat 1);
   SFeqb (FMax CFloat (of_int CFloat 0) (of_int CFloat 1)) (of_int CFloat 1);
   SFeqb (FMax CFloat (of_int CFloat 1) (of_int CFloat 1)) (of_int CFloat 1);
   three Max3 u64 u64 u64 0 0 0;
   three Max3 u64 u64 u64 1 0 1;
   three Max3 u64 u64 u64 0 1 1;
   three Max3 u64 u64 u64 1 1 1;
   three Max3 u32 u32 u32 0 0 0;
   three Max3 u32 u32 u32 1 0 1;
   three Max3 u32 u32 u32 0 1 1;
   three Max3 u32 u32 u32 1 1 1;
   three Max3 u16 u16 u16 0 0 0;
   three Max3 u16 u16 u16 1 0 1;
   three Max3 u16 u16 u16 0 1 1;
   three Max3 u16 u16 u16 1 1 1;
   three Max3 u8 u8 u8 0 0 0;
   three Max3 u8 u8 u8 1 0 1;
   three Max3 u8 u8 u8 0 1 1;
   three Max3 u8 u8 u8 1 1 1;
   three Max3 i64 i64 i64 0 0 0;
   three Max3 i64 i64 i64 (-1) 0 0;
   three Max3 i64 i64 i64 0 (-1) 0;
   three Max3 i64 i64 i64 (-1) (-1) (-1);
   three Max3 i32 i32 i32 0 0 0;
   three Max3 i32 i32 i32 (-1) 0 0;
   three Max3 i32 i32 i32 0 (-1) 0;
   three Max3 i32 i32 i32 (-1) (-1) (-1);
   three Max3 i16 i16 i16 0 0 0;
   three Max3 i16 i16 i16 (-1) 0 0;
   three Max3 i16 i16 i16 0 (-1) 0;
   three Max3 i16 i16 i16 (-1) (-1) (-1);
   three Max3 i8 i8 i8 0 0 0;
   three Max3 i8 i8 i8 (-1) 0 0;
   three Max3 i8 i8 i8 0 (-1) 0;
   three Max3 i8 i8 i8 (-1) (-1) (-1);
   three Max3 CBool CBool CBool 0 0 0;
   three Max3 CBool CBool CBool 0 1 1;
   three Max3 CBool CBool CBool 1 0 1;
   three Max3 CBool CBool CBool 1 1 1 ].
Proof. vm_compute. reflexivity. Qed.

(** test_algebra_binary.cpp:1223-1282 *)
Example binary_max_different_domain_test : all_true
 [ three Max3 u64 CBool u64 0 0 0;
   three Max3 u64 i32 u64 1 0 1;
   three Max3 u64 u64 u64 0 1 1;
   three Max3 u32 CBool u32 0 0 0;
   three Max3 u32 i32 u32 1 0 1;
   three Max3 u32 u64 u32 0 1 1;
   three Max3 u16 CBool u16 0 0 0;
   three Max3 u16 i32 u16 1 0 1;
   three Max3 u16 u64 u16 0 1 1;
   three Max3 u8 CBool u8 0 0 0;
   three Max3 u8 i32 u8 1 0 1;
   three Max3 u8 u64 u8 0 1 1;
   three Max3 i64 CBool i64 0 0 0;
   three Max3 i64 u32 i64 (-1) 0 0;
   three Max3 i64 i64 i64 0 (-1) 0;
   three Max3 i32 CBool i32 0 0 0;
   three Max3 i32 u32 i32 (-1) 0 (-1);
   three Max3 i32 i64 i32 0 (-1) 0;
   three Max3 i16 CBool i16 0 0 0;
   three Max3 i16 u32 i16 (-1) 0 (-1);
   three Max3 i16 i64 i16 0 (-1) 0;
   three Max3 i8 CBool i8 0 0 0;
   three Max3 i8 u32 i8 (-1) 0 (-1);
   three Max3 i8 i64 i8 0 (-1) 0;
   three Max3 CBool i8 CBool 0 0 0;
   three Max3 CBool i32 CBool 0 1 1;
   three Max3 CBool u64 CBool 1 0 1 ].
Proof. vm_compute. reflexivity. Qed.

(** test_algebra_binary.cpp:1285-1341 *)
Example binary_plus_same_domain_test : all_true
 [ SFeqb (FPlus CDouble (of_int CDouble 0) (of_int CDouble 0)) (of_int CDouble 0);
   SFeqb (FPlus CDouble (of_int CDouble 1) (of_int CDouble 0)) (of_int CDouble 1);
   SFeqb (FPlus CDouble (of_int CDouble 0) (of_int CDouble 1)) (of_int CDouble 1);
   SFeqb (FPlus CDouble (of_int CDouble 1) (of_int CDouble 1)) (of_int CDouble 2);
   SFeqb (FPlus CFloat (of_int CFloat 0) (of_int CFloat 0)) (of_int CFloat 0);
   SFeqb (FPlus CFloat (of_int CFloat 1) (of_int CFloat 0)) (of_int CFloat 1);
   SFeqb (FPlus CFloat (of_int CFloat 0) (of_int CFloat 1)) (of_int CFloat 1);
   SFeqb (FPlus CFloat (of_int CFloat 1) (of_int CFloat 1)) (of_int CFloat 2);
   three Plus3 u64 u64 u64 0 0 0;
   three Plus3 u64 u64 u64 1 0 1;
   three Plus3 u64 u64 u64 0 1 1;
   three Plus3 u64 u64 u64 1 1 2;
   three Plus3 u32 u32 u32 0 0 0;
   three Plus3 u32 u32 u32 1 0 1;
   three Plus3 u32 u32 u32 0 1 1;
   three Plus3 u32 u32 u32 1 1 2;
   three Plus3 u16 u16 u16 0 0 0;
   three Plus3 u16 u16 u16 1 0 1;
   three Plus3 u16 u16 u16 0 1 1;
   three Plus3 u16 u16 u16 1 1 2;
   three Plus3 u8 u8 u8 0 0 0;
   three Plus3 u8 u8 u8 1 0 1;
   three Plus3 u8 u8 u8 0 1 1;
   three Plus3 u8 u8 u8 1 1 2;
   three Plus3 i64 i64 i64 0 0 0;
   three Plus3 i64 i64 i64 (-1) 0 (-1);
   three Plus3 i64 i64 i64 0 (-1) (-1);
   three Plus3 i64 i64 i64 (-1) (-1) (-2);
   three Plus3 i32 i32 i32 0 0 0;
   three Plus3 i32 i32 i32 (-1) 0 (-1);
   three Plus3 i32 i32 i32 0 (-1) (-1);
   three Plus3 i32 i32 i32 (-1) (-1) (-2);
   three Plus3 i16 i16 i16 0 0 0;
   three Plus3 i16 i16 i16 (-1) 0 (-1);
   three Plus3 i16 i16 i16 0 (-1) (-1);
   three Plus3 i16 i16 i16 (-1) (-1) (-2);
   three Plus3 i8 i8 i8 0 0 0;
   three Plus3 i8 i8 i8 (-1) 0 (-1);
   three Plus3 i8 i8 i8 0 (-1) (-1);
   three Plus3 i8 i8 i8 (-1) (-1) (-2);
   three Plus3 CBool CBool CBool 0 0 0;
   three Plus3 CBool CBool CBool 0 1 1;
   three Plus3 CBool CBool CBool 1 0 1;
   three Plus3 CBool CBool CBool 1 1 1 ].
Proof. vm_compute. reflexivity. Qed.

(** test_algebra_binary.cpp:1344-1404 *)
Example binary_plus_different_domain_test : all_true
 [ three Plus3 u64 CBool u64 0 0 0;
   three Plus3 u64 i32 u64 1 (-1) 0;
   three Plus3 u64 u64 u64 0 1 1;
   three Plus3 u32 CBool u32 0 0 0;
   three Plus3 u32 i32 u32 1 (-1) 0;
   three Plus3 u32 u64 u32 0 1 1;
   three Plus3 u16 CBool u16 0 0 0;
   three Plus3 u16 i32 u16 1 (-1) 0;
   three Plus3 u16 u64 u16 0 1 1;
   three Plus3 u8 CBool u8 0 0 0;
   three Plus3 u8 i32 u8 1 (-1) 0;
   three Plus3 u8 u64 u8 0 1 1;
   three Plus3 i64 CBool i64 0 0 0;
   three Plus3 i64 u32 i64 (-1) 0 (-1);
   three Plus3 i64 i64 i64 0 (-1) (-1);
   three Plus3 i32 CBool i32 0 0 0;
   three Plus3 i32 u32 i32 (-1) 0 (-1);
   three Plus3 i32 i64 i32 0 (-1) (-1);
   three Plus3 i16 CBool i16 0 0 0;
   three Plus3 i16 u32 i16 (-1) 0 (-1);
   three Plus3 i16 i64 i16 0 (-1) (-1);
   three Plus3 i8 CBool i8 0 0 0;
   three Plus3 i8 u32 i8 (-1) 0 (-1);
   three Plus3 i8 i64 i8 0 (-1) (-1);
   three Plus3 CBool i8 CBool 0 0 0;
   three Plus3 CBool i32 CBool 0 1 1;
   three Plus3 CBool u64 CBool 1 0 1 ].
Proof. vm_compute. reflexivity. Qed.

(** test_algebra_binary.cpp:1407-1463 *)
Example binary_minus_same_domain_test : all_true
 [ SFeqb (FMinus CDouble (of_int CDouble 0) (of_int CDouble 0)) (of_int CDouble 0);
   SFeqb (FMinus CDouble (of_int CDouble 1) (of_int CDouble 0)) (of_int CDouble 1);
   SFeqb (FMinus CDouble (of_int CDouble 2) (of_int CDouble 1)) (of_int CDouble 1);
   SFeqb (FMinus CDouble (of_int CDouble 1) (of_int CDouble 1)) (of_int CDouble 0);
   SFeqb (FMinus CFloat (of_int CFloat 0) (of_int CFloat 0)) (of_int CFloat 0);
   SFeqb (FMinus CFloat (of_int CFloat 1) (of_int CFloat 0)) (of_int CFloat 1);
   SFeqb (FMinus CFloat (of_int CFloat 2) (of_int CFloat 1)) (of_int CFloat 1);
   SFeqb (FMinus CFloat (of_int CFloat 1) (of_int CFloat 1)) (of_int CFloat 0);
   three Minus3 u64 u64 u64 0 0 0;
   three Minus3 u64 u64 u64 1 0 1;
   three Minus3 u64 u64 u64 2 1 1;
   three Minus3 u64 u64 u64 1 1 0;
   three Minus3 u32 u32 u32 0 0 0;
   three Minus3 u32 u32 u32 1 0 1;
   three Minus3 u32 u32 u32 2 1 1;
   three Minus3 u32 u32 u32 1 1 0;
   three Minus3 u16 u16 u16 0 0 0;
   three Minus3 u16 u16 u16 1 0 1;
   three Minus3 u16 u16 u16 2 1 1;
   three Minus3 u16 u16 u16 1 1 0;
   three Minus3 u8 u8 u8 0 0 0;
   three Minus3 u8 u8 u8 1 0 1;
   three Minus3 u8 u8 u8 2 1 1;
   three Minus3 u8 u8 u8 1 1 0;
   three Minus3 i64 i64 i64 0 0 0;
   three Minus3 i64 i64 i64 (-1) 0 (-1);
   three Minus3 i64 i64 i64 (-2) (-1) (-1);
   three Minus3 i64 i64 i64 (-1) (-1) 0;
   three Minus3 i32 i32 i32 0 0 0;
   three Minus3 i32 i32 i32 (-1) 0 (-1);
   three Minus3 i32 i32 i32 (-2) (-1) (-1);
   three Minus3 i32 i32 i32 (-1) (-1) 0;
   three Minus3 i16 i16 i16 0 0 0;
   three Minus3 i16 i16 i16 (-1) 0 (-1);
   three Minus3 i16 i16 i16 (-2) (-1) (-1);
   three Minus3 i16 i16 i16 (-1) (-1) 0;
   three Minus3 i8 i8 i8 0 0 0;
   three Minus3 i8 i8 i8 (-1) 0 (-1);
   three Minus3 i8 i8 i8 (-2) (-1) (-1);
   three Minus3 i8 i8 i8 (-1) (-1) 0;
   three Minus3 CBool CBool CBool 0 0 0;
   three Minus3 CBool CBool CBool 0 1 1;
   three Minus3 CBool CBool CBool 1 0 1;
   three Minus3 CBool CBool CBool 1 1 0 ].
Proof. vm_compute. reflexivity. Qed.

(** test_algebra_binary.cpp:1466-1523 *)
Example binary_minus_different_domain_test : all_true
 [ three Minus3 u64 CBool u64 0 0 0;
   three Minus3 u64 i32 u64 1 (-1) 2;
   three Minus3 u64 u64 u64 0 1 18446744073709551615;
   three Minus3 u32 CBool u32 0 0 0;
   three Minus3 u32 i32 u32 1 (-1) 2;
   three Minus3 u32 u64 u32 0 1 4294967295;
   three Minus3 u16 CBool u16 0 0 0;
   three Minus3 u16 i32 u16 1 (-1) 2;
   three Minus3 u16 u64 u16 0 1 65535;
   three Minus3 u8 CBool u8 0 0 0;
   three Minus3 u8 i32 u8 1 (-1) 2;
   three Minus3 u8 u64 u8 0 1 255;
   three Minus3 i64 CBool i64 0 0 0;
   three Minus3 i64 u32 i64 (-1) 0 (-1);
   three Minus3 i64 i64 i64 0 (-1) 1;
   three Minus3 i32 CBool i32 0 0 0;
   three Minus3 i32 u32 i32 (-1) 0 (-1);
   three Minus3 i32 i64 i32 0 (-1) 1;
   three Minus3 i16 CBool i16 0 0 0;
   three Minus3 i16 u32 i16 (-1) 0 (-1);
   three Minus3 i16 i64 i16 0 (-1) 1;
   three Minus3 i8 CBool i8 0 0 0;
   three Minus3 i8 u32 i8 (-1) 0 (-1);
   three Minus3 i8 i64 i8 0 (-1) 1;
   three Minus3 CBool i8 CBool 0 0 0;
   three Minus3 CBool i32 CBool 0 1 1;
   three Minus3 CBool u64 CBool 1 0 1 ].
Proof. vm_compute. reflexivity. Qed.

(** test_algebra_binary.cpp:1526-1582 *)
Example binary_times_same_domain_test : all_true
 [ SFeqb (FTimes CDouble (of_int CDouble 0) (of_int CDouble 0)) (of_int CDouble 0);
   SFeqb (FTimes CDouble (of_int CDouble 1) (of_int CDouble 0)) (of_int CDouble 0);
   SFeqb (FTimes CDouble (of_int CDouble 2) (of_int CDouble 1)) (of_int CDouble 2);
   SFeqb (FTimes CDouble (of_int CDouble 1) (of_int CDouble 1)) (of_int CDouble 1);
   SFeqb (FTimes CFloat (of_int CFloat 0) (of_int CFloat 0)) (of_int CFloat 0);
   SFeqb (FTimes CFloat (of_int CFloat 1) (of_int CFloat 0)) (of_int CFloat 0);
   SFeqb (FTimes CFloat (of_int CFloat 2) (of_int CFloat 1)) (of_int CFloat 2);
   SFeqb (FTimes CFloat (of_int CFloat 1) (of_int CFloat 1)) (of_int CFloat 1);
   three Times3 u64 u64 u64 0 0 0;
   three Times3 u64 u64 u64 1 0 0;
   three Times3 u64 u64 u64 2 1 2;
   three Times3 u64 u64 u64 1 1 1;
   three Times3 u32 u32 u32 0 0 0;
   three Times3 u32 u32 u32 1 0 0;
   three Times3 u32 u32 u32 2 1 2;
   three Times3 u32 u32 u32 1 1 1;
   three Times3 u16 u16 u16 0 0 0;
   three Times3 u16 u16 u16 1 0 0;
   three Times3 u16 u16 u16 2 1 2;
   three Times3 u16 u16 u16 1 1 1;
   three Times3 u8 u8 u8 0 0 0;
   three Times3 u8 u8 u8 1 0 0;
   three Times3 u8 u8 u8 2 1 2;
   three Times3 u8 u8 u8 1 1 1;
   three Times3 i64 i64 i64 0 0 0;
   three Times3 i64 i64 i64 (-1) 0 0;
   three Times3 i64 i64 i64 (-2) 1 (-2);
   three Times3 i64 i64 i64 (-1) (-1) 1;
   three Times3 i32 i32 i32 0 0 0;
   three Times3 i32 i32 i32 (-1) 0 0;
   three Times3 i32 i32 i32 (-2) 1 (-2);
   three Times3 i32 i32 i32 (-1) (-1) 1;
   three Times3 i16 i16 i16 0 0 0;
   three Times3 i16 i16 i16 (-1) 0 0;
   three Times3 i16 i16 i16 (-2) 1 (-2);
   three Times3 i16 i16 i16 (-1) (-1) 1;
   three Times3 i8 i8 i8 0 0 0;
   three Times3 i8 i8 i8 (-1) 0 0;
   three Times3 i8 i8 i8 (-2) 1 (-2);
   three Times3 i8 i8 i8 (-1) (-1) 1;
   three Times3 CBool CBool CBool 0 0 0;
   three Times3 CBool CBool CBool 0 1 0;
   three Times3 CBool CBool CBool 1 0 0;
   three Times3 CBool CBool CBool 1 1 1 ].
Proof. vm_compute. reflexivity. Qed.

(** test_algebra_binary.cpp:1585-1651 *)
Example binary_times_different_domain_test : all_true
 [ three Times3 u64 CBool u64 0 0 0;
   three Times3 u64 i32 u64 1 (-1) 18446744073709551615;
   three Times3 u64 u64 u64 0 1 0;
   three Times3 u32 CBool u32 0 0 0;
   three Times3 u32 i32 u32 1 (-1) 4294967295;
   three Times3 u32 u64 u32 0 1 0;
   three Times3 u16 CBool u16 0 0 0;
   three Times3 u16 i32 u16 1 (-1) 65535;
   three Times3 u16 u64 u16 0 1 0;
   three Times3 u8 CBool u8 0 0 0;
   three Times3 u8 i32 u8 1 (-1) 255;
   three Times3 u8 u64 u8 0 1 0;
   three Times3 i64 CBool i64 0 0 0;
   three Times3 i64 u32 i64 (-1) 0 0;
   three Times3 i64 u64 i64 0 (-1) 0;
   three Times3 i32 CBool i32 0 0 0;
   three Times3 i32 u32 i32 (-1) 0 0;
   three Times3 i32 i64 i32 1 (-1) (-1);
   three Times3 i16 CBool i16 0 0 0;
   three Times3 i16 u32 i16 (-1) 0 0;
   three Times3 i16 i64 i16 0 (-1) 0;
   three Times3 i8 CBool i8 0 0 0;
   three Times3 i8 u32 i8 (-1) 0 0;
   three Times3 i8 i64 i8 0 (-1) 0;
   three Times3 CBool i8 CBool 0 0 0;
   three Times3 CBool i32 CBool 0 1 0;
   three Times3 CBool u64 CBool 1 0 0 ].
Proof. vm_compute. reflexivity. Qed.

(** test_algebra_binary.cpp:1654-1710 *)
Example binary_div_same_domain_test : all_true
 [ SFeqb (FDiv CDouble (of_int CDouble 0) (of_int CDouble 1)) (of_int CDouble 0);
   SFeqb (FDiv CDouble (of_int CDouble 1) (of_int CDouble 2)) (FDiv CDouble (of_int CDouble 512) (of_int CDouble 1024));
   SFeqb (FDiv CDouble (of_int CDouble 2) (of_int CDouble 1)) (of_int CDouble 2);
   SFeqb (FDiv CDouble (of_int CDouble 1) (of_int CDouble 1)) (of_int CDouble 1);
   SFeqb (FDiv CFloat (of_int CFloat 0) (of_int CFloat 1)) (of_int CFloat 0);
   SFeqb (FDiv CFloat (of_int CFloat 1) (of_int CFloat 2)) (FDiv CFloat (of_int CFloat 512) (of_int CFloat 1024));
   SFeqb (FDiv CFloat (of_int CFloat 2) (of_int CFloat 1)) (of_int CFloat 2);
   SFeqb (FDiv CFloat (of_int CFloat 1) (of_int CFloat 1)) (of_int CFloat 1);
   three Div u64 u64 u64 0 1 0;
   three Div u64 u64 u64 1 2 0;
   three Div u64 u64 u64 2 1 2;
   three Div u64 u64 u64 1 1 1;
   three Div u32 u32 u32 0 1 0;
   three Div u32 u32 u32 1 2 0;
   three Div u32 u32 u32 2 1 2;
   three Div u32 u32 u32 1 1 1;
   three Div u16 u16 u16 0 1 0;
   three Div u16 u16 u16 1 2 0;
   three Div u16 u16 u16 2 1 2;
   three Div u16 u16 u16 1 1 1;
   three Div u8 u8 u8 0 1 0;
   three Div u8 u8 u8 1 2 0;
   three Div u8 u8 u8 2 1 2;
   three Div u8 u8 u8 1 1 1;
   three Div i64 i64 i64 0 1 0;
   three Div i64 i64 i64 (-1) 2 0;
   three Div i64 i64 i64 (-2) 1 (-2);
   three Div i64 i64 i64 (-1) (-1) 1;
   three Div i32 i32 i32 0 1 0;
   three Div i32 i32 i32 (-1) 2 0;
   three Div i32 i32 i32 (-2) 1 (-2);
   three Div i32 i32 i32 (-1) (-1) 1;
   three Div i16 i16 i16 0 1 0;
   three Div i16 i16 i16 (-1) 2 0;
   three Div i16 i16 i16 (-2) 1 (-2);
   three Div i16 i16 i16 (-1) (-1) 1;
   three Div i8 i8 i8 0 1 0;
   three Div i8 i8 i8 (-1) 2 0;
   three Div i8 i8 i8 (-2) 1 (-2);
   three Div i8 i8 i8 (-1) (-1) 1;
   three Div CBool CBool CBool 0 1 0;
   three Div CBool CBool CBool 1 1 1 ].
Proof. vm_compute. reflexivity. Qed.

(** test_algebra_binary.cpp:1713-1769 *)
Example binary_div_different_domain_test : all_true
 [ three Div u64 CBool u64 0 1 0;
   three Div u64 i32 u64 1 (-2) 0;
   three Div u64 u64 u64 0 1 0;
   three Div u32 CBool u32 0 1 0;
   three Div u32 i32 u32 1 (-2) 0;
   three Div u32 u64 u32 0 1 0;
   three Div u16 CBool u16 0 1 0;
   three Div u16 i32 u16 1 (-2) 0;
   three Div u16 u64 u16 0 1 0;
   three Div u8 CBool u8 0 1 0;
   three Div u8 i32 u8 1 (-2) 0;
   three Div u8 u64 u8 0 1 0;
   three Div i64 CBool i64 0 1 0;
   three Div i64 u32 i64 (-1) 2 0;
   three Div i64 u64 i64 0 1 0;
   three Div i32 CBool i32 0 1 0;
   three Div i32 i64 i32 1 (-1) (-1);
   three Div i16 CBool i16 0 1 0;
   three Div i16 u32 i16 (-1) 2 (-1);
   three Div i16 i64 i16 0 (-1) 0;
   three Div i8 CBool i8 0 1 0;
   three Div i8 u32 i8 (-1) 2 (-1);
   three Div i8 i64 i8 0 (-1) 0;
   three Div CBool i8 CBool 1 1 1;
   three Div CBool i32 CBool 0 (-2) 0;
   three Div CBool u64 CBool 1 1 1 ].
Proof. vm_compute. reflexivity. Qed.

(** test_algebra_monoid.cpp:55-83 *)
Example monoid_plus_monoid_test : all_true
 [ SFeqb (fm_id FPlusMonoid CDouble) (of_int CDouble 0);
   SFeqb (fm_op FPlusMonoid CDouble (of_int CDouble (-2)) (of_int CDouble 1)) (of_int CDouble (-1));
   SFeqb (fm_id FPlusMonoid CFloat) (of_int CFloat 0);
   SFeqb (fm_op FPlusMonoid CFloat (of_int CFloat (-2)) (of_int CFloat 1)) (of_int CFloat (-1));
   m_ident PlusMonoid u64 0;
   two (m_op PlusMonoid) u64 2 1 3;
   m_ident PlusMonoid u32 0;
   two (m_op PlusMonoid) u32 2 1 3;
   m_ident PlusMonoid u16 0;
   two (m_op PlusMonoid) u16 2 1 3;
   m_ident PlusMonoid u8 0;
   two (m_op PlusMonoid) u8 2 1 3;
   m_ident PlusMonoid i64 0;
   two (m_op PlusMonoid) i64 (-2) 1 (-1);
   m_ident PlusMonoid i32 0;
   two (m_op PlusMonoid) i32 (-2) 1 (-1);
   m_ident PlusMonoid i16 0;
   two (m_op PlusMonoid) i16 (-2) 1 (-1);
   m_ident PlusMonoid i8 0;
   two (m_op PlusMonoid) i8 (-2) 1 (-1);
   m_ident PlusMonoid CBool 0;
   two (m_op PlusMonoid) CBool 0 0 0;
   two (m_op PlusMonoid) CBool 1 1 1 ].
Proof. vm_compute. reflexivity. Qed.

(** test_algebra_monoid.cpp:86-114 *)
Example monoid_times_monoid_test : all_true
 [ SFeqb (fm_id FTimesMonoid CDouble) (of_int CDouble 1);
   SFeqb (fm_op FTimesMonoid CDouble (of_int CDouble (-2)) (of_int CDouble 1)) (of_int CDouble (-2));
   SFeqb (fm_id FTimesMonoid CFloat) (of_int CFloat 1);
   SFeqb (fm_op FTimesMonoid CFloat (of_int CFloat (-2)) (of_int CFloat 1)) (of_int CFloat (-2));
   m_ident TimesMonoid u64 1;
   two (m_op TimesMonoid) u64 2 1 2;
   m_ident TimesMonoid u32 1;
   two (m_op TimesMonoid) u32 2 1 2;
   m_ident TimesMonoid u16 1;
   two (m_op TimesMonoid) u16 2 1 2;
   m_ident TimesMonoid u8 1;
   two (m_op TimesMonoid) u8 2 1 2;
   m_ident TimesMonoid i64 1;
   two (m_op TimesMonoid) i64 (-2) 1 (-2);
   m_ident TimesMonoid i32 1;
   two (m_op TimesMonoid) i32 (-2) 1 (-2);
   m_ident TimesMonoid i16 1;
   two (m_op TimesMonoid) i16 (-2) 1 (-2);
   m_ident TimesMonoid i8 1;
   two (m_op TimesMonoid) i8 (-2) 1 (-2);
   m_ident TimesMonoid CBool 1;
   two (m_op TimesMonoid) CBool 0 1 0;
   two (m_op TimesMonoid) CBool 1 1 1 ].
Proof. vm_compute. reflexivity. Qed.

(** test_algebra_monoid.cpp:117-155 *)
Example monoid_min_monoid_test : all_true
 [ SFeqb (fm_op FMinMonoid CDouble (of_int CDouble (-2)) (of_int CDouble 1)) (of_int CDouble (-2));
   SFeqb (fm_op FMinMonoid CFloat (of_int CFloat (-2)) (of_int CFloat 1)) (of_int CFloat (-2));
   m_ident MinMonoid u64 18446744073709551615;
   two (m_op MinMonoid) u64 2 1 1;
   m_ident MinMonoid u32 4294967295;
   two (m_op MinMonoid) u32 2 1 1;
   m_ident MinMonoid u16 65535;
   two (m_op MinMonoid) u16 2 1 1;
   m_ident MinMonoid u8 255;
   two (m_op MinMonoid) u8 2 1 1;
   m_ident MinMonoid i64 9223372036854775807;
   two (m_op MinMonoid) i64 (-2) 1 (-2);
   m_ident MinMonoid i32 2147483647;
   two (m_op MinMonoid) i32 (-2) 1 (-2);
   m_ident MinMonoid i16 32767;
   two (m_op MinMonoid) i16 (-2) 1 (-2);
   m_ident MinMonoid i8 127;
   two (m_op MinMonoid) i8 (-2) 1 (-2);
   m_ident MinMonoid CBool 1;
   two (m_op MinMonoid) CBool 0 1 0;
   two (m_op MinMonoid) CBool 1 1 1 ].
Proof. vm_compute. reflexivity. Qed.

(** test_algebra_monoid.cpp:158-192 *)
Example monoid_max_monoid_test : all_true
 [ SFeqb (fm_op FMaxMonoid CDouble (of_int CDouble (-2)) (of_int CDouble 1)) (of_int CDouble 1);
   SFeqb (fm_op FMaxMonoid CFloat (of_int CFloat (-2)) (of_int CFloat 1)) (of_int CFloat 1);
   m_ident MaxMonoid u64 0;
   two (m_op MaxMonoid) u64 2 1 2;
   m_ident MaxMonoid u32 0;
   two (m_op MaxMonoid) u32 2 1 2;
   m_ident MaxMonoid u16 0;
   two (m_op MaxMonoid) u16 2 1 2;
   m_ident MaxMonoid u8 0;
   two (m_op MaxMonoid) u8 2 1 2;
   m_ident MaxMonoid i64 (-9223372036854775808);
   two (m_op MaxMonoid) i64 (-2) 1 1;
   m_ident MaxMonoid i32 (-2147483648);
   two (m_op MaxMonoid) i32 (-2) 1 1;
   m_ident MaxMonoid i16 (-32768);
   two (m_op MaxMonoid) i16 (-2) 1 1;
   m_ident MaxMonoid i8 (-128);
   two (m_op MaxMonoid) i8 (-2) 1 1;
   m_ident MaxMonoid CBool 0;
   two (m_op MaxMonoid) CBool 0 0 0;
   two (m_op MaxMonoid) CBool 0 1 1 ].
Proof. vm_compute. reflexivity. Qed.

(** test_algebra_monoid.cpp:195-262 *)
Example monoid_logical_or_monoid_test : all_true
 [ m_ident LogicalOrMonoid u64 0;
   two (m_op LogicalOrMonoid) u64 0 0 0;
   two (m_op LogicalOrMonoid) u64 0 1 1;
   two (m_op LogicalOrMonoid) u64 2 0 1;
   two (m_op LogicalOrMonoid) u64 2 1 1;
   m_ident LogicalOrMonoid u32 0;
   two (m_op LogicalOrMonoid) u32 0 0 0;
   two (m_op LogicalOrMonoid) u32 0 1 1;
   two (m_op LogicalOrMonoid) u32 2 0 1;
   two (m_op LogicalOrMonoid) u32 2 1 1;
   m_ident LogicalOrMonoid u16 0;
   two (m_op LogicalOrMonoid) u16 0 0 0;
   two (m_op LogicalOrMonoid) u16 0 1 1;
   two (m_op LogicalOrMonoid) u16 2 0 1;
   two (m_op LogicalOrMonoid) u16 2 1 1;
   m_ident LogicalOrMonoid u8 0;
   two (m_op LogicalOrMonoid) u8 0 0 0;
   two (m_op LogicalOrMonoid) u8 0 1 1;
   two (m_op LogicalOrMonoid) u8 2 0 1;
   two (m_op LogicalOrMonoid) u8 2 1 1;
   m_ident LogicalOrMonoid i64 0;
   two (m_op LogicalOrMonoid) i64 0 0 0;
   two (m_op LogicalOrMonoid) i64 0 1 1;
   two (m_op LogicalOrMonoid) i64 (-2) 0 1;
   two (m_op LogicalOrMonoid) i64 (-2) 1 1;
   m_ident LogicalOrMonoid i32 0;
   two (m_op LogicalOrMonoid) i32 0 0 0;
   two (m_op LogicalOrMonoid) i32 0 1 1;
   two (m_op LogicalOrMonoid) i32 (-2) 0 1;
   two (m_op LogicalOrMonoid) i32 (-2) 1 1;
   m_ident LogicalOrMonoid i16 0;
   two (m_op LogicalOrMonoid) i16 0 0 0;
   two (m_op LogicalOrMonoid) i16 0 1 1;
   two (m_op LogicalOrMonoid) i16 (-2) 0 1;
   two (m_op LogicalOrMonoid) i16 (-2) 1 1;
   m_ident LogicalOrMonoid i8 0;
   two (m_op LogicalOrMonoid) i8 0 0 0;
   two (m_op LogicalOrMonoid) i8 0 1 1;
   two (m_op LogicalOrMonoid) i8 (-2) 0 1;
   two (m_op LogicalOrMonoid) i8 (-2) 1 1;
   m_ident LogicalOrMonoid CBool 0;
   two (m_op LogicalOrMonoid) CBool 0 0 0;
   two (m_op LogicalOrMonoid) CBool 0 1 1;
   two (m_op LogicalOrMonoid) CBool 1 0 1;
   two (m_op LogicalOrMonoid) CBool 1 1 1 ].
Proof. vm_compute. reflexivity. Qed.

(** test_algebra_monoid.cpp:265-332 *)
Example monoid_logical_and_monoid_test : all_true
 [ m_ident LogicalAndMonoid u64 1;
   two (m_op LogicalAndMonoid) u64 0 0 0;
   two (m_op LogicalAndMonoid) u64 0 1 0;
   two (m_op LogicalAndMonoid) u64 2 0 0;
   two (m_op LogicalAndMonoid) u64 2 1 1;
   m_ident LogicalAndMonoid u32 1;
   two (m_op LogicalAndMonoid) u32 0 0 0;
   two (m_op LogicalAndMonoid) u32 0 1 0;
   two (m_op LogicalAndMonoid) u32 2 0 0;
   two (m_op LogicalAndMonoid) u32 2 1 1;
   m_ident LogicalAndMonoid u16 1;
   two (m_op LogicalAndMonoid) u16 0 0 0;
   two (m_op LogicalAndMonoid) u16 0 1 0;
   two (m_op LogicalAndMonoid) u16 2 0 0;
   two (m_op LogicalAndMonoid) u16 2 1 1;
   m_ident LogicalAndMonoid u8 1;
   two (m_op LogicalAndMonoid) u8 0 0 0;
   two (m_op LogicalAndMonoid) u8 0 1 0;
   two (m_op LogicalAndMonoid) u8 2 0 0;
   two (m_op LogicalAndMonoid) u8 2 1 1;
   m_ident LogicalAndMonoid i64 1;
   two (m_op LogicalAndMonoid) i64 0 0 0;
   two (m_op LogicalAndMonoid) i64 0 1 0;
   two (m_op LogicalAndMonoid) i64 (-2) 0 0;
   two (m_op LogicalAndMonoid) i64 (-2) 1 1;
   m_ident LogicalAndMonoid i32 1;
   two (m_op LogicalAndMonoid) i32 0 0 0;
   two (m_op LogicalAndMonoid) i32 0 1 0;
   two (m_op LogicalAndMonoid) i32 (-2) 0 0;
   two (m_op LogicalAndMonoid) i32 (-2) 1 1;
   m_ident LogicalAndMonoid i16 1;
   two (m_op LogicalAndMonoid) i16 0 0 0;
   two (m_op LogicalAndMonoid) i16 0 1 0;
   two (m_op LogicalAndMonoid) i16 (-2) 0 0;
   two (m_op LogicalAndMonoid) i16 (-2) 1 1;
   m_ident LogicalAndMonoid i8 1;
   two (m_op LogicalAndMonoid) i8 0 0 0;
   two (m_op LogicalAndMonoid) i8 0 1 0;
   two (m_op LogicalAndMonoid) i8 (-2) 0 0;
   two (m_op LogicalAndMonoid) i8 (-2) 1 1;
   m_ident LogicalAndMonoid CBool 1;
   two (m_op LogicalAndMonoid) CBool 0 0 0;
   two (m_op LogicalAndMonoid) CBool 0 1 0;
   two (m_op LogicalAndMonoid) CBool 1 0 0;
   two (m_op LogicalAndMonoid) CBool 1 1 1 ].
Proof. vm_compute. reflexivity. Qed.

(** test_algebra_monoid.cpp:335-402 *)
Example monoid_logical_xor_monoid_test : all_true
 [ m_ident LogicalXorMonoid u64 0;
   two (m_op LogicalXorMonoid) u64 0 0 0;
   two (m_op LogicalXorMonoid) u64 0 1 1;
   two (m_op LogicalXorMonoid) u64 2 0 1;
   two (m_op LogicalXorMonoid) u64 2 1 0;
   m_ident LogicalXorMonoid u32 0;
   two (m_op LogicalXorMonoid) u32 0 0 0;
   two (m_op LogicalXorMonoid) u32 0 1 1;
   two (m_op LogicalXorMonoid) u32 2 0 1;
   two (m_op LogicalXorMonoid) u32 2 1 0;
   m_ident LogicalXorMonoid u16 0;
   two (m_op LogicalXorMonoid) u16 0 0 0;
   two (m_op LogicalXorMonoid) u16 0 1 1;
   two (m_op LogicalXorMonoid) u16 2 0 1;
   two (m_op LogicalXorMonoid) u16 2 1 0;
   m_ident LogicalXorMonoid u8 0;
   two (m_op LogicalXorMonoid) u8 0 0 0;
   two (m_op LogicalXorMonoid) u8 0 1 1;
   two (m_op LogicalXorMonoid) u8 2 0 1;
   two (m_op LogicalXorMonoid) u8 2 1 0;
   m_ident LogicalXorMonoid i64 0;
   two (m_op LogicalXorMonoid) i64 0 0 0;
   two (m_op LogicalXorMonoid) i64 0 1 1;
   two (m_op LogicalXorMonoid) i64 (-2) 0 1;
   two (m_op LogicalXorMonoid) i64 (-2) 1 0;
   m_ident LogicalXorMonoid i32 0;
   two (m_op LogicalXorMonoid) i32 0 0 0;
   two (m_op LogicalXorMonoid) i32 0 1 1;
   two (m_op LogicalXorMonoid) i32 (-2) 0 1;
   two (m_op LogicalXorMonoid) i32 (-2) 1 0;
   m_ident LogicalXorMonoid i16 0;
   two (m_op LogicalXorMonoid) i16 0 0 0;
   two (m_op LogicalXorMonoid) i16 0 1 1;
   two (m_op LogicalXorMonoid) i16 (-2) 0 1;
   two (m_op LogicalXorMonoid) i16 (-2) 1 0;
   m_ident LogicalXorMonoid i8 0;
   two (m_op LogicalXorMonoid) i8 0 0 0;
   two (m_op LogicalXorMonoid) i8 0 1 1;
   two (m_op LogicalXorMonoid) i8 (-2) 0 1;
   two (m_op LogicalXorMonoid) i8 (-2) 1 0;
   m_ident LogicalXorMonoid CBool 0;
   two (m_op LogicalXorMonoid) CBool 0 0 0;
   two (m_op LogicalXorMonoid) CBool 0 1 1;
   two (m_op LogicalXorMonoid) CBool 1 0 1;
   two (m_op LogicalXorMonoid) CBool 1 1 0 ].
Proof. vm_compute. reflexivity. Qed.

(** test_algebra_monoid.cpp:405-472 *)
Example monoid_logical_xnor_monoid_test : all_true
 [ m_ident LogicalXnorMonoid u64 1;
   two (m_op LogicalXnorMonoid) u64 0 0 1;
   two (m_op LogicalXnorMonoid) u64 0 1 0;
   two (m_op LogicalXnorMonoid) u64 2 0 0;
   two (m_op LogicalXnorMonoid) u64 2 1 1;
   m_ident LogicalXnorMonoid u32 1;
   two (m_op LogicalXnorMonoid) u32 0 0 1;
   two (m_op LogicalXnorMonoid) u32 0 1 0;
   two (m_op LogicalXnorMonoid) u32 2 0 0;
   two (m_op LogicalXnorMonoid) u32 2 1 1;
   m_ident LogicalXnorMonoid u16 1;
   two (m_op LogicalXnorMonoid) u16 0 0 1;
   two (m_op LogicalXnorMonoid) u16 0 1 0;
   two (m_op LogicalXnorMonoid) u16 2 0 0;
   two (m_op LogicalXnorMonoid) u16 2 1 1;
   m_ident LogicalXnorMonoid u8 1;
   two (m_op LogicalXnorMonoid) u8 0 0 1;
   two (m_op LogicalXnorMonoid) u8 0 1 0;
   two (m_op LogicalXnorMonoid) u8 2 0 0;
   two (m_op LogicalXnorMonoid) u8 2 1 1;
   m_ident LogicalXnorMonoid i64 1;
   two (m_op LogicalXnorMonoid) i64 0 0 1;
   two (m_op LogicalXnorMonoid) i64 0 1 0;
   two (m_op LogicalXnorMonoid) i64 (-2) 0 0;
   two (m_op LogicalXnorMonoid) i64 (-2) 1 1;
   m_ident LogicalXnorMonoid i32 1;
   two (m_op LogicalXnorMonoid) i32 0 0 1;
   two (m_op LogicalXnorMonoid) i32 0 1 0;
   two (m_op LogicalXnorMonoid) i32 (-2) 0 0;
   two (m_op LogicalXnorMonoid) i32 (-2) 1 1;
   m_ident LogicalXnorMonoid i16 1;
   two (m_op LogicalXnorMonoid) i16 0 0 1;
   two (m_op LogicalXnorMonoid) i16 0 1 0;
   two (m_op LogicalXnorMonoid) i16 (-2) 0 0;
   two (m_op LogicalXnorMonoid) i16 (-2) 1 1;
   m_ident LogicalXnorMonoid i8 1;
   two (m_op LogicalXnorMonoid) i8 0 0 1;
   two (m_op LogicalXnorMonoid) i8 0 1 0;
   two (m_op LogicalXnorMonoid) i8 (-2) 0 0;
   two (m_op LogicalXnorMonoid) i8 (-2) 1 1;
   m_ident LogicalXnorMonoid CBool 1;
   two (m_op LogicalXnorMonoid) CBool 0 0 1;
   two (m_op LogicalXnorMonoid) CBool 0 1 0;
   two (m_op LogicalXnorMonoid) CBool 1 0 0;
   two (m_op LogicalXnorMonoid) CBool 1 1 1 ].
Proof. vm_compute. reflexivity. Qed.

(** test_algebra_semiring.cpp:51-91 *)
Example semiring_arithmetic_semiring_test : all_true
 [ SFeqb (fs_zero FArithmeticSemiring CDouble) (of_int CDouble 0);
   SFeqb (fm_op (fs_add FArithmeticSemiring) CDouble (of_int CDouble (-2)) (of_int CDouble 1)) (of_int CDouble (-1));
   SFeqb (fs_mult FArithmeticSemiring CDouble (of_int CDouble (-2)) (of_int CDouble 1)) (of_int CDouble (-2));
   SFeqb (fs_zero FArithmeticSemiring CFloat) (of_int CFloat 0);
   SFeqb (fm_op (fs_add FArithmeticSemiring) CFloat (of_int CFloat (-2)) (of_int CFloat 1)) (of_int CFloat (-1));
   SFeqb (fs_mult FArithmeticSemiring CFloat (of_int CFloat (-2)) (of_int CFloat 1)) (of_int CFloat (-2));
   m_zero ArithmeticSemiring u64 0;
   two (m_op (s_add ArithmeticSemiring)) u64 2 1 3;
   two (s_mult ArithmeticSemiring) u64 2 1 2;
   m_zero ArithmeticSemiring u32 0;
   two (m_op (s_add ArithmeticSemiring)) u32 2 1 3;
   two (s_mult ArithmeticSemiring) u32 2 1 2;
   m_zero ArithmeticSemiring u16 0;
   two (m_op (s_add ArithmeticSemiring)) u16 2 1 3;
   two (s_mult ArithmeticSemiring) u16 2 1 2;
   m_zero ArithmeticSemiring u8 0;
   two (m_op (s_add ArithmeticSemiring)) u8 2 1 3;
   two (s_mult ArithmeticSemiring) u8 2 1 2;
   m_zero ArithmeticSemiring i64 0;
   two (m_op (s_add ArithmeticSemiring)) i64 (-2) 1 (-1);
   two (s_mult ArithmeticSemiring) i64 (-2) 1 (-2);
   m_zero ArithmeticSemiring i32 0;
   two (m_op (s_add ArithmeticSemiring)) i32 (-2) 1 (-1);
   two (s_mult ArithmeticSemiring) i32 (-2) 1 (-2);
   m_zero ArithmeticSemiring i16 0;
   two (m_op (s_add ArithmeticSemiring)) i16 (-2) 1 (-1);
   two (s_mult ArithmeticSemiring) i16 (-2) 1 (-2);
   m_zero ArithmeticSemiring i8 0;
   two (m_op (s_add ArithmeticSemiring)) i8 (-2) 1 (-1);
   two (s_mult ArithmeticSemiring) i8 (-2) 1 (-2);
   m_zero ArithmeticSemiring CBool 0;
   two (m_op (s_add ArithmeticSemiring)) CBool 0 0 0;
   two (m_op (s_add ArithmeticSemiring)) CBool 0 1 1;
   two (s_mult ArithmeticSemiring) CBool 0 1 0;
   two (s_mult ArithmeticSemiring) CBool 1 1 1 ].
Proof. vm_compute. reflexivity. Qed.

(** test_algebra_semiring.cpp:94-161 *)
Example semiring_min_plus_semiring_test : all_true
 [ SFeqb (fm_op (fs_add FMinPlusSemiring) CDouble (of_int CDouble (-2)) (of_int CDouble 1)) (of_int CDouble (-2));
   SFeqb (fm_op (fs_add FMinPlusSemiring) CDouble (of_int CDouble 2) (of_int CDouble 1)) (of_int CDouble 1);
   SFeqb (fs_mult FMinPlusSemiring CDouble (of_int CDouble (-2)) (of_int CDouble 1)) (of_int CDouble (-1));
   SFeqb (fm_op (fs_add FMinPlusSemiring) CFloat (of_int CFloat (-2)) (of_int CFloat 1)) (of_int CFloat (-2));
   SFeqb (fm_op (fs_add FMinPlusSemiring) CFloat (of_int CFloat 2) (of_int CFloat 1)) (of_int CFloat 1);
   SFeqb (fs_mult FMinPlusSemiring CFloat (of_int CFloat (-2)) (of_int CFloat 1)) (of_int CFloat (-1));
   m_zero MinPlusSemiring u64 18446744073709551615;
   two (m_op (s_add MinPlusSemiring)) u64 2 1 1;
   two (m_op (s_add MinPlusSemiring)) u64 2 3 2;
   two (s_mult MinPlusSemiring) u64 2 1 3;
   m_zero MinPlusSemiring u32 4294967295;
   two (m_op (s_add MinPlusSemiring)) u32 2 1 1;
   two (m_op (s_add MinPlusSemiring)) u32 2 3 2;
   two (s_mult MinPlusSemiring) u32 2 1 3;
   m_zero MinPlusSemiring u16 65535;
   two (m_op (s_add MinPlusSemiring)) u16 2 1 1;
   two (m_op (s_add MinPlusSemiring)) u16 2 3 2;
   two (s_mult MinPlusSemiring) u16 2 1 3;
   m_zero MinPlusSemiring u8 255;
   two (m_op (s_add MinPlusSemiring)) u8 2 1 1;
   two (m_op (s_add MinPlusSemiring)) u8 2 3 2;
   two (s_mult MinPlusSemiring) u8 2 1 3;
   m_zero MinPlusSemiring i64 9223372036854775807;
   two (m_op (s_add MinPlusSemiring)) i64 (-2) 1 (-2);
   two (m_op (s_add MinPlusSemiring)) i64 2 (-1) (-1);
   two (s_mult MinPlusSemiring) i64 (-2) 1 (-1);
   m_zero MinPlusSemiring i32 2147483647;
   two (m_op (s_add MinPlusSemiring)) i32 (-2) 1 (-2);
   two (m_op (s_add MinPlusSemiring)) i32 2 (-1) (-1);
   two (s_mult MinPlusSemiring) i32 (-2) 1 (-1);
   m_zero MinPlusSemiring i16 32767;
   two (m_op (s_add MinPlusSemiring)) i16 (-2) 1 (-2);
   two (m_op (s_add MinPlusSemiring)) i16 2 (-1) (-1);
   two (s_mult MinPlusSemiring) i16 (-2) 1 (-1);
   m_zero MinPlusSemiring i8 127;
   two (m_op (s_add MinPlusSemiring)) i8 (-2) 1 (-2);
   two (m_op (s_add MinPlusSemiring)) i8 2 (-1) (-1);
   two (s_mult MinPlusSemiring) i8 (-2) 1 (-1);
   m_zero MinPlusSemiring CBool 1;
   two (m_op (s_add MinPlusSemiring)) CBool 0 1 0;
   two (m_op (s_add MinPlusSemiring)) CBool 1 1 1;
   two (s_mult MinPlusSemiring) CBool 0 0 0;
   two (s_mult MinPlusSemiring) CBool 1 0 1 ].
Proof. vm_compute. reflexivity. Qed.

(** test_algebra_semiring.cpp:164-231 *)
Example semiring_max_plus_semiring_test : all_true
 [ SFeqb (fm_op (fs_add FMaxPlusSemiring) CDouble (of_int CDouble (-2)) (of_int CDouble 1)) (of_int CDouble 1);
   SFeqb (fm_op (fs_add FMaxPlusSemiring) CDouble (of_int CDouble 2) (of_int CDouble 1)) (of_int CDouble 2);
   SFeqb (fs_mult FMaxPlusSemiring CDouble (of_int CDouble (-2)) (of_int CDouble 1)) (of_int CDouble (-1));
   SFeqb (fm_op (fs_add FMaxPlusSemiring) CFloat (of_int CFloat (-2)) (of_int CFloat 1)) (of_int CFloat 1);
   SFeqb (fm_op (fs_add FMaxPlusSemiring) CFloat (of_int CFloat 2) (of_int CFloat 1)) (of_int CFloat 2);
   SFeqb (fs_mult FMaxPlusSemiring CFloat (of_int CFloat (-2)) (of_int CFloat 1)) (of_int CFloat (-1));
   m_zero MaxPlusSemiring u64 0;
   two (m_op (s_add MaxPlusSemiring)) u64 2 1 2;
   two (m_op (s_add MaxPlusSemiring)) u64 2 3 3;
   two (s_mult MaxPlusSemiring) u64 2 1 3;
   m_zero MaxPlusSemiring u32 0;
   two (m_op (s_add MaxPlusSemiring)) u32 2 1 2;
   two (m_op (s_add MaxPlusSemiring)) u32 2 3 3;
   two (s_mult MaxPlusSemiring) u32 2 1 3;
   m_zero MaxPlusSemiring u16 0;
   two (m_op (s_add MaxPlusSemiring)) u16 2 1 2;
   two (m_op (s_add MaxPlusSemiring)) u16 2 3 3;
   two (s_mult MaxPlusSemiring) u16 2 1 3;
   m_zero MaxPlusSemiring u8 0;
   two (m_op (s_add MaxPlusSemiring)) u8 2 1 2;
   two (m_op (s_add MaxPlusSemiring)) u8 2 3 3;
   two (s_mult MaxPlusSemiring) u8 2 1 3;
   m_zero MaxPlusSemiring i64 (-9223372036854775808);
   two (m_op (s_add MaxPlusSemiring)) i64 (-2) 1 1;
   two (m_op (s_add MaxPlusSemiring)) i64 2 (-1) 2;
   two (s_mult MaxPlusSemiring) i64 (-2) 1 (-1);
   m_zero MaxPlusSemiring i32 (-2147483648);
   two (m_op (s_add MaxPlusSemiring)) i32 (-2) 1 1;
   two (m_op (s_add MaxPlusSemiring)) i32 2 (-1) 2;
   two (s_mult MaxPlusSemiring) i32 (-2) 1 (-1);
   m_zero MaxPlusSemiring i16 (-32768);
   two (m_op (s_add MaxPlusSemiring)) i16 (-2) 1 1;
   two (m_op (s_add MaxPlusSemiring)) i16 2 (-1) 2;
   two (s_mult MaxPlusSemiring) i16 (-2) 1 (-1);
   m_zero MaxPlusSemiring i8 (-128);
   two (m_op (s_add MaxPlusSemiring)) i8 (-2) 1 1;
   two (m_op (s_add MaxPlusSemiring)) i8 2 (-1) 2;
   two (s_mult MaxPlusSemiring) i8 (-2) 1 (-1);
   m_zero MaxPlusSemiring CBool 0;
   two (m_op (s_add MaxPlusSemiring)) CBool 0 1 1;
   two (m_op (s_add MaxPlusSemiring)) CBool 1 1 1;
   two (s_mult MaxPlusSemiring) CBool 0 0 0;
   two (s_mult MaxPlusSemiring) CBool 1 0 1 ].
Proof. vm_compute. reflexivity. Qed.

(** test_algebra_semiring.cpp:234-284 *)
Example semiring_min_times_semiring_test : all_true
 [ SFeqb (fm_op (fs_add FMinTimesSemiring) CDouble (of_int CDouble (-2)) (of_int CDouble 1)) (of_int CDouble (-2));
   SFeqb (fs_mult FMinTimesSemiring CDouble (of_int CDouble (-2)) (of_int CDouble 1)) (of_int CDouble (-2));
   SFeqb (fm_op (fs_add FMinTimesSemiring) CFloat (of_int CFloat (-2)) (of_int CFloat 1)) (of_int CFloat (-2));
   SFeqb (fs_mult FMinTimesSemiring CFloat (of_int CFloat (-2)) (of_int CFloat 1)) (of_int CFloat (-2));
   m_zero MinTimesSemiring u64 18446744073709551615;
   two (m_op (s_add MinTimesSemiring)) u64 2 1 1;
   two (s_mult MinTimesSemiring) u64 2 1 2;
   m_zero MinTimesSemiring u32 4294967295;
   two (m_op (s_add MinTimesSemiring)) u32 2 1 1;
   two (s_mult MinTimesSemiring) u32 2 1 2;
   m_zero MinTimesSemiring u16 65535;
   two (m_op (s_add MinTimesSemiring)) u16 2 1 1;
   two (s_mult MinTimesSemiring) u16 2 1 2;
   m_zero MinTimesSemiring u8 255;
   two (m_op (s_add MinTimesSemiring)) u8 2 1 1;
   two (s_mult MinTimesSemiring) u8 2 1 2;
   m_zero MinTimesSemiring i64 9223372036854775807;
   two (m_op (s_add MinTimesSemiring)) i64 (-2) 1 (-2);
   two (s_mult MinTimesSemiring) i64 (-2) 1 (-2);
   m_zero MinTimesSemiring i32 2147483647;
   two (m_op (s_add MinTimesSemiring)) i32 (-2) 1 (-2);
   two (s_mult MinTimesSemiring) i32 (-2) 1 (-2);
   m_zero MinTimesSemiring i16 32767;
   two (m_op (s_add MinTimesSemiring)) i16 (-2) 1 (-2);
   two (s_mult MinTimesSemiring) i16 (-2) 1 (-2);
   m_zero MinTimesSemiring i8 127;
   two (m_op (s_add MinTimesSemiring)) i8 (-2) 1 (-2);
   two (s_mult MinTimesSemiring) i8 (-2) 1 (-2);
   m_zero MinTimesSemiring CBool 1;
   two (m_op (s_add MinTimesSemiring)) CBool 0 0 0;
   two (m_op (s_add MinTimesSemiring)) CBool 0 1 0;
   two (s_mult MinTimesSemiring) CBool 0 1 0;
   two (s_mult MinTimesSemiring) CBool 1 1 1 ].
Proof. vm_compute. reflexivity. Qed.

(** test_algebra_semiring.cpp:287-333 *)
Example semiring_max_times_semiring_test : all_true
 [ SFeqb (fm_op (fs_add FMaxTimesSemiring) CDouble (of_int CDouble (-2)) (of_int CDouble 1)) (of_int CDouble 1);
   SFeqb (fs_mult FMaxTimesSemiring CDouble (of_int CDouble (-2)) (of_int CDouble 1)) (of_int CDouble (-2));
   SFeqb (fm_op (fs_add FMaxTimesSemiring) CFloat (of_int CFloat (-2)) (of_int CFloat 1)) (of_int CFloat 1);
   SFeqb (fs_mult FMaxTimesSemiring CFloat (of_int CFloat (-2)) (of_int CFloat 1)) (of_int CFloat (-2));
   m_zero MaxTimesSemiring u64 0;
   two (m_op (s_add MaxTimesSemiring)) u64 2 1 2;
   two (s_mult MaxTimesSemiring) u64 2 1 2;
   m_zero MaxTimesSemiring u32 0;
   two (m_op (s_add MaxTimesSemiring)) u32 2 1 2;
   two (s_mult MaxTimesSemiring) u32 2 1 2;
   m_zero MaxTimesSemiring u16 0;
   two (m_op (s_add MaxTimesSemiring)) u16 2 1 2;
   two (s_mult MaxTimesSemiring) u16 2 1 2;
   m_zero MaxTimesSemiring u8 0;
   two (m_op (s_add MaxTimesSemiring)) u8 2 1 2;
   two (s_mult MaxTimesSemiring) u8 2 1 2;
   m_zero MaxTimesSemiring i64 (-9223372036854775808);
   two (m_op (s_add MaxTimesSemiring)) i64 (-2) 1 1;
   two (s_mult MaxTimesSemiring) i64 (-2) 1 (-2);
   m_zero MaxTimesSemiring i32 (-2147483648);
   two (m_op (s_add MaxTimesSemiring)) i32 (-2) 1 1;
   two (s_mult MaxTimesSemiring) i32 (-2) 1 (-2);
   m_zero MaxTimesSemiring i16 (-32768);
   two (m_op (s_add MaxTimesSemiring)) i16 (-2) 1 1;
   two (s_mult MaxTimesSemiring) i16 (-2) 1 (-2);
   m_zero MaxTimesSemiring i8 (-128);
   two (m_op (s_add MaxTimesSemiring)) i8 (-2) 1 1;
   two (s_mult MaxTimesSemiring) i8 (-2) 1 (-2);
   m_zero MaxTimesSemiring CBool 0;
   two (m_op (s_add MaxTimesSemiring)) CBool 0 0 0;
   two (m_op (s_add MaxTimesSemiring)) CBool 0 1 1;
   two (s_mult MaxTimesSemiring) CBool 0 1 0;
   two (s_mult MaxTimesSemiring) CBool 1 1 1 ].
Proof. vm_compute. reflexivity. Qed.

(** test_algebra_semiring.cpp:336-386 *)
Example semiring_min_max_semiring_test : all_true
 [ SFeqb (fm_op (fs_add FMinMaxSemiring) CDouble (of_int CDouble (-2)) (of_int CDouble 1)) (of_int CDouble (-2));
   SFeqb (fs_mult FMinMaxSemiring CDouble (of_int CDouble (-2)) (of_int CDouble 1)) (of_int CDouble 1);
   SFeqb (fm_op (fs_add FMinMaxSemiring) CFloat (of_int CFloat (-2)) (of_int CFloat 1)) (of_int CFloat (-2));
   SFeqb (fs_mult FMinMaxSemiring CFloat (of_int CFloat (-2)) (of_int CFloat 1)) (of_int CFloat 1);
   m_zero MinMaxSemiring u64 18446744073709551615;
   two (m_op (s_add MinMaxSemiring)) u64 2 1 1;
   two (s_mult MinMaxSemiring) u64 2 1 2;
   m_zero MinMaxSemiring u32 4294967295;
   two (m_op (s_add MinMaxSemiring)) u32 2 1 1;
   two (s_mult MinMaxSemiring) u32 2 1 2;
   m_zero MinMaxSemiring u16 65535;
   two (m_op (s_add MinMaxSemiring)) u16 2 1 1;
   two (s_mult MinMaxSemiring) u16 2 1 2;
   m_zero MinMaxSemiring u8 255;
   two (m_op (s_add MinMaxSemiring)) u8 2 1 1;
   two (s_mult MinMaxSemiring) u8 2 1 2;
   m_zero MinMaxSemiring i64 9223372036854775807;
   two (m_op (s_add MinMaxSemiring)) i64 (-2) 1 (-2);
   two (s_mult MinMaxSemiring) i64 (-2) 1 1;
   m_zero MinMaxSemiring i32 2147483647;
   two (m_op (s_add MinMaxSemiring)) i32 (-2) 1 (-2);
   two (s_mult MinMaxSemiring) i32 (-2) 1 1;
   m_zero MinMaxSemiring i16 32767;
   two (m_op (s_add MinMaxSemiring)) i16 (-2) 1 (-2);
   two (s_mult MinMaxSemiring) i16 (-2) 1 1;
   m_zero MinMaxSemiring i8 127;
   two (m_op (s_add MinMaxSemiring)) i8 (-2) 1 (-2);
   two (s_mult MinMaxSemiring) i8 (-2) 1 1;
   m_zero MinMaxSemiring CBool 1;
   two (m_op (s_add MinMaxSemiring)) CBool 0 0 0;
   two (m_op (s_add MinMaxSemiring)) CBool 0 1 0;
   two (s_mult MinMaxSemiring) CBool 0 1 1;
   two (s_mult MinMaxSemiring) CBool 1 1 1 ].
Proof. vm_compute. reflexivity. Qed.

(** test_algebra_semiring.cpp:389-435 *)
Example semiring_max_min_semiring_test : all_true
 [ SFeqb (fm_op (fs_add FMaxMinSemiring) CDouble (of_int CDouble (-2)) (of_int CDouble 1)) (of_int CDouble 1);
   SFeqb (fs_mult FMaxMinSemiring CDouble (of_int CDouble (-2)) (of_int CDouble 1)) (of_int CDouble (-2));
   SFeqb (fm_op (fs_add FMaxMinSemiring) CFloat (of_int CFloat (-2)) (of_int CFloat 1)) (of_int CFloat 1);
   SFeqb (fs_mult FMaxMinSemiring CFloat (of_int CFloat (-2)) (of_int CFloat 1)) (of_int CFloat (-2));
   m_zero MaxMinSemiring u64 0;
   two (m_op (s_add MaxMinSemiring)) u64 2 1 2;
   two (s_mult MaxMinSemiring) u64 2 1 1;
   m_zero MaxMinSemiring u32 0;
   two (m_op (s_add MaxMinSemiring)) u32 2 1 2;
   two (s_mult MaxMinSemiring) u32 2 1 1;
   m_zero MaxMinSemiring u16 0;
   two (m_op (s_add MaxMinSemiring)) u16 2 1 2;
   two (s_mult MaxMinSemiring) u16 2 1 1;
   m_zero MaxMinSemiring u8 0;
   two (m_op (s_add MaxMinSemiring)) u8 2 1 2;
   two (s_mult MaxMinSemiring) u8 2 1 1;
   m_zero MaxMinSemiring i64 (-9223372036854775808);
   two (m_op (s_add MaxMinSemiring)) i64 (-2) 1 1;
   two (s_mult MaxMinSemiring) i64 (-2) 1 (-2);
   m_zero MaxMinSemiring i32 (-2147483648);
   two (m_op (s_add MaxMinSemiring)) i32 (-2) 1 1;
   two (s_mult MaxMinSemiring) i32 (-2) 1 (-2);
   m_zero MaxMinSemiring i16 (-32768);
   two (m_op (s_add MaxMinSemiring)) i16 (-2) 1 1;
   two (s_mult MaxMinSemiring) i16 (-2) 1 (-2);
   m_zero MaxMinSemiring i8 (-128);
   two (m_op (s_add MaxMinSemiring)) i8 (-2) 1 1;
   two (s_mult MaxMinSemiring) i8 (-2) 1 (-2);
   m_zero MaxMinSemiring CBool 0;
   two (m_op (s_add MaxMinSemiring)) CBool 0 0 0;
   two (m_op (s_add MaxMinSemiring)) CBool 0 1 1;
   two (s_mult MaxMinSemiring) CBool 0 1 0;
   two (s_mult MaxMinSemiring) CBool 1 1 1 ].
Proof. vm_compute. reflexivity. Qed.

(** test_algebra_semiring.cpp:438-496 *)
Example semiring_plus_min_semiring_test : all_true
 [ m_zero PlusMinSemiring u64 0;
   two (m_op (s_add PlusMinSemiring)) u64 2 1 3;
   two (m_op (s_add PlusMinSemiring)) u64 2 3 5;
   two (s_mult PlusMinSemiring) u64 2 1 1;
   m_zero PlusMinSemiring u32 0;
   two (m_op (s_add PlusMinSemiring)) u32 2 1 3;
   two (m_op (s_add PlusMinSemiring)) u32 2 3 5;
   two (s_mult PlusMinSemiring) u32 2 1 1;
   m_zero PlusMinSemiring u16 0;
   two (m_op (s_add PlusMinSemiring)) u16 2 1 3;
   two (m_op (s_add PlusMinSemiring)) u16 2 3 5;
   two (s_mult PlusMinSemiring) u16 2 1 1;
   m_zero PlusMinSemiring u8 0;
   two (m_op (s_add PlusMinSemiring)) u8 2 1 3;
   two (m_op (s_add PlusMinSemiring)) u8 2 3 5;
   two (s_mult PlusMinSemiring) u8 2 1 1;
   m_zero PlusMinSemiring i64 0;
   two (m_op (s_add PlusMinSemiring)) i64 (-2) 1 (-1);
   two (m_op (s_add PlusMinSemiring)) i64 2 (-1) 1;
   two (s_mult PlusMinSemiring) i64 (-2) 1 (-2);
   m_zero PlusMinSemiring i32 0;
   two (m_op (s_add PlusMinSemiring)) i32 (-2) 1 (-1);
   two (m_op (s_add PlusMinSemiring)) i32 2 (-1) 1;
   two (s_mult PlusMinSemiring) i32 (-2) 1 (-2);
   m_zero PlusMinSemiring i16 0;
   two (m_op (s_add PlusMinSemiring)) i16 (-2) 1 (-1);
   two (m_op (s_add PlusMinSemiring)) i16 2 (-1) 1;
   two (s_mult PlusMinSemiring) i16 (-2) 1 (-2);
   m_zero PlusMinSemiring i8 0;
   two (m_op (s_add PlusMinSemiring)) i8 (-2) 1 (-1);
   two (m_op (s_add PlusMinSemiring)) i8 2 (-1) 1;
   two (s_mult PlusMinSemiring) i8 (-2) 1 (-2);
   m_zero PlusMinSemiring CBool 0;
   two (m_op (s_add PlusMinSemiring)) CBool 0 1 1;
   two (m_op (s_add PlusMinSemiring)) CBool 1 1 1;
   two (s_mult PlusMinSemiring) CBool 0 0 0;
   two (s_mult PlusMinSemiring) CBool 1 0 0;
   two (s_mult PlusMinSemiring) CBool 1 1 1 ].
Proof. vm_compute. reflexivity. Qed.

(** test_algebra_semiring.cpp:499-610 *)
Example semiring_logical_semiring_test : all_true
 [ m_zero LogicalSemiring u64 0;
   two (m_op (s_add LogicalSemiring)) u64 2 1 1;
   two (m_op (s_add LogicalSemiring)) u64 2 0 1;
   two (m_op (s_add LogicalSemiring)) u64 0 1 1;
   two (m_op (s_add LogicalSemiring)) u64 0 0 0;
   two (s_mult LogicalSemiring) u64 2 1 1;
   two (s_mult LogicalSemiring) u64 2 0 0;
   two (s_mult LogicalSemiring) u64 0 1 0;
   two (s_mult LogicalSemiring) u64 0 0 0;
   m_zero LogicalSemiring u32 0;
   two (m_op (s_add LogicalSemiring)) u32 2 1 1;
   two (m_op (s_add LogicalSemiring)) u32 2 0 1;
   two (m_op (s_add LogicalSemiring)) u32 0 1 1;
   two (m_op (s_add LogicalSemiring)) u32 0 0 0;
   two (s_mult LogicalSemiring) u32 2 1 1;
   two (s_mult LogicalSemiring) u32 2 0 0;
   two (s_mult LogicalSemiring) u32 0 1 0;
   two (s_mult LogicalSemiring) u32 0 0 0;
   m_zero LogicalSemiring u16 0;
   two (m_op (s_add LogicalSemiring)) u16 2 1 1;
   two (m_op (s_add LogicalSemiring)) u16 2 0 1;
   two (m_op (s_add LogicalSemiring)) u16 0 1 1;
   two (m_op (s_add LogicalSemiring)) u16 0 0 0;
   two (s_mult LogicalSemiring) u16 2 1 1;
   two (s_mult LogicalSemiring) u16 2 0 0;
   two (s_mult LogicalSemiring) u16 0 1 0;
   two (s_mult LogicalSemiring) u16 0 0 0;
   m_zero LogicalSemiring u8 0;
   two (m_op (s_add LogicalSemiring)) u8 2 1 1;
   two (m_op (s_add LogicalSemiring)) u8 2 0 1;
   two (m_op (s_add LogicalSemiring)) u8 0 1 1;
   two (m_op (s_add LogicalSemiring)) u8 0 0 0;
   two (s_mult LogicalSemiring) u8 2 1 1;
   two (s_mult LogicalSemiring) u8 2 0 0;
   two (s_mult LogicalSemiring) u8 0 1 0;
   two (s_mult LogicalSemiring) u8 0 0 0;
   m_zero LogicalSemiring i64 0;
   two (m_op (s_add LogicalSemiring)) i64 (-2) 1 1;
   two (m_op (s_add LogicalSemiring)) i64 (-2) 0 1;
   two (m_op (s_add LogicalSemiring)) i64 0 1 1;
   two (m_op (s_add LogicalSemiring)) i64 0 0 0;
   two (s_mult LogicalSemiring) i64 (-2) 1 1;
   two (s_mult LogicalSemiring) i64 (-2) 0 0;
   two (s_mult LogicalSemiring) i64 0 1 0;
   two (s_mult LogicalSemiring) i64 0 0 0;
   m_zero LogicalSemiring i32 0;
   two (m_op (s_add LogicalSemiring)) i32 (-2) 1 1;
   two (m_op (s_add LogicalSemiring)) i32 (-2) 0 1;
   two (m_op (s_add LogicalSemiring)) i32 0 1 1;
   two (m_op (s_add LogicalSemiring)) i32 0 0 0;
   two (s_mult LogicalSemiring) i32 (-2) 1 1;
   two (s_mult LogicalSemiring) i32 (-2) 0 0;
   two (s_mult LogicalSemiring) i32 0 1 0;
   two (s_mult LogicalSemiring) i32 0 0 0;
   m_zero LogicalSemiring i16 0;
   two (m_op (s_add LogicalSemiring)) i16 (-2) 1 1;
   two (m_op (s_add LogicalSemiring)) i16 (-2) 0 1;
   two (m_op (s_add LogicalSemiring)) i16 0 1 1;
   two (m_op (s_add LogicalSemiring)) i16 0 0 0;
   two (s_mult LogicalSemiring) i16 (-2) 1 1;
   two (s_mult LogicalSemiring) i16 (-2) 0 0;
   two (s_mult LogicalSemiring) i16 0 1 0;
   two (s_mult LogicalSemiring) i16 0 0 0;
   m_zero LogicalSemiring i8 0;
   two (m_op (s_add LogicalSemiring)) i8 (-2) 1 1;
   two (m_op (s_add LogicalSemiring)) i8 (-2) 0 1;
   two (m_op (s_add LogicalSemiring)) i8 0 1 1;
   two (m_op (s_add LogicalSemiring)) i8 0 0 0;
   two (s_mult LogicalSemiring) i8 (-2) 1 1;
   two (s_mult LogicalSemiring) i8 (-2) 0 0;
   two (s_mult LogicalSemiring) i8 0 1 0;
   two (s_mult LogicalSemiring) i8 0 0 0;
   m_zero LogicalSemiring CBool 0;
   two (m_op (s_add LogicalSemiring)) CBool 0 0 0;
   two (m_op (s_add LogicalSemiring)) CBool 0 1 1;
   two (m_op (s_add LogicalSemiring)) CBool 1 0 1;
   two (m_op (s_add LogicalSemiring)) CBool 1 1 1;
   two (s_mult LogicalSemiring) CBool 0 0 0;
   two (s_mult LogicalSemiring) CBool 0 1 0;
   two (s_mult LogicalSemiring) CBool 1 0 0;
   two (s_mult LogicalSemiring) CBool 1 1 1 ].
Proof. vm_compute. reflexivity. Qed.

(** test_algebra_semiring.cpp:613-724 *)
Example semiring_and_or_semiring_test : all_true
 [ m_zero AndOrSemiring u64 1;
   two (s_mult AndOrSemiring) u64 2 1 1;
   two (s_mult AndOrSemiring) u64 2 0 1;
   two (s_mult AndOrSemiring) u64 0 1 1;
   two (s_mult AndOrSemiring) u64 0 0 0;
   two (m_op (s_add AndOrSemiring)) u64 2 1 1;
   two (m_op (s_add AndOrSemiring)) u64 2 0 0;
   two (m_op (s_add AndOrSemiring)) u64 0 1 0;
   two (m_op (s_add AndOrSemiring)) u64 0 0 0;
   m_zero AndOrSemiring u32 1;
   two (s_mult AndOrSemiring) u32 2 1 1;
   two (s_mult AndOrSemiring) u32 2 0 1;
   two (s_mult AndOrSemiring) u32 0 1 1;
   two (s_mult AndOrSemiring) u32 0 0 0;
   two (m_op (s_add AndOrSemiring)) u32 2 1 1;
   two (m_op (s_add AndOrSemiring)) u32 2 0 0;
   two (m_op (s_add AndOrSemiring)) u32 0 1 0;
   two (m_op (s_add AndOrSemiring)) u32 0 0 0;
   m_zero AndOrSemiring u16 1;
   two (s_mult AndOrSemiring) u16 2 1 1;
   two (s_mult AndOrSemiring) u16 2 0 1;
   two (s_mult AndOrSemiring) u16 0 1 1;
   two (s_mult AndOrSemiring) u16 0 0 0;
   two (m_op (s_add AndOrSemiring)) u16 2 1 1;
   two (m_op (s_add AndOrSemiring)) u16 2 0 0;
   two (m_op (s_add AndOrSemiring)) u16 0 1 0;
   two (m_op (s_add AndOrSemiring)) u16 0 0 0;
   m_zero AndOrSemiring u8 1;
   two (s_mult AndOrSemiring) u8 2 1 1;
   two (s_mult AndOrSemiring) u8 2 0 1;
   two (s_mult AndOrSemiring) u8 0 1 1;
   two (s_mult AndOrSemiring) u8 0 0 0;
   two (m_op (s_add AndOrSemiring)) u8 2 1 1;
   two (m_op (s_add AndOrSemiring)) u8 2 0 0;
   two (m_op (s_add AndOrSemiring)) u8 0 1 0;
   two (m_op (s_add AndOrSemiring)) u8 0 0 0;
   m_zero AndOrSemiring i64 1;
   two (s_mult AndOrSemiring) i64 (-2) 1 1;
   two (s_mult AndOrSemiring) i64 (-2) 0 1;
   two (s_mult AndOrSemiring) i64 0 1 1;
   two (s_mult AndOrSemiring) i64 0 0 0;
   two (m_op (s_add AndOrSemiring)) i64 (-2) 1 1;
   two (m_op (s_add AndOrSemiring)) i64 (-2) 0 0;
   two (m_op (s_add AndOrSemiring)) i64 0 1 0;
   two (m_op (s_add AndOrSemiring)) i64 0 0 0;
   m_zero AndOrSemiring i32 1;
   two (s_mult AndOrSemiring) i32 (-2) 1 1;
   two (s_mult AndOrSemiring) i32 (-2) 0 1;
   two (s_mult AndOrSemiring) i32 0 1 1;
   two (s_mult AndOrSemiring) i32 0 0 0;
   two (m_op (s_add AndOrSemiring)) i32 (-2) 1 1;
   two (m_op (s_add AndOrSemiring)) i32 (-2) 0 0;
   two (m_op (s_add AndOrSemiring)) i32 0 1 0;
   two (m_op (s_add AndOrSemiring)) i32 0 0 0;
   m_zero AndOrSemiring i16 1;
   two (s_mult AndOrSemiring) i16 (-2) 1 1;
   two (s_mult AndOrSemiring) i16 (-2) 0 1;
   two (s_mult AndOrSemiring) i16 0 1 1;
   two (s_mult AndOrSemiring) i16 0 0 0;
   two (m_op (s_add AndOrSemiring)) i16 (-2) 1 1;
   two (m_op (s_add AndOrSemiring)) i16 (-2) 0 0;
   two (m_op (s_add AndOrSemiring)) i16 0 1 0;
   two (m_op (s_add AndOrSemiring)) i16 0 0 0;
   m_zero AndOrSemiring i8 1;
   two (s_mult AndOrSemiring) i8 (-2) 1 1;
   two (s_mult AndOrSemiring) i8 (-2) 0 1;
   two (s_mult AndOrSemiring) i8 0 1 1;
   two (s_mult AndOrSemiring) i8 0 0 0;
   two (m_op (s_add AndOrSemiring)) i8 (-2) 1 1;
   two (m_op (s_add AndOrSemiring)) i8 (-2) 0 0;
   two (m_op (s_add AndOrSemiring)) i8 0 1 0;
   two (m_op (s_add AndOrSemiring)) i8 0 0 0;
   m_zero AndOrSemiring CBool 1;
   two (s_mult AndOrSemiring) CBool 0 0 0;
   two (s_mult AndOrSemiring) CBool 0 1 1;
   two (s_mult AndOrSemiring) CBool 1 0 1;
   two (s_mult AndOrSemiring) CBool 1 1 1;
   two (m_op (s_add AndOrSemiring)) CBool 0 0 0;
   two (m_op (s_add AndOrSemiring)) CBool 0 1 0;
   two (m_op (s_add AndOrSemiring)) CBool 1 0 0;
   two (m_op (s_add AndOrSemiring)) CBool 1 1 1 ].
Proof. vm_compute. reflexivity. Qed.

(** test_algebra_semiring.cpp:727-838 *)
Example semiring_xor_and_semiring_test : all_true
 [ m_zero XorAndSemiring u64 0;
   two (m_op (s_add XorAndSemiring)) u64 2 1 0;
   two (m_op (s_add XorAndSemiring)) u64 2 0 1;
   two (m_op (s_add XorAndSemiring)) u64 0 1 1;
   two (m_op (s_add XorAndSemiring)) u64 0 0 0;
   two (s_mult XorAndSemiring) u64 2 1 1;
   two (s_mult XorAndSemiring) u64 2 0 0;
   two (s_mult XorAndSemiring) u64 0 1 0;
   two (s_mult XorAndSemiring) u64 0 0 0;
   m_zero XorAndSemiring u32 0;
   two (m_op (s_add XorAndSemiring)) u32 2 1 0;
   two (m_op (s_add XorAndSemiring)) u32 2 0 1;
   two (m_op (s_add XorAndSemiring)) u32 0 1 1;
   two (m_op (s_add XorAndSemiring)) u32 0 0 0;
   two (s_mult XorAndSemiring) u32 2 1 1;
   two (s_mult XorAndSemiring) u32 2 0 0;
   two (s_mult XorAndSemiring) u32 0 1 0;
   two (s_mult XorAndSemiring) u32 0 0 0;
   m_zero XorAndSemiring u16 0;
   two (m_op (s_add XorAndSemiring)) u16 2 1 0;
   two (m_op (s_add XorAndSemiring)) u16 2 0 1;
   two (m_op (s_add XorAndSemiring)) u16 0 1 1;
   two (m_op (s_add XorAndSemiring)) u16 0 0 0;
   two (s_mult XorAndSemiring) u16 2 1 1;
   two (s_mult XorAndSemiring) u16 2 0 0;
   two (s_mult XorAndSemiring) u16 0 1 0;
   two (s_mult XorAndSemiring) u16 0 0 0;
   m_zero XorAndSemiring u8 0;
   two (m_op (s_add XorAndSemiring)) u8 2 1 0;
   two (m_op (s_add XorAndSemiring)) u8 2 0 1;
   two (m_op (s_add XorAndSemiring)) u8 0 1 1;
   two (m_op (s_add XorAndSemiring)) u8 0 0 0;
   two (s_mult XorAndSemiring) u8 2 1 1;
   two (s_mult XorAndSemiring) u8 2 0 0;
   two (s_mult XorAndSemiring) u8 0 1 0;
   two (s_mult XorAndSemiring) u8 0 0 0;
   m_zero XorAndSemiring i64 0;
   two (m_op (s_add XorAndSemiring)) i64 (-2) 1 0;
   two (m_op (s_add XorAndSemiring)) i64 (-2) 0 1;
   two (m_op (s_add XorAndSemiring)) i64 0 1 1;
   two (m_op (s_add XorAndSemiring)) i64 0 0 0;
   two (s_mult XorAndSemiring) i64 (-2) 1 1;
   two (s_mult XorAndSemiring) i64 (-2) 0 0;
   two (s_mult XorAndSemiring) i64 0 1 0;
   two (s_mult XorAndSemiring) i64 0 0 0;
   m_zero XorAndSemiring i32 0;
   two (m_op (s_add XorAndSemiring)) i32 (-2) 1 0;
   two (m_op (s_add XorAndSemiring)) i32 (-2) 0 1;
   two (m_op (s_add XorAndSemiring)) i32 0 1 1;
   two (m_op (s_add XorAndSemiring)) i32 0 0 0;
   two (s_mult XorAndSemiring) i32 (-2) 1 1;
   two (s_mult XorAndSemiring) i32 (-2) 0 0;
   two (s_mult XorAndSemiring) i32 0 1 0;
   two (s_mult XorAndSemiring) i32 0 0 0;
   m_zero XorAndSemiring i16 0;
   two (m_op (s_add XorAndSemiring)) i16 (-2) 1 0;
   two (m_op (s_add XorAndSemiring)) i16 (-2) 0 1;
   two (m_op (s_add XorAndSemiring)) i16 0 1 1;
   two (m_op (s_add XorAndSemiring)) i16 0 0 0;
   two (s_mult XorAndSemiring) i16 (-2) 1 1;
   two (s_mult XorAndSemiring) i16 (-2) 0 0;
   two (s_mult XorAndSemiring) i16 0 1 0;
   two (s_mult XorAndSemiring) i16 0 0 0;
   m_zero XorAndSemiring i8 0;
   two (m_op (s_add XorAndSemiring)) i8 (-2) 1 0;
   two (m_op (s_add XorAndSemiring)) i8 (-2) 0 1;
   two (m_op (s_add XorAndSemiring)) i8 0 1 1;
   two (m_op (s_add XorAndSemiring)) i8 0 0 0;
   two (s_mult XorAndSemiring) i8 (-2) 1 1;
   two (s_mult XorAndSemiring) i8 (-2) 0 0;
   two (s_mult XorAndSemiring) i8 0 1 0;
   two (s_mult XorAndSemiring) i8 0 0 0;
   m_zero XorAndSemiring CBool 0;
   two (m_op (s_add XorAndSemiring)) CBool 0 0 0;
   two (m_op (s_add XorAndSemiring)) CBool 0 1 1;
   two (m_op (s_add XorAndSemiring)) CBool 1 0 1;
   two (m_op (s_add XorAndSemiring)) CBool 1 1 0;
   two (s_mult XorAndSemiring) CBool 0 0 0;
   two (s_mult XorAndSemiring) CBool 0 1 0;
   two (s_mult XorAndSemiring) CBool 1 0 0;
   two (s_mult XorAndSemiring) CBool 1 1 1 ].
Proof. vm_compute. reflexivity. Qed.

(** test_algebra_semiring.cpp:841-952 *)
Example semiring_xnor_or_semiring_test : all_true
 [ m_zero XnorOrSemiring u64 1;
   two (s_mult XnorOrSemiring) u64 2 1 1;
   two (s_mult XnorOrSemiring) u64 2 0 1;
   two (s_mult XnorOrSemiring) u64 0 1 1;
   two (s_mult XnorOrSemiring) u64 0 0 0;
   two (m_op (s_add XnorOrSemiring)) u64 2 1 1;
   two (m_op (s_add XnorOrSemiring)) u64 2 0 0;
   two (m_op (s_add XnorOrSemiring)) u64 0 1 0;
   two (m_op (s_add XnorOrSemiring)) u64 0 0 1;
   m_zero XnorOrSemiring u32 1;
   two (s_mult XnorOrSemiring) u32 2 1 1;
   two (s_mult XnorOrSemiring) u32 2 0 1;
   two (s_mult XnorOrSemiring) u32 0 1 1;
   two (s_mult XnorOrSemiring) u32 0 0 0;
   two (m_op (s_add XnorOrSemiring)) u32 2 1 1;
   two (m_op (s_add XnorOrSemiring)) u32 2 0 0;
   two (m_op (s_add XnorOrSemiring)) u32 0 1 0;
   two (m_op (s_add XnorOrSemiring)) u32 0 0 1;
   m_zero XnorOrSemiring u16 1;
   two (s_mult XnorOrSemiring) u16 2 1 1;
   two (s_mult XnorOrSemiring) u16 2 0 1;
   two (s_mult XnorOrSemiring) u16 0 1 1;
   two (s_mult XnorOrSemiring) u16 0 0 0;
   two (m_op (s_add XnorOrSemiring)) u16 2 1 1;
   two (m_op (s_add XnorOrSemiring)) u16 2 0 0;
   two (m_op (s_add XnorOrSemiring)) u16 0 1 0;
   two (m_op (s_add XnorOrSemiring)) u16 0 0 1;
   m_zero XnorOrSemiring u8 1;
   two (s_mult XnorOrSemiring) u8 2 1 1;
   two (s_mult XnorOrSemiring) u8 2 0 1;
   two (s_mult XnorOrSemiring) u8 0 1 1;
   two (s_mult XnorOrSemiring) u8 0 0 0;
   two (m_op (s_add XnorOrSemiring)) u8 2 1 1;
   two (m_op (s_add XnorOrSemiring)) u8 2 0 0;
   two (m_op (s_add XnorOrSemiring)) u8 0 1 0;
   two (m_op (s_add XnorOrSemiring)) u8 0 0 1;
   m_zero XnorOrSemiring i64 1;
   two (s_mult XnorOrSemiring) i64 (-2) 1 1;
   two (s_mult XnorOrSemiring) i64 (-2) 0 1;
   two (s_mult XnorOrSemiring) i64 0 1 1;
   two (s_mult XnorOrSemiring) i64 0 0 0;
   two (m_op (s_add XnorOrSemiring)) i64 (-2) 1 1;
   two (m_op (s_add XnorOrSemiring)) i64 (-2) 0 0;
   two (m_op (s_add XnorOrSemiring)) i64 0 1 0;
   two (m_op (s_add XnorOrSemiring)) i64 0 0 1;
   m_zero XnorOrSemiring i32 1;
   two (s_mult XnorOrSemiring) i32 (-2) 1 1;
   two (s_mult XnorOrSemiring) i32 (-2) 0 1;
   two (s_mult XnorOrSemiring) i32 0 1 1;
   two (s_mult XnorOrSemiring) i32 0 0 0;
   two (m_op (s_add XnorOrSemiring)) i32 (-2) 1 1;
   two (m_op (s_add XnorOrSemiring)) i32 (-2) 0 0;
   two (m_op (s_add XnorOrSemiring)) i32 0 1 0;
   two (m_op (s_add XnorOrSemiring)) i32 0 0 1;
   m_zero XnorOrSemiring i16 1;
   two (s_mult XnorOrSemiring) i16 (-2) 1 1;
   two (s_mult XnorOrSemiring) i16 (-2) 0 1;
   two (s_mult XnorOrSemiring) i16 0 1 1;
   two (s_mult XnorOrSemiring) i16 0 0 0;
   two (m_op (s_add XnorOrSemiring)) i16 (-2) 1 1;
   two (m_op (s_add XnorOrSemiring)) i16 (-2) 0 0;
   two (m_op (s_add XnorOrSemiring)) i16 0 1 0;
   two (m_op (s_add XnorOrSemiring)) i16 0 0 1;
   m_zero XnorOrSemiring i8 1;
   two (s_mult XnorOrSemiring) i8 (-2) 1 1;
   two (s_mult XnorOrSemiring) i8 (-2) 0 1;
   two (s_mult XnorOrSemiring) i8 0 1 1;
   two (s_mult XnorOrSemiring) i8 0 0 0;
   two (m_op (s_add XnorOrSemiring)) i8 (-2) 1 1;
   two (m_op (s_add XnorOrSemiring)) i8 (-2) 0 0;
   two (m_op (s_add XnorOrSemiring)) i8 0 1 0;
   two (m_op (s_add XnorOrSemiring)) i8 0 0 1;
   m_zero XnorOrSemiring CBool 1;
   two (s_mult XnorOrSemiring) CBool 0 0 0;
   two (s_mult XnorOrSemiring) CBool 0 1 1;
   two (s_mult XnorOrSemiring) CBool 1 0 1;
   two (s_mult XnorOrSemiring) CBool 1 1 1;
   two (m_op (s_add XnorOrSemiring)) CBool 0 0 1;
   two (m_op (s_add XnorOrSemiring)) CBool 0 1 0;
   two (m_op (s_add XnorOrSemiring)) CBool 1 0 0;
   two (m_op (s_add XnorOrSemiring)) CBool 1 1 1 ].
Proof. vm_compute. reflexivity. Qed.

(** test_algebra_semiring.cpp:955-1022 *)
Example semiring_min_first_test : all_true
 [ SFeqb (fm_op (fs_add FMinFirstSemiring) CDouble (of_int CDouble (-2)) (of_int CDouble 1)) (of_int CDouble (-2));
   SFeqb (fm_op (fs_add FMinFirstSemiring) CDouble (of_int CDouble 2) (of_int CDouble 1)) (of_int CDouble 1);
   SFeqb (fs_mult FMinFirstSemiring CDouble (of_int CDouble (-2)) (of_int CDouble 1)) (of_int CDouble (-2));
   SFeqb (fm_op (fs_add FMinFirstSemiring) CFloat (of_int CFloat (-2)) (of_int CFloat 1)) (of_int CFloat (-2));
   SFeqb (fm_op (fs_add FMinFirstSemiring) CFloat (of_int CFloat 2) (of_int CFloat 1)) (of_int CFloat 1);
   SFeqb (fs_mult FMinFirstSemiring CFloat (of_int CFloat (-2)) (of_int CFloat 1)) (of_int CFloat (-2));
   m_zero MinFirstSemiring u64 18446744073709551615;
   two (m_op (s_add MinFirstSemiring)) u64 2 1 1;
   two (m_op (s_add MinFirstSemiring)) u64 2 3 2;
   two (s_mult MinFirstSemiring) u64 2 1 2;
   m_zero MinFirstSemiring u32 4294967295;
   two (m_op (s_add MinFirstSemiring)) u32 2 1 1;
   two (m_op (s_add MinFirstSemiring)) u32 2 3 2;
   two (s_mult MinFirstSemiring) u32 2 1 2;
   m_zero MinFirstSemiring u16 65535;
   two (m_op (s_add MinFirstSemiring)) u16 2 1 1;
   two (m_op (s_add MinFirstSemiring)) u16 2 3 2;
   two (s_mult MinFirstSemiring) u16 2 1 2;
   m_zero MinFirstSemiring u8 255;
   two (m_op (s_add MinFirstSemiring)) u8 2 1 1;
   two (m_op (s_add MinFirstSemiring)) u8 2 3 2;
   two (s_mult MinFirstSemiring) u8 2 1 2;
   m_zero MinFirstSemiring i64 9223372036854775807;
   two (m_op (s_add MinFirstSemiring)) i64 (-2) 1 (-2);
   two (m_op (s_add MinFirstSemiring)) i64 2 (-1) (-1);
   two (s_mult MinFirstSemiring) i64 (-2) 1 (-2);
   m_zero MinFirstSemiring i32 2147483647;
   two (m_op (s_add MinFirstSemiring)) i32 (-2) 1 (-2);
   two (m_op (s_add MinFirstSemiring)) i32 2 (-1) (-1);
   two (s_mult MinFirstSemiring) i32 (-2) 1 (-2);
   m_zero MinFirstSemiring i16 32767;
   two (m_op (s_add MinFirstSemiring)) i16 (-2) 1 (-2);
   two (m_op (s_add MinFirstSemiring)) i16 2 (-1) (-1);
   two (s_mult MinFirstSemiring) i16 (-2) 1 (-2);
   m_zero MinFirstSemiring i8 127;
   two (m_op (s_add MinFirstSemiring)) i8 (-2) 1 (-2);
   two (m_op (s_add MinFirstSemiring)) i8 2 (-1) (-1);
   two (s_mult MinFirstSemiring) i8 (-2) 1 (-2);
   m_zero MinFirstSemiring CBool 1;
   two (m_op (s_add MinFirstSemiring)) CBool 0 1 0;
   two (m_op (s_add MinFirstSemiring)) CBool 1 1 1;
   two (s_mult MinFirstSemiring) CBool 1 0 1;
   two (s_mult MinFirstSemiring) CBool 0 1 0 ].
Proof. vm_compute. reflexivity. Qed.

(** test_algebra_semiring.cpp:1025-1092 *)
Example semiring_min_second_test : all_true
 [ SFeqb (fm_op (fs_add FMinSecondSemiring) CDouble (of_int CDouble (-2)) (of_int CDouble 1)) (of_int CDouble (-2));
   SFeqb (fm_op (fs_add FMinSecondSemiring) CDouble (of_int CDouble 2) (of_int CDouble 1)) (of_int CDouble 1);
   SFeqb (fs_mult FMinSecondSemiring CDouble (of_int CDouble (-2)) (of_int CDouble 1)) (of_int CDouble 1);
   SFeqb (fm_op (fs_add FMinSecondSemiring) CFloat (of_int CFloat (-2)) (of_int CFloat 1)) (of_int CFloat (-2));
   SFeqb (fm_op (fs_add FMinSecondSemiring) CFloat (of_int CFloat 2) (of_int CFloat 1)) (of_int CFloat 1);
   SFeqb (fs_mult FMinSecondSemiring CFloat (of_int CFloat (-2)) (of_int CFloat 1)) (of_int CFloat 1);
   m_zero MinSecondSemiring u64 18446744073709551615;
   two (m_op (s_add MinSecondSemiring)) u64 2 1 1;
   two (m_op (s_add MinSecondSemiring)) u64 2 3 2;
   two (s_mult MinSecondSemiring) u64 2 1 1;
   m_zero MinSecondSemiring u32 4294967295;
   two (m_op (s_add MinSecondSemiring)) u32 2 1 1;
   two (m_op (s_add MinSecondSemiring)) u32 2 3 2;
   two (s_mult MinSecondSemiring) u32 2 1 1;
   m_zero MinSecondSemiring u16 65535;
   two (m_op (s_add MinSecondSemiring)) u16 2 1 1;
   two (m_op (s_add MinSecondSemiring)) u16 2 3 2;
   two (s_mult MinSecondSemiring) u16 2 1 1;
   m_zero MinSecondSemiring u8 255;
   two (m_op (s_add MinSecondSemiring)) u8 2 1 1;
   two (m_op (s_add MinSecondSemiring)) u8 2 3 2;
   two (s_mult MinSecondSemiring) u8 2 1 1;
   m_zero MinSecondSemiring i64 9223372036854775807;
   two (m_op (s_add MinSecondSemiring)) i64 (-2) 1 (-2);
   two (m_op (s_add MinSecondSemiring)) i64 2 (-1) (-1);
   two (s_mult MinSecondSemiring) i64 (-2) 1 1;
   m_zero MinSecondSemiring i32 2147483647;
   two (m_op (s_add MinSecondSemiring)) i32 (-2) 1 (-2);
   two (m_op (s_add MinSecondSemiring)) i32 2 (-1) (-1);
   two (s_mult MinSecondSemiring) i32 (-2) 1 1;
   m_zero MinSecondSemiring i16 32767;
   two (m_op (s_add MinSecondSemiring)) i16 (-2) 1 (-2);
   two (m_op (s_add MinSecondSemiring)) i16 2 (-1) (-1);
   two (s_mult MinSecondSemiring) i16 (-2) 1 1;
   m_zero MinSecondSemiring i8 127;
   two (m_op (s_add MinSecondSemiring)) i8 (-2) 1 (-2);
   two (m_op (s_add MinSecondSemiring)) i8 2 (-1) (-1);
   two (s_mult MinSecondSemiring) i8 (-2) 1 1;
   m_zero MinSecondSemiring CBool 1;
   two (m_op (s_add MinSecondSemiring)) CBool 0 1 0;
   two (m_op (s_add MinSecondSemiring)) CBool 1 1 1;
   two (s_mult MinSecondSemiring) CBool 1 0 0;
   two (s_mult MinSecondSemiring) CBool 0 1 1 ].
Proof. vm_compute. reflexivity. Qed.

(** test_algebra_semiring.cpp:1095-1141 *)
Example semiring_max_first_test : all_true
 [ SFeqb (fm_op (fs_add FMaxFirstSemiring) CDouble (of_int CDouble (-2)) (of_int CDouble 1)) (of_int CDouble 1);
   SFeqb (fs_mult FMaxFirstSemiring CDouble (of_int CDouble (-2)) (of_int CDouble 1)) (of_int CDouble (-2));
   SFeqb (fm_op (fs_add FMaxFirstSemiring) CFloat (of_int CFloat (-2)) (of_int CFloat 1)) (of_int CFloat 1);
   SFeqb (fs_mult FMaxFirstSemiring CFloat (of_int CFloat (-2)) (of_int CFloat 1)) (of_int CFloat (-2));
   m_zero MaxFirstSemiring u64 0;
   two (m_op (s_add MaxFirstSemiring)) u64 2 1 2;
   two (s_mult MaxFirstSemiring) u64 2 1 2;
   m_zero MaxFirstSemiring u32 0;
   two (m_op (s_add MaxFirstSemiring)) u32 2 1 2;
   two (s_mult MaxFirstSemiring) u32 2 1 2;
   m_zero MaxFirstSemiring u16 0;
   two (m_op (s_add MaxFirstSemiring)) u16 2 1 2;
   two (s_mult MaxFirstSemiring) u16 2 1 2;
   m_zero MaxFirstSemiring u8 0;
   two (m_op (s_add MaxFirstSemiring)) u8 2 1 2;
   two (s_mult MaxFirstSemiring) u8 2 1 2;
   m_zero MaxFirstSemiring i64 (-9223372036854775808);
   two (m_op (s_add MaxFirstSemiring)) i64 (-2) 1 1;
   two (s_mult MaxFirstSemiring) i64 (-2) 1 (-2);
   m_zero MaxFirstSemiring i32 (-2147483648);
   two (m_op (s_add MaxFirstSemiring)) i32 (-2) 1 1;
   two (s_mult MaxFirstSemiring) i32 (-2) 1 (-2);
   m_zero MaxFirstSemiring i16 (-32768);
   two (m_op (s_add MaxFirstSemiring)) i16 (-2) 1 1;
   two (s_mult MaxFirstSemiring) i16 (-2) 1 (-2);
   m_zero MaxFirstSemiring i8 (-128);
   two (m_op (s_add MaxFirstSemiring)) i8 (-2) 1 1;
   two (s_mult MaxFirstSemiring) i8 (-2) 1 (-2);
   m_zero MaxFirstSemiring CBool 0;
   two (m_op (s_add MaxFirstSemiring)) CBool 0 0 0;
   two (m_op (s_add MaxFirstSemiring)) CBool 0 1 1;
   two (s_mult MaxFirstSemiring) CBool 0 1 0;
   two (s_mult MaxFirstSemiring) CBool 1 0 1 ].
Proof. vm_compute. reflexivity. Qed.

(** test_algebra_semiring.cpp:1144-1190 *)
Example semiring_max_second_test : all_true
 [ SFeqb (fm_op (fs_add FMaxSecondSemiring) CDouble (of_int CDouble (-2)) (of_int CDouble 1)) (of_int CDouble 1);
   SFeqb (fs_mult FMaxSecondSemiring CDouble (of_int CDouble (-2)) (of_int CDouble 1)) (of_int CDouble 1);
   SFeqb (fm_op (fs_add FMaxSecondSemiring) CFloat (of_int CFloat (-2)) (of_int CFloat 1)) (of_int CFloat 1);
   SFeqb (fs_mult FMaxSecondSemiring CFloat (of_int CFloat (-2)) (of_int CFloat 1)) (of_int CFloat 1);
   m_zero MaxSecondSemiring u64 0;
   two (m_op (s_add MaxSecondSemiring)) u64 2 1 2;
   two (s_mult MaxSecondSemiring) u64 2 1 1;
   m_zero MaxSecondSemiring u32 0;
   two (m_op (s_add MaxSecondSemiring)) u32 2 1 2;
   two (s_mult MaxSecondSemiring) u32 2 1 1;
   m_zero MaxSecondSemiring u16 0;
   two (m_op (s_add MaxSecondSemiring)) u16 2 1 2;
   two (s_mult MaxSecondSemiring) u16 2 1 1;
   m_zero MaxSecondSemiring u8 0;
   two (m_op (s_add MaxSecondSemiring)) u8 2 1 2;
   two (s_mult MaxSecondSemiring) u8 2 1 1;
   m_zero MaxSecondSemiring i64 (-9223372036854775808);
   two (m_op (s_add MaxSecondSemiring)) i64 (-2) 1 1;
   two (s_mult MaxSecondSemiring) i64 (-2) 1 1;
   m_zero MaxSecondSemiring i32 (-2147483648);
   two (m_op (s_add MaxSecondSemiring)) i32 (-2) 1 1;
   two (s_mult MaxSecondSemiring) i32 (-2) 1 1;
   m_zero MaxSecondSemiring i16 (-32768);
   two (m_op (s_add MaxSecondSemiring)) i16 (-2) 1 1;
   two (s_mult MaxSecondSemiring) i16 (-2) 1 1;
   m_zero MaxSecondSemiring i8 (-128);
   two (m_op (s_add MaxSecondSemiring)) i8 (-2) 1 1;
   two (s_mult MaxSecondSemiring) i8 (-2) 1 1;
   m_zero MaxSecondSemiring CBool 0;
   two (m_op (s_add MaxSecondSemiring)) CBool 0 0 0;
   two (m_op (s_add MaxSecondSemiring)) CBool 0 1 1;
   two (s_mult MaxSecondSemiring) CBool 0 1 1;
   two (s_mult MaxSecondSemiring) CBool 1 0 0 ].
Proof. vm_compute. reflexivity. Qed.
