(** The tests of the operators, monoids and semirings, /repo/src/test/test_algebra_{unary,binary,monoid,semiring}.cpp,
    run on the model, ModelConv.v.  Generated translation.  A check is [op(args) == value], with the arguments converted to the
    types of the parameters and the two sides of [==] to their common type.  Not here: [Power]; the bitwise
    operators, which are in TestAlgebra.v. *)
From Coq Require Import ZArith SpecFloat.
From Verif Require Import Base ModelAlgebra ModelOps ModelFloat ModelConv.
Open Scope Z_scope.

Definition i8 := CInt true W8.    Definition u8 := CInt false W8.
Definition i16 := CInt true W16.  Definition u16 := CInt false W16.
Definition i32 := CInt true W32.  Definition u32 := CInt false W32.
Definition i64 := CInt true W64.  Definition u64 := CInt false W64.

(** [x == r] for x of type [t] and r of type [tr]. *)
Definition check0 (x : scalar) (t tr : stype) (r : scalar) : bool :=
  match SEqual t tr (SI CBool) x r with Ok (VI 1) => true | _ => false end.
Definition check1 (op : sunop) (t1 t2 : stype) (a : scalar) (tr : stype) (r : scalar) : bool :=
  match (a <- cast t1 a ;; op t1 t2 a) with Ok x => check0 x t2 tr r | _ => false end.
Definition check2 (op : sbinop) (t1 t2 t3 : stype) (a b : scalar) (tr : stype) (r : scalar) : bool :=
  match (a <- cast t1 a ;; b <- cast t2 b ;; op t1 t2 t3 a b) with Ok x => check0 x t3 tr r | _ => false end.
Definition all_true (l : list bool) : Prop := forallb (fun b => b) l = true.

(** test_algebra_unary.cpp:53-77 *)
Example unary_misc_math_tests : all_true
 [ check1 SIdentity (SF CFloat) (SI i32) (VF (S754_finite false 5629499534213120 (-51))) (SI i32) (VI 2);
   check1 SAbs (SF CFloat) (SF CFloat) (VF (S754_finite true 5629499534213120 (-51))) (SF CDouble) (VF (S754_finite false 5629499534213120 (-51)));
   check1 SAbs (SI i32) (SI i32) (VI (-2)) (SI i32) (VI 2);
   check1 SAdditiveInverse (SF CDouble) (SF CDouble) (VI (-10)) (SI i32) (VI 10);
   check1 SAdditiveInverse (SF CDouble) (SF CDouble) (VI 500) (SI i32) (VI (-500));
   check1 SMultiplicativeInverse (SF CDouble) (SF CDouble) (VI 5) (SF CDouble) (VF (S754_finite false 7205759403792794 (-55)));
   check1 SLogicalNot (SI i32) (SI i32) (VI 1) (SI CBool) (VI 0);
   check1 SBitwiseNot (SI u32) (SI u32) (VI 1) (SI u32) (VI 4294967294);
   check2 SLogicalOr (SI CBool) (SI CBool) (SI CBool) (VI 1) (VI 0) (SI CBool) (VI 1);
   check2 SLogicalAnd (SI CBool) (SI CBool) (SI CBool) (VI 0) (VI 1) (SI CBool) (VI 0);
   check2 SLogicalXor (SI CBool) (SI CBool) (SI CBool) (VI 0) (VI 1) (SI CBool) (VI 1);
   check2 SLogicalXnor (SI CBool) (SI CBool) (SI CBool) (VI 0) (VI 1) (SI CBool) (VI 0) ].
Proof. vm_compute. reflexivity. Qed.

(** test_algebra_unary.cpp:84-114 *)
Example unary_Identity_test : all_true
 [ check1 SIdentity (SI i8) (SI i8) (VI 3) (SI i8) (VI 3);
   check1 SIdentity (SI i16) (SI i16) (VI 3) (SI i8) (VI 3);
   check1 SIdentity (SI i32) (SI i32) (VI 3) (SI i8) (VI 3);
   check1 SIdentity (SI i64) (SI i64) (VI 3) (SI i8) (VI 3);
   check1 SIdentity (SI i16) (SI i16) (VI (-400)) (SI i16) (VI (-400));
   check1 SIdentity (SI i32) (SI i32) (VI (-1001000)) (SI i32) (VI (-1001000));
   check1 SIdentity (SI i64) (SI i64) (VI 5123123123) (SI i64) (VI 5123123123);
   check1 SIdentity (SI u8) (SI u8) (VI 3) (SI u8) (VI 3);
   check1 SIdentity (SI u16) (SI u16) (VI 400) (SI u16) (VI 400);
   check1 SIdentity (SI u32) (SI u32) (VI 1001000) (SI u32) (VI 1001000);
   check1 SIdentity (SI u64) (SI u64) (VI 5123123123) (SI u64) (VI 5123123123);
   check1 SIdentity (SF CFloat) (SF CFloat) (VF (S754_finite false 13176784 (-22))) (SF CFloat) (VF (S754_finite false 13176784 (-22)));
   check1 SIdentity (SF CDouble) (SF CDouble) (VF (S754_finite false 6122266863718568 (-51))) (SF CDouble) (VF (S754_finite false 6122266863718568 (-51)));
   check1 SIdentity (SI u32) (SI u32) (VF (S754_finite false 13176784 (-22))) (SI u32) (VI 3) ].
Proof. vm_compute. reflexivity. Qed.

(** test_algebra_unary.cpp:117-134 *)
Example unary_identity_same_domain_test : all_true
 [ check1 SIdentity (SF CDouble) (SF CDouble) (VF (S754_finite false 4953959590107546 (-51))) (SF CDouble) (VF (S754_finite false 4953959590107546 (-51)));
   check1 SIdentity (SF CFloat) (SF CFloat) (VF (S754_finite false 9227469 (-22))) (SF CFloat) (VF (S754_finite false 9227469 (-22)));
   check1 SIdentity (SI u64) (SI u64) (VI 2) (SI u64) (VI 2);
   check1 SIdentity (SI u32) (SI u32) (VI 2) (SI u32) (VI 2);
   check1 SIdentity (SI u16) (SI u16) (VI 2) (SI i32) (VI 2);
   check1 SIdentity (SI u8) (SI u8) (VI 2) (SI i32) (VI 2);
   check1 SIdentity (SI i64) (SI i64) (VI (-2)) (SI i64) (VI (-2));
   check1 SIdentity (SI i32) (SI i32) (VI (-2)) (SI i32) (VI (-2));
   check1 SIdentity (SI i16) (SI i16) (VI (-2)) (SI i32) (VI (-2));
   check1 SIdentity (SI i8) (SI i8) (VI (-2)) (SI i32) (VI (-2));
   check1 SIdentity (SI CBool) (SI CBool) (VI 0) (SI CBool) (VI 0);
   check1 SIdentity (SI CBool) (SI CBool) (VI 1) (SI CBool) (VI 1) ].
Proof. vm_compute. reflexivity. Qed.

(** test_algebra_unary.cpp:137-223 *)
Example unary_identity_different_domain_test : all_true
 [ check1 SIdentity (SF CDouble) (SF CFloat) (VF (S754_finite false 4953959590107546 (-51))) (SF CFloat) (VF (S754_finite false 9227469 (-22)));
   check1 SIdentity (SF CDouble) (SI u64) (VF (S754_finite false 4953959590107546 (-51))) (SI u64) (VI 2);
   check1 SIdentity (SF CDouble) (SI i64) (VF (S754_finite true 4953959590107546 (-51))) (SI u64) (VI 18446744073709551614);
   check1 SIdentity (SF CDouble) (SI CBool) (VF (S754_finite false 4953959590107546 (-51))) (SI CBool) (VI 1);
   check1 SIdentity (SF CDouble) (SI CBool) (VF f0) (SI CBool) (VI 0);
   check1 SIdentity (SF CFloat) (SF CDouble) (VF (S754_finite false 9227469 (-22))) (SF CDouble) (VF (S754_finite false 4953959697481728 (-51)));
   check1 SIdentity (SF CFloat) (SI u32) (VF (S754_finite false 9227469 (-22))) (SI u32) (VI 2);
   check1 SIdentity (SF CFloat) (SI i32) (VF (S754_finite true 9227469 (-22))) (SI i32) (VI (-2));
   check1 SIdentity (SF CFloat) (SI CBool) (VF (S754_finite false 9227469 (-22))) (SI CBool) (VI 1);
   check1 SIdentity (SF CFloat) (SI CBool) (VF f0) (SI CBool) (VI 0);
   check1 SIdentity (SI u64) (SF CDouble) (VI 2) (SF CDouble) (VF (S754_finite false 4503599627370496 (-51)));
   check1 SIdentity (SI u64) (SF CFloat) (VI 2) (SF CFloat) (VF (S754_finite false 8388608 (-22)));
   check1 SIdentity (SI u64) (SI i64) (VI 2) (SI u64) (VI 2);
   check1 SIdentity (SI u64) (SI u32) (VI 2) (SI u64) (VI 2);
   check1 SIdentity (SI u64) (SI CBool) (VI 2) (SI CBool) (VI 1);
   check1 SIdentity (SI u64) (SI CBool) (VI 0) (SI CBool) (VI 0);
   check1 SIdentity (SI u32) (SF CDouble) (VI 2) (SF CDouble) (VF (S754_finite false 4503599627370496 (-51)));
   check1 SIdentity (SI u32) (SF CFloat) (VI 2) (SF CFloat) (VF (S754_finite false 8388608 (-22)));
   check1 SIdentity (SI u32) (SI u64) (VI 2) (SI u64) (VI 2);
   check1 SIdentity (SI u32) (SI i64) (VI 2) (SI i64) (VI 2);
   check1 SIdentity (SI u32) (SI i32) (VI 2) (SI u32) (VI 2);
   check1 SIdentity (SI u32) (SI u16) (VI 2) (SI u32) (VI 2);
   check1 SIdentity (SI u32) (SI i16) (VI 2) (SI i32) (VI 2);
   check1 SIdentity (SI u32) (SI CBool) (VI 2) (SI CBool) (VI 1);
   check1 SIdentity (SI u32) (SI CBool) (VI 0) (SI CBool) (VI 0);
   check1 SIdentity (SI u16) (SF CDouble) (VI 2) (SF CDouble) (VF (S754_finite false 4503599627370496 (-51)));
   check1 SIdentity (SI u16) (SF CFloat) (VI 2) (SF CFloat) (VF (S754_finite false 8388608 (-22)));
   check1 SIdentity (SI u16) (SI u32) (VI 2) (SI u32) (VI 2);
   check1 SIdentity (SI u16) (SI i32) (VI 2) (SI i32) (VI 2);
   check1 SIdentity (SI u16) (SI i16) (VI 2) (SI i32) (VI 2);
   check1 SIdentity (SI u16) (SI u8) (VI 2) (SI i32) (VI 2);
   check1 SIdentity (SI u16) (SI i8) (VI 2) (SI i32) (VI 2);
   check1 SIdentity (SI u16) (SI CBool) (VI 2) (SI CBool) (VI 1);
   check1 SIdentity (SI u16) (SI CBool) (VI 0) (SI CBool) (VI 0);
   check1 SIdentity (SI u8) (SF CDouble) (VI 2) (SF CDouble) (VF (S754_finite false 4503599627370496 (-51)));
   check1 SIdentity (SI u8) (SF CFloat) (VI 2) (SF CFloat) (VF (S754_finite false 8388608 (-22)));
   check1 SIdentity (SI u8) (SI i8) (VI 2) (SI i32) (VI 2);
   check1 SIdentity (SI u8) (SI u16) (VI 2) (SI i32) (VI 2);
   check1 SIdentity (SI u8) (SI i16) (VI 2) (SI i32) (VI 2);
   check1 SIdentity (SI u8) (SI CBool) (VI 2) (SI CBool) (VI 1);
   check1 SIdentity (SI u8) (SI CBool) (VI 0) (SI CBool) (VI 0);
   check1 SIdentity (SI i64) (SF CDouble) (VI (-2)) (SF CDouble) (VF (S754_finite true 4503599627370496 (-51)));
   check1 SIdentity (SI i64) (SF CFloat) (VI (-2)) (SF CFloat) (VF (S754_finite true 8388608 (-22)));
   check1 SIdentity (SI i64) (SI i32) (VI (-2)) (SI i32) (VI (-2));
   check1 SIdentity (SI i64) (SI i16) (VI (-2)) (SI i32) (VI (-2));
   check1 SIdentity (SI i64) (SI CBool) (VI (-2)) (SI CBool) (VI 1);
   check1 SIdentity (SI i64) (SI CBool) (VI 0) (SI CBool) (VI 0);
   check1 SIdentity (SI i32) (SF CDouble) (VI (-2)) (SF CDouble) (VF (S754_finite true 4503599627370496 (-51)));
   check1 SIdentity (SI i32) (SF CFloat) (VI (-2)) (SF CFloat) (VF (S754_finite true 8388608 (-22)));
   check1 SIdentity (SI i32) (SI i64) (VI (-2)) (SI i32) (VI (-2));
   check1 SIdentity (SI i32) (SI i16) (VI (-2)) (SI i32) (VI (-2));
   check1 SIdentity (SI i32) (SI CBool) (VI (-2)) (SI CBool) (VI 1);
   check1 SIdentity (SI i32) (SI CBool) (VI 0) (SI CBool) (VI 0);
   check1 SIdentity (SI i16) (SF CDouble) (VI (-2)) (SF CDouble) (VF (S754_finite true 4503599627370496 (-51)));
   check1 SIdentity (SI i16) (SF CFloat) (VI (-2)) (SF CFloat) (VF (S754_finite true 8388608 (-22)));
   check1 SIdentity (SI i16) (SI i32) (VI (-2)) (SI i32) (VI (-2));
   check1 SIdentity (SI i16) (SI i8) (VI (-2)) (SI i32) (VI (-2));
   check1 SIdentity (SI i16) (SI CBool) (VI (-2)) (SI CBool) (VI 1);
   check1 SIdentity (SI i16) (SI CBool) (VI 0) (SI CBool) (VI 0);
   check1 SIdentity (SI i8) (SF CDouble) (VI (-2)) (SF CDouble) (VF (S754_finite true 4503599627370496 (-51)));
   check1 SIdentity (SI i8) (SF CFloat) (VI (-2)) (SF CFloat) (VF (S754_finite true 8388608 (-22)));
   check1 SIdentity (SI i8) (SI i16) (VI (-2)) (SI i32) (VI (-2));
   check1 SIdentity (SI i8) (SI CBool) (VI (-2)) (SI CBool) (VI 1);
   check1 SIdentity (SI i8) (SI CBool) (VI 0) (SI CBool) (VI 0);
   check1 SIdentity (SI CBool) (SF CDouble) (VI 0) (SF CDouble) (VF f0);
   check1 SIdentity (SI CBool) (SF CDouble) (VI 1) (SF CDouble) (VF (S754_finite false 4503599627370496 (-52)));
   check1 SIdentity (SI CBool) (SF CFloat) (VI 0) (SF CFloat) (VF f0);
   check1 SIdentity (SI CBool) (SF CFloat) (VI 1) (SF CFloat) (VF (S754_finite false 8388608 (-23)));
   check1 SIdentity (SI CBool) (SI u32) (VI 0) (SI u32) (VI 0);
   check1 SIdentity (SI CBool) (SI u32) (VI 1) (SI u32) (VI 1);
   check1 SIdentity (SI CBool) (SI i32) (VI 0) (SI i32) (VI 0);
   check1 SIdentity (SI CBool) (SI i32) (VI 1) (SI i32) (VI 1) ].
Proof. vm_compute. reflexivity. Qed.

(** test_algebra_unary.cpp:226-277 *)
Example unary_Abs_test : all_true
 [ check1 SAbs (SI i8) (SI i8) (VI (-8)) (SI i32) (VI 8);
   check1 SAbs (SI i16) (SI i16) (VI (-16)) (SI i32) (VI 16);
   check1 SAbs (SI i32) (SI i32) (VI (-32)) (SI i32) (VI 32);
   check1 SAbs (SI i64) (SI i64) (VI (-64)) (SI i64) (VI 64);
   check1 SAbs (SI i16) (SI i16) (VI (-128)) (SI i32) (VI 128);
   check1 SAbs (SI i32) (SI i32) (VI (-256)) (SI i32) (VI 256);
   check1 SAbs (SI i64) (SI i64) (VI (-512)) (SI i64) (VI 512);
   check1 SAbs (SI u8) (SI u8) (VI 8) (SI u8) (VI 8);
   check1 SAbs (SI u16) (SI u16) (VI 16) (SI u16) (VI 16);
   check1 SAbs (SI u32) (SI u32) (VI 32) (SI u32) (VI 32);
   check1 SAbs (SI u64) (SI u64) (VI 64) (SI u64) (VI 64);
   check1 SAbs (SI CBool) (SI CBool) (VI 1) (SI CBool) (VI 1);
   check1 SAbs (SI u8) (SI u8) (VI 64) (SI u8) (VI 64);
   check1 SAbs (SI u16) (SI u16) (VI 128) (SI u16) (VI 128);
   check1 SAbs (SI u32) (SI u32) (VI 256) (SI u32) (VI 256);
   check1 SAbs (SI u32) (SI u32) (VI 256) (SI u32) (VI 256);
   check1 SAbs (SF CFloat) (SF CFloat) (VF (S754_finite true 11914445 (-18))) (SF CFloat) (VF (S754_finite false 11914445 (-18)));
   check1 SAbs (SF CDouble) (SF CDouble) (VF (S754_finite true 4610736040380989 (-42))) (SF CDouble) (VF (S754_finite false 4610736040380989 (-42))) ].
Proof. vm_compute. reflexivity. Qed.

(** test_algebra_unary.cpp:280-324 *)
Example unary_additive_inverse_test : all_true
 [ check1 SAdditiveInverse (SF CDouble) (SF CDouble) (VF (S754_finite false 4953959590107546 (-51))) (SF CDouble) (VF (S754_finite true 4953959590107546 (-51)));
   check1 SAdditiveInverse (SF CDouble) (SF CDouble) (VF f0) (SF CDouble) (VF f0);
   check1 SAdditiveInverse (SF CDouble) (SF CDouble) (VF (S754_finite true 4503599627370496 (-51))) (SF CDouble) (VF (S754_finite false 4503599627370496 (-51)));
   check1 SAdditiveInverse (SF CFloat) (SF CFloat) (VF (S754_finite false 9227469 (-22))) (SF CFloat) (VF (S754_finite true 9227469 (-22)));
   check1 SAdditiveInverse (SF CFloat) (SF CFloat) (VF f0) (SF CFloat) (VF f0);
   check1 SAdditiveInverse (SF CFloat) (SF CFloat) (VF (S754_finite true 9227469 (-22))) (SF CFloat) (VF (S754_finite false 9227469 (-22)));
   check1 SAdditiveInverse (SI u64) (SI u64) (VI 2) (SI u64) (VI 18446744073709551614);
   check1 SAdditiveInverse (SI u64) (SI u64) (VI 0) (SI u64) (VI 0);
   check1 SAdditiveInverse (SI u64) (SI u64) (VI (-2)) (SI u64) (VI 2);
   check1 SAdditiveInverse (SI u32) (SI u32) (VI 2) (SI u32) (VI 4294967294);
   check1 SAdditiveInverse (SI u32) (SI u32) (VI 0) (SI u32) (VI 0);
   check1 SAdditiveInverse (SI u32) (SI u32) (VI (-2)) (SI u32) (VI 2);
   check1 SAdditiveInverse (SI u16) (SI u16) (VI 2) (SI u16) (VI 65534);
   check1 SAdditiveInverse (SI u16) (SI u16) (VI 0) (SI i32) (VI 0);
   check1 SAdditiveInverse (SI u16) (SI u16) (VI (-2)) (SI i32) (VI 2);
   check1 SAdditiveInverse (SI u8) (SI u8) (VI 2) (SI u8) (VI 254);
   check1 SAdditiveInverse (SI u8) (SI u8) (VI 0) (SI i32) (VI 0);
   check1 SAdditiveInverse (SI u8) (SI u8) (VI (-2)) (SI i32) (VI 2);
   check1 SAdditiveInverse (SI i64) (SI i64) (VI (-2)) (SI i64) (VI 2);
   check1 SAdditiveInverse (SI i64) (SI i64) (VI 0) (SI i64) (VI 0);
   check1 SAdditiveInverse (SI i64) (SI i64) (VI 2) (SI i64) (VI (-2));
   check1 SAdditiveInverse (SI i32) (SI i32) (VI (-2)) (SI i32) (VI 2);
   check1 SAdditiveInverse (SI i32) (SI i32) (VI 0) (SI i32) (VI 0);
   check1 SAdditiveInverse (SI i32) (SI i32) (VI 2) (SI i32) (VI (-2));
   check1 SAdditiveInverse (SI i16) (SI i16) (VI (-2)) (SI i32) (VI 2);
   check1 SAdditiveInverse (SI i16) (SI i16) (VI 0) (SI i32) (VI 0);
   check1 SAdditiveInverse (SI i16) (SI i16) (VI 2) (SI i32) (VI (-2));
   check1 SAdditiveInverse (SI i8) (SI i8) (VI (-2)) (SI i32) (VI 2);
   check1 SAdditiveInverse (SI i8) (SI i8) (VI 0) (SI i32) (VI 0);
   check1 SAdditiveInverse (SI i8) (SI i8) (VI 2) (SI i32) (VI (-2));
   check1 SAdditiveInverse (SI CBool) (SI CBool) (VI 0) (SI CBool) (VI 0);
   check1 SAdditiveInverse (SI CBool) (SI CBool) (VI 1) (SI CBool) (VI 1);
   check1 SAdditiveInverse (SF CDouble) (SI i32) (VF (S754_finite false 4953959590107546 (-51))) (SI i32) (VI (-2));
   check1 SAdditiveInverse (SF CDouble) (SI i32) (VF f0) (SI i32) (VI 0);
   check1 SAdditiveInverse (SF CDouble) (SI i32) (VF (S754_finite true 4503599627370496 (-51))) (SI i32) (VI 2) ].
Proof. vm_compute. reflexivity. Qed.

(** test_algebra_unary.cpp:327-359 *)
Example unary_multiplicative_inverse_same_domain_test : all_true
 [ check1 SMultiplicativeInverse (SF CDouble) (SF CDouble) (VF (S754_finite false 4953959590107546 (-51))) (SF CDouble) (VF (S754_finite false 8188362958855447 (-54)));
   check1 SMultiplicativeInverse (SF CDouble) (SF CDouble) (VF (S754_finite true 4953959590107546 (-51))) (SF CDouble) (VF (S754_finite true 8188362958855447 (-54)));
   check1 SMultiplicativeInverse (SI u64) (SI u64) (VI 2) (SI u64) (VI 0);
   check1 SMultiplicativeInverse (SI u32) (SI u32) (VI 2) (SI u32) (VI 0);
   check1 SMultiplicativeInverse (SI u16) (SI u16) (VI 2) (SI i32) (VI 0);
   check1 SMultiplicativeInverse (SI u8) (SI u8) (VI 2) (SI i32) (VI 0);
   check1 SMultiplicativeInverse (SI i64) (SI i64) (VI (-2)) (SI i64) (VI 0);
   check1 SMultiplicativeInverse (SI i32) (SI i32) (VI (-2)) (SI i32) (VI 0);
   check1 SMultiplicativeInverse (SI i16) (SI i16) (VI (-2)) (SI i32) (VI 0);
   check1 SMultiplicativeInverse (SI i8) (SI i8) (VI (-2)) (SI i32) (VI 0);
   check1 SMultiplicativeInverse (SI CBool) (SI CBool) (VI 1) (SI CBool) (VI 1);
   check1 SMultiplicativeInverse (SI i32) (SF CDouble) (VI 2) (SF CDouble) (VF (S754_finite false 4503599627370496 (-53)));
   check1 SMultiplicativeInverse (SI i32) (SF CDouble) (VI 1) (SF CDouble) (VF (S754_finite false 4503599627370496 (-52)));
   check1 SMultiplicativeInverse (SI i32) (SF CDouble) (VI (-3)) (SF CDouble) (VF (S754_finite true 6004799503160661 (-54)));
   check1 SMultiplicativeInverse (SF CDouble) (SI i32) (VF (S754_finite false 4503599627370496 (-53))) (SI i32) (VI 2);
   check1 SMultiplicativeInverse (SF CDouble) (SI i32) (VF (S754_finite false 4503599627370496 (-52))) (SI i32) (VI 1);
   check1 SMultiplicativeInverse (SF CDouble) (SI i32) (VF (S754_finite true 6004199023210345 (-54))) (SI i32) (VI (-3)) ].
Proof. vm_compute. reflexivity. Qed.

(** test_algebra_unary.cpp:362-394 *)
Example unary_logical_not_same_domain_test : all_true
 [ check1 SLogicalNot (SF CDouble) (SF CDouble) (VF (S754_finite false 4953959590107546 (-51))) (SF CDouble) (VF f0);
   check1 SLogicalNot (SF CDouble) (SF CDouble) (VF f0) (SF CDouble) (VF (S754_finite false 4503599627370496 (-52)));
   check1 SLogicalNot (SF CFloat) (SF CFloat) (VF (S754_finite false 9227469 (-22))) (SF CFloat) (VF f0);
   check1 SLogicalNot (SF CFloat) (SF CFloat) (VF (S754_finite false 8388608 (-23))) (SF CFloat) (VF f0);
   check1 SLogicalNot (SF CFloat) (SF CFloat) (VF f0) (SF CFloat) (VF (S754_finite false 8388608 (-23)));
   check1 SLogicalNot (SI u64) (SI u64) (VI 2) (SI u64) (VI 0);
   check1 SLogicalNot (SI u64) (SI u64) (VI 0) (SI u64) (VI 1);
   check1 SLogicalNot (SI u32) (SI u32) (VI 2) (SI u32) (VI 0);
   check1 SLogicalNot (SI u32) (SI u32) (VI 0) (SI u32) (VI 1);
   check1 SLogicalNot (SI u16) (SI u16) (VI 2) (SI i32) (VI 0);
   check1 SLogicalNot (SI u16) (SI u16) (VI 0) (SI i32) (VI 1);
   check1 SLogicalNot (SI u8) (SI u8) (VI 2) (SI i32) (VI 0);
   check1 SLogicalNot (SI u8) (SI u8) (VI 0) (SI i32) (VI 1);
   check1 SLogicalNot (SI i64) (SI i64) (VI (-2)) (SI i64) (VI 0);
   check1 SLogicalNot (SI i64) (SI i64) (VI 0) (SI i64) (VI 1);
   check1 SLogicalNot (SI i32) (SI i32) (VI (-2)) (SI i32) (VI 0);
   check1 SLogicalNot (SI i32) (SI i32) (VI 0) (SI i32) (VI 1);
   check1 SLogicalNot (SI i16) (SI i16) (VI (-2)) (SI i32) (VI 0);
   check1 SLogicalNot (SI i16) (SI i16) (VI 0) (SI i32) (VI 1);
   check1 SLogicalNot (SI i8) (SI i8) (VI (-2)) (SI i32) (VI 0);
   check1 SLogicalNot (SI i8) (SI i8) (VI 0) (SI i32) (VI 1);
   check1 SLogicalNot (SI i32) (SI i32) (VI 1) (SI i32) (VI 0);
   check1 SLogicalNot (SI i32) (SI i32) (VI 0) (SI i32) (VI 1);
   check1 SLogicalNot (SI CBool) (SI CBool) (VI 0) (SI CBool) (VI 1);
   check1 SLogicalNot (SI CBool) (SI CBool) (VI 1) (SI CBool) (VI 0) ].
Proof. vm_compute. reflexivity. Qed.

(** test_algebra_unary.cpp:397-527 *)
Example unary_logical_not_different_domain_test : all_true
 [ check1 SLogicalNot (SF CDouble) (SF CFloat) (VF (S754_finite false 4953959590107546 (-51))) (SF CFloat) (VF f0);
   check1 SLogicalNot (SF CDouble) (SF CFloat) (VF f0) (SF CFloat) (VF (S754_finite false 8388608 (-23)));
   check1 SLogicalNot (SF CDouble) (SI u64) (VF (S754_finite false 4953959590107546 (-51))) (SI u64) (VI 0);
   check1 SLogicalNot (SF CDouble) (SI u64) (VF f0) (SI u64) (VI 1);
   check1 SLogicalNot (SF CDouble) (SI i64) (VF (S754_finite true 4953959590107546 (-51))) (SI i64) (VI 0);
   check1 SLogicalNot (SF CDouble) (SI i64) (VF f0) (SI i64) (VI 1);
   check1 SLogicalNot (SF CDouble) (SI CBool) (VF (S754_finite false 4953959590107546 (-51))) (SI CBool) (VI 0);
   check1 SLogicalNot (SF CDouble) (SI CBool) (VF f0) (SI CBool) (VI 1);
   check1 SLogicalNot (SF CFloat) (SF CDouble) (VF (S754_finite false 9227469 (-22))) (SF CDouble) (VF f0);
   check1 SLogicalNot (SF CFloat) (SF CDouble) (VF f0) (SF CDouble) (VF (S754_finite false 4503599627370496 (-52)));
   check1 SLogicalNot (SF CFloat) (SI u32) (VF (S754_finite false 9227469 (-22))) (SI u32) (VI 0);
   check1 SLogicalNot (SF CFloat) (SI u32) (VF f0) (SI u32) (VI 1);
   check1 SLogicalNot (SF CFloat) (SI i32) (VF (S754_finite true 9227469 (-22))) (SI i32) (VI 0);
   check1 SLogicalNot (SF CFloat) (SI i32) (VF f0) (SI i32) (VI 1);
   check1 SLogicalNot (SF CFloat) (SI CBool) (VF (S754_finite false 9227469 (-22))) (SI CBool) (VI 0);
   check1 SLogicalNot (SF CFloat) (SI CBool) (VF f0) (SI CBool) (VI 1);
   check1 SLogicalNot (SI u64) (SF CDouble) (VI 2) (SF CDouble) (VF f0);
   check1 SLogicalNot (SI u64) (SF CDouble) (VI 0) (SF CDouble) (VF (S754_finite false 4503599627370496 (-52)));
   check1 SLogicalNot (SI u64) (SF CFloat) (VI 2) (SF CFloat) (VF f0);
   check1 SLogicalNot (SI u64) (SF CFloat) (VI 0) (SF CFloat) (VF (S754_finite false 8388608 (-23)));
   check1 SLogicalNot (SI u64) (SI i64) (VI 2) (SI i64) (VI 0);
   check1 SLogicalNot (SI u64) (SI i64) (VI 0) (SI i64) (VI 1);
   check1 SLogicalNot (SI u64) (SI u32) (VI 2) (SI u64) (VI 0);
   check1 SLogicalNot (SI u64) (SI u32) (VI 0) (SI u64) (VI 1);
   check1 SLogicalNot (SI u64) (SI CBool) (VI 2) (SI CBool) (VI 0);
   check1 SLogicalNot (SI u64) (SI CBool) (VI 0) (SI CBool) (VI 1);
   check1 SLogicalNot (SI u32) (SF CDouble) (VI 2) (SF CDouble) (VF f0);
   check1 SLogicalNot (SI u32) (SF CDouble) (VI 0) (SF CDouble) (VF (S754_finite false 4503599627370496 (-52)));
   check1 SLogicalNot (SI u32) (SF CFloat) (VI 2) (SF CFloat) (VF f0);
   check1 SLogicalNot (SI u32) (SF CFloat) (VI 0) (SF CFloat) (VF (S754_finite false 8388608 (-23)));
   check1 SLogicalNot (SI u32) (SI u64) (VI 2) (SI u64) (VI 0);
   check1 SLogicalNot (SI u32) (SI u64) (VI 0) (SI u64) (VI 1);
   check1 SLogicalNot (SI u32) (SI i64) (VI 2) (SI i64) (VI 0);
   check1 SLogicalNot (SI u32) (SI i64) (VI 0) (SI i64) (VI 1);
   check1 SLogicalNot (SI u32) (SI i32) (VI 2) (SI u32) (VI 0);
   check1 SLogicalNot (SI u32) (SI i32) (VI 0) (SI u32) (VI 1);
   check1 SLogicalNot (SI u32) (SI u16) (VI 2) (SI u32) (VI 0);
   check1 SLogicalNot (SI u32) (SI u16) (VI 0) (SI u32) (VI 1);
   check1 SLogicalNot (SI u32) (SI i16) (VI 2) (SI i32) (VI 0);
   check1 SLogicalNot (SI u32) (SI i16) (VI 0) (SI i32) (VI 1);
   check1 SLogicalNot (SI u32) (SI CBool) (VI 2) (SI CBool) (VI 0);
   check1 SLogicalNot (SI u32) (SI CBool) (VI 0) (SI CBool) (VI 1);
   check1 SLogicalNot (SI u16) (SF CDouble) (VI 2) (SF CDouble) (VF f0);
   check1 SLogicalNot (SI u16) (SF CDouble) (VI 0) (SF CDouble) (VF (S754_finite false 4503599627370496 (-52)));
   check1 SLogicalNot (SI u16) (SF CFloat) (VI 2) (SF CFloat) (VF f0);
   check1 SLogicalNot (SI u16) (SF CFloat) (VI 0) (SF CFloat) (VF (S754_finite false 8388608 (-23)));
   check1 SLogicalNot (SI u16) (SI u32) (VI 2) (SI u32) (VI 0);
   check1 SLogicalNot (SI u16) (SI u32) (VI 0) (SI u32) (VI 1);
   check1 SLogicalNot (SI u16) (SI i32) (VI 2) (SI i32) (VI 0);
   check1 SLogicalNot (SI u16) (SI i32) (VI 0) (SI i32) (VI 1);
   check1 SLogicalNot (SI u16) (SI i16) (VI 2) (SI i32) (VI 0);
   check1 SLogicalNot (SI u16) (SI i16) (VI 0) (SI i32) (VI 1);
   check1 SLogicalNot (SI u16) (SI u8) (VI 2) (SI i32) (VI 0);
   check1 SLogicalNot (SI u16) (SI u8) (VI 0) (SI i32) (VI 1);
   check1 SLogicalNot (SI u16) (SI i8) (VI 2) (SI i32) (VI 0);
   check1 SLogicalNot (SI u16) (SI i8) (VI 0) (SI i32) (VI 1);
   check1 SLogicalNot (SI u16) (SI CBool) (VI 2) (SI CBool) (VI 0);
   check1 SLogicalNot (SI u16) (SI CBool) (VI 0) (SI CBool) (VI 1);
   check1 SLogicalNot (SI u8) (SF CDouble) (VI 2) (SF CDouble) (VF f0);
   check1 SLogicalNot (SI u8) (SF CDouble) (VI 0) (SF CDouble) (VF (S754_finite false 4503599627370496 (-52)));
   check1 SLogicalNot (SI u8) (SF CFloat) (VI 2) (SF CFloat) (VF f0);
   check1 SLogicalNot (SI u8) (SF CFloat) (VI 0) (SF CFloat) (VF (S754_finite false 8388608 (-23)));
   check1 SLogicalNot (SI u8) (SI i8) (VI 2) (SI i32) (VI 0);
   check1 SLogicalNot (SI u8) (SI i8) (VI 0) (SI i32) (VI 1);
   check1 SLogicalNot (SI u8) (SI u16) (VI 2) (SI i32) (VI 0);
   check1 SLogicalNot (SI u8) (SI u16) (VI 0) (SI i32) (VI 1);
   check1 SLogicalNot (SI u8) (SI i16) (VI 2) (SI i32) (VI 0);
   check1 SLogicalNot (SI u8) (SI i16) (VI 0) (SI i32) (VI 1);
   check1 SLogicalNot (SI u8) (SI CBool) (VI 2) (SI CBool) (VI 0);
   check1 SLogicalNot (SI u8) (SI CBool) (VI 0) (SI CBool) (VI 1);
   check1 SLogicalNot (SI i64) (SF CDouble) (VI (-2)) (SF CDouble) (VF f0);
   check1 SLogicalNot (SI i64) (SF CDouble) (VI 0) (SF CDouble) (VF (S754_finite false 4503599627370496 (-52)));
   check1 SLogicalNot (SI i64) (SF CFloat) (VI (-2)) (SF CFloat) (VF f0);
   check1 SLogicalNot (SI i64) (SF CFloat) (VI 0) (SF CFloat) (VF (S754_finite false 8388608 (-23)));
   check1 SLogicalNot (SI i64) (SI i32) (VI (-2)) (SI i32) (VI 0);
   check1 SLogicalNot (SI i64) (SI i32) (VI 0) (SI i32) (VI 1);
   check1 SLogicalNot (SI i64) (SI i16) (VI (-2)) (SI i32) (VI 0);
   check1 SLogicalNot (SI i64) (SI i16) (VI 0) (SI i32) (VI 1);
   check1 SLogicalNot (SI i64) (SI CBool) (VI (-2)) (SI CBool) (VI 0);
   check1 SLogicalNot (SI i64) (SI CBool) (VI 0) (SI CBool) (VI 1);
   check1 SLogicalNot (SI i32) (SF CDouble) (VI (-2)) (SF CDouble) (VF f0);
   check1 SLogicalNot (SI i32) (SF CDouble) (VI 0) (SF CDouble) (VF (S754_finite false 4503599627370496 (-52)));
   check1 SLogicalNot (SI i32) (SF CFloat) (VI (-2)) (SF CFloat) (VF f0);
   check1 SLogicalNot (SI i32) (SF CFloat) (VI 0) (SF CFloat) (VF (S754_finite false 8388608 (-23)));
   check1 SLogicalNot (SI i32) (SI i64) (VI (-2)) (SI i32) (VI 0);
   check1 SLogicalNot (SI i32) (SI i64) (VI 0) (SI i32) (VI 1);
   check1 SLogicalNot (SI i32) (SI i16) (VI (-2)) (SI i32) (VI 0);
   check1 SLogicalNot (SI i32) (SI i16) (VI 0) (SI i32) (VI 1);
   check1 SLogicalNot (SI i32) (SI CBool) (VI (-2)) (SI CBool) (VI 0);
   check1 SLogicalNot (SI i32) (SI CBool) (VI 0) (SI CBool) (VI 1);
   check1 SLogicalNot (SI i16) (SF CDouble) (VI (-2)) (SF CDouble) (VF f0);
   check1 SLogicalNot (SI i16) (SF CDouble) (VI 0) (SF CDouble) (VF (S754_finite false 4503599627370496 (-52)));
   check1 SLogicalNot (SI i16) (SF CFloat) (VI (-2)) (SF CFloat) (VF f0);
   check1 SLogicalNot (SI i16) (SF CFloat) (VI 0) (SF CFloat) (VF (S754_finite false 8388608 (-23)));
   check1 SLogicalNot (SI i16) (SI i32) (VI (-2)) (SI i32) (VI 0);
   check1 SLogicalNot (SI i16) (SI i32) (VI 0) (SI i32) (VI 1);
   check1 SLogicalNot (SI i16) (SI i8) (VI (-2)) (SI i32) (VI 0);
   check1 SLogicalNot (SI i16) (SI i8) (VI 0) (SI i32) (VI 1);
   check1 SLogicalNot (SI i16) (SI CBool) (VI (-2)) (SI CBool) (VI 0);
   check1 SLogicalNot (SI i16) (SI CBool) (VI 0) (SI CBool) (VI 1);
   check1 SLogicalNot (SI i8) (SF CDouble) (VI (-2)) (SF CDouble) (VF f0);
   check1 SLogicalNot (SI i8) (SF CDouble) (VI 0) (SF CDouble) (VF (S754_finite false 4503599627370496 (-52)));
   check1 SLogicalNot (SI i8) (SF CFloat) (VI (-2)) (SF CFloat) (VF f0);
   check1 SLogicalNot (SI i8) (SF CFloat) (VI 0) (SF CFloat) (VF (S754_finite false 8388608 (-23)));
   check1 SLogicalNot (SI i8) (SI i16) (VI (-2)) (SI i32) (VI 0);
   check1 SLogicalNot (SI i8) (SI i16) (VI 0) (SI i32) (VI 1);
   check1 SLogicalNot (SI i8) (SI CBool) (VI (-2)) (SI CBool) (VI 0);
   check1 SLogicalNot (SI i8) (SI CBool) (VI 0) (SI CBool) (VI 1);
   check1 SLogicalNot (SI CBool) (SF CDouble) (VI 0) (SF CDouble) (VF (S754_finite false 4503599627370496 (-52)));
   check1 SLogicalNot (SI CBool) (SF CDouble) (VI 1) (SF CDouble) (VF f0);
   check1 SLogicalNot (SI CBool) (SF CFloat) (VI 0) (SF CFloat) (VF (S754_finite false 8388608 (-23)));
   check1 SLogicalNot (SI CBool) (SF CFloat) (VI 1) (SF CFloat) (VF f0);
   check1 SLogicalNot (SI CBool) (SI u32) (VI 0) (SI u32) (VI 1);
   check1 SLogicalNot (SI CBool) (SI u32) (VI 1) (SI u32) (VI 0);
   check1 SLogicalNot (SI CBool) (SI i32) (VI 0) (SI i32) (VI 1);
   check1 SLogicalNot (SI CBool) (SI i32) (VI 1) (SI i32) (VI 0) ].
Proof. vm_compute. reflexivity. Qed.

(** test_algebra_unary.cpp:530-564 *)
Example unary_BitwiseNot_test : all_true
 [ check1 SBitwiseNot (SI CBool) (SI CBool) (VI 1) (SI CBool) (VI 1);
   check1 SBitwiseNot (SI i8) (SI i8) (VI (-8)) (SI i32) (VI 7);
   check1 SBitwiseNot (SI i16) (SI i16) (VI (-16)) (SI i32) (VI 15);
   check1 SBitwiseNot (SI i32) (SI i32) (VI (-32)) (SI i32) (VI 31);
   check1 SBitwiseNot (SI i64) (SI i64) (VI (-64)) (SI i32) (VI 63);
   check1 SBitwiseNot (SI u8) (SI u8) (VI 8) (SI i32) (VI 247);
   check1 SBitwiseNot (SI u16) (SI u16) (VI 16) (SI i32) (VI 65519);
   check1 SBitwiseNot (SI u32) (SI u32) (VI 32) (SI u32) (VI 4294967263);
   check1 SBitwiseNot (SI u64) (SI u64) (VI 64) (SI u64) (VI 18446744073709551551);
   check1 SBitwiseNot (SI u64) (SI u32) (VI 64) (SI u32) (VI 4294967231);
   check1 SBitwiseNot (SI u64) (SI u16) (VI 64) (SI i32) (VI 65471);
   check1 SBitwiseNot (SI u64) (SI u8) (VI 64) (SI i32) (VI 191) ].
Proof. vm_compute. reflexivity. Qed.

(** test_algebra_unary.cpp:571-627 *)
Example unary_logical_or_same_domain_test : all_true
 [ check2 SLogicalOr (SF CDouble) (SF CDouble) (SF CDouble) (VF f0) (VF f0) (SF CDouble) (VF f0);
   check2 SLogicalOr (SF CDouble) (SF CDouble) (SF CDouble) (VF (S754_finite false 4503599627370496 (-52))) (VF f0) (SF CDouble) (VF (S754_finite false 4503599627370496 (-52)));
   check2 SLogicalOr (SF CDouble) (SF CDouble) (SF CDouble) (VF f0) (VF (S754_finite false 4503599627370496 (-52))) (SF CDouble) (VF (S754_finite false 4503599627370496 (-52)));
   check2 SLogicalOr (SF CDouble) (SF CDouble) (SF CDouble) (VF (S754_finite false 4503599627370496 (-52))) (VF (S754_finite false 4503599627370496 (-52))) (SF CDouble) (VF (S754_finite false 4503599627370496 (-52)));
   check2 SLogicalOr (SF CFloat) (SF CFloat) (SF CFloat) (VF f0) (VF f0) (SF CFloat) (VF f0);
   check2 SLogicalOr (SF CFloat) (SF CFloat) (SF CFloat) (VF (S754_finite false 8388608 (-23))) (VF f0) (SF CFloat) (VF (S754_finite false 8388608 (-23)));
   check2 SLogicalOr (SF CFloat) (SF CFloat) (SF CFloat) (VF f0) (VF (S754_finite false 8388608 (-23))) (SF CFloat) (VF (S754_finite false 8388608 (-23)));
   check2 SLogicalOr (SF CFloat) (SF CFloat) (SF CFloat) (VF (S754_finite false 8388608 (-23))) (VF (S754_finite false 8388608 (-23))) (SF CFloat) (VF (S754_finite false 8388608 (-23)));
   check2 SLogicalOr (SI u64) (SI u64) (SI u64) (VI 0) (VI 0) (SI i32) (VI 0);
   check2 SLogicalOr (SI u64) (SI u64) (SI u64) (VI 1) (VI 0) (SI i32) (VI 1);
   check2 SLogicalOr (SI u64) (SI u64) (SI u64) (VI 0) (VI 1) (SI i32) (VI 1);
   check2 SLogicalOr (SI u64) (SI u64) (SI u64) (VI 1) (VI 1) (SI i32) (VI 1);
   check2 SLogicalOr (SI u32) (SI u32) (SI u32) (VI 0) (VI 0) (SI i32) (VI 0);
   check2 SLogicalOr (SI u32) (SI u32) (SI u32) (VI 1) (VI 0) (SI i32) (VI 1);
   check2 SLogicalOr (SI u32) (SI u32) (SI u32) (VI 0) (VI 1) (SI i32) (VI 1);
   check2 SLogicalOr (SI u32) (SI u32) (SI u32) (VI 1) (VI 1) (SI i32) (VI 1);
   check2 SLogicalOr (SI u16) (SI u16) (SI u16) (VI 0) (VI 0) (SI i32) (VI 0);
   check2 SLogicalOr (SI u16) (SI u16) (SI u16) (VI 1) (VI 0) (SI i32) (VI 1);
   check2 SLogicalOr (SI u16) (SI u16) (SI u16) (VI 0) (VI 1) (SI i32) (VI 1);
   check2 SLogicalOr (SI u16) (SI u16) (SI u16) (VI 1) (VI 1) (SI i32) (VI 1);
   check2 SLogicalOr (SI u8) (SI u8) (SI u8) (VI 0) (VI 0) (SI i32) (VI 0);
   check2 SLogicalOr (SI u8) (SI u8) (SI u8) (VI 1) (VI 0) (SI i32) (VI 1);
   check2 SLogicalOr (SI u8) (SI u8) (SI u8) (VI 0) (VI 1) (SI i32) (VI 1);
   check2 SLogicalOr (SI u8) (SI u8) (SI u8) (VI 1) (VI 1) (SI i32) (VI 1);
   check2 SLogicalOr (SI i64) (SI i64) (SI i64) (VI 0) (VI 0) (SI i32) (VI 0);
   check2 SLogicalOr (SI i64) (SI i64) (SI i64) (VI (-1)) (VI 0) (SI i32) (VI 1);
   check2 SLogicalOr (SI i64) (SI i64) (SI i64) (VI 0) (VI (-1)) (SI i32) (VI 1);
   check2 SLogicalOr (SI i64) (SI i64) (SI i64) (VI (-1)) (VI (-1)) (SI i32) (VI 1);
   check2 SLogicalOr (SI i32) (SI i32) (SI i32) (VI 0) (VI 0) (SI i32) (VI 0);
   check2 SLogicalOr (SI i32) (SI i32) (SI i32) (VI (-1)) (VI 0) (SI i32) (VI 1);
   check2 SLogicalOr (SI i32) (SI i32) (SI i32) (VI 0) (VI (-1)) (SI i32) (VI 1);
   check2 SLogicalOr (SI i32) (SI i32) (SI i32) (VI (-1)) (VI (-1)) (SI i32) (VI 1);
   check2 SLogicalOr (SI i16) (SI i16) (SI i16) (VI 0) (VI 0) (SI i32) (VI 0);
   check2 SLogicalOr (SI i16) (SI i16) (SI i16) (VI (-1)) (VI 0) (SI i32) (VI 1);
   check2 SLogicalOr (SI i16) (SI i16) (SI i16) (VI 0) (VI (-1)) (SI i32) (VI 1);
   check2 SLogicalOr (SI i16) (SI i16) (SI i16) (VI (-1)) (VI (-1)) (SI i32) (VI 1);
   check2 SLogicalOr (SI i8) (SI i8) (SI i8) (VI 0) (VI 0) (SI i32) (VI 0);
   check2 SLogicalOr (SI i8) (SI i8) (SI i8) (VI (-1)) (VI 0) (SI i32) (VI 1);
   check2 SLogicalOr (SI i8) (SI i8) (SI i8) (VI 0) (VI (-1)) (SI i32) (VI 1);
   check2 SLogicalOr (SI i8) (SI i8) (SI i8) (VI (-1)) (VI (-1)) (SI i32) (VI 1);
   check2 SLogicalOr (SI CBool) (SI CBool) (SI CBool) (VI 0) (VI 0) (SI CBool) (VI 0);
   check2 SLogicalOr (SI CBool) (SI CBool) (SI CBool) (VI 0) (VI 1) (SI CBool) (VI 1);
   check2 SLogicalOr (SI CBool) (SI CBool) (SI CBool) (VI 1) (VI 0) (SI CBool) (VI 1);
   check2 SLogicalOr (SI CBool) (SI CBool) (SI CBool) (VI 1) (VI 1) (SI CBool) (VI 1) ].
Proof. vm_compute. reflexivity. Qed.

(** test_algebra_unary.cpp:630-666 *)
Example unary_logical_or_different_domain_test : all_true
 [ check2 SLogicalOr (SI i32) (SF CDouble) (SI i32) (VI 0) (VF f0) (SF CDouble) (VF f0);
   check2 SLogicalOr (SI i32) (SF CDouble) (SI i32) (VI (-1)) (VF f0) (SF CDouble) (VF (S754_finite false 4503599627370496 (-52)));
   check2 SLogicalOr (SI i32) (SF CDouble) (SI i32) (VI 0) (VF (S754_finite true 4503599627370496 (-52))) (SF CDouble) (VF (S754_finite false 4503599627370496 (-52)));
   check2 SLogicalOr (SI i32) (SF CDouble) (SI i32) (VI (-1)) (VF (S754_finite false 4503599627370496 (-52))) (SF CDouble) (VF (S754_finite false 4503599627370496 (-52)));
   check2 SLogicalOr (SF CFloat) (SI i32) (SF CFloat) (VF f0) (VI 0) (SF CFloat) (VF f0);
   check2 SLogicalOr (SF CFloat) (SI i32) (SF CFloat) (VF (S754_finite false 8388608 (-23))) (VI 0) (SF CFloat) (VF (S754_finite false 8388608 (-23)));
   check2 SLogicalOr (SF CFloat) (SI i32) (SF CFloat) (VF f0) (VI (-1)) (SF CFloat) (VF (S754_finite false 8388608 (-23)));
   check2 SLogicalOr (SF CFloat) (SI i32) (SF CFloat) (VF (S754_finite false 8388608 (-23))) (VI (-1)) (SF CFloat) (VF (S754_finite false 8388608 (-23)));
   check2 SLogicalOr (SF CFloat) (SI u64) (SF CFloat) (VF f0) (VI 0) (SF CFloat) (VF f0);
   check2 SLogicalOr (SF CFloat) (SI u64) (SF CFloat) (VF (S754_finite false 13421773 (-27))) (VI 0) (SF CFloat) (VF (S754_finite false 8388608 (-23)));
   check2 SLogicalOr (SF CFloat) (SI u64) (SF CFloat) (VF f0) (VI 1) (SF CFloat) (VF (S754_finite false 8388608 (-23)));
   check2 SLogicalOr (SF CFloat) (SI u64) (SF CFloat) (VF (S754_finite true 13421773 (-28))) (VI 1) (SF CFloat) (VF (S754_finite false 8388608 (-23)));
   check2 SLogicalOr (SI i32) (SF CFloat) (SI i32) (VI 0) (VF f0) (SI i32) (VI 0);
   check2 SLogicalOr (SI i32) (SF CFloat) (SI i32) (VI (-1)) (VF f0) (SI i32) (VI 1);
   check2 SLogicalOr (SI i32) (SF CFloat) (SI i32) (VI 0) (VF (S754_finite false 8388608 (-23))) (SI i32) (VI 1);
   check2 SLogicalOr (SI i32) (SF CFloat) (SI i32) (VI (-1)) (VF (S754_finite false 8388608 (-23))) (SI i32) (VI 1);
   check2 SLogicalOr (SF CDouble) (SI u16) (SF CDouble) (VF f0) (VI 0) (SF CDouble) (VF f0);
   check2 SLogicalOr (SF CDouble) (SI u16) (SF CDouble) (VF (S754_finite false 4503599627370496 (-52))) (VI 0) (SF CDouble) (VF (S754_finite false 4503599627370496 (-52)));
   check2 SLogicalOr (SF CDouble) (SI u16) (SF CDouble) (VF f0) (VI 1) (SF CDouble) (VF (S754_finite false 4503599627370496 (-52)));
   check2 SLogicalOr (SF CDouble) (SI u16) (SF CDouble) (VF (S754_finite false 4503599627370496 (-52))) (VI 1) (SF CDouble) (VF (S754_finite false 4503599627370496 (-52)));
   check2 SLogicalOr (SI u8) (SF CFloat) (SI u8) (VI 0) (VF f0) (SI i32) (VI 0);
   check2 SLogicalOr (SI u8) (SF CFloat) (SI u8) (VI 1) (VF f0) (SI i32) (VI 1);
   check2 SLogicalOr (SI u8) (SF CFloat) (SI u8) (VI 0) (VF (S754_finite false 8388608 (-23))) (SI i32) (VI 1);
   check2 SLogicalOr (SI u8) (SF CFloat) (SI u8) (VI 1) (VF (S754_finite false 8388608 (-23))) (SI i32) (VI 1);
   check2 SLogicalOr (SI CBool) (SF CFloat) (SI CBool) (VI 0) (VF f0) (SI CBool) (VI 0);
   check2 SLogicalOr (SI CBool) (SF CFloat) (SI CBool) (VI 1) (VF f0) (SI CBool) (VI 1);
   check2 SLogicalOr (SI CBool) (SF CFloat) (SI CBool) (VI 0) (VF (S754_finite false 8388608 (-23))) (SI CBool) (VI 1);
   check2 SLogicalOr (SI CBool) (SF CFloat) (SI CBool) (VI 1) (VF (S754_finite false 8388608 (-23))) (SI CBool) (VI 1) ].
Proof. vm_compute. reflexivity. Qed.

(** test_algebra_unary.cpp:669-725 *)
Example unary_logical_and_same_domain_test : all_true
 [ check2 SLogicalAnd (SF CDouble) (SF CDouble) (SF CDouble) (VF f0) (VF f0) (SF CDouble) (VF f0);
   check2 SLogicalAnd (SF CDouble) (SF CDouble) (SF CDouble) (VF (S754_finite false 4503599627370496 (-52))) (VF f0) (SF CDouble) (VF f0);
   check2 SLogicalAnd (SF CDouble) (SF CDouble) (SF CDouble) (VF f0) (VF (S754_finite false 4503599627370496 (-52))) (SF CDouble) (VF f0);
   check2 SLogicalAnd (SF CDouble) (SF CDouble) (SF CDouble) (VF (S754_finite false 4503599627370496 (-52))) (VF (S754_finite false 4503599627370496 (-52))) (SF CDouble) (VF (S754_finite false 4503599627370496 (-52)));
   check2 SLogicalAnd (SF CFloat) (SF CFloat) (SF CFloat) (VF f0) (VF f0) (SF CFloat) (VF f0);
   check2 SLogicalAnd (SF CFloat) (SF CFloat) (SF CFloat) (VF (S754_finite false 8388608 (-23))) (VF f0) (SF CFloat) (VF f0);
   check2 SLogicalAnd (SF CFloat) (SF CFloat) (SF CFloat) (VF f0) (VF (S754_finite false 8388608 (-23))) (SF CFloat) (VF f0);
   check2 SLogicalAnd (SF CFloat) (SF CFloat) (SF CFloat) (VF (S754_finite false 8388608 (-23))) (VF (S754_finite false 8388608 (-23))) (SF CFloat) (VF (S754_finite false 8388608 (-23)));
   check2 SLogicalAnd (SI u64) (SI u64) (SI u64) (VI 0) (VI 0) (SI i32) (VI 0);
   check2 SLogicalAnd (SI u64) (SI u64) (SI u64) (VI 1) (VI 0) (SI i32) (VI 0);
   check2 SLogicalAnd (SI u64) (SI u64) (SI u64) (VI 0) (VI 1) (SI i32) (VI 0);
   check2 SLogicalAnd (SI u64) (SI u64) (SI u64) (VI 1) (VI 1) (SI i32) (VI 1);
   check2 SLogicalAnd (SI u32) (SI u32) (SI u32) (VI 0) (VI 0) (SI i32) (VI 0);
   check2 SLogicalAnd (SI u32) (SI u32) (SI u32) (VI 1) (VI 0) (SI i32) (VI 0);
   check2 SLogicalAnd (SI u32) (SI u32) (SI u32) (VI 0) (VI 1) (SI i32) (VI 0);
   check2 SLogicalAnd (SI u32) (SI u32) (SI u32) (VI 1) (VI 1) (SI i32) (VI 1);
   check2 SLogicalAnd (SI u16) (SI u16) (SI u16) (VI 0) (VI 0) (SI i32) (VI 0);
   check2 SLogicalAnd (SI u16) (SI u16) (SI u16) (VI 1) (VI 0) (SI i32) (VI 0);
   check2 SLogicalAnd (SI u16) (SI u16) (SI u16) (VI 0) (VI 1) (SI i32) (VI 0);
   check2 SLogicalAnd (SI u16) (SI u16) (SI u16) (VI 1) (VI 1) (SI i32) (VI 1);
   check2 SLogicalAnd (SI u8) (SI u8) (SI u8) (VI 0) (VI 0) (SI i32) (VI 0);
   check2 SLogicalAnd (SI u8) (SI u8) (SI u8) (VI 1) (VI 0) (SI i32) (VI 0);
   check2 SLogicalAnd (SI u8) (SI u8) (SI u8) (VI 0) (VI 1) (SI i32) (VI 0);
   check2 SLogicalAnd (SI u8) (SI u8) (SI u8) (VI 1) (VI 1) (SI i32) (VI 1);
   check2 SLogicalAnd (SI i64) (SI i64) (SI i64) (VI 0) (VI 0) (SI i32) (VI 0);
   check2 SLogicalAnd (SI i64) (SI i64) (SI i64) (VI (-1)) (VI 0) (SI i32) (VI 0);
   check2 SLogicalAnd (SI i64) (SI i64) (SI i64) (VI 0) (VI (-1)) (SI i32) (VI 0);
   check2 SLogicalAnd (SI i64) (SI i64) (SI i64) (VI (-1)) (VI (-1)) (SI i32) (VI 1);
   check2 SLogicalAnd (SI i32) (SI i32) (SI i32) (VI 0) (VI 0) (SI i32) (VI 0);
   check2 SLogicalAnd (SI i32) (SI i32) (SI i32) (VI (-1)) (VI 0) (SI i32) (VI 0);
   check2 SLogicalAnd (SI i32) (SI i32) (SI i32) (VI 0) (VI (-1)) (SI i32) (VI 0);
   check2 SLogicalAnd (SI i32) (SI i32) (SI i32) (VI (-1)) (VI (-1)) (SI i32) (VI 1);
   check2 SLogicalAnd (SI i16) (SI i16) (SI i16) (VI 0) (VI 0) (SI i32) (VI 0);
   check2 SLogicalAnd (SI i16) (SI i16) (SI i16) (VI (-1)) (VI 0) (SI i32) (VI 0);
   check2 SLogicalAnd (SI i16) (SI i16) (SI i16) (VI 0) (VI (-1)) (SI i32) (VI 0);
   check2 SLogicalAnd (SI i16) (SI i16) (SI i16) (VI (-1)) (VI (-1)) (SI i32) (VI 1);
   check2 SLogicalAnd (SI i8) (SI i8) (SI i8) (VI 0) (VI 0) (SI i32) (VI 0);
   check2 SLogicalAnd (SI i8) (SI i8) (SI i8) (VI (-1)) (VI 0) (SI i32) (VI 0);
   check2 SLogicalAnd (SI i8) (SI i8) (SI i8) (VI 0) (VI (-1)) (SI i32) (VI 0);
   check2 SLogicalAnd (SI i8) (SI i8) (SI i8) (VI (-1)) (VI (-1)) (SI i32) (VI 1);
   check2 SLogicalAnd (SI CBool) (SI CBool) (SI CBool) (VI 0) (VI 0) (SI CBool) (VI 0);
   check2 SLogicalAnd (SI CBool) (SI CBool) (SI CBool) (VI 0) (VI 1) (SI CBool) (VI 0);
   check2 SLogicalAnd (SI CBool) (SI CBool) (SI CBool) (VI 1) (VI 0) (SI CBool) (VI 0);
   check2 SLogicalAnd (SI CBool) (SI CBool) (SI CBool) (VI 1) (VI 1) (SI CBool) (VI 1) ].
Proof. vm_compute. reflexivity. Qed.

(** test_algebra_unary.cpp:728-764 *)
Example unary_logical_and_different_domain_test : all_true
 [ check2 SLogicalAnd (SI i32) (SF CDouble) (SI i32) (VI 0) (VF f0) (SF CDouble) (VF f0);
   check2 SLogicalAnd (SI i32) (SF CDouble) (SI i32) (VI (-1)) (VF f0) (SF CDouble) (VF f0);
   check2 SLogicalAnd (SI i32) (SF CDouble) (SI i32) (VI 0) (VF (S754_finite true 4503599627370496 (-52))) (SF CDouble) (VF f0);
   check2 SLogicalAnd (SI i32) (SF CDouble) (SI i32) (VI (-1)) (VF (S754_finite false 4503599627370496 (-52))) (SF CDouble) (VF (S754_finite false 4503599627370496 (-52)));
   check2 SLogicalAnd (SF CFloat) (SI i32) (SF CFloat) (VF f0) (VI 0) (SF CFloat) (VF f0);
   check2 SLogicalAnd (SF CFloat) (SI i32) (SF CFloat) (VF (S754_finite false 8388608 (-23))) (VI 0) (SF CFloat) (VF f0);
   check2 SLogicalAnd (SF CFloat) (SI i32) (SF CFloat) (VF f0) (VI (-1)) (SF CFloat) (VF f0);
   check2 SLogicalAnd (SF CFloat) (SI i32) (SF CFloat) (VF (S754_finite false 8388608 (-23))) (VI (-1)) (SF CFloat) (VF (S754_finite false 8388608 (-23)));
   check2 SLogicalAnd (SF CFloat) (SI u64) (SF CFloat) (VF f0) (VI 0) (SF CFloat) (VF f0);
   check2 SLogicalAnd (SF CFloat) (SI u64) (SF CFloat) (VF (S754_finite false 13421773 (-27))) (VI 0) (SF CFloat) (VF f0);
   check2 SLogicalAnd (SF CFloat) (SI u64) (SF CFloat) (VF f0) (VI 1) (SF CFloat) (VF f0);
   check2 SLogicalAnd (SF CFloat) (SI u64) (SF CFloat) (VF (S754_finite true 13421773 (-28))) (VI 1) (SF CFloat) (VF (S754_finite false 8388608 (-23)));
   check2 SLogicalAnd (SI i32) (SF CFloat) (SI i32) (VI 0) (VF f0) (SI i32) (VI 0);
   check2 SLogicalAnd (SI i32) (SF CFloat) (SI i32) (VI (-1)) (VF f0) (SI i32) (VI 0);
   check2 SLogicalAnd (SI i32) (SF CFloat) (SI i32) (VI 0) (VF (S754_finite false 8388608 (-23))) (SI i32) (VI 0);
   check2 SLogicalAnd (SI i32) (SF CFloat) (SI i32) (VI (-1)) (VF (S754_finite false 8388608 (-23))) (SI i32) (VI 1);
   check2 SLogicalAnd (SF CDouble) (SI u16) (SF CDouble) (VF f0) (VI 0) (SF CDouble) (VF f0);
   check2 SLogicalAnd (SF CDouble) (SI u16) (SF CDouble) (VF (S754_finite false 4503599627370496 (-52))) (VI 0) (SF CDouble) (VF f0);
   check2 SLogicalAnd (SF CDouble) (SI u16) (SF CDouble) (VF f0) (VI 1) (SF CDouble) (VF f0);
   check2 SLogicalAnd (SF CDouble) (SI u16) (SF CDouble) (VF (S754_finite false 4503599627370496 (-52))) (VI 1) (SF CDouble) (VF (S754_finite false 4503599627370496 (-52)));
   check2 SLogicalAnd (SI u8) (SF CFloat) (SI u8) (VI 0) (VF f0) (SI i32) (VI 0);
   check2 SLogicalAnd (SI u8) (SF CFloat) (SI u8) (VI 1) (VF f0) (SI i32) (VI 0);
   check2 SLogicalAnd (SI u8) (SF CFloat) (SI u8) (VI 0) (VF (S754_finite false 8388608 (-23))) (SI i32) (VI 0);
   check2 SLogicalAnd (SI u8) (SF CFloat) (SI u8) (VI 1) (VF (S754_finite false 8388608 (-23))) (SI i32) (VI 1);
   check2 SLogicalAnd (SI CBool) (SF CFloat) (SI CBool) (VI 0) (VF f0) (SI CBool) (VI 0);
   check2 SLogicalAnd (SI CBool) (SF CFloat) (SI CBool) (VI 1) (VF f0) (SI CBool) (VI 0);
   check2 SLogicalAnd (SI CBool) (SF CFloat) (SI CBool) (VI 0) (VF (S754_finite false 8388608 (-23))) (SI CBool) (VI 0);
   check2 SLogicalAnd (SI CBool) (SF CFloat) (SI CBool) (VI 1) (VF (S754_finite false 8388608 (-23))) (SI CBool) (VI 1) ].
Proof. vm_compute. reflexivity. Qed.

(** test_algebra_unary.cpp:767-823 *)
Example unary_logical_xor_same_domain_test : all_true
 [ check2 SLogicalXor (SF CDouble) (SF CDouble) (SF CDouble) (VF f0) (VF f0) (SF CDouble) (VF f0);
   check2 SLogicalXor (SF CDouble) (SF CDouble) (SF CDouble) (VF (S754_finite false 4503599627370496 (-52))) (VF f0) (SF CDouble) (VF (S754_finite false 4503599627370496 (-52)));
   check2 SLogicalXor (SF CDouble) (SF CDouble) (SF CDouble) (VF f0) (VF (S754_finite false 4503599627370496 (-52))) (SF CDouble) (VF (S754_finite false 4503599627370496 (-52)));
   check2 SLogicalXor (SF CDouble) (SF CDouble) (SF CDouble) (VF (S754_finite false 4503599627370496 (-52))) (VF (S754_finite false 4503599627370496 (-52))) (SF CDouble) (VF f0);
   check2 SLogicalXor (SF CFloat) (SF CFloat) (SF CFloat) (VF f0) (VF f0) (SF CFloat) (VF f0);
   check2 SLogicalXor (SF CFloat) (SF CFloat) (SF CFloat) (VF (S754_finite false 8388608 (-23))) (VF f0) (SF CFloat) (VF (S754_finite false 8388608 (-23)));
   check2 SLogicalXor (SF CFloat) (SF CFloat) (SF CFloat) (VF f0) (VF (S754_finite false 8388608 (-23))) (SF CFloat) (VF (S754_finite false 8388608 (-23)));
   check2 SLogicalXor (SF CFloat) (SF CFloat) (SF CFloat) (VF (S754_finite false 8388608 (-23))) (VF (S754_finite false 8388608 (-23))) (SF CFloat) (VF f0);
   check2 SLogicalXor (SI u64) (SI u64) (SI u64) (VI 0) (VI 0) (SI i32) (VI 0);
   check2 SLogicalXor (SI u64) (SI u64) (SI u64) (VI 1) (VI 0) (SI i32) (VI 1);
   check2 SLogicalXor (SI u64) (SI u64) (SI u64) (VI 0) (VI 1) (SI i32) (VI 1);
   check2 SLogicalXor (SI u64) (SI u64) (SI u64) (VI 1) (VI 1) (SI i32) (VI 0);
   check2 SLogicalXor (SI u32) (SI u32) (SI u32) (VI 0) (VI 0) (SI i32) (VI 0);
   check2 SLogicalXor (SI u32) (SI u32) (SI u32) (VI 1) (VI 0) (SI i32) (VI 1);
   check2 SLogicalXor (SI u32) (SI u32) (SI u32) (VI 0) (VI 1) (SI i32) (VI 1);
   check2 SLogicalXor (SI u32) (SI u32) (SI u32) (VI 1) (VI 1) (SI i32) (VI 0);
   check2 SLogicalXor (SI u16) (SI u16) (SI u16) (VI 0) (VI 0) (SI i32) (VI 0);
   check2 SLogicalXor (SI u16) (SI u16) (SI u16) (VI 1) (VI 0) (SI i32) (VI 1);
   check2 SLogicalXor (SI u16) (SI u16) (SI u16) (VI 0) (VI 1) (SI i32) (VI 1);
   check2 SLogicalXor (SI u16) (SI u16) (SI u16) (VI 1) (VI 1) (SI i32) (VI 0);
   check2 SLogicalXor (SI u8) (SI u8) (SI u8) (VI 0) (VI 0) (SI i32) (VI 0);
   check2 SLogicalXor (SI u8) (SI u8) (SI u8) (VI 1) (VI 0) (SI i32) (VI 1);
   check2 SLogicalXor (SI u8) (SI u8) (SI u8) (VI 0) (VI 1) (SI i32) (VI 1);
   check2 SLogicalXor (SI u8) (SI u8) (SI u8) (VI 1) (VI 1) (SI i32) (VI 0);
   check2 SLogicalXor (SI i64) (SI i64) (SI i64) (VI 0) (VI 0) (SI i32) (VI 0);
   check2 SLogicalXor (SI i64) (SI i64) (SI i64) (VI (-1)) (VI 0) (SI i32) (VI 1);
   check2 SLogicalXor (SI i64) (SI i64) (SI i64) (VI 0) (VI (-1)) (SI i32) (VI 1);
   check2 SLogicalXor (SI i64) (SI i64) (SI i64) (VI (-1)) (VI (-1)) (SI i32) (VI 0);
   check2 SLogicalXor (SI i32) (SI i32) (SI i32) (VI 0) (VI 0) (SI i32) (VI 0);
   check2 SLogicalXor (SI i32) (SI i32) (SI i32) (VI (-1)) (VI 0) (SI i32) (VI 1);
   check2 SLogicalXor (SI i32) (SI i32) (SI i32) (VI 0) (VI (-1)) (SI i32) (VI 1);
   check2 SLogicalXor (SI i32) (SI i32) (SI i32) (VI (-1)) (VI (-1)) (SI i32) (VI 0);
   check2 SLogicalXor (SI i16) (SI i16) (SI i16) (VI 0) (VI 0) (SI i32) (VI 0);
   check2 SLogicalXor (SI i16) (SI i16) (SI i16) (VI (-1)) (VI 0) (SI i32) (VI 1);
   check2 SLogicalXor (SI i16) (SI i16) (SI i16) (VI 0) (VI (-1)) (SI i32) (VI 1);
   check2 SLogicalXor (SI i16) (SI i16) (SI i16) (VI (-1)) (VI (-1)) (SI i32) (VI 0);
   check2 SLogicalXor (SI i8) (SI i8) (SI i8) (VI 0) (VI 0) (SI i32) (VI 0);
   check2 SLogicalXor (SI i8) (SI i8) (SI i8) (VI (-1)) (VI 0) (SI i32) (VI 1);
   check2 SLogicalXor (SI i8) (SI i8) (SI i8) (VI 0) (VI (-1)) (SI i32) (VI 1);
   check2 SLogicalXor (SI i8) (SI i8) (SI i8) (VI (-1)) (VI (-1)) (SI i32) (VI 0);
   check2 SLogicalXor (SI CBool) (SI CBool) (SI CBool) (VI 0) (VI 0) (SI CBool) (VI 0);
   check2 SLogicalXor (SI CBool) (SI CBool) (SI CBool) (VI 0) (VI 1) (SI CBool) (VI 1);
   check2 SLogicalXor (SI CBool) (SI CBool) (SI CBool) (VI 1) (VI 0) (SI CBool) (VI 1);
   check2 SLogicalXor (SI CBool) (SI CBool) (SI CBool) (VI 1) (VI 1) (SI CBool) (VI 0) ].
Proof. vm_compute. reflexivity. Qed.

(** test_algebra_unary.cpp:826-862 *)
Example unary_logical_xor_different_domain_test : all_true
 [ check2 SLogicalXor (SI i32) (SF CDouble) (SI i32) (VI 0) (VF f0) (SF CDouble) (VF f0);
   check2 SLogicalXor (SI i32) (SF CDouble) (SI i32) (VI (-1)) (VF f0) (SF CDouble) (VF (S754_finite false 4503599627370496 (-52)));
   check2 SLogicalXor (SI i32) (SF CDouble) (SI i32) (VI 0) (VF (S754_finite true 4503599627370496 (-52))) (SF CDouble) (VF (S754_finite false 4503599627370496 (-52)));
   check2 SLogicalXor (SI i32) (SF CDouble) (SI i32) (VI (-1)) (VF (S754_finite false 4503599627370496 (-52))) (SF CDouble) (VF f0);
   check2 SLogicalXor (SF CFloat) (SI i32) (SF CFloat) (VF f0) (VI 0) (SF CFloat) (VF f0);
   check2 SLogicalXor (SF CFloat) (SI i32) (SF CFloat) (VF (S754_finite false 8388608 (-23))) (VI 0) (SF CFloat) (VF (S754_finite false 8388608 (-23)));
   check2 SLogicalXor (SF CFloat) (SI i32) (SF CFloat) (VF f0) (VI (-1)) (SF CFloat) (VF (S754_finite false 8388608 (-23)));
   check2 SLogicalXor (SF CFloat) (SI i32) (SF CFloat) (VF (S754_finite false 8388608 (-23))) (VI (-1)) (SF CFloat) (VF f0);
   check2 SLogicalXor (SF CFloat) (SI u64) (SF CFloat) (VF f0) (VI 0) (SF CFloat) (VF f0);
   check2 SLogicalXor (SF CFloat) (SI u64) (SF CFloat) (VF (S754_finite false 13421773 (-27))) (VI 0) (SF CFloat) (VF (S754_finite false 8388608 (-23)));
   check2 SLogicalXor (SF CFloat) (SI u64) (SF CFloat) (VF f0) (VI 1) (SF CFloat) (VF (S754_finite false 8388608 (-23)));
   check2 SLogicalXor (SF CFloat) (SI u64) (SF CFloat) (VF (S754_finite true 13421773 (-28))) (VI 1) (SF CFloat) (VF f0);
   check2 SLogicalXor (SI i32) (SF CFloat) (SI i32) (VI 0) (VF f0) (SI i32) (VI 0);
   check2 SLogicalXor (SI i32) (SF CFloat) (SI i32) (VI (-1)) (VF f0) (SI i32) (VI 1);
   check2 SLogicalXor (SI i32) (SF CFloat) (SI i32) (VI 0) (VF (S754_finite false 8388608 (-23))) (SI i32) (VI 1);
   check2 SLogicalXor (SI i32) (SF CFloat) (SI i32) (VI (-1)) (VF (S754_finite false 8388608 (-23))) (SI i32) (VI 0);
   check2 SLogicalXor (SF CDouble) (SI u16) (SF CDouble) (VF f0) (VI 0) (SF CDouble) (VF f0);
   check2 SLogicalXor (SF CDouble) (SI u16) (SF CDouble) (VF (S754_finite false 4503599627370496 (-52))) (VI 0) (SF CDouble) (VF (S754_finite false 4503599627370496 (-52)));
   check2 SLogicalXor (SF CDouble) (SI u16) (SF CDouble) (VF f0) (VI 1) (SF CDouble) (VF (S754_finite false 4503599627370496 (-52)));
   check2 SLogicalXor (SF CDouble) (SI u16) (SF CDouble) (VF (S754_finite false 4503599627370496 (-52))) (VI 1) (SF CDouble) (VF f0);
   check2 SLogicalXor (SI u8) (SF CFloat) (SI u8) (VI 0) (VF f0) (SI i32) (VI 0);
   check2 SLogicalXor (SI u8) (SF CFloat) (SI u8) (VI 1) (VF f0) (SI i32) (VI 1);
   check2 SLogicalXor (SI u8) (SF CFloat) (SI u8) (VI 0) (VF (S754_finite false 8388608 (-23))) (SI i32) (VI 1);
   check2 SLogicalXor (SI u8) (SF CFloat) (SI u8) (VI 1) (VF (S754_finite false 8388608 (-23))) (SI i32) (VI 0);
   check2 SLogicalXor (SI CBool) (SF CFloat) (SI CBool) (VI 0) (VF f0) (SI CBool) (VI 0);
   check2 SLogicalXor (SI CBool) (SF CFloat) (SI CBool) (VI 1) (VF f0) (SI CBool) (VI 1);
   check2 SLogicalXor (SI CBool) (SF CFloat) (SI CBool) (VI 0) (VF (S754_finite false 8388608 (-23))) (SI CBool) (VI 1);
   check2 SLogicalXor (SI CBool) (SF CFloat) (SI CBool) (VI 1) (VF (S754_finite false 8388608 (-23))) (SI CBool) (VI 0) ].
Proof. vm_compute. reflexivity. Qed.

(** test_algebra_unary.cpp:865-921 *)
Example unary_logical_xnor_same_domain_test : all_true
 [ check2 SLogicalXnor (SF CDouble) (SF CDouble) (SF CDouble) (VF f0) (VF f0) (SF CDouble) (VF (S754_finite false 4503599627370496 (-52)));
   check2 SLogicalXnor (SF CDouble) (SF CDouble) (SF CDouble) (VF (S754_finite false 4503599627370496 (-52))) (VF f0) (SF CDouble) (VF f0);
   check2 SLogicalXnor (SF CDouble) (SF CDouble) (SF CDouble) (VF f0) (VF (S754_finite false 4503599627370496 (-52))) (SF CDouble) (VF f0);
   check2 SLogicalXnor (SF CDouble) (SF CDouble) (SF CDouble) (VF (S754_finite false 4503599627370496 (-52))) (VF (S754_finite false 4503599627370496 (-52))) (SF CDouble) (VF (S754_finite false 4503599627370496 (-52)));
   check2 SLogicalXnor (SF CFloat) (SF CFloat) (SF CFloat) (VF f0) (VF f0) (SF CFloat) (VF (S754_finite false 8388608 (-23)));
   check2 SLogicalXnor (SF CFloat) (SF CFloat) (SF CFloat) (VF (S754_finite false 8388608 (-23))) (VF f0) (SF CFloat) (VF f0);
   check2 SLogicalXnor (SF CFloat) (SF CFloat) (SF CFloat) (VF f0) (VF (S754_finite false 8388608 (-23))) (SF CFloat) (VF f0);
   check2 SLogicalXnor (SF CFloat) (SF CFloat) (SF CFloat) (VF (S754_finite false 8388608 (-23))) (VF (S754_finite false 8388608 (-23))) (SF CFloat) (VF (S754_finite false 8388608 (-23)));
   check2 SLogicalXnor (SI u64) (SI u64) (SI u64) (VI 0) (VI 0) (SI i32) (VI 1);
   check2 SLogicalXnor (SI u64) (SI u64) (SI u64) (VI 1) (VI 0) (SI i32) (VI 0);
   check2 SLogicalXnor (SI u64) (SI u64) (SI u64) (VI 0) (VI 1) (SI i32) (VI 0);
   check2 SLogicalXnor (SI u64) (SI u64) (SI u64) (VI 1) (VI 1) (SI i32) (VI 1);
   check2 SLogicalXnor (SI u32) (SI u32) (SI u32) (VI 0) (VI 0) (SI i32) (VI 1);
   check2 SLogicalXnor (SI u32) (SI u32) (SI u32) (VI 1) (VI 0) (SI i32) (VI 0);
   check2 SLogicalXnor (SI u32) (SI u32) (SI u32) (VI 0) (VI 1) (SI i32) (VI 0);
   check2 SLogicalXnor (SI u32) (SI u32) (SI u32) (VI 1) (VI 1) (SI i32) (VI 1);
   check2 SLogicalXnor (SI u16) (SI u16) (SI u16) (VI 0) (VI 0) (SI i32) (VI 1);
   check2 SLogicalXnor (SI u16) (SI u16) (SI u16) (VI 1) (VI 0) (SI i32) (VI 0);
   check2 SLogicalXnor (SI u16) (SI u16) (SI u16) (VI 0) (VI 1) (SI i32) (VI 0);
   check2 SLogicalXnor (SI u16) (SI u16) (SI u16) (VI 1) (VI 1) (SI i32) (VI 1);
   check2 SLogicalXnor (SI u8) (SI u8) (SI u8) (VI 0) (VI 0) (SI i32) (VI 1);
   check2 SLogicalXnor (SI u8) (SI u8) (SI u8) (VI 1) (VI 0) (SI i32) (VI 0);
   check2 SLogicalXnor (SI u8) (SI u8) (SI u8) (VI 0) (VI 1) (SI i32) (VI 0);
   check2 SLogicalXnor (SI u8) (SI u8) (SI u8) (VI 1) (VI 1) (SI i32) (VI 1);
   check2 SLogicalXnor (SI i64) (SI i64) (SI i64) (VI 0) (VI 0) (SI i32) (VI 1);
   check2 SLogicalXnor (SI i64) (SI i64) (SI i64) (VI (-1)) (VI 0) (SI i32) (VI 0);
   check2 SLogicalXnor (SI i64) (SI i64) (SI i64) (VI 0) (VI (-1)) (SI i32) (VI 0);
   check2 SLogicalXnor (SI i64) (SI i64) (SI i64) (VI (-1)) (VI (-1)) (SI i32) (VI 1);
   check2 SLogicalXnor (SI i32) (SI i32) (SI i32) (VI 0) (VI 0) (SI i32) (VI 1);
   check2 SLogicalXnor (SI i32) (SI i32) (SI i32) (VI (-1)) (VI 0) (SI i32) (VI 0);
   check2 SLogicalXnor (SI i32) (SI i32) (SI i32) (VI 0) (VI (-1)) (SI i32) (VI 0);
   check2 SLogicalXnor (SI i32) (SI i32) (SI i32) (VI (-1)) (VI (-1)) (SI i32) (VI 1);
   check2 SLogicalXnor (SI i16) (SI i16) (SI i16) (VI 0) (VI 0) (SI i32) (VI 1);
   check2 SLogicalXnor (SI i16) (SI i16) (SI i16) (VI (-1)) (VI 0) (SI i32) (VI 0);
   check2 SLogicalXnor (SI i16) (SI i16) (SI i16) (VI 0) (VI (-1)) (SI i32) (VI 0);
   check2 SLogicalXnor (SI i16) (SI i16) (SI i16) (VI (-1)) (VI (-1)) (SI i32) (VI 1);
   check2 SLogicalXnor (SI i8) (SI i8) (SI i8) (VI 0) (VI 0) (SI i32) (VI 1);
   check2 SLogicalXnor (SI i8) (SI i8) (SI i8) (VI (-1)) (VI 0) (SI i32) (VI 0);
   check2 SLogicalXnor (SI i8) (SI i8) (SI i8) (VI 0) (VI (-1)) (SI i32) (VI 0);
   check2 SLogicalXnor (SI i8) (SI i8) (SI i8) (VI (-1)) (VI (-1)) (SI i32) (VI 1);
   check2 SLogicalXnor (SI CBool) (SI CBool) (SI CBool) (VI 0) (VI 0) (SI CBool) (VI 1);
   check2 SLogicalXnor (SI CBool) (SI CBool) (SI CBool) (VI 0) (VI 1) (SI CBool) (VI 0);
   check2 SLogicalXnor (SI CBool) (SI CBool) (SI CBool) (VI 1) (VI 0) (SI CBool) (VI 0);
   check2 SLogicalXnor (SI CBool) (SI CBool) (SI CBool) (VI 1) (VI 1) (SI CBool) (VI 1) ].
Proof. vm_compute. reflexivity. Qed.

(** test_algebra_unary.cpp:924-960 *)
Example unary_logical_xnor_different_domain_test : all_true
 [ check2 SLogicalXnor (SI i32) (SF CDouble) (SI i32) (VI 0) (VF f0) (SF CDouble) (VF (S754_finite false 4503599627370496 (-52)));
   check2 SLogicalXnor (SI i32) (SF CDouble) (SI i32) (VI (-1)) (VF f0) (SF CDouble) (VF f0);
   check2 SLogicalXnor (SI i32) (SF CDouble) (SI i32) (VI 0) (VF (S754_finite true 4503599627370496 (-52))) (SF CDouble) (VF f0);
   check2 SLogicalXnor (SI i32) (SF CDouble) (SI i32) (VI (-1)) (VF (S754_finite false 4503599627370496 (-52))) (SF CDouble) (VF (S754_finite false 4503599627370496 (-52)));
   check2 SLogicalXnor (SF CFloat) (SI i32) (SF CFloat) (VF f0) (VI 0) (SF CFloat) (VF (S754_finite false 8388608 (-23)));
   check2 SLogicalXnor (SF CFloat) (SI i32) (SF CFloat) (VF (S754_finite false 8388608 (-23))) (VI 0) (SF CFloat) (VF f0);
   check2 SLogicalXnor (SF CFloat) (SI i32) (SF CFloat) (VF f0) (VI (-1)) (SF CFloat) (VF f0);
   check2 SLogicalXnor (SF CFloat) (SI i32) (SF CFloat) (VF (S754_finite false 8388608 (-23))) (VI (-1)) (SF CFloat) (VF (S754_finite false 8388608 (-23)));
   check2 SLogicalXnor (SF CFloat) (SI u64) (SF CFloat) (VF f0) (VI 0) (SF CFloat) (VF (S754_finite false 8388608 (-23)));
   check2 SLogicalXnor (SF CFloat) (SI u64) (SF CFloat) (VF (S754_finite false 13421773 (-27))) (VI 0) (SF CFloat) (VF f0);
   check2 SLogicalXnor (SF CFloat) (SI u64) (SF CFloat) (VF f0) (VI 1) (SF CFloat) (VF f0);
   check2 SLogicalXnor (SF CFloat) (SI u64) (SF CFloat) (VF (S754_finite true 13421773 (-28))) (VI 1) (SF CFloat) (VF (S754_finite false 8388608 (-23)));
   check2 SLogicalXnor (SI i32) (SF CFloat) (SI i32) (VI 0) (VF f0) (SI i32) (VI 1);
   check2 SLogicalXnor (SI i32) (SF CFloat) (SI i32) (VI (-1)) (VF f0) (SI i32) (VI 0);
   check2 SLogicalXnor (SI i32) (SF CFloat) (SI i32) (VI 0) (VF (S754_finite false 8388608 (-23))) (SI i32) (VI 0);
   check2 SLogicalXnor (SI i32) (SF CFloat) (SI i32) (VI (-1)) (VF (S754_finite false 8388608 (-23))) (SI i32) (VI 1);
   check2 SLogicalXnor (SF CDouble) (SI u16) (SF CDouble) (VF f0) (VI 0) (SF CDouble) (VF (S754_finite false 4503599627370496 (-52)));
   check2 SLogicalXnor (SF CDouble) (SI u16) (SF CDouble) (VF (S754_finite false 4503599627370496 (-52))) (VI 0) (SF CDouble) (VF f0);
   check2 SLogicalXnor (SF CDouble) (SI u16) (SF CDouble) (VF f0) (VI 1) (SF CDouble) (VF f0);
   check2 SLogicalXnor (SF CDouble) (SI u16) (SF CDouble) (VF (S754_finite false 4503599627370496 (-52))) (VI 1) (SF CDouble) (VF (S754_finite false 4503599627370496 (-52)));
   check2 SLogicalXnor (SI u8) (SF CFloat) (SI u8) (VI 0) (VF f0) (SI i32) (VI 1);
   check2 SLogicalXnor (SI u8) (SF CFloat) (SI u8) (VI 1) (VF f0) (SI i32) (VI 0);
   check2 SLogicalXnor (SI u8) (SF CFloat) (SI u8) (VI 0) (VF (S754_finite false 8388608 (-23))) (SI i32) (VI 0);
   check2 SLogicalXnor (SI u8) (SF CFloat) (SI u8) (VI 1) (VF (S754_finite false 8388608 (-23))) (SI i32) (VI 1);
   check2 SLogicalXnor (SI CBool) (SF CFloat) (SI CBool) (VI 0) (VF f0) (SI CBool) (VI 1);
   check2 SLogicalXnor (SI CBool) (SF CFloat) (SI CBool) (VI 1) (VF f0) (SI CBool) (VI 0);
   check2 SLogicalXnor (SI CBool) (SF CFloat) (SI CBool) (VI 0) (VF (S754_finite false 8388608 (-23))) (SI CBool) (VI 0);
   check2 SLogicalXnor (SI CBool) (SF CFloat) (SI CBool) (VI 1) (VF (S754_finite false 8388608 (-23))) (SI CBool) (VI 1) ].
Proof. vm_compute. reflexivity. Qed.

(** test_algebra_binary.cpp:53-80 *)
Example binary_misc_math_tests : all_true
 [ check2 SEqual (SF CDouble) (SF CDouble) (SI CBool) (VI 1) (VI 1) (SI CBool) (VI 1);
   check2 SEqual (SF CDouble) (SF CDouble) (SI CBool) (VI 12648430) (VI 51966) (SI CBool) (VI 0);
   check2 SNotEqual (SF CDouble) (SF CDouble) (SI CBool) (VI 1) (VI 1) (SI CBool) (VI 0);
   check2 SNotEqual (SF CDouble) (SF CDouble) (SI CBool) (VI 12648430) (VI 51966) (SI CBool) (VI 1);
   check2 SGreaterThan (SF CDouble) (SF CDouble) (SI CBool) (VI 1) (VI 2) (SI CBool) (VI 0);
   check2 SLessThan (SF CDouble) (SF CDouble) (SI CBool) (VI 1) (VI 2) (SI CBool) (VI 1);
   check2 SGreaterEqual (SF CDouble) (SF CDouble) (SI CBool) (VI 1) (VI 2) (SI CBool) (VI 0);
   check2 SLessEqual (SF CDouble) (SF CDouble) (SI CBool) (VI 1) (VI 1) (SI CBool) (VI 1);
   check2 SFirst (SF CDouble) (SF CDouble) (SF CDouble) (VI 5) (VI 1337) (SI i32) (VI 5);
   check2 SSecond (SF CDouble) (SF CDouble) (SF CDouble) (VI 5) (VI 1337) (SI i32) (VI 1337);
   check2 SMin (SF CDouble) (SF CDouble) (SF CDouble) (VI 0) (VI 1000000) (SI i32) (VI 0);
   check2 SMin (SF CDouble) (SF CDouble) (SF CDouble) (VI (-5)) (VI 0) (SI i32) (VI (-5));
   check2 SMin (SF CDouble) (SF CDouble) (SF CDouble) (VI 7) (VI 3) (SI i32) (VI 3);
   check2 SMax (SF CDouble) (SF CDouble) (SF CDouble) (VI 0) (VI 1000000) (SI i32) (VI 1000000);
   check2 SMax (SF CDouble) (SF CDouble) (SF CDouble) (VI (-5)) (VI 0) (SI i32) (VI 0);
   check2 SMax (SF CDouble) (SF CDouble) (SF CDouble) (VI 7) (VI 3) (SI i32) (VI 7);
   check2 SPlus (SF CDouble) (SF CDouble) (SF CDouble) (VI 2) (VI 6) (SI i32) (VI 8);
   check2 SMinus (SF CDouble) (SF CDouble) (SF CDouble) (VI 2) (VI 6) (SI i32) (VI (-4));
   check2 STimes (SF CDouble) (SF CDouble) (SF CDouble) (VI 3) (VI 10) (SI i32) (VI 30);
   check2 SDiv (SF CDouble) (SF CDouble) (SF CDouble) (VI 500) (VI 5) (SI i32) (VI 100) ].
Proof. vm_compute. reflexivity. Qed.

(** test_algebra_binary.cpp:87-143 *)
Example binary_equal_same_domain_test : all_true
 [ check2 SEqual (SF CDouble) (SF CDouble) (SI CBool) (VF f0) (VF f0) (SI CBool) (VI 1);
   check2 SEqual (SF CDouble) (SF CDouble) (SI CBool) (VF (S754_finite false 4503599627370496 (-52))) (VF f0) (SI CBool) (VI 0);
   check2 SEqual (SF CDouble) (SF CDouble) (SI CBool) (VF f0) (VF (S754_finite false 4503599627370496 (-52))) (SI CBool) (VI 0);
   check2 SEqual (SF CDouble) (SF CDouble) (SI CBool) (VF (S754_finite false 4503599627370496 (-52))) (VF (S754_finite false 4503599627370496 (-52))) (SI CBool) (VI 1);
   check2 SEqual (SF CFloat) (SF CFloat) (SI CBool) (VF f0) (VF f0) (SI CBool) (VI 1);
   check2 SEqual (SF CFloat) (SF CFloat) (SI CBool) (VF (S754_finite false 8388608 (-23))) (VF f0) (SI CBool) (VI 0);
   check2 SEqual (SF CFloat) (SF CFloat) (SI CBool) (VF f0) (VF (S754_finite false 8388608 (-23))) (SI CBool) (VI 0);
   check2 SEqual (SF CFloat) (SF CFloat) (SI CBool) (VF (S754_finite false 8388608 (-23))) (VF (S754_finite false 8388608 (-23))) (SI CBool) (VI 1);
   check2 SEqual (SI u64) (SI u64) (SI CBool) (VI 0) (VI 0) (SI CBool) (VI 1);
   check2 SEqual (SI u64) (SI u64) (SI CBool) (VI 1) (VI 0) (SI CBool) (VI 0);
   check2 SEqual (SI u64) (SI u64) (SI CBool) (VI 0) (VI 1) (SI CBool) (VI 0);
   check2 SEqual (SI u64) (SI u64) (SI CBool) (VI 1) (VI 1) (SI CBool) (VI 1);
   check2 SEqual (SI u32) (SI u32) (SI CBool) (VI 0) (VI 0) (SI CBool) (VI 1);
   check2 SEqual (SI u32) (SI u32) (SI CBool) (VI 1) (VI 0) (SI CBool) (VI 0);
   check2 SEqual (SI u32) (SI u32) (SI CBool) (VI 0) (VI 1) (SI CBool) (VI 0);
   check2 SEqual (SI u32) (SI u32) (SI CBool) (VI 1) (VI 1) (SI CBool) (VI 1);
   check2 SEqual (SI u16) (SI u16) (SI CBool) (VI 0) (VI 0) (SI CBool) (VI 1);
   check2 SEqual (SI u16) (SI u16) (SI CBool) (VI 1) (VI 0) (SI CBool) (VI 0);
   check2 SEqual (SI u16) (SI u16) (SI CBool) (VI 0) (VI 1) (SI CBool) (VI 0);
   check2 SEqual (SI u16) (SI u16) (SI CBool) (VI 1) (VI 1) (SI CBool) (VI 1);
   check2 SEqual (SI u8) (SI u8) (SI CBool) (VI 0) (VI 0) (SI CBool) (VI 1);
   check2 SEqual (SI u8) (SI u8) (SI CBool) (VI 1) (VI 0) (SI CBool) (VI 0);
   check2 SEqual (SI u8) (SI u8) (SI CBool) (VI 0) (VI 1) (SI CBool) (VI 0);
   check2 SEqual (SI u8) (SI u8) (SI CBool) (VI 1) (VI 1) (SI CBool) (VI 1);
   check2 SEqual (SI i64) (SI i64) (SI CBool) (VI 0) (VI 0) (SI CBool) (VI 1);
   check2 SEqual (SI i64) (SI i64) (SI CBool) (VI (-1)) (VI 0) (SI CBool) (VI 0);
   check2 SEqual (SI i64) (SI i64) (SI CBool) (VI 0) (VI (-1)) (SI CBool) (VI 0);
   check2 SEqual (SI i64) (SI i64) (SI CBool) (VI (-1)) (VI (-1)) (SI CBool) (VI 1);
   check2 SEqual (SI i32) (SI i32) (SI CBool) (VI 0) (VI 0) (SI CBool) (VI 1);
   check2 SEqual (SI i32) (SI i32) (SI CBool) (VI (-1)) (VI 0) (SI CBool) (VI 0);
   check2 SEqual (SI i32) (SI i32) (SI CBool) (VI 0) (VI (-1)) (SI CBool) (VI 0);
   check2 SEqual (SI i32) (SI i32) (SI CBool) (VI (-1)) (VI (-1)) (SI CBool) (VI 1);
   check2 SEqual (SI i16) (SI i16) (SI CBool) (VI 0) (VI 0) (SI CBool) (VI 1);
   check2 SEqual (SI i16) (SI i16) (SI CBool) (VI (-1)) (VI 0) (SI CBool) (VI 0);
   check2 SEqual (SI i16) (SI i16) (SI CBool) (VI 0) (VI (-1)) (SI CBool) (VI 0);
   check2 SEqual (SI i16) (SI i16) (SI CBool) (VI (-1)) (VI (-1)) (SI CBool) (VI 1);
   check2 SEqual (SI i8) (SI i8) (SI CBool) (VI 0) (VI 0) (SI CBool) (VI 1);
   check2 SEqual (SI i8) (SI i8) (SI CBool) (VI (-1)) (VI 0) (SI CBool) (VI 0);
   check2 SEqual (SI i8) (SI i8) (SI CBool) (VI 0) (VI (-1)) (SI CBool) (VI 0);
   check2 SEqual (SI i8) (SI i8) (SI CBool) (VI (-1)) (VI (-1)) (SI CBool) (VI 1);
   check2 SEqual (SI CBool) (SI CBool) (SI CBool) (VI 0) (VI 0) (SI CBool) (VI 1);
   check2 SEqual (SI CBool) (SI CBool) (SI CBool) (VI 0) (VI 1) (SI CBool) (VI 0);
   check2 SEqual (SI CBool) (SI CBool) (SI CBool) (VI 1) (VI 0) (SI CBool) (VI 0);
   check2 SEqual (SI CBool) (SI CBool) (SI CBool) (VI 1) (VI 1) (SI CBool) (VI 1) ].
Proof. vm_compute. reflexivity. Qed.

(** test_algebra_binary.cpp:146-202 *)
Example binary_equal_different_domain_test : all_true
 [ check2 SEqual (SF CDouble) (SI CBool) (SI CBool) (VF f0) (VF f0) (SI CBool) (VI 1);
   check2 SEqual (SF CDouble) (SI i32) (SI CBool) (VF (S754_finite false 4503599627370496 (-52))) (VF f0) (SI CBool) (VI 0);
   check2 SEqual (SF CDouble) (SI u64) (SI CBool) (VF f0) (VF (S754_finite false 4503599627370496 (-52))) (SI CBool) (VI 0);
   check2 SEqual (SF CDouble) (SF CFloat) (SI CBool) (VF (S754_finite false 4503599627370496 (-52))) (VF (S754_finite false 8388608 (-23))) (SI CBool) (VI 1);
   check2 SEqual (SF CFloat) (SI CBool) (SI CBool) (VF f0) (VI 0) (SI CBool) (VI 1);
   check2 SEqual (SF CFloat) (SF CDouble) (SI CBool) (VF (S754_finite false 8388608 (-23))) (VF f0) (SI CBool) (VI 0);
   check2 SEqual (SF CFloat) (SI u64) (SI CBool) (VF f0) (VI 1) (SI CBool) (VI 0);
   check2 SEqual (SF CFloat) (SI i32) (SI CBool) (VF (S754_finite false 8388608 (-23))) (VI 1) (SI CBool) (VI 1);
   check2 SEqual (SI u64) (SI CBool) (SI CBool) (VI 0) (VI 0) (SI CBool) (VI 1);
   check2 SEqual (SI u64) (SI i32) (SI CBool) (VI 1) (VI 0) (SI CBool) (VI 0);
   check2 SEqual (SI u64) (SI u64) (SI CBool) (VI 0) (VI 1) (SI CBool) (VI 0);
   check2 SEqual (SI u64) (SF CFloat) (SI CBool) (VI 1) (VF (S754_finite false 8388608 (-23))) (SI CBool) (VI 1);
   check2 SEqual (SI u32) (SI CBool) (SI CBool) (VI 0) (VI 0) (SI CBool) (VI 1);
   check2 SEqual (SI u32) (SI i32) (SI CBool) (VI 1) (VI 0) (SI CBool) (VI 0);
   check2 SEqual (SI u32) (SI u64) (SI CBool) (VI 0) (VI 1) (SI CBool) (VI 0);
   check2 SEqual (SI u32) (SF CFloat) (SI CBool) (VI 1) (VI 1) (SI CBool) (VI 1);
   check2 SEqual (SI u16) (SI CBool) (SI CBool) (VI 0) (VI 0) (SI CBool) (VI 1);
   check2 SEqual (SI u16) (SI i32) (SI CBool) (VI 1) (VI 0) (SI CBool) (VI 0);
   check2 SEqual (SI u16) (SI u64) (SI CBool) (VI 0) (VI 1) (SI CBool) (VI 0);
   check2 SEqual (SI u16) (SF CFloat) (SI CBool) (VI 1) (VF (S754_finite false 8388608 (-23))) (SI CBool) (VI 1);
   check2 SEqual (SI u8) (SI CBool) (SI CBool) (VI 0) (VI 0) (SI CBool) (VI 1);
   check2 SEqual (SI u8) (SI i32) (SI CBool) (VI 1) (VI 0) (SI CBool) (VI 0);
   check2 SEqual (SI u8) (SI u64) (SI CBool) (VI 0) (VI 1) (SI CBool) (VI 0);
   check2 SEqual (SI u8) (SF CFloat) (SI CBool) (VI 1) (VF (S754_finite false 8388608 (-23))) (SI CBool) (VI 1);
   check2 SEqual (SI i64) (SI CBool) (SI CBool) (VI 0) (VI 0) (SI CBool) (VI 1);
   check2 SEqual (SI i64) (SI u32) (SI CBool) (VI (-1)) (VI 0) (SI CBool) (VI 0);
   check2 SEqual (SI i64) (SI i64) (SI CBool) (VI 0) (VI (-1)) (SI CBool) (VI 0);
   check2 SEqual (SI i64) (SF CFloat) (SI CBool) (VI (-1)) (VF (S754_finite true 8388608 (-23))) (SI CBool) (VI 1);
   check2 SEqual (SI i32) (SI CBool) (SI CBool) (VI 0) (VI 0) (SI CBool) (VI 1);
   check2 SEqual (SI i32) (SI u32) (SI CBool) (VI (-1)) (VI 0) (SI CBool) (VI 0);
   check2 SEqual (SI i32) (SI i64) (SI CBool) (VI 0) (VI (-1)) (SI CBool) (VI 0);
   check2 SEqual (SI i32) (SF CFloat) (SI CBool) (VI (-1)) (VF (S754_finite true 8388608 (-23))) (SI CBool) (VI 1);
   check2 SEqual (SI i16) (SI CBool) (SI CBool) (VI 0) (VI 0) (SI CBool) (VI 1);
   check2 SEqual (SI i16) (SI u32) (SI CBool) (VI (-1)) (VI 0) (SI CBool) (VI 0);
   check2 SEqual (SI i16) (SI i64) (SI CBool) (VI 0) (VI (-1)) (SI CBool) (VI 0);
   check2 SEqual (SI i16) (SF CFloat) (SI CBool) (VI (-1)) (VF (S754_finite true 8388608 (-23))) (SI CBool) (VI 1);
   check2 SEqual (SI i8) (SI CBool) (SI CBool) (VI 0) (VI 0) (SI CBool) (VI 1);
   check2 SEqual (SI i8) (SI u32) (SI CBool) (VI (-1)) (VI 0) (SI CBool) (VI 0);
   check2 SEqual (SI i8) (SI i64) (SI CBool) (VI 0) (VI (-1)) (SI CBool) (VI 0);
   check2 SEqual (SI i8) (SF CFloat) (SI CBool) (VI (-1)) (VF (S754_finite true 8388608 (-23))) (SI CBool) (VI 1);
   check2 SEqual (SI CBool) (SI i8) (SI CBool) (VI 0) (VI 0) (SI CBool) (VI 1);
   check2 SEqual (SI CBool) (SI i32) (SI CBool) (VI 0) (VI 1) (SI CBool) (VI 0);
   check2 SEqual (SI CBool) (SI u64) (SI CBool) (VI 1) (VI 0) (SI CBool) (VI 0);
   check2 SEqual (SI CBool) (SF CFloat) (SI CBool) (VI 1) (VF (S754_finite false 8388608 (-23))) (SI CBool) (VI 1) ].
Proof. vm_compute. reflexivity. Qed.

(** test_algebra_binary.cpp:205-261 *)
Example binary_not_equal_same_domain_test : all_true
 [ check2 SNotEqual (SF CDouble) (SF CDouble) (SI CBool) (VF f0) (VF f0) (SI CBool) (VI 0);
   check2 SNotEqual (SF CDouble) (SF CDouble) (SI CBool) (VF (S754_finite false 4503599627370496 (-52))) (VF f0) (SI CBool) (VI 1);
   check2 SNotEqual (SF CDouble) (SF CDouble) (SI CBool) (VF f0) (VF (S754_finite false 4503599627370496 (-52))) (SI CBool) (VI 1);
   check2 SNotEqual (SF CDouble) (SF CDouble) (SI CBool) (VF (S754_finite false 4503599627370496 (-52))) (VF (S754_finite false 4503599627370496 (-52))) (SI CBool) (VI 0);
   check2 SNotEqual (SF CFloat) (SF CFloat) (SI CBool) (VF f0) (VF f0) (SI CBool) (VI 0);
   check2 SNotEqual (SF CFloat) (SF CFloat) (SI CBool) (VF (S754_finite false 8388608 (-23))) (VF f0) (SI CBool) (VI 1);
   check2 SNotEqual (SF CFloat) (SF CFloat) (SI CBool) (VF f0) (VF (S754_finite false 8388608 (-23))) (SI CBool) (VI 1);
   check2 SNotEqual (SF CFloat) (SF CFloat) (SI CBool) (VF (S754_finite false 8388608 (-23))) (VF (S754_finite false 8388608 (-23))) (SI CBool) (VI 0);
   check2 SNotEqual (SI u64) (SI u64) (SI CBool) (VI 0) (VI 0) (SI CBool) (VI 0);
   check2 SNotEqual (SI u64) (SI u64) (SI CBool) (VI 1) (VI 0) (SI CBool) (VI 1);
   check2 SNotEqual (SI u64) (SI u64) (SI CBool) (VI 0) (VI 1) (SI CBool) (VI 1);
   check2 SNotEqual (SI u64) (SI u64) (SI CBool) (VI 1) (VI 1) (SI CBool) (VI 0);
   check2 SNotEqual (SI u32) (SI u32) (SI CBool) (VI 0) (VI 0) (SI CBool) (VI 0);
   check2 SNotEqual (SI u32) (SI u32) (SI CBool) (VI 1) (VI 0) (SI CBool) (VI 1);
   check2 SNotEqual (SI u32) (SI u32) (SI CBool) (VI 0) (VI 1) (SI CBool) (VI 1);
   check2 SNotEqual (SI u32) (SI u32) (SI CBool) (VI 1) (VI 1) (SI CBool) (VI 0);
   check2 SNotEqual (SI u16) (SI u16) (SI CBool) (VI 0) (VI 0) (SI CBool) (VI 0);
   check2 SNotEqual (SI u16) (SI u16) (SI CBool) (VI 1) (VI 0) (SI CBool) (VI 1);
   check2 SNotEqual (SI u16) (SI u16) (SI CBool) (VI 0) (VI 1) (SI CBool) (VI 1);
   check2 SNotEqual (SI u16) (SI u16) (SI CBool) (VI 1) (VI 1) (SI CBool) (VI 0);
   check2 SNotEqual (SI u8) (SI u8) (SI CBool) (VI 0) (VI 0) (SI CBool) (VI 0);
   check2 SNotEqual (SI u8) (SI u8) (SI CBool) (VI 1) (VI 0) (SI CBool) (VI 1);
   check2 SNotEqual (SI u8) (SI u8) (SI CBool) (VI 0) (VI 1) (SI CBool) (VI 1);
   check2 SNotEqual (SI u8) (SI u8) (SI CBool) (VI 1) (VI 1) (SI CBool) (VI 0);
   check2 SNotEqual (SI i64) (SI i64) (SI CBool) (VI 0) (VI 0) (SI CBool) (VI 0);
   check2 SNotEqual (SI i64) (SI i64) (SI CBool) (VI (-1)) (VI 0) (SI CBool) (VI 1);
   check2 SNotEqual (SI i64) (SI i64) (SI CBool) (VI 0) (VI (-1)) (SI CBool) (VI 1);
   check2 SNotEqual (SI i64) (SI i64) (SI CBool) (VI (-1)) (VI (-1)) (SI CBool) (VI 0);
   check2 SNotEqual (SI i32) (SI i32) (SI CBool) (VI 0) (VI 0) (SI CBool) (VI 0);
   check2 SNotEqual (SI i32) (SI i32) (SI CBool) (VI (-1)) (VI 0) (SI CBool) (VI 1);
   check2 SNotEqual (SI i32) (SI i32) (SI CBool) (VI 0) (VI (-1)) (SI CBool) (VI 1);
   check2 SNotEqual (SI i32) (SI i32) (SI CBool) (VI (-1)) (VI (-1)) (SI CBool) (VI 0);
   check2 SNotEqual (SI i16) (SI i16) (SI CBool) (VI 0) (VI 0) (SI CBool) (VI 0);
   check2 SNotEqual (SI i16) (SI i16) (SI CBool) (VI (-1)) (VI 0) (SI CBool) (VI 1);
   check2 SNotEqual (SI i16) (SI i16) (SI CBool) (VI 0) (VI (-1)) (SI CBool) (VI 1);
   check2 SNotEqual (SI i16) (SI i16) (SI CBool) (VI (-1)) (VI (-1)) (SI CBool) (VI 0);
   check2 SNotEqual (SI i8) (SI i8) (SI CBool) (VI 0) (VI 0) (SI CBool) (VI 0);
   check2 SNotEqual (SI i8) (SI i8) (SI CBool) (VI (-1)) (VI 0) (SI CBool) (VI 1);
   check2 SNotEqual (SI i8) (SI i8) (SI CBool) (VI 0) (VI (-1)) (SI CBool) (VI 1);
   check2 SNotEqual (SI i8) (SI i8) (SI CBool) (VI (-1)) (VI (-1)) (SI CBool) (VI 0);
   check2 SNotEqual (SI CBool) (SI CBool) (SI CBool) (VI 0) (VI 0) (SI CBool) (VI 0);
   check2 SNotEqual (SI CBool) (SI CBool) (SI CBool) (VI 0) (VI 1) (SI CBool) (VI 1);
   check2 SNotEqual (SI CBool) (SI CBool) (SI CBool) (VI 1) (VI 0) (SI CBool) (VI 1);
   check2 SNotEqual (SI CBool) (SI CBool) (SI CBool) (VI 1) (VI 1) (SI CBool) (VI 0) ].
Proof. vm_compute. reflexivity. Qed.

(** test_algebra_binary.cpp:264-320 *)
Example binary_not_equal_different_domain_test : all_true
 [ check2 SNotEqual (SF CDouble) (SI CBool) (SI CBool) (VF f0) (VF f0) (SI CBool) (VI 0);
   check2 SNotEqual (SF CDouble) (SI i32) (SI CBool) (VF (S754_finite false 4503599627370496 (-52))) (VF f0) (SI CBool) (VI 1);
   check2 SNotEqual (SF CDouble) (SI u64) (SI CBool) (VF f0) (VF (S754_finite false 4503599627370496 (-52))) (SI CBool) (VI 1);
   check2 SNotEqual (SF CDouble) (SF CFloat) (SI CBool) (VF (S754_finite false 4503599627370496 (-52))) (VF (S754_finite false 8388608 (-23))) (SI CBool) (VI 0);
   check2 SNotEqual (SF CFloat) (SI CBool) (SI CBool) (VF f0) (VI 0) (SI CBool) (VI 0);
   check2 SNotEqual (SF CFloat) (SF CDouble) (SI CBool) (VF (S754_finite false 8388608 (-23))) (VF f0) (SI CBool) (VI 1);
   check2 SNotEqual (SF CFloat) (SI u64) (SI CBool) (VF f0) (VI 1) (SI CBool) (VI 1);
   check2 SNotEqual (SF CFloat) (SI i32) (SI CBool) (VF (S754_finite false 8388608 (-23))) (VI 1) (SI CBool) (VI 0);
   check2 SNotEqual (SI u64) (SI CBool) (SI CBool) (VI 0) (VI 0) (SI CBool) (VI 0);
   check2 SNotEqual (SI u64) (SI i32) (SI CBool) (VI 1) (VI 0) (SI CBool) (VI 1);
   check2 SNotEqual (SI u64) (SI u64) (SI CBool) (VI 0) (VI 1) (SI CBool) (VI 1);
   check2 SNotEqual (SI u64) (SF CFloat) (SI CBool) (VI 1) (VF (S754_finite false 8388608 (-23))) (SI CBool) (VI 0);
   check2 SNotEqual (SI u32) (SI CBool) (SI CBool) (VI 0) (VI 0) (SI CBool) (VI 0);
   check2 SNotEqual (SI u32) (SI i32) (SI CBool) (VI 1) (VI 0) (SI CBool) (VI 1);
   check2 SNotEqual (SI u32) (SI u64) (SI CBool) (VI 0) (VI 1) (SI CBool) (VI 1);
   check2 SNotEqual (SI u32) (SF CFloat) (SI CBool) (VI 1) (VI 1) (SI CBool) (VI 0);
   check2 SNotEqual (SI u16) (SI CBool) (SI CBool) (VI 0) (VI 0) (SI CBool) (VI 0);
   check2 SNotEqual (SI u16) (SI i32) (SI CBool) (VI 1) (VI 0) (SI CBool) (VI 1);
   check2 SNotEqual (SI u16) (SI u64) (SI CBool) (VI 0) (VI 1) (SI CBool) (VI 1);
   check2 SNotEqual (SI u16) (SF CFloat) (SI CBool) (VI 1) (VF (S754_finite false 8388608 (-23))) (SI CBool) (VI 0);
   check2 SNotEqual (SI u8) (SI CBool) (SI CBool) (VI 0) (VI 0) (SI CBool) (VI 0);
   check2 SNotEqual (SI u8) (SI i32) (SI CBool) (VI 1) (VI 0) (SI CBool) (VI 1);
   check2 SNotEqual (SI u8) (SI u64) (SI CBool) (VI 0) (VI 1) (SI CBool) (VI 1);
   check2 SNotEqual (SI u8) (SF CFloat) (SI CBool) (VI 1) (VF (S754_finite false 8388608 (-23))) (SI CBool) (VI 0);
   check2 SNotEqual (SI i64) (SI CBool) (SI CBool) (VI 0) (VI 0) (SI CBool) (VI 0);
   check2 SNotEqual (SI i64) (SI u32) (SI CBool) (VI (-1)) (VI 0) (SI CBool) (VI 1);
   check2 SNotEqual (SI i64) (SI i64) (SI CBool) (VI 0) (VI (-1)) (SI CBool) (VI 1);
   check2 SNotEqual (SI i64) (SF CFloat) (SI CBool) (VI (-1)) (VF (S754_finite true 8388608 (-23))) (SI CBool) (VI 0);
   check2 SNotEqual (SI i32) (SI CBool) (SI CBool) (VI 0) (VI 0) (SI CBool) (VI 0);
   check2 SNotEqual (SI i32) (SI u32) (SI CBool) (VI (-1)) (VI 0) (SI CBool) (VI 1);
   check2 SNotEqual (SI i32) (SI i64) (SI CBool) (VI 0) (VI (-1)) (SI CBool) (VI 1);
   check2 SNotEqual (SI i32) (SF CFloat) (SI CBool) (VI (-1)) (VF (S754_finite true 8388608 (-23))) (SI CBool) (VI 0);
   check2 SNotEqual (SI i16) (SI CBool) (SI CBool) (VI 0) (VI 0) (SI CBool) (VI 0);
   check2 SNotEqual (SI i16) (SI u32) (SI CBool) (VI (-1)) (VI 0) (SI CBool) (VI 1);
   check2 SNotEqual (SI i16) (SI i64) (SI CBool) (VI 0) (VI (-1)) (SI CBool) (VI 1);
   check2 SNotEqual (SI i16) (SF CFloat) (SI CBool) (VI (-1)) (VF (S754_finite true 8388608 (-23))) (SI CBool) (VI 0);
   check2 SNotEqual (SI i8) (SI CBool) (SI CBool) (VI 0) (VI 0) (SI CBool) (VI 0);
   check2 SNotEqual (SI i8) (SI u32) (SI CBool) (VI (-1)) (VI 0) (SI CBool) (VI 1);
   check2 SNotEqual (SI i8) (SI i64) (SI CBool) (VI 0) (VI (-1)) (SI CBool) (VI 1);
   check2 SNotEqual (SI i8) (SF CFloat) (SI CBool) (VI (-1)) (VF (S754_finite true 8388608 (-23))) (SI CBool) (VI 0);
   check2 SNotEqual (SI CBool) (SI i8) (SI CBool) (VI 0) (VI 0) (SI CBool) (VI 0);
   check2 SNotEqual (SI CBool) (SI i32) (SI CBool) (VI 0) (VI 1) (SI CBool) (VI 1);
   check2 SNotEqual (SI CBool) (SI u64) (SI CBool) (VI 1) (VI 0) (SI CBool) (VI 1);
   check2 SNotEqual (SI CBool) (SF CFloat) (SI CBool) (VI 1) (VF (S754_finite false 8388608 (-23))) (SI CBool) (VI 0) ].
Proof. vm_compute. reflexivity. Qed.

(** test_algebra_binary.cpp:323-379 *)
Example binary_greater_than_same_domain_test : all_true
 [ check2 SGreaterThan (SF CDouble) (SF CDouble) (SI CBool) (VF f0) (VF f0) (SI CBool) (VI 0);
   check2 SGreaterThan (SF CDouble) (SF CDouble) (SI CBool) (VF (S754_finite false 4503599627370496 (-52))) (VF f0) (SI CBool) (VI 1);
   check2 SGreaterThan (SF CDouble) (SF CDouble) (SI CBool) (VF f0) (VF (S754_finite false 4503599627370496 (-52))) (SI CBool) (VI 0);
   check2 SGreaterThan (SF CDouble) (SF CDouble) (SI CBool) (VF (S754_finite false 4503599627370496 (-52))) (VF (S754_finite false 4503599627370496 (-52))) (SI CBool) (VI 0);
   check2 SGreaterThan (SF CFloat) (SF CFloat) (SI CBool) (VF f0) (VF f0) (SI CBool) (VI 0);
   check2 SGreaterThan (SF CFloat) (SF CFloat) (SI CBool) (VF (S754_finite false 8388608 (-23))) (VF f0) (SI CBool) (VI 1);
   check2 SGreaterThan (SF CFloat) (SF CFloat) (SI CBool) (VF f0) (VF (S754_finite false 8388608 (-23))) (SI CBool) (VI 0);
   check2 SGreaterThan (SF CFloat) (SF CFloat) (SI CBool) (VF (S754_finite false 8388608 (-23))) (VF (S754_finite false 8388608 (-23))) (SI CBool) (VI 0);
   check2 SGreaterThan (SI u64) (SI u64) (SI CBool) (VI 0) (VI 0) (SI CBool) (VI 0);
   check2 SGreaterThan (SI u64) (SI u64) (SI CBool) (VI 1) (VI 0) (SI CBool) (VI 1);
   check2 SGreaterThan (SI u64) (SI u64) (SI CBool) (VI 0) (VI 1) (SI CBool) (VI 0);
   check2 SGreaterThan (SI u64) (SI u64) (SI CBool) (VI 1) (VI 1) (SI CBool) (VI 0);
   check2 SGreaterThan (SI u32) (SI u32) (SI CBool) (VI 0) (VI 0) (SI CBool) (VI 0);
   check2 SGreaterThan (SI u32) (SI u32) (SI CBool) (VI 1) (VI 0) (SI CBool) (VI 1);
   check2 SGreaterThan (SI u32) (SI u32) (SI CBool) (VI 0) (VI 1) (SI CBool) (VI 0);
   check2 SGreaterThan (SI u32) (SI u32) (SI CBool) (VI 1) (VI 1) (SI CBool) (VI 0);
   check2 SGreaterThan (SI u16) (SI u16) (SI CBool) (VI 0) (VI 0) (SI CBool) (VI 0);
   check2 SGreaterThan (SI u16) (SI u16) (SI CBool) (VI 1) (VI 0) (SI CBool) (VI 1);
   check2 SGreaterThan (SI u16) (SI u16) (SI CBool) (VI 0) (VI 1) (SI CBool) (VI 0);
   check2 SGreaterThan (SI u16) (SI u16) (SI CBool) (VI 1) (VI 1) (SI CBool) (VI 0);
   check2 SGreaterThan (SI u8) (SI u8) (SI CBool) (VI 0) (VI 0) (SI CBool) (VI 0);
   check2 SGreaterThan (SI u8) (SI u8) (SI CBool) (VI 1) (VI 0) (SI CBool) (VI 1);
   check2 SGreaterThan (SI u8) (SI u8) (SI CBool) (VI 0) (VI 1) (SI CBool) (VI 0);
   check2 SGreaterThan (SI u8) (SI u8) (SI CBool) (VI 1) (VI 1) (SI CBool) (VI 0);
   check2 SGreaterThan (SI i64) (SI i64) (SI CBool) (VI 0) (VI 0) (SI CBool) (VI 0);
   check2 SGreaterThan (SI i64) (SI i64) (SI CBool) (VI (-1)) (VI 0) (SI CBool) (VI 0);
   check2 SGreaterThan (SI i64) (SI i64) (SI CBool) (VI 0) (VI (-1)) (SI CBool) (VI 1);
   check2 SGreaterThan (SI i64) (SI i64) (SI CBool) (VI (-1)) (VI (-1)) (SI CBool) (VI 0);
   check2 SGreaterThan (SI i32) (SI i32) (SI CBool) (VI 0) (VI 0) (SI CBool) (VI 0);
   check2 SGreaterThan (SI i32) (SI i32) (SI CBool) (VI (-1)) (VI 0) (SI CBool) (VI 0);
   check2 SGreaterThan (SI i32) (SI i32) (SI CBool) (VI 0) (VI (-1)) (SI CBool) (VI 1);
   check2 SGreaterThan (SI i32) (SI i32) (SI CBool) (VI (-1)) (VI (-1)) (SI CBool) (VI 0);
   check2 SGreaterThan (SI i16) (SI i16) (SI CBool) (VI 0) (VI 0) (SI CBool) (VI 0);
   check2 SGreaterThan (SI i16) (SI i16) (SI CBool) (VI (-1)) (VI 0) (SI CBool) (VI 0);
   check2 SGreaterThan (SI i16) (SI i16) (SI CBool) (VI 0) (VI (-1)) (SI CBool) (VI 1);
   check2 SGreaterThan (SI i16) (SI i16) (SI CBool) (VI (-1)) (VI (-1)) (SI CBool) (VI 0);
   check2 SGreaterThan (SI i8) (SI i8) (SI CBool) (VI 0) (VI 0) (SI CBool) (VI 0);
   check2 SGreaterThan (SI i8) (SI i8) (SI CBool) (VI (-1)) (VI 0) (SI CBool) (VI 0);
   check2 SGreaterThan (SI i8) (SI i8) (SI CBool) (VI 0) (VI (-1)) (SI CBool) (VI 1);
   check2 SGreaterThan (SI i8) (SI i8) (SI CBool) (VI (-1)) (VI (-1)) (SI CBool) (VI 0);
   check2 SGreaterThan (SI CBool) (SI CBool) (SI CBool) (VI 0) (VI 0) (SI CBool) (VI 0);
   check2 SGreaterThan (SI CBool) (SI CBool) (SI CBool) (VI 0) (VI 1) (SI CBool) (VI 0);
   check2 SGreaterThan (SI CBool) (SI CBool) (SI CBool) (VI 1) (VI 0) (SI CBool) (VI 1);
   check2 SGreaterThan (SI CBool) (SI CBool) (SI CBool) (VI 1) (VI 1) (SI CBool) (VI 0) ].
Proof. vm_compute. reflexivity. Qed.

(** test_algebra_binary.cpp:382-441 *)
Example binary_greater_than_different_domain_test : all_true
 [ check2 SGreaterThan (SF CDouble) (SI CBool) (SI CBool) (VF f0) (VF f0) (SI CBool) (VI 0);
   check2 SGreaterThan (SF CDouble) (SI i32) (SI CBool) (VF (S754_finite false 4503599627370496 (-52))) (VF f0) (SI CBool) (VI 1);
   check2 SGreaterThan (SF CDouble) (SI u64) (SI CBool) (VF f0) (VF (S754_finite false 4503599627370496 (-52))) (SI CBool) (VI 0);
   check2 SGreaterThan (SF CDouble) (SF CFloat) (SI CBool) (VF (S754_finite false 4503599627370496 (-52))) (VF (S754_finite false 8388608 (-23))) (SI CBool) (VI 0);
   check2 SGreaterThan (SF CFloat) (SI CBool) (SI CBool) (VF f0) (VI 0) (SI CBool) (VI 0);
   check2 SGreaterThan (SF CFloat) (SF CDouble) (SI CBool) (VF (S754_finite false 8388608 (-23))) (VF f0) (SI CBool) (VI 1);
   check2 SGreaterThan (SF CFloat) (SI u64) (SI CBool) (VF f0) (VI 1) (SI CBool) (VI 0);
   check2 SGreaterThan (SF CFloat) (SI i32) (SI CBool) (VF (S754_finite false 8388608 (-23))) (VI 1) (SI CBool) (VI 0);
   check2 SGreaterThan (SI u64) (SI CBool) (SI CBool) (VI 0) (VI 0) (SI CBool) (VI 0);
   check2 SGreaterThan (SI u64) (SI i32) (SI CBool) (VI 1) (VI 0) (SI CBool) (VI 1);
   check2 SGreaterThan (SI u64) (SI u64) (SI CBool) (VI 0) (VI 1) (SI CBool) (VI 0);
   check2 SGreaterThan (SI u64) (SF CFloat) (SI CBool) (VI 1) (VF (S754_finite false 8388608 (-23))) (SI CBool) (VI 0);
   check2 SGreaterThan (SI u32) (SI CBool) (SI CBool) (VI 0) (VI 0) (SI CBool) (VI 0);
   check2 SGreaterThan (SI u32) (SI i32) (SI CBool) (VI 1) (VI 0) (SI CBool) (VI 1);
   check2 SGreaterThan (SI u32) (SI u64) (SI CBool) (VI 0) (VI 1) (SI CBool) (VI 0);
   check2 SGreaterThan (SI u32) (SF CFloat) (SI CBool) (VI 1) (VI 1) (SI CBool) (VI 0);
   check2 SGreaterThan (SI u16) (SI CBool) (SI CBool) (VI 0) (VI 0) (SI CBool) (VI 0);
   check2 SGreaterThan (SI u16) (SI i32) (SI CBool) (VI 1) (VI 0) (SI CBool) (VI 1);
   check2 SGreaterThan (SI u16) (SI u64) (SI CBool) (VI 0) (VI 1) (SI CBool) (VI 0);
   check2 SGreaterThan (SI u16) (SF CFloat) (SI CBool) (VI 1) (VF (S754_finite false 8388608 (-23))) (SI CBool) (VI 0);
   check2 SGreaterThan (SI u8) (SI CBool) (SI CBool) (VI 0) (VI 0) (SI CBool) (VI 0);
   check2 SGreaterThan (SI u8) (SI i32) (SI CBool) (VI 1) (VI 0) (SI CBool) (VI 1);
   check2 SGreaterThan (SI u8) (SI u64) (SI CBool) (VI 0) (VI 1) (SI CBool) (VI 0);
   check2 SGreaterThan (SI u8) (SF CFloat) (SI CBool) (VI 1) (VF (S754_finite false 8388608 (-23))) (SI CBool) (VI 0);
   check2 SGreaterThan (SI i64) (SI CBool) (SI CBool) (VI 0) (VI 0) (SI CBool) (VI 0);
   check2 SGreaterThan (SI i64) (SI u32) (SI CBool) (VI (-1)) (VI 0) (SI CBool) (VI 0);
   check2 SGreaterThan (SI i64) (SI i64) (SI CBool) (VI 0) (VI (-1)) (SI CBool) (VI 1);
   check2 SGreaterThan (SI i64) (SF CFloat) (SI CBool) (VI (-1)) (VF (S754_finite true 8388608 (-23))) (SI CBool) (VI 0);
   check2 SGreaterThan (SI i32) (SI CBool) (SI CBool) (VI 0) (VI 0) (SI CBool) (VI 0);
   check2 SGreaterThan (SI i32) (SI u32) (SI CBool) (VI (-1)) (VI 0) (SI CBool) (VI 1);
   check2 SGreaterThan (SI i32) (SI i64) (SI CBool) (VI 0) (VI (-1)) (SI CBool) (VI 1);
   check2 SGreaterThan (SI i32) (SF CFloat) (SI CBool) (VI (-1)) (VF (S754_finite true 8388608 (-23))) (SI CBool) (VI 0);
   check2 SGreaterThan (SI i16) (SI CBool) (SI CBool) (VI 0) (VI 0) (SI CBool) (VI 0);
   check2 SGreaterThan (SI i16) (SI u32) (SI CBool) (VI (-1)) (VI 0) (SI CBool) (VI 1);
   check2 SGreaterThan (SI i16) (SI i64) (SI CBool) (VI 0) (VI (-1)) (SI CBool) (VI 1);
   check2 SGreaterThan (SI i16) (SF CFloat) (SI CBool) (VI (-1)) (VF (S754_finite true 8388608 (-23))) (SI CBool) (VI 0);
   check2 SGreaterThan (SI i8) (SI CBool) (SI CBool) (VI 0) (VI 0) (SI CBool) (VI 0);
   check2 SGreaterThan (SI i8) (SI u32) (SI CBool) (VI (-1)) (VI 0) (SI CBool) (VI 1);
   check2 SGreaterThan (SI i8) (SI i64) (SI CBool) (VI 0) (VI (-1)) (SI CBool) (VI 1);
   check2 SGreaterThan (SI i8) (SF CFloat) (SI CBool) (VI (-1)) (VF (S754_finite true 8388608 (-23))) (SI CBool) (VI 0);
   check2 SGreaterThan (SI CBool) (SI i8) (SI CBool) (VI 0) (VI 0) (SI CBool) (VI 0);
   check2 SGreaterThan (SI CBool) (SI i32) (SI CBool) (VI 0) (VI 1) (SI CBool) (VI 0);
   check2 SGreaterThan (SI CBool) (SI u64) (SI CBool) (VI 1) (VI 0) (SI CBool) (VI 1);
   check2 SGreaterThan (SI CBool) (SF CFloat) (SI CBool) (VI 1) (VF (S754_finite false 8388608 (-23))) (SI CBool) (VI 0) ].
Proof. vm_compute. reflexivity. Qed.

(** test_algebra_binary.cpp:444-500 *)
Example binary_less_than_same_domain_test : all_true
 [ check2 SLessThan (SF CDouble) (SF CDouble) (SI CBool) (VF f0) (VF f0) (SI CBool) (VI 0);
   check2 SLessThan (SF CDouble) (SF CDouble) (SI CBool) (VF (S754_finite false 4503599627370496 (-52))) (VF f0) (SI CBool) (VI 0);
   check2 SLessThan (SF CDouble) (SF CDouble) (SI CBool) (VF f0) (VF (S754_finite false 4503599627370496 (-52))) (SI CBool) (VI 1);
   check2 SLessThan (SF CDouble) (SF CDouble) (SI CBool) (VF (S754_finite false 4503599627370496 (-52))) (VF (S754_finite false 4503599627370496 (-52))) (SI CBool) (VI 0);
   check2 SLessThan (SF CFloat) (SF CFloat) (SI CBool) (VF f0) (VF f0) (SI CBool) (VI 0);
   check2 SLessThan (SF CFloat) (SF CFloat) (SI CBool) (VF (S754_finite false 8388608 (-23))) (VF f0) (SI CBool) (VI 0);
   check2 SLessThan (SF CFloat) (SF CFloat) (SI CBool) (VF f0) (VF (S754_finite false 8388608 (-23))) (SI CBool) (VI 1);
   check2 SLessThan (SF CFloat) (SF CFloat) (SI CBool) (VF (S754_finite false 8388608 (-23))) (VF (S754_finite false 8388608 (-23))) (SI CBool) (VI 0);
   check2 SLessThan (SI u64) (SI u64) (SI CBool) (VI 0) (VI 0) (SI CBool) (VI 0);
   check2 SLessThan (SI u64) (SI u64) (SI CBool) (VI 1) (VI 0) (SI CBool) (VI 0);
   check2 SLessThan (SI u64) (SI u64) (SI CBool) (VI 0) (VI 1) (SI CBool) (VI 1);
   check2 SLessThan (SI u64) (SI u64) (SI CBool) (VI 1) (VI 1) (SI CBool) (VI 0);
   check2 SLessThan (SI u32) (SI u32) (SI CBool) (VI 0) (VI 0) (SI CBool) (VI 0);
   check2 SLessThan (SI u32) (SI u32) (SI CBool) (VI 1) (VI 0) (SI CBool) (VI 0);
   check2 SLessThan (SI u32) (SI u32) (SI CBool) (VI 0) (VI 1) (SI CBool) (VI 1);
   check2 SLessThan (SI u32) (SI u32) (SI CBool) (VI 1) (VI 1) (SI CBool) (VI 0);
   check2 SLessThan (SI u16) (SI u16) (SI CBool) (VI 0) (VI 0) (SI CBool) (VI 0);
   check2 SLessThan (SI u16) (SI u16) (SI CBool) (VI 1) (VI 0) (SI CBool) (VI 0);
   check2 SLessThan (SI u16) (SI u16) (SI CBool) (VI 0) (VI 1) (SI CBool) (VI 1);
   check2 SLessThan (SI u16) (SI u16) (SI CBool) (VI 1) (VI 1) (SI CBool) (VI 0);
   check2 SLessThan (SI u8) (SI u8) (SI CBool) (VI 0) (VI 0) (SI CBool) (VI 0);
   check2 SLessThan (SI u8) (SI u8) (SI CBool) (VI 1) (VI 0) (SI CBool) (VI 0);
   check2 SLessThan (SI u8) (SI u8) (SI CBool) (VI 0) (VI 1) (SI CBool) (VI 1);
   check2 SLessThan (SI u8) (SI u8) (SI CBool) (VI 1) (VI 1) (SI CBool) (VI 0);
   check2 SLessThan (SI i64) (SI i64) (SI CBool) (VI 0) (VI 0) (SI CBool) (VI 0);
   check2 SLessThan (SI i64) (SI i64) (SI CBool) (VI (-1)) (VI 0) (SI CBool) (VI 1);
   check2 SLessThan (SI i64) (SI i64) (SI CBool) (VI 0) (VI (-1)) (SI CBool) (VI 0);
   check2 SLessThan (SI i64) (SI i64) (SI CBool) (VI (-1)) (VI (-1)) (SI CBool) (VI 0);
   check2 SLessThan (SI i32) (SI i32) (SI CBool) (VI 0) (VI 0) (SI CBool) (VI 0);
   check2 SLessThan (SI i32) (SI i32) (SI CBool) (VI (-1)) (VI 0) (SI CBool) (VI 1);
   check2 SLessThan (SI i32) (SI i32) (SI CBool) (VI 0) (VI (-1)) (SI CBool) (VI 0);
   check2 SLessThan (SI i32) (SI i32) (SI CBool) (VI (-1)) (VI (-1)) (SI CBool) (VI 0);
   check2 SLessThan (SI i16) (SI i16) (SI CBool) (VI 0) (VI 0) (SI CBool) (VI 0);
   check2 SLessThan (SI i16) (SI i16) (SI CBool) (VI (-1)) (VI 0) (SI CBool) (VI 1);
   check2 SLessThan (SI i16) (SI i16) (SI CBool) (VI 0) (VI (-1)) (SI CBool) (VI 0);
   check2 SLessThan (SI i16) (SI i16) (SI CBool) (VI (-1)) (VI (-1)) (SI CBool) (VI 0);
   check2 SLessThan (SI i8) (SI i8) (SI CBool) (VI 0) (VI 0) (SI CBool) (VI 0);
   check2 SLessThan (SI i8) (SI i8) (SI CBool) (VI (-1)) (VI 0) (SI CBool) (VI 1);
   check2 SLessThan (SI i8) (SI i8) (SI CBool) (VI 0) (VI (-1)) (SI CBool) (VI 0);
   check2 SLessThan (SI i8) (SI i8) (SI CBool) (VI (-1)) (VI (-1)) (SI CBool) (VI 0);
   check2 SLessThan (SI CBool) (SI CBool) (SI CBool) (VI 0) (VI 0) (SI CBool) (VI 0);
   check2 SLessThan (SI CBool) (SI CBool) (SI CBool) (VI 0) (VI 1) (SI CBool) (VI 1);
   check2 SLessThan (SI CBool) (SI CBool) (SI CBool) (VI 1) (VI 0) (SI CBool) (VI 0);
   check2 SLessThan (SI CBool) (SI CBool) (SI CBool) (VI 1) (VI 1) (SI CBool) (VI 0) ].
Proof. vm_compute. reflexivity. Qed.

(** test_algebra_binary.cpp:503-562 *)
Example binary_less_than_different_domain_test : all_true
 [ check2 SLessThan (SF CDouble) (SI CBool) (SI CBool) (VF f0) (VF f0) (SI CBool) (VI 0);
   check2 SLessThan (SF CDouble) (SI i32) (SI CBool) (VF (S754_finite false 4503599627370496 (-52))) (VF f0) (SI CBool) (VI 0);
   check2 SLessThan (SF CDouble) (SI u64) (SI CBool) (VF f0) (VF (S754_finite false 4503599627370496 (-52))) (SI CBool) (VI 1);
   check2 SLessThan (SF CDouble) (SF CFloat) (SI CBool) (VF (S754_finite false 4503599627370496 (-52))) (VF (S754_finite false 8388608 (-23))) (SI CBool) (VI 0);
   check2 SLessThan (SF CFloat) (SI CBool) (SI CBool) (VF f0) (VI 0) (SI CBool) (VI 0);
   check2 SLessThan (SF CFloat) (SF CDouble) (SI CBool) (VF (S754_finite false 8388608 (-23))) (VF f0) (SI CBool) (VI 0);
   check2 SLessThan (SF CFloat) (SI u64) (SI CBool) (VF f0) (VI 1) (SI CBool) (VI 1);
   check2 SLessThan (SF CFloat) (SI i32) (SI CBool) (VF (S754_finite false 8388608 (-23))) (VI 1) (SI CBool) (VI 0);
   check2 SLessThan (SI u64) (SI CBool) (SI CBool) (VI 0) (VI 0) (SI CBool) (VI 0);
   check2 SLessThan (SI u64) (SI i32) (SI CBool) (VI 1) (VI 0) (SI CBool) (VI 0);
   check2 SLessThan (SI u64) (SI u64) (SI CBool) (VI 0) (VI 1) (SI CBool) (VI 1);
   check2 SLessThan (SI u64) (SF CFloat) (SI CBool) (VI 1) (VF (S754_finite false 8388608 (-23))) (SI CBool) (VI 0);
   check2 SLessThan (SI u32) (SI CBool) (SI CBool) (VI 0) (VI 0) (SI CBool) (VI 0);
   check2 SLessThan (SI u32) (SI i32) (SI CBool) (VI 1) (VI 0) (SI CBool) (VI 0);
   check2 SLessThan (SI u32) (SI u64) (SI CBool) (VI 0) (VI 1) (SI CBool) (VI 1);
   check2 SLessThan (SI u32) (SF CFloat) (SI CBool) (VI 1) (VI 1) (SI CBool) (VI 0);
   check2 SLessThan (SI u16) (SI CBool) (SI CBool) (VI 0) (VI 0) (SI CBool) (VI 0);
   check2 SLessThan (SI u16) (SI i32) (SI CBool) (VI 1) (VI 0) (SI CBool) (VI 0);
   check2 SLessThan (SI u16) (SI u64) (SI CBool) (VI 0) (VI 1) (SI CBool) (VI 1);
   check2 SLessThan (SI u16) (SF CFloat) (SI CBool) (VI 1) (VF (S754_finite false 8388608 (-23))) (SI CBool) (VI 0);
   check2 SLessThan (SI u8) (SI CBool) (SI CBool) (VI 0) (VI 0) (SI CBool) (VI 0);
   check2 SLessThan (SI u8) (SI i32) (SI CBool) (VI 1) (VI 0) (SI CBool) (VI 0);
   check2 SLessThan (SI u8) (SI u64) (SI CBool) (VI 0) (VI 1) (SI CBool) (VI 1);
   check2 SLessThan (SI u8) (SF CFloat) (SI CBool) (VI 1) (VF (S754_finite false 8388608 (-23))) (SI CBool) (VI 0);
   check2 SLessThan (SI i64) (SI CBool) (SI CBool) (VI 0) (VI 0) (SI CBool) (VI 0);
   check2 SLessThan (SI i64) (SI u32) (SI CBool) (VI (-1)) (VI 0) (SI CBool) (VI 1);
   check2 SLessThan (SI i64) (SI i64) (SI CBool) (VI 0) (VI (-1)) (SI CBool) (VI 0);
   check2 SLessThan (SI i64) (SF CFloat) (SI CBool) (VI (-1)) (VF (S754_finite true 8388608 (-23))) (SI CBool) (VI 0);
   check2 SLessThan (SI i32) (SI CBool) (SI CBool) (VI 0) (VI 0) (SI CBool) (VI 0);
   check2 SLessThan (SI i32) (SI u32) (SI CBool) (VI (-1)) (VI 0) (SI CBool) (VI 0);
   check2 SLessThan (SI i32) (SI i64) (SI CBool) (VI 0) (VI (-1)) (SI CBool) (VI 0);
   check2 SLessThan (SI i32) (SF CFloat) (SI CBool) (VI (-1)) (VF (S754_finite true 8388608 (-23))) (SI CBool) (VI 0);
   check2 SLessThan (SI i16) (SI CBool) (SI CBool) (VI 0) (VI 0) (SI CBool) (VI 0);
   check2 SLessThan (SI i16) (SI u32) (SI CBool) (VI (-1)) (VI 0) (SI CBool) (VI 0);
   check2 SLessThan (SI i16) (SI i64) (SI CBool) (VI 0) (VI (-1)) (SI CBool) (VI 0);
   check2 SLessThan (SI i16) (SF CFloat) (SI CBool) (VI (-1)) (VF (S754_finite true 8388608 (-23))) (SI CBool) (VI 0);
   check2 SLessThan (SI i8) (SI CBool) (SI CBool) (VI 0) (VI 0) (SI CBool) (VI 0);
   check2 SLessThan (SI i8) (SI u32) (SI CBool) (VI (-1)) (VI 0) (SI CBool) (VI 0);
   check2 SLessThan (SI i8) (SI i64) (SI CBool) (VI 0) (VI (-1)) (SI CBool) (VI 0);
   check2 SLessThan (SI i8) (SF CFloat) (SI CBool) (VI (-1)) (VF (S754_finite true 8388608 (-23))) (SI CBool) (VI 0);
   check2 SLessThan (SI CBool) (SI i8) (SI CBool) (VI 0) (VI 0) (SI CBool) (VI 0);
   check2 SLessThan (SI CBool) (SI i32) (SI CBool) (VI 0) (VI 1) (SI CBool) (VI 1);
   check2 SLessThan (SI CBool) (SI u64) (SI CBool) (VI 1) (VI 0) (SI CBool) (VI 0);
   check2 SLessThan (SI CBool) (SF CFloat) (SI CBool) (VI 1) (VF (S754_finite false 8388608 (-23))) (SI CBool) (VI 0) ].
Proof. vm_compute. reflexivity. Qed.

(** test_algebra_binary.cpp:565-621 *)
Example binary_greater_equal_same_domain_test : all_true
 [ check2 SGreaterEqual (SF CDouble) (SF CDouble) (SI CBool) (VF f0) (VF f0) (SI CBool) (VI 1);
   check2 SGreaterEqual (SF CDouble) (SF CDouble) (SI CBool) (VF (S754_finite false 4503599627370496 (-52))) (VF f0) (SI CBool) (VI 1);
   check2 SGreaterEqual (SF CDouble) (SF CDouble) (SI CBool) (VF f0) (VF (S754_finite false 4503599627370496 (-52))) (SI CBool) (VI 0);
   check2 SGreaterEqual (SF CDouble) (SF CDouble) (SI CBool) (VF (S754_finite false 4503599627370496 (-52))) (VF (S754_finite false 4503599627370496 (-52))) (SI CBool) (VI 1);
   check2 SGreaterEqual (SF CFloat) (SF CFloat) (SI CBool) (VF f0) (VF f0) (SI CBool) (VI 1);
   check2 SGreaterEqual (SF CFloat) (SF CFloat) (SI CBool) (VF (S754_finite false 8388608 (-23))) (VF f0) (SI CBool) (VI 1);
   check2 SGreaterEqual (SF CFloat) (SF CFloat) (SI CBool) (VF f0) (VF (S754_finite false 8388608 (-23))) (SI CBool) (VI 0);
   check2 SGreaterEqual (SF CFloat) (SF CFloat) (SI CBool) (VF (S754_finite false 8388608 (-23))) (VF (S754_finite false 8388608 (-23))) (SI CBool) (VI 1);
   check2 SGreaterEqual (SI u64) (SI u64) (SI CBool) (VI 0) (VI 0) (SI CBool) (VI 1);
   check2 SGreaterEqual (SI u64) (SI u64) (SI CBool) (VI 1) (VI 0) (SI CBool) (VI 1);
   check2 SGreaterEqual (SI u64) (SI u64) (SI CBool) (VI 0) (VI 1) (SI CBool) (VI 0);
   check2 SGreaterEqual (SI u64) (SI u64) (SI CBool) (VI 1) (VI 1) (SI CBool) (VI 1);
   check2 SGreaterEqual (SI u32) (SI u32) (SI CBool) (VI 0) (VI 0) (SI CBool) (VI 1);
   check2 SGreaterEqual (SI u32) (SI u32) (SI CBool) (VI 1) (VI 0) (SI CBool) (VI 1);
   check2 SGreaterEqual (SI u32) (SI u32) (SI CBool) (VI 0) (VI 1) (SI CBool) (VI 0);
   check2 SGreaterEqual (SI u32) (SI u32) (SI CBool) (VI 1) (VI 1) (SI CBool) (VI 1);
   check2 SGreaterEqual (SI u16) (SI u16) (SI CBool) (VI 0) (VI 0) (SI CBool) (VI 1);
   check2 SGreaterEqual (SI u16) (SI u16) (SI CBool) (VI 1) (VI 0) (SI CBool) (VI 1);
   check2 SGreaterEqual (SI u16) (SI u16) (SI CBool) (VI 0) (VI 1) (SI CBool) (VI 0);
   check2 SGreaterEqual (SI u16) (SI u16) (SI CBool) (VI 1) (VI 1) (SI CBool) (VI 1);
   check2 SGreaterEqual (SI u8) (SI u8) (SI CBool) (VI 0) (VI 0) (SI CBool) (VI 1);
   check2 SGreaterEqual (SI u8) (SI u8) (SI CBool) (VI 1) (VI 0) (SI CBool) (VI 1);
   check2 SGreaterEqual (SI u8) (SI u8) (SI CBool) (VI 0) (VI 1) (SI CBool) (VI 0);
   check2 SGreaterEqual (SI u8) (SI u8) (SI CBool) (VI 1) (VI 1) (SI CBool) (VI 1);
   check2 SGreaterEqual (SI i64) (SI i64) (SI CBool) (VI 0) (VI 0) (SI CBool) (VI 1);
   check2 SGreaterEqual (SI i64) (SI i64) (SI CBool) (VI (-1)) (VI 0) (SI CBool) (VI 0);
   check2 SGreaterEqual (SI i64) (SI i64) (SI CBool) (VI 0) (VI (-1)) (SI CBool) (VI 1);
   check2 SGreaterEqual (SI i64) (SI i64) (SI CBool) (VI (-1)) (VI (-1)) (SI CBool) (VI 1);
   check2 SGreaterEqual (SI i32) (SI i32) (SI CBool) (VI 0) (VI 0) (SI CBool) (VI 1);
   check2 SGreaterEqual (SI i32) (SI i32) (SI CBool) (VI (-1)) (VI 0) (SI CBool) (VI 0);
   check2 SGreaterEqual (SI i32) (SI i32) (SI CBool) (VI 0) (VI (-1)) (SI CBool) (VI 1);
   check2 SGreaterEqual (SI i32) (SI i32) (SI CBool) (VI (-1)) (VI (-1)) (SI CBool) (VI 1);
   check2 SGreaterEqual (SI i16) (SI i16) (SI CBool) (VI 0) (VI 0) (SI CBool) (VI 1);
   check2 SGreaterEqual (SI i16) (SI i16) (SI CBool) (VI (-1)) (VI 0) (SI CBool) (VI 0);
   check2 SGreaterEqual (SI i16) (SI i16) (SI CBool) (VI 0) (VI (-1)) (SI CBool) (VI 1);
   check2 SGreaterEqual (SI i16) (SI i16) (SI CBool) (VI (-1)) (VI (-1)) (SI CBool) (VI 1);
   check2 SGreaterEqual (SI i8) (SI i8) (SI CBool) (VI 0) (VI 0) (SI CBool) (VI 1);
   check2 SGreaterEqual (SI i8) (SI i8) (SI CBool) (VI (-1)) (VI 0) (SI CBool) (VI 0);
   check2 SGreaterEqual (SI i8) (SI i8) (SI CBool) (VI 0) (VI (-1)) (SI CBool) (VI 1);
   check2 SGreaterEqual (SI i8) (SI i8) (SI CBool) (VI (-1)) (VI (-1)) (SI CBool) (VI 1);
   check2 SGreaterEqual (SI CBool) (SI CBool) (SI CBool) (VI 0) (VI 0) (SI CBool) (VI 1);
   check2 SGreaterEqual (SI CBool) (SI CBool) (SI CBool) (VI 0) (VI 1) (SI CBool) (VI 0);
   check2 SGreaterEqual (SI CBool) (SI CBool) (SI CBool) (VI 1) (VI 0) (SI CBool) (VI 1);
   check2 SGreaterEqual (SI CBool) (SI CBool) (SI CBool) (VI 1) (VI 1) (SI CBool) (VI 1) ].
Proof. vm_compute. reflexivity. Qed.

(** test_algebra_binary.cpp:624-683 *)
Example binary_greater_equal_different_domain_test : all_true
 [ check2 SGreaterEqual (SF CDouble) (SI CBool) (SI CBool) (VF f0) (VF f0) (SI CBool) (VI 1);
   check2 SGreaterEqual (SF CDouble) (SI i32) (SI CBool) (VF (S754_finite false 4503599627370496 (-52))) (VF f0) (SI CBool) (VI 1);
   check2 SGreaterEqual (SF CDouble) (SI u64) (SI CBool) (VF f0) (VF (S754_finite false 4503599627370496 (-52))) (SI CBool) (VI 0);
   check2 SGreaterEqual (SF CDouble) (SF CFloat) (SI CBool) (VF (S754_finite false 4503599627370496 (-52))) (VF (S754_finite false 8388608 (-23))) (SI CBool) (VI 1);
   check2 SGreaterEqual (SF CFloat) (SI CBool) (SI CBool) (VF f0) (VI 0) (SI CBool) (VI 1);
   check2 SGreaterEqual (SF CFloat) (SF CDouble) (SI CBool) (VF (S754_finite false 8388608 (-23))) (VF f0) (SI CBool) (VI 1);
   check2 SGreaterEqual (SF CFloat) (SI u64) (SI CBool) (VF f0) (VI 1) (SI CBool) (VI 0);
   check2 SGreaterEqual (SF CFloat) (SI i32) (SI CBool) (VF (S754_finite false 8388608 (-23))) (VI 1) (SI CBool) (VI 1);
   check2 SGreaterEqual (SI u64) (SI CBool) (SI CBool) (VI 0) (VI 0) (SI CBool) (VI 1);
   check2 SGreaterEqual (SI u64) (SI i32) (SI CBool) (VI 1) (VI 0) (SI CBool) (VI 1);
   check2 SGreaterEqual (SI u64) (SI u64) (SI CBool) (VI 0) (VI 1) (SI CBool) (VI 0);
   check2 SGreaterEqual (SI u64) (SF CFloat) (SI CBool) (VI 1) (VF (S754_finite false 8388608 (-23))) (SI CBool) (VI 1);
   check2 SGreaterEqual (SI u32) (SI CBool) (SI CBool) (VI 0) (VI 0) (SI CBool) (VI 1);
   check2 SGreaterEqual (SI u32) (SI i32) (SI CBool) (VI 1) (VI 0) (SI CBool) (VI 1);
   check2 SGreaterEqual (SI u32) (SI u64) (SI CBool) (VI 0) (VI 1) (SI CBool) (VI 0);
   check2 SGreaterEqual (SI u32) (SF CFloat) (SI CBool) (VI 1) (VI 1) (SI CBool) (VI 1);
   check2 SGreaterEqual (SI u16) (SI CBool) (SI CBool) (VI 0) (VI 0) (SI CBool) (VI 1);
   check2 SGreaterEqual (SI u16) (SI i32) (SI CBool) (VI 1) (VI 0) (SI CBool) (VI 1);
   check2 SGreaterEqual (SI u16) (SI u64) (SI CBool) (VI 0) (VI 1) (SI CBool) (VI 0);
   check2 SGreaterEqual (SI u16) (SF CFloat) (SI CBool) (VI 1) (VF (S754_finite false 8388608 (-23))) (SI CBool) (VI 1);
   check2 SGreaterEqual (SI u8) (SI CBool) (SI CBool) (VI 0) (VI 0) (SI CBool) (VI 1);
   check2 SGreaterEqual (SI u8) (SI i32) (SI CBool) (VI 1) (VI 0) (SI CBool) (VI 1);
   check2 SGreaterEqual (SI u8) (SI u64) (SI CBool) (VI 0) (VI 1) (SI CBool) (VI 0);
   check2 SGreaterEqual (SI u8) (SF CFloat) (SI CBool) (VI 1) (VF (S754_finite false 8388608 (-23))) (SI CBool) (VI 1);
   check2 SGreaterEqual (SI i64) (SI CBool) (SI CBool) (VI 0) (VI 0) (SI CBool) (VI 1);
   check2 SGreaterEqual (SI i64) (SI u32) (SI CBool) (VI (-1)) (VI 0) (SI CBool) (VI 0);
   check2 SGreaterEqual (SI i64) (SI i64) (SI CBool) (VI 0) (VI (-1)) (SI CBool) (VI 1);
   check2 SGreaterEqual (SI i64) (SF CFloat) (SI CBool) (VI (-1)) (VF (S754_finite true 8388608 (-23))) (SI CBool) (VI 1);
   check2 SGreaterEqual (SI i32) (SI CBool) (SI CBool) (VI 0) (VI 0) (SI CBool) (VI 1);
   check2 SGreaterEqual (SI i32) (SI u32) (SI CBool) (VI (-1)) (VI 0) (SI CBool) (VI 1);
   check2 SGreaterEqual (SI i32) (SI i64) (SI CBool) (VI 0) (VI (-1)) (SI CBool) (VI 1);
   check2 SGreaterEqual (SI i32) (SF CFloat) (SI CBool) (VI (-1)) (VF (S754_finite true 8388608 (-23))) (SI CBool) (VI 1);
   check2 SGreaterEqual (SI i16) (SI CBool) (SI CBool) (VI 0) (VI 0) (SI CBool) (VI 1);
   check2 SGreaterEqual (SI i16) (SI u32) (SI CBool) (VI (-1)) (VI 0) (SI CBool) (VI 1);
   check2 SGreaterEqual (SI i16) (SI i64) (SI CBool) (VI 0) (VI (-1)) (SI CBool) (VI 1);
   check2 SGreaterEqual (SI i16) (SF CFloat) (SI CBool) (VI (-1)) (VF (S754_finite true 8388608 (-23))) (SI CBool) (VI 1);
   check2 SGreaterEqual (SI i8) (SI CBool) (SI CBool) (VI 0) (VI 0) (SI CBool) (VI 1);
   check2 SGreaterEqual (SI i8) (SI u32) (SI CBool) (VI (-1)) (VI 0) (SI CBool) (VI 1);
   check2 SGreaterEqual (SI i8) (SI i64) (SI CBool) (VI 0) (VI (-1)) (SI CBool) (VI 1);
   check2 SGreaterEqual (SI i8) (SF CFloat) (SI CBool) (VI (-1)) (VF (S754_finite true 8388608 (-23))) (SI CBool) (VI 1);
   check2 SGreaterEqual (SI CBool) (SI i8) (SI CBool) (VI 0) (VI 0) (SI CBool) (VI 1);
   check2 SGreaterEqual (SI CBool) (SI i32) (SI CBool) (VI 0) (VI 1) (SI CBool) (VI 0);
   check2 SGreaterEqual (SI CBool) (SI u64) (SI CBool) (VI 1) (VI 0) (SI CBool) (VI 1);
   check2 SGreaterEqual (SI CBool) (SF CFloat) (SI CBool) (VI 1) (VF (S754_finite false 8388608 (-23))) (SI CBool) (VI 1) ].
Proof. vm_compute. reflexivity. Qed.

(** test_algebra_binary.cpp:686-742 *)
Example binary_less_equal_same_domain_test : all_true
 [ check2 SLessEqual (SF CDouble) (SF CDouble) (SI CBool) (VF f0) (VF f0) (SI CBool) (VI 1);
   check2 SLessEqual (SF CDouble) (SF CDouble) (SI CBool) (VF (S754_finite false 4503599627370496 (-52))) (VF f0) (SI CBool) (VI 0);
   check2 SLessEqual (SF CDouble) (SF CDouble) (SI CBool) (VF f0) (VF (S754_finite false 4503599627370496 (-52))) (SI CBool) (VI 1);
   check2 SLessEqual (SF CDouble) (SF CDouble) (SI CBool) (VF (S754_finite false 4503599627370496 (-52))) (VF (S754_finite false 4503599627370496 (-52))) (SI CBool) (VI 1);
   check2 SLessEqual (SF CFloat) (SF CFloat) (SI CBool) (VF f0) (VF f0) (SI CBool) (VI 1);
   check2 SLessEqual (SF CFloat) (SF CFloat) (SI CBool) (VF (S754_finite false 8388608 (-23))) (VF f0) (SI CBool) (VI 0);
   check2 SLessEqual (SF CFloat) (SF CFloat) (SI CBool) (VF f0) (VF (S754_finite false 8388608 (-23))) (SI CBool) (VI 1);
   check2 SLessEqual (SF CFloat) (SF CFloat) (SI CBool) (VF (S754_finite false 8388608 (-23))) (VF (S754_finite false 8388608 (-23))) (SI CBool) (VI 1);
   check2 SLessEqual (SI u64) (SI u64) (SI CBool) (VI 0) (VI 0) (SI CBool) (VI 1);
   check2 SLessEqual (SI u64) (SI u64) (SI CBool) (VI 1) (VI 0) (SI CBool) (VI 0);
   check2 SLessEqual (SI u64) (SI u64) (SI CBool) (VI 0) (VI 1) (SI CBool) (VI 1);
   check2 SLessEqual (SI u64) (SI u64) (SI CBool) (VI 1) (VI 1) (SI CBool) (VI 1);
   check2 SLessEqual (SI u32) (SI u32) (SI CBool) (VI 0) (VI 0) (SI CBool) (VI 1);
   check2 SLessEqual (SI u32) (SI u32) (SI CBool) (VI 1) (VI 0) (SI CBool) (VI 0);
   check2 SLessEqual (SI u32) (SI u32) (SI CBool) (VI 0) (VI 1) (SI CBool) (VI 1);
   check2 SLessEqual (SI u32) (SI u32) (SI CBool) (VI 1) (VI 1) (SI CBool) (VI 1);
   check2 SLessEqual (SI u16) (SI u16) (SI CBool) (VI 0) (VI 0) (SI CBool) (VI 1);
   check2 SLessEqual (SI u16) (SI u16) (SI CBool) (VI 1) (VI 0) (SI CBool) (VI 0);
   check2 SLessEqual (SI u16) (SI u16) (SI CBool) (VI 0) (VI 1) (SI CBool) (VI 1);
   check2 SLessEqual (SI u16) (SI u16) (SI CBool) (VI 1) (VI 1) (SI CBool) (VI 1);
   check2 SLessEqual (SI u8) (SI u8) (SI CBool) (VI 0) (VI 0) (SI CBool) (VI 1);
   check2 SLessEqual (SI u8) (SI u8) (SI CBool) (VI 1) (VI 0) (SI CBool) (VI 0);
   check2 SLessEqual (SI u8) (SI u8) (SI CBool) (VI 0) (VI 1) (SI CBool) (VI 1);
   check2 SLessEqual (SI u8) (SI u8) (SI CBool) (VI 1) (VI 1) (SI CBool) (VI 1);
   check2 SLessEqual (SI i64) (SI i64) (SI CBool) (VI 0) (VI 0) (SI CBool) (VI 1);
   check2 SLessEqual (SI i64) (SI i64) (SI CBool) (VI (-1)) (VI 0) (SI CBool) (VI 1);
   check2 SLessEqual (SI i64) (SI i64) (SI CBool) (VI 0) (VI (-1)) (SI CBool) (VI 0);
   check2 SLessEqual (SI i64) (SI i64) (SI CBool) (VI (-1)) (VI (-1)) (SI CBool) (VI 1);
   check2 SLessEqual (SI i32) (SI i32) (SI CBool) (VI 0) (VI 0) (SI CBool) (VI 1);
   check2 SLessEqual (SI i32) (SI i32) (SI CBool) (VI (-1)) (VI 0) (SI CBool) (VI 1);
   check2 SLessEqual (SI i32) (SI i32) (SI CBool) (VI 0) (VI (-1)) (SI CBool) (VI 0);
   check2 SLessEqual (SI i32) (SI i32) (SI CBool) (VI (-1)) (VI (-1)) (SI CBool) (VI 1);
   check2 SLessEqual (SI i16) (SI i16) (SI CBool) (VI 0) (VI 0) (SI CBool) (VI 1);
   check2 SLessEqual (SI i16) (SI i16) (SI CBool) (VI (-1)) (VI 0) (SI CBool) (VI 1);
   check2 SLessEqual (SI i16) (SI i16) (SI CBool) (VI 0) (VI (-1)) (SI CBool) (VI 0);
   check2 SLessEqual (SI i16) (SI i16) (SI CBool) (VI (-1)) (VI (-1)) (SI CBool) (VI 1);
   check2 SLessEqual (SI i8) (SI i8) (SI CBool) (VI 0) (VI 0) (SI CBool) (VI 1);
   check2 SLessEqual (SI i8) (SI i8) (SI CBool) (VI (-1)) (VI 0) (SI CBool) (VI 1);
   check2 SLessEqual (SI i8) (SI i8) (SI CBool) (VI 0) (VI (-1)) (SI CBool) (VI 0);
   check2 SLessEqual (SI i8) (SI i8) (SI CBool) (VI (-1)) (VI (-1)) (SI CBool) (VI 1);
   check2 SLessEqual (SI CBool) (SI CBool) (SI CBool) (VI 0) (VI 0) (SI CBool) (VI 1);
   check2 SLessEqual (SI CBool) (SI CBool) (SI CBool) (VI 0) (VI 1) (SI CBool) (VI 1);
   check2 SLessEqual (SI CBool) (SI CBool) (SI CBool) (VI 1) (VI 0) (SI CBool) (VI 0);
   check2 SLessEqual (SI CBool) (SI CBool) (SI CBool) (VI 1) (VI 1) (SI CBool) (VI 1) ].
Proof. vm_compute. reflexivity. Qed.

(** test_algebra_binary.cpp:745-804 *)
Example binary_less_equal_different_domain_test : all_true
 [ check2 SLessEqual (SF CDouble) (SI CBool) (SI CBool) (VF f0) (VF f0) (SI CBool) (VI 1);
   check2 SLessEqual (SF CDouble) (SI i32) (SI CBool) (VF (S754_finite false 4503599627370496 (-52))) (VF f0) (SI CBool) (VI 0);
   check2 SLessEqual (SF CDouble) (SI u64) (SI CBool) (VF f0) (VF (S754_finite false 4503599627370496 (-52))) (SI CBool) (VI 1);
   check2 SLessEqual (SF CDouble) (SF CFloat) (SI CBool) (VF (S754_finite false 4503599627370496 (-52))) (VF (S754_finite false 8388608 (-23))) (SI CBool) (VI 1);
   check2 SLessEqual (SF CFloat) (SI CBool) (SI CBool) (VF f0) (VI 0) (SI CBool) (VI 1);
   check2 SLessEqual (SF CFloat) (SF CDouble) (SI CBool) (VF (S754_finite false 8388608 (-23))) (VF f0) (SI CBool) (VI 0);
   check2 SLessEqual (SF CFloat) (SI u64) (SI CBool) (VF f0) (VI 1) (SI CBool) (VI 1);
   check2 SLessEqual (SF CFloat) (SI i32) (SI CBool) (VF (S754_finite false 8388608 (-23))) (VI 1) (SI CBool) (VI 1);
   check2 SLessEqual (SI u64) (SI CBool) (SI CBool) (VI 0) (VI 0) (SI CBool) (VI 1);
   check2 SLessEqual (SI u64) (SI i32) (SI CBool) (VI 1) (VI 0) (SI CBool) (VI 0);
   check2 SLessEqual (SI u64) (SI u64) (SI CBool) (VI 0) (VI 1) (SI CBool) (VI 1);
   check2 SLessEqual (SI u64) (SF CFloat) (SI CBool) (VI 1) (VF (S754_finite false 8388608 (-23))) (SI CBool) (VI 1);
   check2 SLessEqual (SI u32) (SI CBool) (SI CBool) (VI 0) (VI 0) (SI CBool) (VI 1);
   check2 SLessEqual (SI u32) (SI i32) (SI CBool) (VI 1) (VI 0) (SI CBool) (VI 0);
   check2 SLessEqual (SI u32) (SI u64) (SI CBool) (VI 0) (VI 1) (SI CBool) (VI 1);
   check2 SLessEqual (SI u32) (SF CFloat) (SI CBool) (VI 1) (VI 1) (SI CBool) (VI 1);
   check2 SLessEqual (SI u16) (SI CBool) (SI CBool) (VI 0) (VI 0) (SI CBool) (VI 1);
   check2 SLessEqual (SI u16) (SI i32) (SI CBool) (VI 1) (VI 0) (SI CBool) (VI 0);
   check2 SLessEqual (SI u16) (SI u64) (SI CBool) (VI 0) (VI 1) (SI CBool) (VI 1);
   check2 SLessEqual (SI u16) (SF CFloat) (SI CBool) (VI 1) (VF (S754_finite false 8388608 (-23))) (SI CBool) (VI 1);
   check2 SLessEqual (SI u8) (SI CBool) (SI CBool) (VI 0) (VI 0) (SI CBool) (VI 1);
   check2 SLessEqual (SI u8) (SI i32) (SI CBool) (VI 1) (VI 0) (SI CBool) (VI 0);
   check2 SLessEqual (SI u8) (SI u64) (SI CBool) (VI 0) (VI 1) (SI CBool) (VI 1);
   check2 SLessEqual (SI u8) (SF CFloat) (SI CBool) (VI 1) (VF (S754_finite false 8388608 (-23))) (SI CBool) (VI 1);
   check2 SLessEqual (SI i64) (SI CBool) (SI CBool) (VI 0) (VI 0) (SI CBool) (VI 1);
   check2 SLessEqual (SI i64) (SI u32) (SI CBool) (VI (-1)) (VI 0) (SI CBool) (VI 1);
   check2 SLessEqual (SI i64) (SI i64) (SI CBool) (VI 0) (VI (-1)) (SI CBool) (VI 0);
   check2 SLessEqual (SI i64) (SF CFloat) (SI CBool) (VI (-1)) (VF (S754_finite true 8388608 (-23))) (SI CBool) (VI 1);
   check2 SLessEqual (SI i32) (SI CBool) (SI CBool) (VI 0) (VI 0) (SI CBool) (VI 1);
   check2 SLessEqual (SI i32) (SI u32) (SI CBool) (VI (-1)) (VI 0) (SI CBool) (VI 0);
   check2 SLessEqual (SI i32) (SI i64) (SI CBool) (VI 0) (VI (-1)) (SI CBool) (VI 0);
   check2 SLessEqual (SI i32) (SF CFloat) (SI CBool) (VI (-1)) (VF (S754_finite true 8388608 (-23))) (SI CBool) (VI 1);
   check2 SLessEqual (SI i16) (SI CBool) (SI CBool) (VI 0) (VI 0) (SI CBool) (VI 1);
   check2 SLessEqual (SI i16) (SI u32) (SI CBool) (VI (-1)) (VI 0) (SI CBool) (VI 0);
   check2 SLessEqual (SI i16) (SI i64) (SI CBool) (VI 0) (VI (-1)) (SI CBool) (VI 0);
   check2 SLessEqual (SI i16) (SF CFloat) (SI CBool) (VI (-1)) (VF (S754_finite true 8388608 (-23))) (SI CBool) (VI 1);
   check2 SLessEqual (SI i8) (SI CBool) (SI CBool) (VI 0) (VI 0) (SI CBool) (VI 1);
   check2 SLessEqual (SI i8) (SI u32) (SI CBool) (VI (-1)) (VI 0) (SI CBool) (VI 0);
   check2 SLessEqual (SI i8) (SI i64) (SI CBool) (VI 0) (VI (-1)) (SI CBool) (VI 0);
   check2 SLessEqual (SI i8) (SF CFloat) (SI CBool) (VI (-1)) (VF (S754_finite true 8388608 (-23))) (SI CBool) (VI 1);
   check2 SLessEqual (SI CBool) (SI i8) (SI CBool) (VI 0) (VI 0) (SI CBool) (VI 1);
   check2 SLessEqual (SI CBool) (SI i32) (SI CBool) (VI 0) (VI 1) (SI CBool) (VI 1);
   check2 SLessEqual (SI CBool) (SI u64) (SI CBool) (VI 1) (VI 0) (SI CBool) (VI 0);
   check2 SLessEqual (SI CBool) (SF CFloat) (SI CBool) (VI 1) (VF (S754_finite false 8388608 (-23))) (SI CBool) (VI 1) ].
Proof. vm_compute. reflexivity. Qed.

(** test_algebra_binary.cpp:807-863 *)
Example binary_first_same_domain_test : all_true
 [ check2 SFirst (SF CDouble) (SF CDouble) (SF CDouble) (VF f0) (VF f0) (SF CDouble) (VF f0);
   check2 SFirst (SF CDouble) (SF CDouble) (SF CDouble) (VF (S754_finite false 4503599627370496 (-52))) (VF f0) (SF CDouble) (VF (S754_finite false 4503599627370496 (-52)));
   check2 SFirst (SF CDouble) (SF CDouble) (SF CDouble) (VF f0) (VF (S754_finite false 4503599627370496 (-52))) (SF CDouble) (VF f0);
   check2 SFirst (SF CDouble) (SF CDouble) (SF CDouble) (VF (S754_finite false 4503599627370496 (-52))) (VF (S754_finite false 4503599627370496 (-52))) (SF CDouble) (VF (S754_finite false 4503599627370496 (-52)));
   check2 SFirst (SF CFloat) (SF CFloat) (SF CFloat) (VF f0) (VF f0) (SF CFloat) (VF f0);
   check2 SFirst (SF CFloat) (SF CFloat) (SF CFloat) (VF (S754_finite false 8388608 (-23))) (VF f0) (SF CFloat) (VF (S754_finite false 8388608 (-23)));
   check2 SFirst (SF CFloat) (SF CFloat) (SF CFloat) (VF f0) (VF (S754_finite false 8388608 (-23))) (SF CFloat) (VF f0);
   check2 SFirst (SF CFloat) (SF CFloat) (SF CFloat) (VF (S754_finite false 8388608 (-23))) (VF (S754_finite false 8388608 (-23))) (SF CFloat) (VF (S754_finite false 8388608 (-23)));
   check2 SFirst (SI u64) (SI u64) (SI u64) (VI 0) (VI 0) (SI i32) (VI 0);
   check2 SFirst (SI u64) (SI u64) (SI u64) (VI 1) (VI 0) (SI i32) (VI 1);
   check2 SFirst (SI u64) (SI u64) (SI u64) (VI 0) (VI 1) (SI i32) (VI 0);
   check2 SFirst (SI u64) (SI u64) (SI u64) (VI 1) (VI 1) (SI i32) (VI 1);
   check2 SFirst (SI u32) (SI u32) (SI u32) (VI 0) (VI 0) (SI i32) (VI 0);
   check2 SFirst (SI u32) (SI u32) (SI u32) (VI 1) (VI 0) (SI i32) (VI 1);
   check2 SFirst (SI u32) (SI u32) (SI u32) (VI 0) (VI 1) (SI i32) (VI 0);
   check2 SFirst (SI u32) (SI u32) (SI u32) (VI 1) (VI 1) (SI i32) (VI 1);
   check2 SFirst (SI u16) (SI u16) (SI u16) (VI 0) (VI 0) (SI i32) (VI 0);
   check2 SFirst (SI u16) (SI u16) (SI u16) (VI 1) (VI 0) (SI i32) (VI 1);
   check2 SFirst (SI u16) (SI u16) (SI u16) (VI 0) (VI 1) (SI i32) (VI 0);
   check2 SFirst (SI u16) (SI u16) (SI u16) (VI 1) (VI 1) (SI i32) (VI 1);
   check2 SFirst (SI u8) (SI u8) (SI u8) (VI 0) (VI 0) (SI i32) (VI 0);
   check2 SFirst (SI u8) (SI u8) (SI u8) (VI 1) (VI 0) (SI i32) (VI 1);
   check2 SFirst (SI u8) (SI u8) (SI u8) (VI 0) (VI 1) (SI i32) (VI 0);
   check2 SFirst (SI u8) (SI u8) (SI u8) (VI 1) (VI 1) (SI i32) (VI 1);
   check2 SFirst (SI i64) (SI i64) (SI i64) (VI 0) (VI 0) (SI i32) (VI 0);
   check2 SFirst (SI i64) (SI i64) (SI i64) (VI (-1)) (VI 0) (SI i32) (VI (-1));
   check2 SFirst (SI i64) (SI i64) (SI i64) (VI 0) (VI (-1)) (SI i32) (VI 0);
   check2 SFirst (SI i64) (SI i64) (SI i64) (VI (-1)) (VI (-1)) (SI i32) (VI (-1));
   check2 SFirst (SI i32) (SI i32) (SI i32) (VI 0) (VI 0) (SI i32) (VI 0);
   check2 SFirst (SI i32) (SI i32) (SI i32) (VI (-1)) (VI 0) (SI i32) (VI (-1));
   check2 SFirst (SI i32) (SI i32) (SI i32) (VI 0) (VI (-1)) (SI i32) (VI 0);
   check2 SFirst (SI i32) (SI i32) (SI i32) (VI (-1)) (VI (-1)) (SI i32) (VI (-1));
   check2 SFirst (SI i16) (SI i16) (SI i16) (VI 0) (VI 0) (SI i32) (VI 0);
   check2 SFirst (SI i16) (SI i16) (SI i16) (VI (-1)) (VI 0) (SI i32) (VI (-1));
   check2 SFirst (SI i16) (SI i16) (SI i16) (VI 0) (VI (-1)) (SI i32) (VI 0);
   check2 SFirst (SI i16) (SI i16) (SI i16) (VI (-1)) (VI (-1)) (SI i32) (VI (-1));
   check2 SFirst (SI i8) (SI i8) (SI i8) (VI 0) (VI 0) (SI i32) (VI 0);
   check2 SFirst (SI i8) (SI i8) (SI i8) (VI (-1)) (VI 0) (SI i32) (VI (-1));
   check2 SFirst (SI i8) (SI i8) (SI i8) (VI 0) (VI (-1)) (SI i32) (VI 0);
   check2 SFirst (SI i8) (SI i8) (SI i8) (VI (-1)) (VI (-1)) (SI i32) (VI (-1));
   check2 SFirst (SI CBool) (SI CBool) (SI CBool) (VI 0) (VI 0) (SI CBool) (VI 0);
   check2 SFirst (SI CBool) (SI CBool) (SI CBool) (VI 0) (VI 1) (SI CBool) (VI 0);
   check2 SFirst (SI CBool) (SI CBool) (SI CBool) (VI 1) (VI 0) (SI CBool) (VI 1);
   check2 SFirst (SI CBool) (SI CBool) (SI CBool) (VI 1) (VI 1) (SI CBool) (VI 1) ].
Proof. vm_compute. reflexivity. Qed.

(** test_algebra_binary.cpp:866-922 *)
Example binary_first_different_domain_test : all_true
 [ check2 SFirst (SF CDouble) (SI CBool) (SF CDouble) (VF (S754_finite false 7205759403792794 (-55))) (VI 1) (SF CDouble) (VF (S754_finite false 7205759403792794 (-55)));
   check2 SFirst (SF CDouble) (SI i32) (SF CDouble) (VF (S754_finite false 5404319552844595 (-52))) (VI 0) (SF CDouble) (VF (S754_finite false 5404319552844595 (-52)));
   check2 SFirst (SF CDouble) (SI u64) (SF CDouble) (VF (S754_finite false 7205759403792794 (-55))) (VI 1) (SF CDouble) (VF (S754_finite false 7205759403792794 (-55)));
   check2 SFirst (SF CDouble) (SF CFloat) (SF CDouble) (VF (S754_finite false 5404319552844595 (-52))) (VF (S754_finite false 8388608 (-23))) (SF CDouble) (VF (S754_finite false 5404319552844595 (-52)));
   check2 SFirst (SF CFloat) (SI CBool) (SF CFloat) (VF (S754_finite false 13421773 (-27))) (VI 0) (SF CFloat) (VF (S754_finite false 13421773 (-27)));
   check2 SFirst (SF CFloat) (SF CDouble) (SF CFloat) (VF (S754_finite false 9227469 (-23))) (VF (S754_finite false 7205759403792794 (-55))) (SF CFloat) (VF (S754_finite false 9227469 (-23)));
   check2 SFirst (SF CFloat) (SI u64) (SF CFloat) (VF (S754_finite false 13421773 (-27))) (VI 1) (SF CFloat) (VF (S754_finite false 13421773 (-27)));
   check2 SFirst (SF CFloat) (SI i32) (SF CFloat) (VF (S754_finite false 9227469 (-23))) (VI 1) (SF CFloat) (VF (S754_finite false 9227469 (-23)));
   check2 SFirst (SI u64) (SI CBool) (SI u64) (VI 0) (VI 0) (SI i32) (VI 0);
   check2 SFirst (SI u64) (SI i32) (SI u64) (VI 1) (VI 0) (SI i32) (VI 1);
   check2 SFirst (SI u64) (SI u64) (SI u64) (VI 0) (VI 1) (SI i32) (VI 0);
   check2 SFirst (SI u64) (SF CFloat) (SI u64) (VI 1) (VF (S754_finite false 9227469 (-23))) (SI i32) (VI 1);
   check2 SFirst (SI u32) (SI CBool) (SI u32) (VI 0) (VI 0) (SI i32) (VI 0);
   check2 SFirst (SI u32) (SI i32) (SI u32) (VI 1) (VI 0) (SI i32) (VI 1);
   check2 SFirst (SI u32) (SI u64) (SI u32) (VI 0) (VI 1) (SI i32) (VI 0);
   check2 SFirst (SI u32) (SF CFloat) (SI u32) (VI 1) (VI 1) (SI i32) (VI 1);
   check2 SFirst (SI u16) (SI CBool) (SI u16) (VI 0) (VI 0) (SI i32) (VI 0);
   check2 SFirst (SI u16) (SI i32) (SI u16) (VI 1) (VI 0) (SI i32) (VI 1);
   check2 SFirst (SI u16) (SI u64) (SI u16) (VI 0) (VI 1) (SI i32) (VI 0);
   check2 SFirst (SI u16) (SF CFloat) (SI u16) (VI 1) (VF (S754_finite false 9227469 (-23))) (SI i32) (VI 1);
   check2 SFirst (SI u8) (SI CBool) (SI u8) (VI 0) (VI 0) (SI i32) (VI 0);
   check2 SFirst (SI u8) (SI i32) (SI u8) (VI 1) (VI 0) (SI i32) (VI 1);
   check2 SFirst (SI u8) (SI u64) (SI u8) (VI 0) (VI 1) (SI i32) (VI 0);
   check2 SFirst (SI u8) (SF CFloat) (SI u8) (VI 1) (VF (S754_finite false 9227469 (-23))) (SI i32) (VI 1);
   check2 SFirst (SI i64) (SI CBool) (SI i64) (VI 0) (VI 0) (SI i32) (VI 0);
   check2 SFirst (SI i64) (SI u32) (SI i64) (VI (-1)) (VI 0) (SI i32) (VI (-1));
   check2 SFirst (SI i64) (SI i64) (SI i64) (VI 0) (VI (-1)) (SI i32) (VI 0);
   check2 SFirst (SI i64) (SF CFloat) (SI i64) (VI (-1)) (VF (S754_finite true 9227469 (-23))) (SI i32) (VI (-1));
   check2 SFirst (SI i32) (SI CBool) (SI i32) (VI 0) (VI 0) (SI i32) (VI 0);
   check2 SFirst (SI i32) (SI u32) (SI i32) (VI (-1)) (VI 0) (SI i32) (VI (-1));
   check2 SFirst (SI i32) (SI i64) (SI i32) (VI 0) (VI (-1)) (SI i32) (VI 0);
   check2 SFirst (SI i32) (SF CFloat) (SI i32) (VI (-1)) (VF (S754_finite true 9227469 (-23))) (SI i32) (VI (-1));
   check2 SFirst (SI i16) (SI CBool) (SI i16) (VI 0) (VI 0) (SI i32) (VI 0);
   check2 SFirst (SI i16) (SI u32) (SI i16) (VI (-1)) (VI 0) (SI i32) (VI (-1));
   check2 SFirst (SI i16) (SI i64) (SI i16) (VI 0) (VI (-1)) (SI i32) (VI 0);
   check2 SFirst (SI i16) (SF CFloat) (SI i16) (VI (-1)) (VF (S754_finite true 9227469 (-23))) (SI i32) (VI (-1));
   check2 SFirst (SI i8) (SI CBool) (SI i8) (VI 0) (VI 0) (SI i32) (VI 0);
   check2 SFirst (SI i8) (SI u32) (SI i8) (VI (-1)) (VI 0) (SI i32) (VI (-1));
   check2 SFirst (SI i8) (SI i64) (SI i8) (VI 0) (VI (-1)) (SI i32) (VI 0);
   check2 SFirst (SI i8) (SF CFloat) (SI i8) (VI (-1)) (VF (S754_finite true 8388608 (-23))) (SI i32) (VI (-1));
   check2 SFirst (SI CBool) (SI i8) (SI CBool) (VI 0) (VI 0) (SI CBool) (VI 0);
   check2 SFirst (SI CBool) (SI i32) (SI CBool) (VI 0) (VI 1) (SI CBool) (VI 0);
   check2 SFirst (SI CBool) (SI u64) (SI CBool) (VI 1) (VI 0) (SI CBool) (VI 1);
   check2 SFirst (SI CBool) (SF CFloat) (SI CBool) (VI 1) (VF (S754_finite false 9227469 (-23))) (SI CBool) (VI 1) ].
Proof. vm_compute. reflexivity. Qed.

(** test_algebra_binary.cpp:925-981 *)
Example binary_second_same_domain_test : all_true
 [ check2 SSecond (SF CDouble) (SF CDouble) (SF CDouble) (VF f0) (VF f0) (SF CDouble) (VF f0);
   check2 SSecond (SF CDouble) (SF CDouble) (SF CDouble) (VF (S754_finite false 4503599627370496 (-52))) (VF f0) (SF CDouble) (VF f0);
   check2 SSecond (SF CDouble) (SF CDouble) (SF CDouble) (VF f0) (VF (S754_finite false 4503599627370496 (-52))) (SF CDouble) (VF (S754_finite false 4503599627370496 (-52)));
   check2 SSecond (SF CDouble) (SF CDouble) (SF CDouble) (VF (S754_finite false 4503599627370496 (-52))) (VF (S754_finite false 4503599627370496 (-52))) (SF CDouble) (VF (S754_finite false 4503599627370496 (-52)));
   check2 SSecond (SF CFloat) (SF CFloat) (SF CFloat) (VF f0) (VF f0) (SF CFloat) (VF f0);
   check2 SSecond (SF CFloat) (SF CFloat) (SF CFloat) (VF (S754_finite false 8388608 (-23))) (VF f0) (SF CFloat) (VF f0);
   check2 SSecond (SF CFloat) (SF CFloat) (SF CFloat) (VF f0) (VF (S754_finite false 8388608 (-23))) (SF CFloat) (VF (S754_finite false 8388608 (-23)));
   check2 SSecond (SF CFloat) (SF CFloat) (SF CFloat) (VF (S754_finite false 8388608 (-23))) (VF (S754_finite false 8388608 (-23))) (SF CFloat) (VF (S754_finite false 8388608 (-23)));
   check2 SSecond (SI u64) (SI u64) (SI u64) (VI 0) (VI 0) (SI i32) (VI 0);
   check2 SSecond (SI u64) (SI u64) (SI u64) (VI 1) (VI 0) (SI i32) (VI 0);
   check2 SSecond (SI u64) (SI u64) (SI u64) (VI 0) (VI 1) (SI i32) (VI 1);
   check2 SSecond (SI u64) (SI u64) (SI u64) (VI 1) (VI 1) (SI i32) (VI 1);
   check2 SSecond (SI u32) (SI u32) (SI u32) (VI 0) (VI 0) (SI i32) (VI 0);
   check2 SSecond (SI u32) (SI u32) (SI u32) (VI 1) (VI 0) (SI i32) (VI 0);
   check2 SSecond (SI u32) (SI u32) (SI u32) (VI 0) (VI 1) (SI i32) (VI 1);
   check2 SSecond (SI u32) (SI u32) (SI u32) (VI 1) (VI 1) (SI i32) (VI 1);
   check2 SSecond (SI u16) (SI u16) (SI u16) (VI 0) (VI 0) (SI i32) (VI 0);
   check2 SSecond (SI u16) (SI u16) (SI u16) (VI 1) (VI 0) (SI i32) (VI 0);
   check2 SSecond (SI u16) (SI u16) (SI u16) (VI 0) (VI 1) (SI i32) (VI 1);
   check2 SSecond (SI u16) (SI u16) (SI u16) (VI 1) (VI 1) (SI i32) (VI 1);
   check2 SSecond (SI u8) (SI u8) (SI u8) (VI 0) (VI 0) (SI i32) (VI 0);
   check2 SSecond (SI u8) (SI u8) (SI u8) (VI 1) (VI 0) (SI i32) (VI 0);
   check2 SSecond (SI u8) (SI u8) (SI u8) (VI 0) (VI 1) (SI i32) (VI 1);
   check2 SSecond (SI u8) (SI u8) (SI u8) (VI 1) (VI 1) (SI i32) (VI 1);
   check2 SSecond (SI i64) (SI i64) (SI i64) (VI 0) (VI 0) (SI i32) (VI 0);
   check2 SSecond (SI i64) (SI i64) (SI i64) (VI (-1)) (VI 0) (SI i32) (VI 0);
   check2 SSecond (SI i64) (SI i64) (SI i64) (VI 0) (VI (-1)) (SI i32) (VI (-1));
   check2 SSecond (SI i64) (SI i64) (SI i64) (VI (-1)) (VI (-1)) (SI i32) (VI (-1));
   check2 SSecond (SI i32) (SI i32) (SI i32) (VI 0) (VI 0) (SI i32) (VI 0);
   check2 SSecond (SI i32) (SI i32) (SI i32) (VI (-1)) (VI 0) (SI i32) (VI 0);
   check2 SSecond (SI i32) (SI i32) (SI i32) (VI 0) (VI (-1)) (SI i32) (VI (-1));
   check2 SSecond (SI i32) (SI i32) (SI i32) (VI (-1)) (VI (-1)) (SI i32) (VI (-1));
   check2 SSecond (SI i16) (SI i16) (SI i16) (VI 0) (VI 0) (SI i32) (VI 0);
   check2 SSecond (SI i16) (SI i16) (SI i16) (VI (-1)) (VI 0) (SI i32) (VI 0);
   check2 SSecond (SI i16) (SI i16) (SI i16) (VI 0) (VI (-1)) (SI i32) (VI (-1));
   check2 SSecond (SI i16) (SI i16) (SI i16) (VI (-1)) (VI (-1)) (SI i32) (VI (-1));
   check2 SSecond (SI i8) (SI i8) (SI i8) (VI 0) (VI 0) (SI i32) (VI 0);
   check2 SSecond (SI i8) (SI i8) (SI i8) (VI (-1)) (VI 0) (SI i32) (VI 0);
   check2 SSecond (SI i8) (SI i8) (SI i8) (VI 0) (VI (-1)) (SI i32) (VI (-1));
   check2 SSecond (SI i8) (SI i8) (SI i8) (VI (-1)) (VI (-1)) (SI i32) (VI (-1));
   check2 SSecond (SI CBool) (SI CBool) (SI CBool) (VI 0) (VI 0) (SI CBool) (VI 0);
   check2 SSecond (SI CBool) (SI CBool) (SI CBool) (VI 0) (VI 1) (SI CBool) (VI 1);
   check2 SSecond (SI CBool) (SI CBool) (SI CBool) (VI 1) (VI 0) (SI CBool) (VI 0);
   check2 SSecond (SI CBool) (SI CBool) (SI CBool) (VI 1) (VI 1) (SI CBool) (VI 1) ].
Proof. vm_compute. reflexivity. Qed.

(** test_algebra_binary.cpp:984-1040 *)
Example binary_second_different_domain_test : all_true
 [ check2 SSecond (SF CDouble) (SI CBool) (SI CBool) (VF (S754_finite false 7205759403792794 (-55))) (VI 1) (SI CBool) (VI 1);
   check2 SSecond (SF CDouble) (SI i32) (SI i32) (VF (S754_finite false 5404319552844595 (-52))) (VI 0) (SI i32) (VI 0);
   check2 SSecond (SF CDouble) (SI u64) (SI u64) (VF (S754_finite false 7205759403792794 (-55))) (VI 1) (SI u64) (VI 1);
   check2 SSecond (SF CDouble) (SF CFloat) (SF CFloat) (VF (S754_finite false 5404319552844595 (-52))) (VF (S754_finite false 9227469 (-23))) (SF CFloat) (VF (S754_finite false 9227469 (-23)));
   check2 SSecond (SF CFloat) (SI CBool) (SI CBool) (VF (S754_finite false 13421773 (-27))) (VI 0) (SI CBool) (VI 0);
   check2 SSecond (SF CFloat) (SF CDouble) (SF CDouble) (VF (S754_finite false 9227469 (-23))) (VF f0) (SF CDouble) (VF f0);
   check2 SSecond (SF CFloat) (SI u64) (SI u64) (VF (S754_finite false 13421773 (-27))) (VI 1) (SI u64) (VI 1);
   check2 SSecond (SF CFloat) (SI i32) (SI i32) (VF (S754_finite false 9227469 (-23))) (VI 1) (SI u32) (VI 1);
   check2 SSecond (SI u64) (SI CBool) (SI CBool) (VI 0) (VI 0) (SI CBool) (VI 0);
   check2 SSecond (SI u64) (SI i32) (SI i32) (VI 1) (VI 0) (SI i32) (VI 0);
   check2 SSecond (SI u64) (SI u64) (SI u64) (VI 0) (VI 1) (SI u64) (VI 1);
   check2 SSecond (SI u64) (SF CFloat) (SF CFloat) (VI 1) (VF (S754_finite false 9227469 (-23))) (SF CFloat) (VF (S754_finite false 9227469 (-23)));
   check2 SSecond (SI u32) (SI CBool) (SI CBool) (VI 0) (VI 0) (SI CBool) (VI 0);
   check2 SSecond (SI u32) (SI i32) (SI i32) (VI 1) (VI 0) (SI i32) (VI 0);
   check2 SSecond (SI u32) (SI u64) (SI u64) (VI 0) (VI 1) (SI u64) (VI 1);
   check2 SSecond (SI u32) (SF CFloat) (SF CFloat) (VI 1) (VF (S754_finite false 9227469 (-23))) (SF CFloat) (VF (S754_finite false 9227469 (-23)));
   check2 SSecond (SI u16) (SI CBool) (SI CBool) (VI 0) (VI 0) (SI CBool) (VI 0);
   check2 SSecond (SI u16) (SI i32) (SI i32) (VI 1) (VI 0) (SI i32) (VI 0);
   check2 SSecond (SI u16) (SI u64) (SI u64) (VI 0) (VI 1) (SI i32) (VI 1);
   check2 SSecond (SI u16) (SF CFloat) (SF CFloat) (VI 1) (VF (S754_finite false 9227469 (-23))) (SF CFloat) (VF (S754_finite false 9227469 (-23)));
   check2 SSecond (SI u8) (SI CBool) (SI CBool) (VI 0) (VI 0) (SI CBool) (VI 0);
   check2 SSecond (SI u8) (SI i32) (SI i32) (VI 1) (VI 0) (SI i32) (VI 0);
   check2 SSecond (SI u8) (SI u64) (SI u64) (VI 0) (VI 1) (SI i32) (VI 1);
   check2 SSecond (SI u8) (SF CFloat) (SF CFloat) (VI 1) (VF (S754_finite false 9227469 (-23))) (SF CFloat) (VF (S754_finite false 9227469 (-23)));
   check2 SSecond (SI i64) (SI CBool) (SI CBool) (VI 0) (VI 0) (SI CBool) (VI 0);
   check2 SSecond (SI i64) (SI u32) (SI u32) (VI (-1)) (VI 0) (SI i32) (VI 0);
   check2 SSecond (SI i64) (SI i64) (SI i64) (VI 0) (VI (-1)) (SI i32) (VI (-1));
   check2 SSecond (SI i64) (SF CFloat) (SF CFloat) (VI (-1)) (VF (S754_finite true 9227469 (-23))) (SF CFloat) (VF (S754_finite true 9227469 (-23)));
   check2 SSecond (SI i32) (SI CBool) (SI CBool) (VI 0) (VI 0) (SI CBool) (VI 0);
   check2 SSecond (SI i32) (SI u32) (SI u32) (VI (-1)) (VI 0) (SI i32) (VI 0);
   check2 SSecond (SI i32) (SI i64) (SI i64) (VI 0) (VI (-1)) (SI i32) (VI (-1));
   check2 SSecond (SI i32) (SF CFloat) (SF CFloat) (VI (-1)) (VF (S754_finite true 9227469 (-23))) (SF CFloat) (VF (S754_finite true 9227469 (-23)));
   check2 SSecond (SI i16) (SI CBool) (SI CBool) (VI 0) (VI 0) (SI CBool) (VI 0);
   check2 SSecond (SI i16) (SI u32) (SI u32) (VI (-1)) (VI 0) (SI i32) (VI 0);
   check2 SSecond (SI i16) (SI i64) (SI i64) (VI 0) (VI (-1)) (SI i32) (VI (-1));
   check2 SSecond (SI i16) (SF CFloat) (SF CFloat) (VI (-1)) (VF (S754_finite true 9227469 (-23))) (SF CFloat) (VF (S754_finite true 9227469 (-23)));
   check2 SSecond (SI i8) (SI CBool) (SI CBool) (VI 0) (VI 0) (SI CBool) (VI 0);
   check2 SSecond (SI i8) (SI u32) (SI u32) (VI (-1)) (VI 0) (SI i32) (VI 0);
   check2 SSecond (SI i8) (SI i64) (SI i64) (VI 0) (VI (-1)) (SI i32) (VI (-1));
   check2 SSecond (SI i8) (SF CFloat) (SF CFloat) (VI (-1)) (VF (S754_finite true 8388608 (-23))) (SF CFloat) (VF (S754_finite true 8388608 (-23)));
   check2 SSecond (SI CBool) (SI i8) (SI i8) (VI 0) (VI 0) (SI i32) (VI 0);
   check2 SSecond (SI CBool) (SI i32) (SI i32) (VI 0) (VI 1) (SI i32) (VI 1);
   check2 SSecond (SI CBool) (SI u64) (SI u64) (VI 1) (VI 0) (SI u64) (VI 0);
   check2 SSecond (SI CBool) (SF CFloat) (SF CFloat) (VI 1) (VF (S754_finite false 9227469 (-23))) (SF CFloat) (VF (S754_finite false 9227469 (-23))) ].
Proof. vm_compute. reflexivity. Qed.

(** test_algebra_binary.cpp:1043-1099 *)
Example binary_min_same_domain_test : all_true
 [ check2 SMin (SF CDouble) (SF CDouble) (SF CDouble) (VF f0) (VF f0) (SF CDouble) (VF f0);
   check2 SMin (SF CDouble) (SF CDouble) (SF CDouble) (VF (S754_finite false 4503599627370496 (-52))) (VF f0) (SF CDouble) (VF f0);
   check2 SMin (SF CDouble) (SF CDouble) (SF CDouble) (VF f0) (VF (S754_finite false 4503599627370496 (-52))) (SF CDouble) (VF f0);
   check2 SMin (SF CDouble) (SF CDouble) (SF CDouble) (VF (S754_finite false 4503599627370496 (-52))) (VF (S754_finite false 4503599627370496 (-52))) (SF CDouble) (VF (S754_finite false 4503599627370496 (-52)));
   check2 SMin (SF CFloat) (SF CFloat) (SF CFloat) (VF f0) (VF f0) (SF CFloat) (VF f0);
   check2 SMin (SF CFloat) (SF CFloat) (SF CFloat) (VF (S754_finite false 8388608 (-23))) (VF f0) (SF CFloat) (VF f0);
   check2 SMin (SF CFloat) (SF CFloat) (SF CFloat) (VF f0) (VF (S754_finite false 8388608 (-23))) (SF CFloat) (VF f0);
   check2 SMin (SF CFloat) (SF CFloat) (SF CFloat) (VF (S754_finite false 8388608 (-23))) (VF (S754_finite false 8388608 (-23))) (SF CFloat) (VF (S754_finite false 8388608 (-23)));
   check2 SMin (SI u64) (SI u64) (SI u64) (VI 0) (VI 0) (SI i32) (VI 0);
   check2 SMin (SI u64) (SI u64) (SI u64) (VI 1) (VI 0) (SI i32) (VI 0);
   check2 SMin (SI u64) (SI u64) (SI u64) (VI 0) (VI 1) (SI i32) (VI 0);
   check2 SMin (SI u64) (SI u64) (SI u64) (VI 1) (VI 1) (SI i32) (VI 1);
   check2 SMin (SI u32) (SI u32) (SI u32) (VI 0) (VI 0) (SI i32) (VI 0);
   check2 SMin (SI u32) (SI u32) (SI u32) (VI 1) (VI 0) (SI i32) (VI 0);
   check2 SMin (SI u32) (SI u32) (SI u32) (VI 0) (VI 1) (SI i32) (VI 0);
   check2 SMin (SI u32) (SI u32) (SI u32) (VI 1) (VI 1) (SI i32) (VI 1);
   check2 SMin (SI u16) (SI u16) (SI u16) (VI 0) (VI 0) (SI i32) (VI 0);
   check2 SMin (SI u16) (SI u16) (SI u16) (VI 1) (VI 0) (SI i32) (VI 0);
   check2 SMin (SI u16) (SI u16) (SI u16) (VI 0) (VI 1) (SI i32) (VI 0);
   check2 SMin (SI u16) (SI u16) (SI u16) (VI 1) (VI 1) (SI i32) (VI 1);
   check2 SMin (SI u8) (SI u8) (SI u8) (VI 0) (VI 0) (SI i32) (VI 0);
   check2 SMin (SI u8) (SI u8) (SI u8) (VI 1) (VI 0) (SI i32) (VI 0);
   check2 SMin (SI u8) (SI u8) (SI u8) (VI 0) (VI 1) (SI i32) (VI 0);
   check2 SMin (SI u8) (SI u8) (SI u8) (VI 1) (VI 1) (SI i32) (VI 1);
   check2 SMin (SI i64) (SI i64) (SI i64) (VI 0) (VI 0) (SI i32) (VI 0);
   check2 SMin (SI i64) (SI i64) (SI i64) (VI (-1)) (VI 0) (SI i32) (VI (-1));
   check2 SMin (SI i64) (SI i64) (SI i64) (VI 0) (VI (-1)) (SI i32) (VI (-1));
   check2 SMin (SI i64) (SI i64) (SI i64) (VI (-1)) (VI (-1)) (SI i32) (VI (-1));
   check2 SMin (SI i32) (SI i32) (SI i32) (VI 0) (VI 0) (SI i32) (VI 0);
   check2 SMin (SI i32) (SI i32) (SI i32) (VI (-1)) (VI 0) (SI i32) (VI (-1));
   check2 SMin (SI i32) (SI i32) (SI i32) (VI 0) (VI (-1)) (SI i32) (VI (-1));
   check2 SMin (SI i32) (SI i32) (SI i32) (VI (-1)) (VI (-1)) (SI i32) (VI (-1));
   check2 SMin (SI i16) (SI i16) (SI i16) (VI 0) (VI 0) (SI i32) (VI 0);
   check2 SMin (SI i16) (SI i16) (SI i16) (VI (-1)) (VI 0) (SI i32) (VI (-1));
   check2 SMin (SI i16) (SI i16) (SI i16) (VI 0) (VI (-1)) (SI i32) (VI (-1));
   check2 SMin (SI i16) (SI i16) (SI i16) (VI (-1)) (VI (-1)) (SI i32) (VI (-1));
   check2 SMin (SI i8) (SI i8) (SI i8) (VI 0) (VI 0) (SI i32) (VI 0);
   check2 SMin (SI i8) (SI i8) (SI i8) (VI (-1)) (VI 0) (SI i32) (VI (-1));
   check2 SMin (SI i8) (SI i8) (SI i8) (VI 0) (VI (-1)) (SI i32) (VI (-1));
   check2 SMin (SI i8) (SI i8) (SI i8) (VI (-1)) (VI (-1)) (SI i32) (VI (-1));
   check2 SMin (SI CBool) (SI CBool) (SI CBool) (VI 0) (VI 0) (SI CBool) (VI 0);
   check2 SMin (SI CBool) (SI CBool) (SI CBool) (VI 0) (VI 1) (SI CBool) (VI 0);
   check2 SMin (SI CBool) (SI CBool) (SI CBool) (VI 1) (VI 0) (SI CBool) (VI 0);
   check2 SMin (SI CBool) (SI CBool) (SI CBool) (VI 1) (VI 1) (SI CBool) (VI 1) ].
Proof. vm_compute. reflexivity. Qed.

(** test_algebra_binary.cpp:1102-1161 *)
Example binary_min_different_domain_test : all_true
 [ check2 SMin (SF CDouble) (SI CBool) (SF CDouble) (VF (S754_finite false 7205759403792794 (-55))) (VI 1) (SF CDouble) (VF (S754_finite false 7205759403792794 (-55)));
   check2 SMin (SF CDouble) (SI i32) (SF CDouble) (VF (S754_finite false 5404319552844595 (-52))) (VI 0) (SF CDouble) (VF f0);
   check2 SMin (SF CDouble) (SI u64) (SF CDouble) (VF (S754_finite false 7205759403792794 (-55))) (VI 1) (SF CDouble) (VF (S754_finite false 7205759403792794 (-55)));
   check2 SMin (SF CFloat) (SI CBool) (SF CFloat) (VF (S754_finite false 13421773 (-27))) (VI 0) (SF CFloat) (VF f0);
   check2 SMin (SF CFloat) (SF CDouble) (SF CFloat) (VF (S754_finite false 9227469 (-23))) (VF f0) (SF CFloat) (VF f0);
   check2 SMin (SF CFloat) (SI u64) (SF CFloat) (VF (S754_finite false 13421773 (-27))) (VI 1) (SF CFloat) (VF (S754_finite false 13421773 (-27)));
   check2 SMin (SF CFloat) (SI i32) (SF CFloat) (VF (S754_finite false 9227469 (-23))) (VI 1) (SF CFloat) (VF (S754_finite false 8388608 (-23)));
   check2 SMin (SI u64) (SI CBool) (SI u64) (VI 0) (VI 0) (SI i32) (VI 0);
   check2 SMin (SI u64) (SI i32) (SI u64) (VI 1) (VI 0) (SI i32) (VI 0);
   check2 SMin (SI u64) (SI u64) (SI u64) (VI 0) (VI 1) (SI i32) (VI 0);
   check2 SMin (SI u64) (SF CFloat) (SI u64) (VI 1) (VF (S754_finite false 9227469 (-23))) (SI i32) (VI 1);
   check2 SMin (SI u32) (SI CBool) (SI u32) (VI 0) (VI 0) (SI i32) (VI 0);
   check2 SMin (SI u32) (SI i32) (SI u32) (VI 1) (VI 0) (SI i32) (VI 0);
   check2 SMin (SI u32) (SI u64) (SI u32) (VI 0) (VI 1) (SI u32) (VI 0);
   check2 SMin (SI u32) (SF CFloat) (SI u32) (VI 1) (VF (S754_finite false 9227469 (-23))) (SI u32) (VI 1);
   check2 SMin (SI u16) (SI CBool) (SI u16) (VI 0) (VI 0) (SI i32) (VI 0);
   check2 SMin (SI u16) (SI i32) (SI u16) (VI 1) (VI 0) (SI i32) (VI 0);
   check2 SMin (SI u16) (SI u64) (SI u16) (VI 0) (VI 1) (SI i32) (VI 0);
   check2 SMin (SI u16) (SF CFloat) (SI u16) (VI 1) (VF (S754_finite false 9227469 (-23))) (SI i32) (VI 1);
   check2 SMin (SI u8) (SI CBool) (SI u8) (VI 0) (VI 0) (SI i32) (VI 0);
   check2 SMin (SI u8) (SI i32) (SI u8) (VI 1) (VI 0) (SI i32) (VI 0);
   check2 SMin (SI u8) (SI u64) (SI u8) (VI 0) (VI 1) (SI i32) (VI 0);
   check2 SMin (SI u8) (SF CFloat) (SI u8) (VI 1) (VF (S754_finite false 9227469 (-23))) (SI i32) (VI 1);
   check2 SMin (SI i64) (SI CBool) (SI i64) (VI 0) (VI 0) (SI i32) (VI 0);
   check2 SMin (SI i64) (SI u32) (SI i64) (VI (-1)) (VI 0) (SI i32) (VI (-1));
   check2 SMin (SI i64) (SI i64) (SI i64) (VI 0) (VI (-1)) (SI i32) (VI (-1));
   check2 SMin (SI i64) (SF CFloat) (SI i64) (VI (-1)) (VF (S754_finite true 9227469 (-23))) (SI i32) (VI (-1));
   check2 SMin (SI i32) (SI CBool) (SI i32) (VI 0) (VI 0) (SI i32) (VI 0);
   check2 SMin (SI i32) (SI u32) (SI i32) (VI (-1)) (VI 0) (SI i32) (VI 0);
   check2 SMin (SI i32) (SI i64) (SI i32) (VI 0) (VI (-1)) (SI i32) (VI (-1));
   check2 SMin (SI i32) (SF CFloat) (SI i32) (VI (-1)) (VF (S754_finite true 9227469 (-23))) (SI i32) (VI (-1));
   check2 SMin (SI i16) (SI CBool) (SI i16) (VI 0) (VI 0) (SI i32) (VI 0);
   check2 SMin (SI i16) (SI u32) (SI i16) (VI (-1)) (VI 0) (SI i32) (VI 0);
   check2 SMin (SI i16) (SI i64) (SI i16) (VI 0) (VI (-1)) (SI i32) (VI (-1));
   check2 SMin (SI i16) (SF CFloat) (SI i16) (VI (-1)) (VF (S754_finite true 9227469 (-23))) (SI i32) (VI (-1));
   check2 SMin (SI i8) (SI CBool) (SI i8) (VI 0) (VI 0) (SI i32) (VI 0);
   check2 SMin (SI i8) (SI u32) (SI i8) (VI (-1)) (VI 0) (SI i32) (VI 0);
   check2 SMin (SI i8) (SI i64) (SI i8) (VI 0) (VI (-1)) (SI i32) (VI (-1));
   check2 SMin (SI i8) (SF CFloat) (SI i8) (VI (-1)) (VF (S754_finite true 8388608 (-23))) (SI i32) (VI (-1));
   check2 SMin (SI CBool) (SI i8) (SI CBool) (VI 0) (VI 0) (SI CBool) (VI 0);
   check2 SMin (SI CBool) (SI i32) (SI CBool) (VI 0) (VI 1) (SI CBool) (VI 0);
   check2 SMin (SI CBool) (SI u64) (SI CBool) (VI 1) (VI 0) (SI CBool) (VI 0);
   check2 SMin (SI CBool) (SF CFloat) (SI CBool) (VI 1) (VF (S754_finite false 9227469 (-23))) (SI CBool) (VI 1) ].
Proof. vm_compute. reflexivity. Qed.

(** test_algebra_binary.cpp:1164-1220 *)
Example binary_max_same_domain_test : all_true
 [ check2 SMax (SF CDouble) (SF CDouble) (SF CDouble) (VF f0) (VF f0) (SF CDouble) (VF f0);
   check2 SMax (SF CDouble) (SF CDouble) (SF CDouble) (VF (S754_finite false 4503599627370496 (-52))) (VF f0) (SF CDouble) (VF (S754_finite false 4503599627370496 (-52)));
   check2 SMax (SF CDouble) (SF CDouble) (SF CDouble) (VF f0) (VF (S754_finite false 4503599627370496 (-52))) (SF CDouble) (VF (S754_finite false 4503599627370496 (-52)));
   check2 SMax (SF CDouble) (SF CDouble) (SF CDouble) (VF (S754_finite false 4503599627370496 (-52))) (VF (S754_finite false 4503599627370496 (-52))) (SF CDouble) (VF (S754_finite false 4503599627370496 (-52)));
   check2 SMax (SF CFloat) (SF CFloat) (SF CFloat) (VF f0) (VF f0) (SF CFloat) (VF f0);
   check2 SMax (SF CFloat) (SF CFloat) (SF CFloat) (VF (S754_finite false 8388608 (-23))) (VF f0) (SF CFloat) (VF (S754_finite false 8388608 (-23)));
   check2 SMax (SF CFloat) (SF CFloat) (SF CFloat) (VF f0) (VF (S754_finite false 8388608 (-23))) (SF CFloat) (VF (S754_finite false 8388608 (-23)));
   check2 SMax (SF CFloat) (SF CFloat) (SF CFloat) (VF (S754_finite false 8388608 (-23))) (VF (S754_finite false 8388608 (-23))) (SF CFloat) (VF (S754_finite false 8388608 (-23)));
   check2 SMax (SI u64) (SI u64) (SI u64) (VI 0) (VI 0) (SI i32) (VI 0);
   check2 SMax (SI u64) (SI u64) (SI u64) (VI 1) (VI 0) (SI i32) (VI 1);
   check2 SMax (SI u64) (SI u64) (SI u64) (VI 0) (VI 1) (SI i32) (VI 1);
   check2 SMax (SI u64) (SI u64) (SI u64) (VI 1) (VI 1) (SI i32) (VI 1);
   check2 SMax (SI u32) (SI u32) (SI u32) (VI 0) (VI 0) (SI i32) (VI 0);
   check2 SMax (SI u32) (SI u32) (SI u32) (VI 1) (VI 0) (SI i32) (VI 1);
   check2 SMax (SI u32) (SI u32) (SI u32) (VI 0) (VI 1) (SI i32) (VI 1);
   check2 SMax (SI u32) (SI u32) (SI u32) (VI 1) (VI 1) (SI i32) (VI 1);
   check2 SMax (SI u16) (SI u16) (SI u16) (VI 0) (VI 0) (SI i32) (VI 0);
   check2 SMax (SI u16) (SI u16) (SI u16) (VI 1) (VI 0) (SI i32) (VI 1);
   check2 SMax (SI u16) (SI u16) (SI u16) (VI 0) (VI 1) (SI i32) (VI 1);
   check2 SMax (SI u16) (SI u16) (SI u16) (VI 1) (VI 1) (SI i32) (VI 1);
   check2 SMax (SI u8) (SI u8) (SI u8) (VI 0) (VI 0) (SI i32) (VI 0);
   check2 SMax (SI u8) (SI u8) (SI u8) (VI 1) (VI 0) (SI i32) (VI 1);
   check2 SMax (SI u8) (SI u8) (SI u8) (VI 0) (VI 1) (SI i32) (VI 1);
   check2 SMax (SI u8) (SI u8) (SI u8) (VI 1) (VI 1) (SI i32) (VI 1);
   check2 SMax (SI i64) (SI i64) (SI i64) (VI 0) (VI 0) (SI i32) (VI 0);
   check2 SMax (SI i64) (SI i64) (SI i64) (VI (-1)) (VI 0) (SI i32) (VI 0);
   check2 SMax (SI i64) (SI i64) (SI i64) (VI 0) (VI (-1)) (SI i32) (VI 0);
   check2 SMax (SI i64) (SI i64) (SI i64) (VI (-1)) (VI (-1)) (SI i32) (VI (-1));
   check2 SMax (SI i32) (SI i32) (SI i32) (VI 0) (VI 0) (SI i32) (VI 0);
   check2 SMax (SI i32) (SI i32) (SI i32) (VI (-1)) (VI 0) (SI i32) (VI 0);
   check2 SMax (SI i32) (SI i32) (SI i32) (VI 0) (VI (-1)) (SI i32) (VI 0);
   check2 SMax (SI i32) (SI i32) (SI i32) (VI (-1)) (VI (-1)) (SI i32) (VI (-1));
   check2 SMax (SI i16) (SI i16) (SI i16) (VI 0) (VI 0) (SI i32) (VI 0);
   check2 SMax (SI i16) (SI i16) (SI i16) (VI (-1)) (VI 0) (SI i32) (VI 0);
   check2 SMax (SI i16) (SI i16) (SI i16) (VI 0) (VI (-1)) (SI i32) (VI 0);
   check2 SMax (SI i16) (SI i16) (SI i16) (VI (-1)) (VI (-1)) (SI i32) (VI (-1));
   check2 SMax (SI i8) (SI i8) (SI i8) (VI 0) (VI 0) (SI i32) (VI 0);
   check2 SMax (SI i8) (SI i8) (SI i8) (VI (-1)) (VI 0) (SI i32) (VI 0);
   check2 SMax (SI i8) (SI i8) (SI i8) (VI 0) (VI (-1)) (SI i32) (VI 0);
   check2 SMax (SI i8) (SI i8) (SI i8) (VI (-1)) (VI (-1)) (SI i32) (VI (-1));
   check2 SMax (SI CBool) (SI CBool) (SI CBool) (VI 0) (VI 0) (SI CBool) (VI 0);
   check2 SMax (SI CBool) (SI CBool) (SI CBool) (VI 0) (VI 1) (SI CBool) (VI 1);
   check2 SMax (SI CBool) (SI CBool) (SI CBool) (VI 1) (VI 0) (SI CBool) (VI 1);
   check2 SMax (SI CBool) (SI CBool) (SI CBool) (VI 1) (VI 1) (SI CBool) (VI 1) ].
Proof. vm_compute. reflexivity. Qed.

(** test_algebra_binary.cpp:1223-1282 *)
Example binary_max_different_domain_test : all_true
 [ check2 SMax (SF CDouble) (SI CBool) (SF CDouble) (VF (S754_finite false 7205759403792794 (-55))) (VI 1) (SF CDouble) (VF (S754_finite false 4503599627370496 (-52)));
   check2 SMax (SF CDouble) (SI i32) (SF CDouble) (VF (S754_finite false 5404319552844595 (-52))) (VI 0) (SF CDouble) (VF (S754_finite false 5404319552844595 (-52)));
   check2 SMax (SF CDouble) (SI u64) (SF CDouble) (VF (S754_finite false 7205759403792794 (-55))) (VI 1) (SF CDouble) (VF (S754_finite false 4503599627370496 (-52)));
   check2 SMax (SF CDouble) (SF CFloat) (SF CDouble) (VF (S754_finite false 5404319552844595 (-52))) (VF (S754_finite false 9227469 (-23))) (SF CDouble) (VF (S754_finite false 5404319552844595 (-52)));
   check2 SMax (SF CFloat) (SI CBool) (SF CFloat) (VF (S754_finite false 13421773 (-27))) (VI 0) (SF CFloat) (VF (S754_finite false 13421773 (-27)));
   check2 SMax (SF CFloat) (SF CDouble) (SF CFloat) (VF (S754_finite false 9227469 (-23))) (VF f0) (SF CFloat) (VF (S754_finite false 9227469 (-23)));
   check2 SMax (SF CFloat) (SI u64) (SF CFloat) (VF (S754_finite false 13421773 (-27))) (VI 1) (SF CFloat) (VF (S754_finite false 8388608 (-23)));
   check2 SMax (SF CFloat) (SI i32) (SF CFloat) (VF (S754_finite false 9227469 (-23))) (VI 1) (SF CFloat) (VF (S754_finite false 9227469 (-23)));
   check2 SMax (SI u64) (SI CBool) (SI u64) (VI 0) (VI 0) (SI i32) (VI 0);
   check2 SMax (SI u64) (SI i32) (SI u64) (VI 1) (VI 0) (SI i32) (VI 1);
   check2 SMax (SI u64) (SI u64) (SI u64) (VI 0) (VI 1) (SI i32) (VI 1);
   check2 SMax (SI u64) (SF CFloat) (SI u64) (VI 1) (VF (S754_finite false 9227469 (-23))) (SI i32) (VI 1);
   check2 SMax (SI u32) (SI CBool) (SI u32) (VI 0) (VI 0) (SI i32) (VI 0);
   check2 SMax (SI u32) (SI i32) (SI u32) (VI 1) (VI 0) (SI i32) (VI 1);
   check2 SMax (SI u32) (SI u64) (SI u32) (VI 0) (VI 1) (SI u32) (VI 1);
   check2 SMax (SI u32) (SF CFloat) (SI u32) (VI 1) (VF (S754_finite false 9227469 (-23))) (SI u32) (VI 1);
   check2 SMax (SI u16) (SI CBool) (SI u16) (VI 0) (VI 0) (SI i32) (VI 0);
   check2 SMax (SI u16) (SI i32) (SI u16) (VI 1) (VI 0) (SI i32) (VI 1);
   check2 SMax (SI u16) (SI u64) (SI u16) (VI 0) (VI 1) (SI i32) (VI 1);
   check2 SMax (SI u16) (SF CFloat) (SI u16) (VI 1) (VF (S754_finite false 9227469 (-23))) (SI i32) (VI 1);
   check2 SMax (SI u8) (SI CBool) (SI u8) (VI 0) (VI 0) (SI i32) (VI 0);
   check2 SMax (SI u8) (SI i32) (SI u8) (VI 1) (VI 0) (SI i32) (VI 1);
   check2 SMax (SI u8) (SI u64) (SI u8) (VI 0) (VI 1) (SI i32) (VI 1);
   check2 SMax (SI u8) (SF CFloat) (SI u8) (VI 1) (VF (S754_finite false 9227469 (-23))) (SI i32) (VI 1);
   check2 SMax (SI i64) (SI CBool) (SI i64) (VI 0) (VI 0) (SI i32) (VI 0);
   check2 SMax (SI i64) (SI u32) (SI i64) (VI (-1)) (VI 0) (SI i32) (VI 0);
   check2 SMax (SI i64) (SI i64) (SI i64) (VI 0) (VI (-1)) (SI i32) (VI 0);
   check2 SMax (SI i64) (SF CFloat) (SI i64) (VI (-1)) (VF (S754_finite true 9227469 (-23))) (SI i32) (VI (-1));
   check2 SMax (SI i32) (SI CBool) (SI i32) (VI 0) (VI 0) (SI i32) (VI 0);
   check2 SMax (SI i32) (SI u32) (SI i32) (VI (-1)) (VI 0) (SI i32) (VI (-1));
   check2 SMax (SI i32) (SI i64) (SI i32) (VI 0) (VI (-1)) (SI i32) (VI 0);
   check2 SMax (SI i32) (SF CFloat) (SI i32) (VI (-1)) (VF (S754_finite true 9227469 (-23))) (SI i32) (VI (-1));
   check2 SMax (SI i16) (SI CBool) (SI i16) (VI 0) (VI 0) (SI i32) (VI 0);
   check2 SMax (SI i16) (SI u32) (SI i16) (VI (-1)) (VI 0) (SI i32) (VI (-1));
   check2 SMax (SI i16) (SI i64) (SI i16) (VI 0) (VI (-1)) (SI i32) (VI 0);
   check2 SMax (SI i16) (SF CFloat) (SI i16) (VI (-1)) (VF (S754_finite true 9227469 (-23))) (SI i32) (VI (-1));
   check2 SMax (SI i8) (SI CBool) (SI i8) (VI 0) (VI 0) (SI i32) (VI 0);
   check2 SMax (SI i8) (SI u32) (SI i8) (VI (-1)) (VI 0) (SI i32) (VI (-1));
   check2 SMax (SI i8) (SI i64) (SI i8) (VI 0) (VI (-1)) (SI i32) (VI 0);
   check2 SMax (SI i8) (SF CFloat) (SI i8) (VI (-1)) (VF (S754_finite true 8388608 (-23))) (SI i32) (VI (-1));
   check2 SMax (SI CBool) (SI i8) (SI CBool) (VI 0) (VI 0) (SI CBool) (VI 0);
   check2 SMax (SI CBool) (SI i32) (SI CBool) (VI 0) (VI 1) (SI CBool) (VI 1);
   check2 SMax (SI CBool) (SI u64) (SI CBool) (VI 1) (VI 0) (SI CBool) (VI 1);
   check2 SMax (SI CBool) (SF CFloat) (SI CBool) (VI 1) (VF (S754_finite false 9227469 (-23))) (SI CBool) (VI 1) ].
Proof. vm_compute. reflexivity. Qed.

(** test_algebra_binary.cpp:1285-1341 *)
Example binary_plus_same_domain_test : all_true
 [ check2 SPlus (SF CDouble) (SF CDouble) (SF CDouble) (VF f0) (VF f0) (SF CDouble) (VF f0);
   check2 SPlus (SF CDouble) (SF CDouble) (SF CDouble) (VF (S754_finite false 4503599627370496 (-52))) (VF f0) (SF CDouble) (VF (S754_finite false 4503599627370496 (-52)));
   check2 SPlus (SF CDouble) (SF CDouble) (SF CDouble) (VF f0) (VF (S754_finite false 4503599627370496 (-52))) (SF CDouble) (VF (S754_finite false 4503599627370496 (-52)));
   check2 SPlus (SF CDouble) (SF CDouble) (SF CDouble) (VF (S754_finite false 4503599627370496 (-52))) (VF (S754_finite false 4503599627370496 (-52))) (SF CDouble) (VF (S754_finite false 4503599627370496 (-51)));
   check2 SPlus (SF CFloat) (SF CFloat) (SF CFloat) (VF f0) (VF f0) (SF CFloat) (VF f0);
   check2 SPlus (SF CFloat) (SF CFloat) (SF CFloat) (VF (S754_finite false 8388608 (-23))) (VF f0) (SF CFloat) (VF (S754_finite false 8388608 (-23)));
   check2 SPlus (SF CFloat) (SF CFloat) (SF CFloat) (VF f0) (VF (S754_finite false 8388608 (-23))) (SF CFloat) (VF (S754_finite false 8388608 (-23)));
   check2 SPlus (SF CFloat) (SF CFloat) (SF CFloat) (VF (S754_finite false 8388608 (-23))) (VF (S754_finite false 8388608 (-23))) (SF CFloat) (VF (S754_finite false 8388608 (-22)));
   check2 SPlus (SI u64) (SI u64) (SI u64) (VI 0) (VI 0) (SI i32) (VI 0);
   check2 SPlus (SI u64) (SI u64) (SI u64) (VI 1) (VI 0) (SI i32) (VI 1);
   check2 SPlus (SI u64) (SI u64) (SI u64) (VI 0) (VI 1) (SI i32) (VI 1);
   check2 SPlus (SI u64) (SI u64) (SI u64) (VI 1) (VI 1) (SI i32) (VI 2);
   check2 SPlus (SI u32) (SI u32) (SI u32) (VI 0) (VI 0) (SI i32) (VI 0);
   check2 SPlus (SI u32) (SI u32) (SI u32) (VI 1) (VI 0) (SI i32) (VI 1);
   check2 SPlus (SI u32) (SI u32) (SI u32) (VI 0) (VI 1) (SI i32) (VI 1);
   check2 SPlus (SI u32) (SI u32) (SI u32) (VI 1) (VI 1) (SI i32) (VI 2);
   check2 SPlus (SI u16) (SI u16) (SI u16) (VI 0) (VI 0) (SI i32) (VI 0);
   check2 SPlus (SI u16) (SI u16) (SI u16) (VI 1) (VI 0) (SI i32) (VI 1);
   check2 SPlus (SI u16) (SI u16) (SI u16) (VI 0) (VI 1) (SI i32) (VI 1);
   check2 SPlus (SI u16) (SI u16) (SI u16) (VI 1) (VI 1) (SI i32) (VI 2);
   check2 SPlus (SI u8) (SI u8) (SI u8) (VI 0) (VI 0) (SI i32) (VI 0);
   check2 SPlus (SI u8) (SI u8) (SI u8) (VI 1) (VI 0) (SI i32) (VI 1);
   check2 SPlus (SI u8) (SI u8) (SI u8) (VI 0) (VI 1) (SI i32) (VI 1);
   check2 SPlus (SI u8) (SI u8) (SI u8) (VI 1) (VI 1) (SI i32) (VI 2);
   check2 SPlus (SI i64) (SI i64) (SI i64) (VI 0) (VI 0) (SI i32) (VI 0);
   check2 SPlus (SI i64) (SI i64) (SI i64) (VI (-1)) (VI 0) (SI i32) (VI (-1));
   check2 SPlus (SI i64) (SI i64) (SI i64) (VI 0) (VI (-1)) (SI i32) (VI (-1));
   check2 SPlus (SI i64) (SI i64) (SI i64) (VI (-1)) (VI (-1)) (SI i32) (VI (-2));
   check2 SPlus (SI i32) (SI i32) (SI i32) (VI 0) (VI 0) (SI i32) (VI 0);
   check2 SPlus (SI i32) (SI i32) (SI i32) (VI (-1)) (VI 0) (SI i32) (VI (-1));
   check2 SPlus (SI i32) (SI i32) (SI i32) (VI 0) (VI (-1)) (SI i32) (VI (-1));
   check2 SPlus (SI i32) (SI i32) (SI i32) (VI (-1)) (VI (-1)) (SI i32) (VI (-2));
   check2 SPlus (SI i16) (SI i16) (SI i16) (VI 0) (VI 0) (SI i32) (VI 0);
   check2 SPlus (SI i16) (SI i16) (SI i16) (VI (-1)) (VI 0) (SI i32) (VI (-1));
   check2 SPlus (SI i16) (SI i16) (SI i16) (VI 0) (VI (-1)) (SI i32) (VI (-1));
   check2 SPlus (SI i16) (SI i16) (SI i16) (VI (-1)) (VI (-1)) (SI i32) (VI (-2));
   check2 SPlus (SI i8) (SI i8) (SI i8) (VI 0) (VI 0) (SI i32) (VI 0);
   check2 SPlus (SI i8) (SI i8) (SI i8) (VI (-1)) (VI 0) (SI i32) (VI (-1));
   check2 SPlus (SI i8) (SI i8) (SI i8) (VI 0) (VI (-1)) (SI i32) (VI (-1));
   check2 SPlus (SI i8) (SI i8) (SI i8) (VI (-1)) (VI (-1)) (SI i32) (VI (-2));
   check2 SPlus (SI CBool) (SI CBool) (SI CBool) (VI 0) (VI 0) (SI CBool) (VI 0);
   check2 SPlus (SI CBool) (SI CBool) (SI CBool) (VI 0) (VI 1) (SI CBool) (VI 1);
   check2 SPlus (SI CBool) (SI CBool) (SI CBool) (VI 1) (VI 0) (SI CBool) (VI 1);
   check2 SPlus (SI CBool) (SI CBool) (SI CBool) (VI 1) (VI 1) (SI CBool) (VI 1) ].
Proof. vm_compute. reflexivity. Qed.

(** test_algebra_binary.cpp:1344-1404 *)
Example binary_plus_different_domain_test : all_true
 [ check2 SPlus (SF CDouble) (SI CBool) (SF CDouble) (VF (S754_finite false 7205759403792794 (-55))) (VI 1) (SF CDouble) (VF (S754_finite false 5404319552844595 (-52)));
   check2 SPlus (SF CDouble) (SI i32) (SF CDouble) (VF (S754_finite false 5404319552844595 (-52))) (VI 0) (SF CDouble) (VF (S754_finite false 5404319552844595 (-52)));
   check2 SPlus (SF CDouble) (SI u64) (SF CDouble) (VF (S754_finite false 7205759403792794 (-55))) (VI 1) (SF CDouble) (VF (S754_finite false 5404319552844595 (-52)));
   check2 SPlus (SF CFloat) (SI CBool) (SF CFloat) (VF (S754_finite false 13421773 (-27))) (VI 0) (SF CFloat) (VF (S754_finite false 13421773 (-27)));
   check2 SPlus (SF CFloat) (SF CDouble) (SF CFloat) (VF (S754_finite false 9227469 (-23))) (VF f0) (SF CFloat) (VF (S754_finite false 9227469 (-23)));
   check2 SPlus (SF CFloat) (SI u64) (SF CFloat) (VF (S754_finite false 13421773 (-27))) (VI 1) (SF CFloat) (VF (S754_finite false 9227469 (-23)));
   check2 SPlus (SF CFloat) (SI i32) (SF CFloat) (VF (S754_finite false 9227469 (-23))) (VI 1) (SF CFloat) (VF (S754_finite false 8808038 (-22)));
   check2 SPlus (SI u64) (SI CBool) (SI u64) (VI 0) (VI 0) (SI i32) (VI 0);
   check2 SPlus (SI u64) (SI i32) (SI u64) (VI 1) (VI (-1)) (SI i32) (VI 0);
   check2 SPlus (SI u64) (SI u64) (SI u64) (VI 0) (VI 1) (SI i32) (VI 1);
   check2 SPlus (SI u64) (SF CFloat) (SI u64) (VI 1) (VF (S754_finite true 9227469 (-23))) (SI i32) (VI 0);
   check2 SPlus (SI u32) (SI CBool) (SI u32) (VI 0) (VI 0) (SI i32) (VI 0);
   check2 SPlus (SI u32) (SI i32) (SI u32) (VI 1) (VI (-1)) (SI u32) (VI 0);
   check2 SPlus (SI u32) (SI u64) (SI u32) (VI 0) (VI 1) (SI u32) (VI 1);
   check2 SPlus (SI u32) (SF CFloat) (SI u32) (VI 1) (VF (S754_finite true 9227469 (-23))) (SI u32) (VI 0);
   check2 SPlus (SI u16) (SI CBool) (SI u16) (VI 0) (VI 0) (SI i32) (VI 0);
   check2 SPlus (SI u16) (SI i32) (SI u16) (VI 1) (VI (-1)) (SI i32) (VI 0);
   check2 SPlus (SI u16) (SI u64) (SI u16) (VI 0) (VI 1) (SI i32) (VI 1);
   check2 SPlus (SI u16) (SF CFloat) (SI u16) (VI 1) (VF (S754_finite true 9227469 (-23))) (SI i32) (VI 0);
   check2 SPlus (SI u8) (SI CBool) (SI u8) (VI 0) (VI 0) (SI i32) (VI 0);
   check2 SPlus (SI u8) (SI i32) (SI u8) (VI 1) (VI (-1)) (SI i32) (VI 0);
   check2 SPlus (SI u8) (SI u64) (SI u8) (VI 0) (VI 1) (SI i32) (VI 1);
   check2 SPlus (SI u8) (SF CFloat) (SI u8) (VI 1) (VF (S754_finite true 9227469 (-23))) (SI i32) (VI 0);
   check2 SPlus (SI i64) (SI CBool) (SI i64) (VI 0) (VI 0) (SI i32) (VI 0);
   check2 SPlus (SI i64) (SI u32) (SI i64) (VI (-1)) (VI 0) (SI i32) (VI (-1));
   check2 SPlus (SI i64) (SI i64) (SI i64) (VI 0) (VI (-1)) (SI i32) (VI (-1));
   check2 SPlus (SI i64) (SF CFloat) (SI i64) (VI (-1)) (VF (S754_finite true 9227469 (-23))) (SI i32) (VI (-2));
   check2 SPlus (SI i32) (SI CBool) (SI i32) (VI 0) (VI 0) (SI i32) (VI 0);
   check2 SPlus (SI i32) (SI u32) (SI i32) (VI (-1)) (VI 0) (SI i32) (VI (-1));
   check2 SPlus (SI i32) (SI i64) (SI i32) (VI 0) (VI (-1)) (SI i32) (VI (-1));
   check2 SPlus (SI i32) (SF CFloat) (SI i32) (VI (-1)) (VF (S754_finite true 9227469 (-23))) (SI i32) (VI (-2));
   check2 SPlus (SI i16) (SI CBool) (SI i16) (VI 0) (VI 0) (SI i32) (VI 0);
   check2 SPlus (SI i16) (SI u32) (SI i16) (VI (-1)) (VI 0) (SI i32) (VI (-1));
   check2 SPlus (SI i16) (SI i64) (SI i16) (VI 0) (VI (-1)) (SI i32) (VI (-1));
   check2 SPlus (SI i16) (SF CFloat) (SI i16) (VI (-1)) (VF (S754_finite true 9227469 (-23))) (SI i32) (VI (-2));
   check2 SPlus (SI i8) (SI CBool) (SI i8) (VI 0) (VI 0) (SI i32) (VI 0);
   check2 SPlus (SI i8) (SI u32) (SI i8) (VI (-1)) (VI 0) (SI i32) (VI (-1));
   check2 SPlus (SI i8) (SI i64) (SI i8) (VI 0) (VI (-1)) (SI i32) (VI (-1));
   check2 SPlus (SI i8) (SF CFloat) (SI i8) (VI (-1)) (VF (S754_finite true 8388608 (-23))) (SI i32) (VI (-2));
   check2 SPlus (SI CBool) (SI i8) (SI CBool) (VI 0) (VI 0) (SI CBool) (VI 0);
   check2 SPlus (SI CBool) (SI i32) (SI CBool) (VI 0) (VI 1) (SI CBool) (VI 1);
   check2 SPlus (SI CBool) (SI u64) (SI CBool) (VI 1) (VI 0) (SI CBool) (VI 1);
   check2 SPlus (SI CBool) (SF CFloat) (SI CBool) (VI 1) (VF (S754_finite false 9227469 (-23))) (SI CBool) (VI 1) ].
Proof. vm_compute. reflexivity. Qed.

(** test_algebra_binary.cpp:1407-1463 *)
Example binary_minus_same_domain_test : all_true
 [ check2 SMinus (SF CDouble) (SF CDouble) (SF CDouble) (VF f0) (VF f0) (SF CDouble) (VF f0);
   check2 SMinus (SF CDouble) (SF CDouble) (SF CDouble) (VF (S754_finite false 4503599627370496 (-52))) (VF f0) (SF CDouble) (VF (S754_finite false 4503599627370496 (-52)));
   check2 SMinus (SF CDouble) (SF CDouble) (SF CDouble) (VF (S754_finite false 4503599627370496 (-51))) (VF (S754_finite false 4503599627370496 (-52))) (SF CDouble) (VF (S754_finite false 4503599627370496 (-52)));
   check2 SMinus (SF CDouble) (SF CDouble) (SF CDouble) (VF (S754_finite false 4503599627370496 (-52))) (VF (S754_finite false 4503599627370496 (-52))) (SF CDouble) (VF f0);
   check2 SMinus (SF CFloat) (SF CFloat) (SF CFloat) (VF f0) (VF f0) (SF CFloat) (VF f0);
   check2 SMinus (SF CFloat) (SF CFloat) (SF CFloat) (VF (S754_finite false 8388608 (-23))) (VF f0) (SF CFloat) (VF (S754_finite false 8388608 (-23)));
   check2 SMinus (SF CFloat) (SF CFloat) (SF CFloat) (VF (S754_finite false 8388608 (-22))) (VF (S754_finite false 8388608 (-23))) (SF CFloat) (VF (S754_finite false 8388608 (-23)));
   check2 SMinus (SF CFloat) (SF CFloat) (SF CFloat) (VF (S754_finite false 8388608 (-23))) (VF (S754_finite false 8388608 (-23))) (SF CFloat) (VF f0);
   check2 SMinus (SI u64) (SI u64) (SI u64) (VI 0) (VI 0) (SI i32) (VI 0);
   check2 SMinus (SI u64) (SI u64) (SI u64) (VI 1) (VI 0) (SI i32) (VI 1);
   check2 SMinus (SI u64) (SI u64) (SI u64) (VI 2) (VI 1) (SI i32) (VI 1);
   check2 SMinus (SI u64) (SI u64) (SI u64) (VI 1) (VI 1) (SI i32) (VI 0);
   check2 SMinus (SI u32) (SI u32) (SI u32) (VI 0) (VI 0) (SI i32) (VI 0);
   check2 SMinus (SI u32) (SI u32) (SI u32) (VI 1) (VI 0) (SI i32) (VI 1);
   check2 SMinus (SI u32) (SI u32) (SI u32) (VI 2) (VI 1) (SI i32) (VI 1);
   check2 SMinus (SI u32) (SI u32) (SI u32) (VI 1) (VI 1) (SI i32) (VI 0);
   check2 SMinus (SI u16) (SI u16) (SI u16) (VI 0) (VI 0) (SI i32) (VI 0);
   check2 SMinus (SI u16) (SI u16) (SI u16) (VI 1) (VI 0) (SI i32) (VI 1);
   check2 SMinus (SI u16) (SI u16) (SI u16) (VI 2) (VI 1) (SI i32) (VI 1);
   check2 SMinus (SI u16) (SI u16) (SI u16) (VI 1) (VI 1) (SI i32) (VI 0);
   check2 SMinus (SI u8) (SI u8) (SI u8) (VI 0) (VI 0) (SI i32) (VI 0);
   check2 SMinus (SI u8) (SI u8) (SI u8) (VI 1) (VI 0) (SI i32) (VI 1);
   check2 SMinus (SI u8) (SI u8) (SI u8) (VI 2) (VI 1) (SI i32) (VI 1);
   check2 SMinus (SI u8) (SI u8) (SI u8) (VI 1) (VI 1) (SI i32) (VI 0);
   check2 SMinus (SI i64) (SI i64) (SI i64) (VI 0) (VI 0) (SI i32) (VI 0);
   check2 SMinus (SI i64) (SI i64) (SI i64) (VI (-1)) (VI 0) (SI i32) (VI (-1));
   check2 SMinus (SI i64) (SI i64) (SI i64) (VI (-2)) (VI (-1)) (SI i32) (VI (-1));
   check2 SMinus (SI i64) (SI i64) (SI i64) (VI (-1)) (VI (-1)) (SI i32) (VI 0);
   check2 SMinus (SI i32) (SI i32) (SI i32) (VI 0) (VI 0) (SI i32) (VI 0);
   check2 SMinus (SI i32) (SI i32) (SI i32) (VI (-1)) (VI 0) (SI i32) (VI (-1));
   check2 SMinus (SI i32) (SI i32) (SI i32) (VI (-2)) (VI (-1)) (SI i32) (VI (-1));
   check2 SMinus (SI i32) (SI i32) (SI i32) (VI (-1)) (VI (-1)) (SI i32) (VI 0);
   check2 SMinus (SI i16) (SI i16) (SI i16) (VI 0) (VI 0) (SI i32) (VI 0);
   check2 SMinus (SI i16) (SI i16) (SI i16) (VI (-1)) (VI 0) (SI i32) (VI (-1));
   check2 SMinus (SI i16) (SI i16) (SI i16) (VI (-2)) (VI (-1)) (SI i32) (VI (-1));
   check2 SMinus (SI i16) (SI i16) (SI i16) (VI (-1)) (VI (-1)) (SI i32) (VI 0);
   check2 SMinus (SI i8) (SI i8) (SI i8) (VI 0) (VI 0) (SI i32) (VI 0);
   check2 SMinus (SI i8) (SI i8) (SI i8) (VI (-1)) (VI 0) (SI i32) (VI (-1));
   check2 SMinus (SI i8) (SI i8) (SI i8) (VI (-2)) (VI (-1)) (SI i32) (VI (-1));
   check2 SMinus (SI i8) (SI i8) (SI i8) (VI (-1)) (VI (-1)) (SI i32) (VI 0);
   check2 SMinus (SI CBool) (SI CBool) (SI CBool) (VI 0) (VI 0) (SI CBool) (VI 0);
   check2 SMinus (SI CBool) (SI CBool) (SI CBool) (VI 0) (VI 1) (SI CBool) (VI 1);
   check2 SMinus (SI CBool) (SI CBool) (SI CBool) (VI 1) (VI 0) (SI CBool) (VI 1);
   check2 SMinus (SI CBool) (SI CBool) (SI CBool) (VI 1) (VI 1) (SI CBool) (VI 0) ].
Proof. vm_compute. reflexivity. Qed.

(** test_algebra_binary.cpp:1466-1523 *)
Example binary_minus_different_domain_test : all_true
 [ check2 SMinus (SF CDouble) (SI CBool) (SF CDouble) (VF (S754_finite false 7205759403792794 (-55))) (VI 1) (SF CDouble) (VF (S754_finite true 7205759403792794 (-53)));
   check2 SMinus (SF CDouble) (SI i32) (SF CDouble) (VF (S754_finite false 5404319552844595 (-52))) (VI 0) (SF CDouble) (VF (S754_finite false 5404319552844595 (-52)));
   check2 SMinus (SF CDouble) (SI u64) (SF CDouble) (VF (S754_finite false 7205759403792794 (-55))) (VI 1) (SF CDouble) (VF (S754_finite true 7205759403792794 (-53)));
   check2 SMinus (SF CFloat) (SI CBool) (SF CFloat) (VF (S754_finite false 13421773 (-27))) (VI 0) (SF CFloat) (VF (S754_finite false 13421773 (-27)));
   check2 SMinus (SF CFloat) (SF CDouble) (SF CFloat) (VF (S754_finite false 9227469 (-23))) (VF f0) (SF CFloat) (VF (S754_finite false 9227469 (-23)));
   check2 SMinus (SF CFloat) (SI u64) (SF CFloat) (VF (S754_finite false 13421773 (-27))) (VI 1) (SF CFloat) (VF (S754_finite true 15099494 (-24)));
   check2 SMinus (SI u64) (SI CBool) (SI u64) (VI 0) (VI 0) (SI i32) (VI 0);
   check2 SMinus (SI u64) (SI i32) (SI u64) (VI 1) (VI (-1)) (SI i32) (VI 2);
   check2 SMinus (SI u64) (SI u64) (SI u64) (VI 0) (VI 1) (SI i32) (VI (-1));
   check2 SMinus (SI u64) (SF CFloat) (SI u64) (VI 1) (VF (S754_finite true 9227469 (-23))) (SI i32) (VI 2);
   check2 SMinus (SI u32) (SI CBool) (SI u32) (VI 0) (VI 0) (SI i32) (VI 0);
   check2 SMinus (SI u32) (SI i32) (SI u32) (VI 1) (VI (-1)) (SI u32) (VI 2);
   check2 SMinus (SI u32) (SI u64) (SI u32) (VI 0) (VI 1) (SI u32) (VI 4294967295);
   check2 SMinus (SI u32) (SF CFloat) (SI u32) (VI 1) (VF (S754_finite true 9227469 (-23))) (SI u32) (VI 2);
   check2 SMinus (SI u16) (SI CBool) (SI u16) (VI 0) (VI 0) (SI i32) (VI 0);
   check2 SMinus (SI u16) (SI i32) (SI u16) (VI 1) (VI (-1)) (SI i32) (VI 2);
   check2 SMinus (SI u16) (SI u64) (SI u16) (VI 0) (VI 1) (SI u16) (VI 65535);
   check2 SMinus (SI u16) (SF CFloat) (SI u16) (VI 1) (VF (S754_finite true 9227469 (-23))) (SI i32) (VI 2);
   check2 SMinus (SI u8) (SI CBool) (SI u8) (VI 0) (VI 0) (SI i32) (VI 0);
   check2 SMinus (SI u8) (SI i32) (SI u8) (VI 1) (VI (-1)) (SI i32) (VI 2);
   check2 SMinus (SI u8) (SI u64) (SI u8) (VI 0) (VI 1) (SI u8) (VI 255);
   check2 SMinus (SI u8) (SF CFloat) (SI u8) (VI 1) (VF (S754_finite true 9227469 (-23))) (SI i32) (VI 2);
   check2 SMinus (SI i64) (SI CBool) (SI i64) (VI 0) (VI 0) (SI i32) (VI 0);
   check2 SMinus (SI i64) (SI u32) (SI i64) (VI (-1)) (VI 0) (SI i32) (VI (-1));
   check2 SMinus (SI i64) (SI i64) (SI i64) (VI 0) (VI (-1)) (SI i32) (VI 1);
   check2 SMinus (SI i64) (SF CFloat) (SI i64) (VI (-1)) (VF (S754_finite true 9227469 (-23))) (SI i32) (VI 0);
   check2 SMinus (SI i32) (SI CBool) (SI i32) (VI 0) (VI 0) (SI i32) (VI 0);
   check2 SMinus (SI i32) (SI u32) (SI i32) (VI (-1)) (VI 0) (SI i32) (VI (-1));
   check2 SMinus (SI i32) (SI i64) (SI i32) (VI 0) (VI (-1)) (SI i32) (VI 1);
   check2 SMinus (SI i32) (SF CFloat) (SI i32) (VI (-1)) (VF (S754_finite true 9227469 (-23))) (SI i32) (VI 0);
   check2 SMinus (SI i16) (SI CBool) (SI i16) (VI 0) (VI 0) (SI i32) (VI 0);
   check2 SMinus (SI i16) (SI u32) (SI i16) (VI (-1)) (VI 0) (SI i32) (VI (-1));
   check2 SMinus (SI i16) (SI i64) (SI i16) (VI 0) (VI (-1)) (SI i32) (VI 1);
   check2 SMinus (SI i16) (SF CFloat) (SI i16) (VI (-1)) (VF (S754_finite true 9227469 (-23))) (SI i32) (VI 0);
   check2 SMinus (SI i8) (SI CBool) (SI i8) (VI 0) (VI 0) (SI i32) (VI 0);
   check2 SMinus (SI i8) (SI u32) (SI i8) (VI (-1)) (VI 0) (SI i32) (VI (-1));
   check2 SMinus (SI i8) (SI i64) (SI i8) (VI 0) (VI (-1)) (SI i32) (VI 1);
   check2 SMinus (SI i8) (SF CFloat) (SI i8) (VI (-1)) (VF (S754_finite true 8388608 (-23))) (SI i32) (VI 0);
   check2 SMinus (SI CBool) (SI i8) (SI CBool) (VI 0) (VI 0) (SI CBool) (VI 0);
   check2 SMinus (SI CBool) (SI i32) (SI CBool) (VI 0) (VI 1) (SI CBool) (VI 1);
   check2 SMinus (SI CBool) (SI u64) (SI CBool) (VI 1) (VI 0) (SI CBool) (VI 1);
   check2 SMinus (SI CBool) (SF CFloat) (SI CBool) (VI 1) (VF (S754_finite false 9227469 (-23))) (SI CBool) (VI 1) ].
Proof. vm_compute. reflexivity. Qed.

(** test_algebra_binary.cpp:1526-1582 *)
Example binary_times_same_domain_test : all_true
 [ check2 STimes (SF CDouble) (SF CDouble) (SF CDouble) (VF f0) (VF f0) (SF CDouble) (VF f0);
   check2 STimes (SF CDouble) (SF CDouble) (SF CDouble) (VF (S754_finite false 4503599627370496 (-52))) (VF f0) (SF CDouble) (VF f0);
   check2 STimes (SF CDouble) (SF CDouble) (SF CDouble) (VF (S754_finite false 4503599627370496 (-51))) (VF (S754_finite false 4503599627370496 (-52))) (SF CDouble) (VF (S754_finite false 4503599627370496 (-51)));
   check2 STimes (SF CDouble) (SF CDouble) (SF CDouble) (VF (S754_finite false 4503599627370496 (-52))) (VF (S754_finite false 4503599627370496 (-52))) (SF CDouble) (VF (S754_finite false 4503599627370496 (-52)));
   check2 STimes (SF CFloat) (SF CFloat) (SF CFloat) (VF f0) (VF f0) (SF CFloat) (VF f0);
   check2 STimes (SF CFloat) (SF CFloat) (SF CFloat) (VF (S754_finite false 8388608 (-23))) (VF f0) (SF CFloat) (VF f0);
   check2 STimes (SF CFloat) (SF CFloat) (SF CFloat) (VF (S754_finite false 8388608 (-22))) (VF (S754_finite false 8388608 (-23))) (SF CFloat) (VF (S754_finite false 8388608 (-22)));
   check2 STimes (SF CFloat) (SF CFloat) (SF CFloat) (VF (S754_finite false 8388608 (-23))) (VF (S754_finite false 8388608 (-23))) (SF CFloat) (VF (S754_finite false 8388608 (-23)));
   check2 STimes (SI u64) (SI u64) (SI u64) (VI 0) (VI 0) (SI i32) (VI 0);
   check2 STimes (SI u64) (SI u64) (SI u64) (VI 1) (VI 0) (SI i32) (VI 0);
   check2 STimes (SI u64) (SI u64) (SI u64) (VI 2) (VI 1) (SI i32) (VI 2);
   check2 STimes (SI u64) (SI u64) (SI u64) (VI 1) (VI 1) (SI i32) (VI 1);
   check2 STimes (SI u32) (SI u32) (SI u32) (VI 0) (VI 0) (SI i32) (VI 0);
   check2 STimes (SI u32) (SI u32) (SI u32) (VI 1) (VI 0) (SI i32) (VI 0);
   check2 STimes (SI u32) (SI u32) (SI u32) (VI 2) (VI 1) (SI i32) (VI 2);
   check2 STimes (SI u32) (SI u32) (SI u32) (VI 1) (VI 1) (SI i32) (VI 1);
   check2 STimes (SI u16) (SI u16) (SI u16) (VI 0) (VI 0) (SI i32) (VI 0);
   check2 STimes (SI u16) (SI u16) (SI u16) (VI 1) (VI 0) (SI i32) (VI 0);
   check2 STimes (SI u16) (SI u16) (SI u16) (VI 2) (VI 1) (SI i32) (VI 2);
   check2 STimes (SI u16) (SI u16) (SI u16) (VI 1) (VI 1) (SI i32) (VI 1);
   check2 STimes (SI u8) (SI u8) (SI u8) (VI 0) (VI 0) (SI i32) (VI 0);
   check2 STimes (SI u8) (SI u8) (SI u8) (VI 1) (VI 0) (SI i32) (VI 0);
   check2 STimes (SI u8) (SI u8) (SI u8) (VI 2) (VI 1) (SI i32) (VI 2);
   check2 STimes (SI u8) (SI u8) (SI u8) (VI 1) (VI 1) (SI i32) (VI 1);
   check2 STimes (SI i64) (SI i64) (SI i64) (VI 0) (VI 0) (SI i32) (VI 0);
   check2 STimes (SI i64) (SI i64) (SI i64) (VI (-1)) (VI 0) (SI i32) (VI 0);
   check2 STimes (SI i64) (SI i64) (SI i64) (VI (-2)) (VI 1) (SI i32) (VI (-2));
   check2 STimes (SI i64) (SI i64) (SI i64) (VI (-1)) (VI (-1)) (SI i32) (VI 1);
   check2 STimes (SI i32) (SI i32) (SI i32) (VI 0) (VI 0) (SI i32) (VI 0);
   check2 STimes (SI i32) (SI i32) (SI i32) (VI (-1)) (VI 0) (SI i32) (VI 0);
   check2 STimes (SI i32) (SI i32) (SI i32) (VI (-2)) (VI 1) (SI i32) (VI (-2));
   check2 STimes (SI i32) (SI i32) (SI i32) (VI (-1)) (VI (-1)) (SI i32) (VI 1);
   check2 STimes (SI i16) (SI i16) (SI i16) (VI 0) (VI 0) (SI i32) (VI 0);
   check2 STimes (SI i16) (SI i16) (SI i16) (VI (-1)) (VI 0) (SI i32) (VI 0);
   check2 STimes (SI i16) (SI i16) (SI i16) (VI (-2)) (VI 1) (SI i32) (VI (-2));
   check2 STimes (SI i16) (SI i16) (SI i16) (VI (-1)) (VI (-1)) (SI i32) (VI 1);
   check2 STimes (SI i8) (SI i8) (SI i8) (VI 0) (VI 0) (SI i32) (VI 0);
   check2 STimes (SI i8) (SI i8) (SI i8) (VI (-1)) (VI 0) (SI i32) (VI 0);
   check2 STimes (SI i8) (SI i8) (SI i8) (VI (-2)) (VI 1) (SI i32) (VI (-2));
   check2 STimes (SI i8) (SI i8) (SI i8) (VI (-1)) (VI (-1)) (SI i32) (VI 1);
   check2 STimes (SI CBool) (SI CBool) (SI CBool) (VI 0) (VI 0) (SI CBool) (VI 0);
   check2 STimes (SI CBool) (SI CBool) (SI CBool) (VI 0) (VI 1) (SI CBool) (VI 0);
   check2 STimes (SI CBool) (SI CBool) (SI CBool) (VI 1) (VI 0) (SI CBool) (VI 0);
   check2 STimes (SI CBool) (SI CBool) (SI CBool) (VI 1) (VI 1) (SI CBool) (VI 1) ].
Proof. vm_compute. reflexivity. Qed.

(** test_algebra_binary.cpp:1585-1651 *)
Example binary_times_different_domain_test : all_true
 [ check2 STimes (SF CDouble) (SI CBool) (SF CDouble) (VF (S754_finite false 7205759403792794 (-56))) (VI 0) (SF CDouble) (VF f0);
   check2 STimes (SF CDouble) (SI i32) (SF CDouble) (VF (S754_finite false 5404319552844595 (-52))) (VI 0) (SF CDouble) (VF f0);
   check2 STimes (SF CDouble) (SI u64) (SF CDouble) (VF (S754_finite false 7205759403792794 (-55))) (VI 1) (SF CDouble) (VF (S754_finite false 7205759403792794 (-55)));
   check2 STimes (SF CFloat) (SI CBool) (SF CFloat) (VF (S754_finite false 13421773 (-27))) (VI 0) (SF CFloat) (VF f0);
   check2 STimes (SF CFloat) (SF CDouble) (SF CFloat) (VF (S754_finite false 9227469 (-23))) (VF f0) (SF CFloat) (VF f0);
   check2 STimes (SF CFloat) (SI u64) (SF CFloat) (VF (S754_finite false 13421773 (-27))) (VI 1) (SF CFloat) (VF (S754_finite false 13421773 (-27)));
   check2 STimes (SF CFloat) (SI i32) (SF CFloat) (VF (S754_finite false 9227469 (-23))) (VI 1) (SF CFloat) (VF (S754_finite false 9227469 (-23)));
   check2 STimes (SI u64) (SI CBool) (SI u64) (VI 0) (VI 0) (SI i32) (VI 0);
   check2 STimes (SI u64) (SI i32) (SI u64) (VI 1) (VI (-1)) (SI u64) (VI 18446744073709551615);
   check2 STimes (SI u64) (SI u64) (SI u64) (VI 0) (VI 1) (SI i32) (VI 0);
   check2 STimes (SI u32) (SI CBool) (SI u32) (VI 0) (VI 0) (SI i32) (VI 0);
   check2 STimes (SI u32) (SI i32) (SI u32) (VI 1) (VI (-1)) (SI u32) (VI 4294967295);
   check2 STimes (SI u32) (SI u64) (SI u32) (VI 0) (VI 1) (SI u32) (VI 0);
   check2 STimes (SI u16) (SI CBool) (SI u16) (VI 0) (VI 0) (SI i32) (VI 0);
   check2 STimes (SI u16) (SI i32) (SI u16) (VI 1) (VI (-1)) (SI u16) (VI 65535);
   check2 STimes (SI u16) (SI u64) (SI u16) (VI 0) (VI 1) (SI i32) (VI 0);
   check2 STimes (SI u8) (SI CBool) (SI u8) (VI 0) (VI 0) (SI i32) (VI 0);
   check2 STimes (SI u8) (SI i32) (SI u8) (VI 1) (VI (-1)) (SI u8) (VI 255);
   check2 STimes (SI u8) (SI u64) (SI u8) (VI 0) (VI 1) (SI i32) (VI 0);
   check2 STimes (SI i64) (SI CBool) (SI i64) (VI 0) (VI 0) (SI i32) (VI 0);
   check2 STimes (SI i64) (SI u32) (SI i64) (VI (-1)) (VI 0) (SI i32) (VI 0);
   check2 STimes (SI i64) (SI u64) (SI i64) (VI 0) (VI (-1)) (SI i32) (VI 0);
   check2 STimes (SI i64) (SF CFloat) (SI i64) (VI (-1)) (VF (S754_finite true 9227469 (-23))) (SI i32) (VI 1);
   check2 STimes (SI i32) (SI CBool) (SI i32) (VI 0) (VI 0) (SI i32) (VI 0);
   check2 STimes (SI i32) (SI u32) (SI i32) (VI (-1)) (VI 0) (SI i32) (VI 0);
   check2 STimes (SI i32) (SI i64) (SI i32) (VI 1) (VI (-1)) (SI i32) (VI (-1));
   check2 STimes (SI i32) (SF CFloat) (SI i32) (VI (-1)) (VF (S754_finite true 9227469 (-23))) (SI i32) (VI 1);
   check2 STimes (SI i16) (SI CBool) (SI i16) (VI 0) (VI 0) (SI i32) (VI 0);
   check2 STimes (SI i16) (SI u32) (SI i16) (VI (-1)) (VI 0) (SI i32) (VI 0);
   check2 STimes (SI i16) (SI i64) (SI i16) (VI 0) (VI (-1)) (SI i32) (VI 0);
   check2 STimes (SI i16) (SF CFloat) (SI i16) (VI (-1)) (VF (S754_finite true 9227469 (-23))) (SI i32) (VI 1);
   check2 STimes (SI i8) (SI CBool) (SI i8) (VI 0) (VI 0) (SI i32) (VI 0);
   check2 STimes (SI i8) (SI u32) (SI i8) (VI (-1)) (VI 0) (SI i32) (VI 0);
   check2 STimes (SI i8) (SI i64) (SI i8) (VI 0) (VI (-1)) (SI i32) (VI 0);
   check2 STimes (SI i8) (SF CFloat) (SI i8) (VI (-1)) (VF (S754_finite true 8388608 (-23))) (SI i32) (VI 1);
   check2 STimes (SI CBool) (SI i8) (SI CBool) (VI 0) (VI 0) (SI CBool) (VI 0);
   check2 STimes (SI CBool) (SI i32) (SI CBool) (VI 0) (VI 1) (SI CBool) (VI 0);
   check2 STimes (SI CBool) (SI u64) (SI CBool) (VI 1) (VI 0) (SI CBool) (VI 0);
   check2 STimes (SI CBool) (SF CFloat) (SI CBool) (VI 1) (VF (S754_finite false 9227469 (-23))) (SI CBool) (VI 1) ].
Proof. vm_compute. reflexivity. Qed.

(** test_algebra_binary.cpp:1654-1710 *)
Example binary_div_same_domain_test : all_true
 [ check2 SDiv (SF CDouble) (SF CDouble) (SF CDouble) (VF f0) (VF (S754_finite false 4503599627370496 (-52))) (SF CDouble) (VF f0);
   check2 SDiv (SF CDouble) (SF CDouble) (SF CDouble) (VF (S754_finite false 4503599627370496 (-52))) (VF (S754_finite false 4503599627370496 (-51))) (SF CDouble) (VF (S754_finite false 4503599627370496 (-53)));
   check2 SDiv (SF CDouble) (SF CDouble) (SF CDouble) (VF (S754_finite false 4503599627370496 (-51))) (VF (S754_finite false 4503599627370496 (-52))) (SF CDouble) (VF (S754_finite false 4503599627370496 (-51)));
   check2 SDiv (SF CDouble) (SF CDouble) (SF CDouble) (VF (S754_finite false 4503599627370496 (-52))) (VF (S754_finite false 4503599627370496 (-52))) (SF CDouble) (VF (S754_finite false 4503599627370496 (-52)));
   check2 SDiv (SF CFloat) (SF CFloat) (SF CFloat) (VF f0) (VF (S754_finite false 8388608 (-23))) (SF CFloat) (VF f0);
   check2 SDiv (SF CFloat) (SF CFloat) (SF CFloat) (VF (S754_finite false 8388608 (-23))) (VF (S754_finite false 8388608 (-22))) (SF CFloat) (VF (S754_finite false 8388608 (-24)));
   check2 SDiv (SF CFloat) (SF CFloat) (SF CFloat) (VF (S754_finite false 8388608 (-22))) (VF (S754_finite false 8388608 (-23))) (SF CFloat) (VF (S754_finite false 8388608 (-22)));
   check2 SDiv (SF CFloat) (SF CFloat) (SF CFloat) (VF (S754_finite false 8388608 (-23))) (VF (S754_finite false 8388608 (-23))) (SF CFloat) (VF (S754_finite false 8388608 (-23)));
   check2 SDiv (SI u64) (SI u64) (SI u64) (VI 0) (VI 1) (SI i32) (VI 0);
   check2 SDiv (SI u64) (SI u64) (SI u64) (VI 1) (VI 2) (SI i32) (VI 0);
   check2 SDiv (SI u64) (SI u64) (SI u64) (VI 2) (VI 1) (SI i32) (VI 2);
   check2 SDiv (SI u64) (SI u64) (SI u64) (VI 1) (VI 1) (SI i32) (VI 1);
   check2 SDiv (SI u32) (SI u32) (SI u32) (VI 0) (VI 1) (SI i32) (VI 0);
   check2 SDiv (SI u32) (SI u32) (SI u32) (VI 1) (VI 2) (SI i32) (VI 0);
   check2 SDiv (SI u32) (SI u32) (SI u32) (VI 2) (VI 1) (SI i32) (VI 2);
   check2 SDiv (SI u32) (SI u32) (SI u32) (VI 1) (VI 1) (SI i32) (VI 1);
   check2 SDiv (SI u16) (SI u16) (SI u16) (VI 0) (VI 1) (SI i32) (VI 0);
   check2 SDiv (SI u16) (SI u16) (SI u16) (VI 1) (VI 2) (SI i32) (VI 0);
   check2 SDiv (SI u16) (SI u16) (SI u16) (VI 2) (VI 1) (SI i32) (VI 2);
   check2 SDiv (SI u16) (SI u16) (SI u16) (VI 1) (VI 1) (SI i32) (VI 1);
   check2 SDiv (SI u8) (SI u8) (SI u8) (VI 0) (VI 1) (SI i32) (VI 0);
   check2 SDiv (SI u8) (SI u8) (SI u8) (VI 1) (VI 2) (SI i32) (VI 0);
   check2 SDiv (SI u8) (SI u8) (SI u8) (VI 2) (VI 1) (SI i32) (VI 2);
   check2 SDiv (SI u8) (SI u8) (SI u8) (VI 1) (VI 1) (SI i32) (VI 1);
   check2 SDiv (SI i64) (SI i64) (SI i64) (VI 0) (VI 1) (SI i32) (VI 0);
   check2 SDiv (SI i64) (SI i64) (SI i64) (VI (-1)) (VI 2) (SI i32) (VI 0);
   check2 SDiv (SI i64) (SI i64) (SI i64) (VI (-2)) (VI 1) (SI i32) (VI (-2));
   check2 SDiv (SI i64) (SI i64) (SI i64) (VI (-1)) (VI (-1)) (SI i32) (VI 1);
   check2 SDiv (SI i32) (SI i32) (SI i32) (VI 0) (VI 1) (SI i32) (VI 0);
   check2 SDiv (SI i32) (SI i32) (SI i32) (VI (-1)) (VI 2) (SI i32) (VI 0);
   check2 SDiv (SI i32) (SI i32) (SI i32) (VI (-2)) (VI 1) (SI i32) (VI (-2));
   check2 SDiv (SI i32) (SI i32) (SI i32) (VI (-1)) (VI (-1)) (SI i32) (VI 1);
   check2 SDiv (SI i16) (SI i16) (SI i16) (VI 0) (VI 1) (SI i32) (VI 0);
   check2 SDiv (SI i16) (SI i16) (SI i16) (VI (-1)) (VI 2) (SI i32) (VI 0);
   check2 SDiv (SI i16) (SI i16) (SI i16) (VI (-2)) (VI 1) (SI i32) (VI (-2));
   check2 SDiv (SI i16) (SI i16) (SI i16) (VI (-1)) (VI (-1)) (SI i32) (VI 1);
   check2 SDiv (SI i8) (SI i8) (SI i8) (VI 0) (VI 1) (SI i32) (VI 0);
   check2 SDiv (SI i8) (SI i8) (SI i8) (VI (-1)) (VI 2) (SI i32) (VI 0);
   check2 SDiv (SI i8) (SI i8) (SI i8) (VI (-2)) (VI 1) (SI i32) (VI (-2));
   check2 SDiv (SI i8) (SI i8) (SI i8) (VI (-1)) (VI (-1)) (SI i32) (VI 1);
   check2 SDiv (SI CBool) (SI CBool) (SI CBool) (VI 0) (VI 1) (SI CBool) (VI 0);
   check2 SDiv (SI CBool) (SI CBool) (SI CBool) (VI 1) (VI 1) (SI CBool) (VI 1) ].
Proof. vm_compute. reflexivity. Qed.

(** test_algebra_binary.cpp:1713-1769 *)
Example binary_div_different_domain_test : all_true
 [ check2 SDiv (SF CDouble) (SI CBool) (SF CDouble) (VF (S754_finite false 7205759403792794 (-56))) (VI 1) (SF CDouble) (VF (S754_finite false 7205759403792794 (-56)));
   check2 SDiv (SF CDouble) (SI i32) (SF CDouble) (VF (S754_finite false 5404319552844595 (-52))) (VI (-2)) (SF CDouble) (VF (S754_finite true 5404319552844595 (-53)));
   check2 SDiv (SF CDouble) (SI u64) (SF CDouble) (VF (S754_finite false 7205759403792794 (-55))) (VI 1) (SF CDouble) (VF (S754_finite false 7205759403792794 (-55)));
   check2 SDiv (SF CDouble) (SF CFloat) (SF CDouble) (VF (S754_finite false 5404319552844595 (-52))) (VF (S754_finite true 8388608 (-23))) (SF CDouble) (VF (S754_finite true 5404319552844595 (-52)));
   check2 SDiv (SF CFloat) (SI CBool) (SF CFloat) (VF (S754_finite false 13421773 (-27))) (VI 1) (SF CFloat) (VF (S754_finite false 13421773 (-27)));
   check2 SDiv (SF CFloat) (SF CDouble) (SF CFloat) (VF (S754_finite false 9227469 (-23))) (VF (S754_finite true 4503599627370496 (-51))) (SF CFloat) (VF (S754_finite true 9227469 (-24)));
   check2 SDiv (SF CFloat) (SI u64) (SF CFloat) (VF (S754_finite false 13421773 (-27))) (VI 1) (SF CFloat) (VF (S754_finite false 13421773 (-27)));
   check2 SDiv (SF CFloat) (SI i32) (SF CFloat) (VF (S754_finite false 9227469 (-23))) (VI (-1)) (SF CFloat) (VF (S754_finite true 9227469 (-23)));
   check2 SDiv (SI u64) (SI CBool) (SI u64) (VI 0) (VI 1) (SI i32) (VI 0);
   check2 SDiv (SI u64) (SI i32) (SI u64) (VI 1) (VI (-2)) (SI i32) (VI 0);
   check2 SDiv (SI u64) (SI u64) (SI u64) (VI 0) (VI 1) (SI i32) (VI 0);
   check2 SDiv (SI u64) (SF CFloat) (SI u64) (VI 1) (VF (S754_finite true 9227469 (-23))) (SI i32) (VI 0);
   check2 SDiv (SI u32) (SI CBool) (SI u32) (VI 0) (VI 1) (SI i32) (VI 0);
   check2 SDiv (SI u32) (SI i32) (SI u32) (VI 1) (VI (-2)) (SI i32) (VI 0);
   check2 SDiv (SI u32) (SI u64) (SI u32) (VI 0) (VI 1) (SI u32) (VI 0);
   check2 SDiv (SI u32) (SF CFloat) (SI u32) (VI 1) (VF (S754_finite true 9227469 (-23))) (SI i32) (VI 0);
   check2 SDiv (SI u16) (SI CBool) (SI u16) (VI 0) (VI 1) (SI i32) (VI 0);
   check2 SDiv (SI u16) (SI i32) (SI u16) (VI 1) (VI (-2)) (SI i32) (VI 0);
   check2 SDiv (SI u16) (SI u64) (SI u16) (VI 0) (VI 1) (SI i32) (VI 0);
   check2 SDiv (SI u16) (SF CFloat) (SI u16) (VI 1) (VF (S754_finite true 9227469 (-23))) (SI i32) (VI 0);
   check2 SDiv (SI u8) (SI CBool) (SI u8) (VI 0) (VI 1) (SI i32) (VI 0);
   check2 SDiv (SI u8) (SI i32) (SI u8) (VI 1) (VI (-2)) (SI i32) (VI 0);
   check2 SDiv (SI u8) (SI u64) (SI u8) (VI 0) (VI 1) (SI i32) (VI 0);
   check2 SDiv (SI u8) (SF CFloat) (SI u8) (VI 1) (VF (S754_finite true 9227469 (-23))) (SI i32) (VI 0);
   check2 SDiv (SI i64) (SI CBool) (SI i64) (VI 0) (VI 1) (SI i32) (VI 0);
   check2 SDiv (SI i64) (SI u32) (SI i64) (VI (-1)) (VI 2) (SI i32) (VI 0);
   check2 SDiv (SI i64) (SI u64) (SI i64) (VI 0) (VI 1) (SI i32) (VI 0);
   check2 SDiv (SI i64) (SF CFloat) (SI i64) (VI (-1)) (VF (S754_finite true 9227469 (-23))) (SI i32) (VI 0);
   check2 SDiv (SI i32) (SI CBool) (SI i32) (VI 0) (VI 1) (SI i32) (VI 0);
   check2 SDiv (SI i32) (SI u32) (SI i32) (VI (-1)) (VI 2) (SI u32) (VI 2147483647);
   check2 SDiv (SI i32) (SI i64) (SI i32) (VI 1) (VI (-1)) (SI i32) (VI (-1));
   check2 SDiv (SI i32) (SF CFloat) (SI i32) (VI (-1)) (VF (S754_finite true 9227469 (-23))) (SI i32) (VI 0);
   check2 SDiv (SI i16) (SI CBool) (SI i16) (VI 0) (VI 1) (SI i32) (VI 0);
   check2 SDiv (SI i16) (SI u32) (SI i16) (VI (-1)) (VI 2) (SI i32) (VI (-1));
   check2 SDiv (SI i16) (SI i64) (SI i16) (VI 0) (VI (-1)) (SI i32) (VI 0);
   check2 SDiv (SI i16) (SF CFloat) (SI i16) (VI (-1)) (VF (S754_finite true 9227469 (-23))) (SI i32) (VI 0);
   check2 SDiv (SI i8) (SI CBool) (SI i8) (VI 0) (VI 1) (SI i32) (VI 0);
   check2 SDiv (SI i8) (SI u32) (SI i8) (VI (-1)) (VI 2) (SI i32) (VI (-1));
   check2 SDiv (SI i8) (SI i64) (SI i8) (VI 0) (VI (-1)) (SI i32) (VI 0);
   check2 SDiv (SI i8) (SF CFloat) (SI i8) (VI (-1)) (VF (S754_finite true 8388608 (-23))) (SI i32) (VI 1);
   check2 SDiv (SI CBool) (SI i8) (SI CBool) (VI 1) (VI 1) (SI CBool) (VI 1);
   check2 SDiv (SI CBool) (SI i32) (SI CBool) (VI 0) (VI (-2)) (SI CBool) (VI 0);
   check2 SDiv (SI CBool) (SI u64) (SI CBool) (VI 1) (VI 1) (SI CBool) (VI 1);
   check2 SDiv (SI CBool) (SF CFloat) (SI CBool) (VI 1) (VF (S754_finite true 9227469 (-23))) (SI CBool) (VI 1) ].
Proof. vm_compute. reflexivity. Qed.

(** test_algebra_monoid.cpp:55-83 *)
Example monoid_plus_monoid_test : all_true
 [ check0 (sm_id SPlusMonoid (SF CDouble)) (SF CDouble) (SF CDouble) (VF f0);
   check2 (sm_op SPlusMonoid) (SF CDouble) (SF CDouble) (SF CDouble) (VF (S754_finite true 4503599627370496 (-51))) (VF (S754_finite false 4503599627370496 (-52))) (SF CDouble) (VF (S754_finite true 4503599627370496 (-52)));
   check0 (sm_id SPlusMonoid (SF CFloat)) (SF CFloat) (SF CFloat) (VF f0);
   check2 (sm_op SPlusMonoid) (SF CFloat) (SF CFloat) (SF CFloat) (VF (S754_finite true 8388608 (-22))) (VF (S754_finite false 8388608 (-23))) (SF CFloat) (VF (S754_finite true 8388608 (-23)));
   check0 (sm_id SPlusMonoid (SI u64)) (SI u64) (SI u64) (VI 0);
   check2 (sm_op SPlusMonoid) (SI u64) (SI u64) (SI u64) (VI 2) (VI 1) (SI u64) (VI 3);
   check0 (sm_id SPlusMonoid (SI u32)) (SI u32) (SI u32) (VI 0);
   check2 (sm_op SPlusMonoid) (SI u32) (SI u32) (SI u32) (VI 2) (VI 1) (SI u32) (VI 3);
   check0 (sm_id SPlusMonoid (SI u16)) (SI u16) (SI u32) (VI 0);
   check2 (sm_op SPlusMonoid) (SI u16) (SI u16) (SI u16) (VI 2) (VI 1) (SI u32) (VI 3);
   check0 (sm_id SPlusMonoid (SI u8)) (SI u8) (SI u32) (VI 0);
   check2 (sm_op SPlusMonoid) (SI u8) (SI u8) (SI u8) (VI 2) (VI 1) (SI u32) (VI 3);
   check0 (sm_id SPlusMonoid (SI i64)) (SI i64) (SI i64) (VI 0);
   check2 (sm_op SPlusMonoid) (SI i64) (SI i64) (SI i64) (VI (-2)) (VI 1) (SI i64) (VI (-1));
   check0 (sm_id SPlusMonoid (SI i32)) (SI i32) (SI i32) (VI 0);
   check2 (sm_op SPlusMonoid) (SI i32) (SI i32) (SI i32) (VI (-2)) (VI 1) (SI i32) (VI (-1));
   check0 (sm_id SPlusMonoid (SI i16)) (SI i16) (SI i32) (VI 0);
   check2 (sm_op SPlusMonoid) (SI i16) (SI i16) (SI i16) (VI (-2)) (VI 1) (SI i32) (VI (-1));
   check0 (sm_id SPlusMonoid (SI i8)) (SI i8) (SI i32) (VI 0);
   check2 (sm_op SPlusMonoid) (SI i8) (SI i8) (SI i8) (VI (-2)) (VI 1) (SI i32) (VI (-1));
   check0 (sm_id SPlusMonoid (SI CBool)) (SI CBool) (SI CBool) (VI 0);
   check2 (sm_op SPlusMonoid) (SI CBool) (SI CBool) (SI CBool) (VI 0) (VI 0) (SI CBool) (VI 0);
   check2 (sm_op SPlusMonoid) (SI CBool) (SI CBool) (SI CBool) (VI 1) (VI 1) (SI CBool) (VI 1) ].
Proof. vm_compute. reflexivity. Qed.

(** test_algebra_monoid.cpp:86-114 *)
Example monoid_times_monoid_test : all_true
 [ check0 (sm_id STimesMonoid (SF CDouble)) (SF CDouble) (SF CDouble) (VF (S754_finite false 4503599627370496 (-52)));
   check2 (sm_op STimesMonoid) (SF CDouble) (SF CDouble) (SF CDouble) (VF (S754_finite true 4503599627370496 (-51))) (VF (S754_finite false 4503599627370496 (-52))) (SF CDouble) (VF (S754_finite true 4503599627370496 (-51)));
   check0 (sm_id STimesMonoid (SF CFloat)) (SF CFloat) (SF CFloat) (VF (S754_finite false 8388608 (-23)));
   check2 (sm_op STimesMonoid) (SF CFloat) (SF CFloat) (SF CFloat) (VF (S754_finite true 8388608 (-22))) (VF (S754_finite false 8388608 (-23))) (SF CFloat) (VF (S754_finite true 8388608 (-22)));
   check0 (sm_id STimesMonoid (SI u64)) (SI u64) (SI u64) (VI 1);
   check2 (sm_op STimesMonoid) (SI u64) (SI u64) (SI u64) (VI 2) (VI 1) (SI u64) (VI 2);
   check0 (sm_id STimesMonoid (SI u32)) (SI u32) (SI u32) (VI 1);
   check2 (sm_op STimesMonoid) (SI u32) (SI u32) (SI u32) (VI 2) (VI 1) (SI u32) (VI 2);
   check0 (sm_id STimesMonoid (SI u16)) (SI u16) (SI u32) (VI 1);
   check2 (sm_op STimesMonoid) (SI u16) (SI u16) (SI u16) (VI 2) (VI 1) (SI u32) (VI 2);
   check0 (sm_id STimesMonoid (SI u8)) (SI u8) (SI u32) (VI 1);
   check2 (sm_op STimesMonoid) (SI u8) (SI u8) (SI u8) (VI 2) (VI 1) (SI u32) (VI 2);
   check0 (sm_id STimesMonoid (SI i64)) (SI i64) (SI i64) (VI 1);
   check2 (sm_op STimesMonoid) (SI i64) (SI i64) (SI i64) (VI (-2)) (VI 1) (SI i64) (VI (-2));
   check0 (sm_id STimesMonoid (SI i32)) (SI i32) (SI i32) (VI 1);
   check2 (sm_op STimesMonoid) (SI i32) (SI i32) (SI i32) (VI (-2)) (VI 1) (SI i32) (VI (-2));
   check0 (sm_id STimesMonoid (SI i16)) (SI i16) (SI i32) (VI 1);
   check2 (sm_op STimesMonoid) (SI i16) (SI i16) (SI i16) (VI (-2)) (VI 1) (SI i32) (VI (-2));
   check0 (sm_id STimesMonoid (SI i8)) (SI i8) (SI i32) (VI 1);
   check2 (sm_op STimesMonoid) (SI i8) (SI i8) (SI i8) (VI (-2)) (VI 1) (SI i32) (VI (-2));
   check0 (sm_id STimesMonoid (SI CBool)) (SI CBool) (SI CBool) (VI 1);
   check2 (sm_op STimesMonoid) (SI CBool) (SI CBool) (SI CBool) (VI 0) (VI 1) (SI CBool) (VI 0);
   check2 (sm_op STimesMonoid) (SI CBool) (SI CBool) (SI CBool) (VI 1) (VI 1) (SI CBool) (VI 1) ].
Proof. vm_compute. reflexivity. Qed.

(** test_algebra_monoid.cpp:117-155 *)
Example monoid_min_monoid_test : all_true
 [ check0 (sm_id SMinMonoid (SF CDouble)) (SF CDouble) (SF CDouble) (VF finf);
   check2 (sm_op SMinMonoid) (SF CDouble) (SF CDouble) (SF CDouble) (VF (S754_finite true 4503599627370496 (-51))) (VF (S754_finite false 4503599627370496 (-52))) (SF CDouble) (VF (S754_finite true 4503599627370496 (-51)));
   check0 (sm_id SMinMonoid (SF CFloat)) (SF CFloat) (SF CFloat) (VF finf);
   check2 (sm_op SMinMonoid) (SF CFloat) (SF CFloat) (SF CFloat) (VF (S754_finite true 8388608 (-22))) (VF (S754_finite false 8388608 (-23))) (SF CFloat) (VF (S754_finite true 8388608 (-22)));
   check0 (sm_id SMinMonoid (SI u64)) (SI u64) (SI u64) (VI 18446744073709551615);
   check2 (sm_op SMinMonoid) (SI u64) (SI u64) (SI u64) (VI 2) (VI 1) (SI u64) (VI 1);
   check0 (sm_id SMinMonoid (SI u32)) (SI u32) (SI u32) (VI 4294967295);
   check2 (sm_op SMinMonoid) (SI u32) (SI u32) (SI u32) (VI 2) (VI 1) (SI u32) (VI 1);
   check0 (sm_id SMinMonoid (SI u16)) (SI u16) (SI u16) (VI 65535);
   check2 (sm_op SMinMonoid) (SI u16) (SI u16) (SI u16) (VI 2) (VI 1) (SI u32) (VI 1);
   check0 (sm_id SMinMonoid (SI u8)) (SI u8) (SI u8) (VI 255);
   check2 (sm_op SMinMonoid) (SI u8) (SI u8) (SI u8) (VI 2) (VI 1) (SI u32) (VI 1);
   check0 (sm_id SMinMonoid (SI i64)) (SI i64) (SI i64) (VI 9223372036854775807);
   check2 (sm_op SMinMonoid) (SI i64) (SI i64) (SI i64) (VI (-2)) (VI 1) (SI i64) (VI (-2));
   check0 (sm_id SMinMonoid (SI i32)) (SI i32) (SI i32) (VI 2147483647);
   check2 (sm_op SMinMonoid) (SI i32) (SI i32) (SI i32) (VI (-2)) (VI 1) (SI i32) (VI (-2));
   check0 (sm_id SMinMonoid (SI i16)) (SI i16) (SI i16) (VI 32767);
   check2 (sm_op SMinMonoid) (SI i16) (SI i16) (SI i16) (VI (-2)) (VI 1) (SI i32) (VI (-2));
   check0 (sm_id SMinMonoid (SI i8)) (SI i8) (SI i8) (VI 127);
   check2 (sm_op SMinMonoid) (SI i8) (SI i8) (SI i8) (VI (-2)) (VI 1) (SI i32) (VI (-2));
   check0 (sm_id SMinMonoid (SI CBool)) (SI CBool) (SI CBool) (VI 1);
   check2 (sm_op SMinMonoid) (SI CBool) (SI CBool) (SI CBool) (VI 0) (VI 1) (SI CBool) (VI 0);
   check2 (sm_op SMinMonoid) (SI CBool) (SI CBool) (SI CBool) (VI 1) (VI 1) (SI CBool) (VI 1) ].
Proof. vm_compute. reflexivity. Qed.

(** test_algebra_monoid.cpp:158-192 *)
Example monoid_max_monoid_test : all_true
 [ check0 (sm_id SMaxMonoid (SF CDouble)) (SF CDouble) (SF CDouble) (VF fninf);
   check2 (sm_op SMaxMonoid) (SF CDouble) (SF CDouble) (SF CDouble) (VF (S754_finite true 4503599627370496 (-51))) (VF (S754_finite false 4503599627370496 (-52))) (SF CDouble) (VF (S754_finite false 4503599627370496 (-52)));
   check0 (sm_id SMaxMonoid (SF CFloat)) (SF CFloat) (SF CFloat) (VF fninf);
   check2 (sm_op SMaxMonoid) (SF CFloat) (SF CFloat) (SF CFloat) (VF (S754_finite true 8388608 (-22))) (VF (S754_finite false 8388608 (-23))) (SF CFloat) (VF (S754_finite false 8388608 (-23)));
   check0 (sm_id SMaxMonoid (SI u64)) (SI u64) (SI u64) (VI 0);
   check2 (sm_op SMaxMonoid) (SI u64) (SI u64) (SI u64) (VI 2) (VI 1) (SI u64) (VI 2);
   check0 (sm_id SMaxMonoid (SI u32)) (SI u32) (SI u32) (VI 0);
   check2 (sm_op SMaxMonoid) (SI u32) (SI u32) (SI u32) (VI 2) (VI 1) (SI u32) (VI 2);
   check0 (sm_id SMaxMonoid (SI u16)) (SI u16) (SI u32) (VI 0);
   check2 (sm_op SMaxMonoid) (SI u16) (SI u16) (SI u16) (VI 2) (VI 1) (SI u32) (VI 2);
   check0 (sm_id SMaxMonoid (SI u8)) (SI u8) (SI u32) (VI 0);
   check2 (sm_op SMaxMonoid) (SI u8) (SI u8) (SI u8) (VI 2) (VI 1) (SI u32) (VI 2);
   check0 (sm_id SMaxMonoid (SI i64)) (SI i64) (SI i64) (VI (-9223372036854775808));
   check2 (sm_op SMaxMonoid) (SI i64) (SI i64) (SI i64) (VI (-2)) (VI 1) (SI i64) (VI 1);
   check0 (sm_id SMaxMonoid (SI i32)) (SI i32) (SI i32) (VI (-2147483648));
   check2 (sm_op SMaxMonoid) (SI i32) (SI i32) (SI i32) (VI (-2)) (VI 1) (SI i32) (VI 1);
   check0 (sm_id SMaxMonoid (SI i16)) (SI i16) (SI i16) (VI (-32768));
   check2 (sm_op SMaxMonoid) (SI i16) (SI i16) (SI i16) (VI (-2)) (VI 1) (SI i32) (VI 1);
   check0 (sm_id SMaxMonoid (SI i8)) (SI i8) (SI i8) (VI (-128));
   check2 (sm_op SMaxMonoid) (SI i8) (SI i8) (SI i8) (VI (-2)) (VI 1) (SI i32) (VI 1);
   check0 (sm_id SMaxMonoid (SI CBool)) (SI CBool) (SI CBool) (VI 0);
   check2 (sm_op SMaxMonoid) (SI CBool) (SI CBool) (SI CBool) (VI 0) (VI 0) (SI CBool) (VI 0);
   check2 (sm_op SMaxMonoid) (SI CBool) (SI CBool) (SI CBool) (VI 0) (VI 1) (SI CBool) (VI 1) ].
Proof. vm_compute. reflexivity. Qed.

(** test_algebra_monoid.cpp:195-262 *)
Example monoid_logical_or_monoid_test : all_true
 [ check0 (sm_id SLogicalOrMonoid (SF CDouble)) (SF CDouble) (SF CDouble) (VF f0);
   check2 (sm_op SLogicalOrMonoid) (SF CDouble) (SF CDouble) (SF CDouble) (VF f0) (VF f0) (SF CDouble) (VF f0);
   check2 (sm_op SLogicalOrMonoid) (SF CDouble) (SF CDouble) (SF CDouble) (VF f0) (VF (S754_finite false 4503599627370496 (-52))) (SF CDouble) (VF (S754_finite false 4503599627370496 (-52)));
   check2 (sm_op SLogicalOrMonoid) (SF CDouble) (SF CDouble) (SF CDouble) (VF (S754_finite true 4503599627370496 (-51))) (VF f0) (SF CDouble) (VF (S754_finite false 4503599627370496 (-52)));
   check2 (sm_op SLogicalOrMonoid) (SF CDouble) (SF CDouble) (SF CDouble) (VF (S754_finite false 4503599627370496 (-52))) (VF (S754_finite true 4503599627370496 (-52))) (SF CDouble) (VF (S754_finite false 4503599627370496 (-52)));
   check0 (sm_id SLogicalOrMonoid (SF CFloat)) (SF CFloat) (SF CFloat) (VF f0);
   check2 (sm_op SLogicalOrMonoid) (SF CFloat) (SF CFloat) (SF CFloat) (VF f0) (VF f0) (SF CFloat) (VF f0);
   check2 (sm_op SLogicalOrMonoid) (SF CFloat) (SF CFloat) (SF CFloat) (VF f0) (VF (S754_finite false 8388608 (-23))) (SF CFloat) (VF (S754_finite false 8388608 (-23)));
   check2 (sm_op SLogicalOrMonoid) (SF CFloat) (SF CFloat) (SF CFloat) (VF (S754_finite true 8388608 (-22))) (VF f0) (SF CFloat) (VF (S754_finite false 8388608 (-23)));
   check2 (sm_op SLogicalOrMonoid) (SF CFloat) (SF CFloat) (SF CFloat) (VF (S754_finite false 8388608 (-23))) (VF (S754_finite true 8388608 (-23))) (SF CFloat) (VF (S754_finite false 8388608 (-23)));
   check0 (sm_id SLogicalOrMonoid (SI u64)) (SI u64) (SI u64) (VI 0);
   check2 (sm_op SLogicalOrMonoid) (SI u64) (SI u64) (SI u64) (VI 0) (VI 0) (SI u64) (VI 0);
   check2 (sm_op SLogicalOrMonoid) (SI u64) (SI u64) (SI u64) (VI 0) (VI 1) (SI u64) (VI 1);
   check2 (sm_op SLogicalOrMonoid) (SI u64) (SI u64) (SI u64) (VI 2) (VI 0) (SI u64) (VI 1);
   check2 (sm_op SLogicalOrMonoid) (SI u64) (SI u64) (SI u64) (VI 2) (VI 1) (SI u64) (VI 1);
   check0 (sm_id SLogicalOrMonoid (SI u32)) (SI u32) (SI u32) (VI 0);
   check2 (sm_op SLogicalOrMonoid) (SI u32) (SI u32) (SI u32) (VI 0) (VI 0) (SI u32) (VI 0);
   check2 (sm_op SLogicalOrMonoid) (SI u32) (SI u32) (SI u32) (VI 0) (VI 1) (SI u32) (VI 1);
   check2 (sm_op SLogicalOrMonoid) (SI u32) (SI u32) (SI u32) (VI 2) (VI 0) (SI u32) (VI 1);
   check2 (sm_op SLogicalOrMonoid) (SI u32) (SI u32) (SI u32) (VI 2) (VI 1) (SI u32) (VI 1);
   check0 (sm_id SLogicalOrMonoid (SI u16)) (SI u16) (SI u32) (VI 0);
   check2 (sm_op SLogicalOrMonoid) (SI u16) (SI u16) (SI u16) (VI 0) (VI 0) (SI u32) (VI 0);
   check2 (sm_op SLogicalOrMonoid) (SI u16) (SI u16) (SI u16) (VI 0) (VI 1) (SI u32) (VI 1);
   check2 (sm_op SLogicalOrMonoid) (SI u16) (SI u16) (SI u16) (VI 2) (VI 0) (SI u32) (VI 1);
   check2 (sm_op SLogicalOrMonoid) (SI u16) (SI u16) (SI u16) (VI 2) (VI 1) (SI u32) (VI 1);
   check0 (sm_id SLogicalOrMonoid (SI u8)) (SI u8) (SI u32) (VI 0);
   check2 (sm_op SLogicalOrMonoid) (SI u8) (SI u8) (SI u8) (VI 0) (VI 0) (SI u32) (VI 0);
   check2 (sm_op SLogicalOrMonoid) (SI u8) (SI u8) (SI u8) (VI 0) (VI 1) (SI u32) (VI 1);
   check2 (sm_op SLogicalOrMonoid) (SI u8) (SI u8) (SI u8) (VI 2) (VI 0) (SI u32) (VI 1);
   check2 (sm_op SLogicalOrMonoid) (SI u8) (SI u8) (SI u8) (VI 2) (VI 1) (SI u32) (VI 1);
   check0 (sm_id SLogicalOrMonoid (SI i64)) (SI i64) (SI i64) (VI 0);
   check2 (sm_op SLogicalOrMonoid) (SI i64) (SI i64) (SI i64) (VI 0) (VI 0) (SI i64) (VI 0);
   check2 (sm_op SLogicalOrMonoid) (SI i64) (SI i64) (SI i64) (VI 0) (VI 1) (SI i64) (VI 1);
   check2 (sm_op SLogicalOrMonoid) (SI i64) (SI i64) (SI i64) (VI (-2)) (VI 0) (SI i64) (VI 1);
   check2 (sm_op SLogicalOrMonoid) (SI i64) (SI i64) (SI i64) (VI (-2)) (VI 1) (SI i64) (VI 1);
   check0 (sm_id SLogicalOrMonoid (SI i32)) (SI i32) (SI i32) (VI 0);
   check2 (sm_op SLogicalOrMonoid) (SI i32) (SI i32) (SI i32) (VI 0) (VI 0) (SI i32) (VI 0);
   check2 (sm_op SLogicalOrMonoid) (SI i32) (SI i32) (SI i32) (VI 0) (VI 1) (SI i32) (VI 1);
   check2 (sm_op SLogicalOrMonoid) (SI i32) (SI i32) (SI i32) (VI (-2)) (VI 0) (SI i32) (VI 1);
   check2 (sm_op SLogicalOrMonoid) (SI i32) (SI i32) (SI i32) (VI (-2)) (VI 1) (SI i32) (VI 1);
   check0 (sm_id SLogicalOrMonoid (SI i16)) (SI i16) (SI i32) (VI 0);
   check2 (sm_op SLogicalOrMonoid) (SI i16) (SI i16) (SI i16) (VI 0) (VI 0) (SI i32) (VI 0);
   check2 (sm_op SLogicalOrMonoid) (SI i16) (SI i16) (SI i16) (VI 0) (VI 1) (SI i32) (VI 1);
   check2 (sm_op SLogicalOrMonoid) (SI i16) (SI i16) (SI i16) (VI (-2)) (VI 0) (SI i32) (VI 1);
   check2 (sm_op SLogicalOrMonoid) (SI i16) (SI i16) (SI i16) (VI (-2)) (VI 1) (SI i32) (VI 1);
   check0 (sm_id SLogicalOrMonoid (SI i8)) (SI i8) (SI i32) (VI 0);
   check2 (sm_op SLogicalOrMonoid) (SI i8) (SI i8) (SI i8) (VI 0) (VI 0) (SI i32) (VI 0);
   check2 (sm_op SLogicalOrMonoid) (SI i8) (SI i8) (SI i8) (VI 0) (VI 1) (SI i32) (VI 1);
   check2 (sm_op SLogicalOrMonoid) (SI i8) (SI i8) (SI i8) (VI (-2)) (VI 0) (SI i32) (VI 1);
   check2 (sm_op SLogicalOrMonoid) (SI i8) (SI i8) (SI i8) (VI (-2)) (VI 1) (SI i32) (VI 1);
   check0 (sm_id SLogicalOrMonoid (SI CBool)) (SI CBool) (SI CBool) (VI 0);
   check2 (sm_op SLogicalOrMonoid) (SI CBool) (SI CBool) (SI CBool) (VI 0) (VI 0) (SI CBool) (VI 0);
   check2 (sm_op SLogicalOrMonoid) (SI CBool) (SI CBool) (SI CBool) (VI 0) (VI 1) (SI CBool) (VI 1);
   check2 (sm_op SLogicalOrMonoid) (SI CBool) (SI CBool) (SI CBool) (VI 1) (VI 0) (SI CBool) (VI 1);
   check2 (sm_op SLogicalOrMonoid) (SI CBool) (SI CBool) (SI CBool) (VI 1) (VI 1) (SI CBool) (VI 1) ].
Proof. vm_compute. reflexivity. Qed.

(** test_algebra_monoid.cpp:265-332 *)
Example monoid_logical_and_monoid_test : all_true
 [ check0 (sm_id SLogicalAndMonoid (SF CDouble)) (SF CDouble) (SF CDouble) (VF (S754_finite false 4503599627370496 (-52)));
   check2 (sm_op SLogicalAndMonoid) (SF CDouble) (SF CDouble) (SF CDouble) (VF f0) (VF f0) (SF CDouble) (VF f0);
   check2 (sm_op SLogicalAndMonoid) (SF CDouble) (SF CDouble) (SF CDouble) (VF f0) (VF (S754_finite false 4503599627370496 (-52))) (SF CDouble) (VF f0);
   check2 (sm_op SLogicalAndMonoid) (SF CDouble) (SF CDouble) (SF CDouble) (VF (S754_finite true 4503599627370496 (-51))) (VF f0) (SF CDouble) (VF f0);
   check2 (sm_op SLogicalAndMonoid) (SF CDouble) (SF CDouble) (SF CDouble) (VF (S754_finite false 4503599627370496 (-52))) (VF (S754_finite true 4503599627370496 (-52))) (SF CDouble) (VF (S754_finite false 4503599627370496 (-52)));
   check0 (sm_id SLogicalAndMonoid (SF CFloat)) (SF CFloat) (SF CFloat) (VF (S754_finite false 8388608 (-23)));
   check2 (sm_op SLogicalAndMonoid) (SF CFloat) (SF CFloat) (SF CFloat) (VF f0) (VF f0) (SF CFloat) (VF f0);
   check2 (sm_op SLogicalAndMonoid) (SF CFloat) (SF CFloat) (SF CFloat) (VF f0) (VF (S754_finite false 8388608 (-23))) (SF CFloat) (VF f0);
   check2 (sm_op SLogicalAndMonoid) (SF CFloat) (SF CFloat) (SF CFloat) (VF (S754_finite true 8388608 (-22))) (VF f0) (SF CFloat) (VF f0);
   check2 (sm_op SLogicalAndMonoid) (SF CFloat) (SF CFloat) (SF CFloat) (VF (S754_finite false 8388608 (-23))) (VF (S754_finite true 8388608 (-23))) (SF CFloat) (VF (S754_finite false 8388608 (-23)));
   check0 (sm_id SLogicalAndMonoid (SI u64)) (SI u64) (SI u64) (VI 1);
   check2 (sm_op SLogicalAndMonoid) (SI u64) (SI u64) (SI u64) (VI 0) (VI 0) (SI u64) (VI 0);
   check2 (sm_op SLogicalAndMonoid) (SI u64) (SI u64) (SI u64) (VI 0) (VI 1) (SI u64) (VI 0);
   check2 (sm_op SLogicalAndMonoid) (SI u64) (SI u64) (SI u64) (VI 2) (VI 0) (SI u64) (VI 0);
   check2 (sm_op SLogicalAndMonoid) (SI u64) (SI u64) (SI u64) (VI 2) (VI 1) (SI u64) (VI 1);
   check0 (sm_id SLogicalAndMonoid (SI u32)) (SI u32) (SI u32) (VI 1);
   check2 (sm_op SLogicalAndMonoid) (SI u32) (SI u32) (SI u32) (VI 0) (VI 0) (SI u32) (VI 0);
   check2 (sm_op SLogicalAndMonoid) (SI u32) (SI u32) (SI u32) (VI 0) (VI 1) (SI u32) (VI 0);
   check2 (sm_op SLogicalAndMonoid) (SI u32) (SI u32) (SI u32) (VI 2) (VI 0) (SI u32) (VI 0);
   check2 (sm_op SLogicalAndMonoid) (SI u32) (SI u32) (SI u32) (VI 2) (VI 1) (SI u32) (VI 1);
   check0 (sm_id SLogicalAndMonoid (SI u16)) (SI u16) (SI u32) (VI 1);
   check2 (sm_op SLogicalAndMonoid) (SI u16) (SI u16) (SI u16) (VI 0) (VI 0) (SI u32) (VI 0);
   check2 (sm_op SLogicalAndMonoid) (SI u16) (SI u16) (SI u16) (VI 0) (VI 1) (SI u32) (VI 0);
   check2 (sm_op SLogicalAndMonoid) (SI u16) (SI u16) (SI u16) (VI 2) (VI 0) (SI u32) (VI 0);
   check2 (sm_op SLogicalAndMonoid) (SI u16) (SI u16) (SI u16) (VI 2) (VI 1) (SI u32) (VI 1);
   check0 (sm_id SLogicalAndMonoid (SI u8)) (SI u8) (SI u32) (VI 1);
   check2 (sm_op SLogicalAndMonoid) (SI u8) (SI u8) (SI u8) (VI 0) (VI 0) (SI u32) (VI 0);
   check2 (sm_op SLogicalAndMonoid) (SI u8) (SI u8) (SI u8) (VI 0) (VI 1) (SI u32) (VI 0);
   check2 (sm_op SLogicalAndMonoid) (SI u8) (SI u8) (SI u8) (VI 2) (VI 0) (SI u32) (VI 0);
   check2 (sm_op SLogicalAndMonoid) (SI u8) (SI u8) (SI u8) (VI 2) (VI 1) (SI u32) (VI 1);
   check0 (sm_id SLogicalAndMonoid (SI i64)) (SI i64) (SI i64) (VI 1);
   check2 (sm_op SLogicalAndMonoid) (SI i64) (SI i64) (SI i64) (VI 0) (VI 0) (SI i64) (VI 0);
   check2 (sm_op SLogicalAndMonoid) (SI i64) (SI i64) (SI i64) (VI 0) (VI 1) (SI i64) (VI 0);
   check2 (sm_op SLogicalAndMonoid) (SI i64) (SI i64) (SI i64) (VI (-2)) (VI 0) (SI i64) (VI 0);
   check2 (sm_op SLogicalAndMonoid) (SI i64) (SI i64) (SI i64) (VI (-2)) (VI 1) (SI i64) (VI 1);
   check0 (sm_id SLogicalAndMonoid (SI i32)) (SI i32) (SI i32) (VI 1);
   check2 (sm_op SLogicalAndMonoid) (SI i32) (SI i32) (SI i32) (VI 0) (VI 0) (SI i32) (VI 0);
   check2 (sm_op SLogicalAndMonoid) (SI i32) (SI i32) (SI i32) (VI 0) (VI 1) (SI i32) (VI 0);
   check2 (sm_op SLogicalAndMonoid) (SI i32) (SI i32) (SI i32) (VI (-2)) (VI 0) (SI i32) (VI 0);
   check2 (sm_op SLogicalAndMonoid) (SI i32) (SI i32) (SI i32) (VI (-2)) (VI 1) (SI i32) (VI 1);
   check0 (sm_id SLogicalAndMonoid (SI i16)) (SI i16) (SI i32) (VI 1);
   check2 (sm_op SLogicalAndMonoid) (SI i16) (SI i16) (SI i16) (VI 0) (VI 0) (SI i32) (VI 0);
   check2 (sm_op SLogicalAndMonoid) (SI i16) (SI i16) (SI i16) (VI 0) (VI 1) (SI i32) (VI 0);
   check2 (sm_op SLogicalAndMonoid) (SI i16) (SI i16) (SI i16) (VI (-2)) (VI 0) (SI i32) (VI 0);
   check2 (sm_op SLogicalAndMonoid) (SI i16) (SI i16) (SI i16) (VI (-2)) (VI 1) (SI i32) (VI 1);
   check0 (sm_id SLogicalAndMonoid (SI i8)) (SI i8) (SI i32) (VI 1);
   check2 (sm_op SLogicalAndMonoid) (SI i8) (SI i8) (SI i8) (VI 0) (VI 0) (SI i32) (VI 0);
   check2 (sm_op SLogicalAndMonoid) (SI i8) (SI i8) (SI i8) (VI 0) (VI 1) (SI i32) (VI 0);
   check2 (sm_op SLogicalAndMonoid) (SI i8) (SI i8) (SI i8) (VI (-2)) (VI 0) (SI i32) (VI 0);
   check2 (sm_op SLogicalAndMonoid) (SI i8) (SI i8) (SI i8) (VI (-2)) (VI 1) (SI i32) (VI 1);
   check0 (sm_id SLogicalAndMonoid (SI CBool)) (SI CBool) (SI CBool) (VI 1);
   check2 (sm_op SLogicalAndMonoid) (SI CBool) (SI CBool) (SI CBool) (VI 0) (VI 0) (SI CBool) (VI 0);
   check2 (sm_op SLogicalAndMonoid) (SI CBool) (SI CBool) (SI CBool) (VI 0) (VI 1) (SI CBool) (VI 0);
   check2 (sm_op SLogicalAndMonoid) (SI CBool) (SI CBool) (SI CBool) (VI 1) (VI 0) (SI CBool) (VI 0);
   check2 (sm_op SLogicalAndMonoid) (SI CBool) (SI CBool) (SI CBool) (VI 1) (VI 1) (SI CBool) (VI 1) ].
Proof. vm_compute. reflexivity. Qed.

(** test_algebra_monoid.cpp:335-402 *)
Example monoid_logical_xor_monoid_test : all_true
 [ check0 (sm_id SLogicalXorMonoid (SF CDouble)) (SF CDouble) (SF CDouble) (VF f0);
   check2 (sm_op SLogicalXorMonoid) (SF CDouble) (SF CDouble) (SF CDouble) (VF f0) (VF f0) (SF CDouble) (VF f0);
   check2 (sm_op SLogicalXorMonoid) (SF CDouble) (SF CDouble) (SF CDouble) (VF f0) (VF (S754_finite false 4503599627370496 (-52))) (SF CDouble) (VF (S754_finite false 4503599627370496 (-52)));
   check2 (sm_op SLogicalXorMonoid) (SF CDouble) (SF CDouble) (SF CDouble) (VF (S754_finite true 4503599627370496 (-51))) (VF f0) (SF CDouble) (VF (S754_finite false 4503599627370496 (-52)));
   check2 (sm_op SLogicalXorMonoid) (SF CDouble) (SF CDouble) (SF CDouble) (VF (S754_finite false 4503599627370496 (-52))) (VF (S754_finite true 4503599627370496 (-52))) (SF CDouble) (VF f0);
   check0 (sm_id SLogicalXorMonoid (SF CFloat)) (SF CFloat) (SF CFloat) (VF f0);
   check2 (sm_op SLogicalXorMonoid) (SF CFloat) (SF CFloat) (SF CFloat) (VF f0) (VF f0) (SF CFloat) (VF f0);
   check2 (sm_op SLogicalXorMonoid) (SF CFloat) (SF CFloat) (SF CFloat) (VF f0) (VF (S754_finite false 8388608 (-23))) (SF CFloat) (VF (S754_finite false 8388608 (-23)));
   check2 (sm_op SLogicalXorMonoid) (SF CFloat) (SF CFloat) (SF CFloat) (VF (S754_finite true 8388608 (-22))) (VF f0) (SF CFloat) (VF (S754_finite false 8388608 (-23)));
   check2 (sm_op SLogicalXorMonoid) (SF CFloat) (SF CFloat) (SF CFloat) (VF (S754_finite false 8388608 (-23))) (VF (S754_finite true 8388608 (-23))) (SF CFloat) (VF f0);
   check0 (sm_id SLogicalXorMonoid (SI u64)) (SI u64) (SI u64) (VI 0);
   check2 (sm_op SLogicalXorMonoid) (SI u64) (SI u64) (SI u64) (VI 0) (VI 0) (SI u64) (VI 0);
   check2 (sm_op SLogicalXorMonoid) (SI u64) (SI u64) (SI u64) (VI 0) (VI 1) (SI u64) (VI 1);
   check2 (sm_op SLogicalXorMonoid) (SI u64) (SI u64) (SI u64) (VI 2) (VI 0) (SI u64) (VI 1);
   check2 (sm_op SLogicalXorMonoid) (SI u64) (SI u64) (SI u64) (VI 2) (VI 1) (SI u64) (VI 0);
   check0 (sm_id SLogicalXorMonoid (SI u32)) (SI u32) (SI u32) (VI 0);
   check2 (sm_op SLogicalXorMonoid) (SI u32) (SI u32) (SI u32) (VI 0) (VI 0) (SI u32) (VI 0);
   check2 (sm_op SLogicalXorMonoid) (SI u32) (SI u32) (SI u32) (VI 0) (VI 1) (SI u32) (VI 1);
   check2 (sm_op SLogicalXorMonoid) (SI u32) (SI u32) (SI u32) (VI 2) (VI 0) (SI u32) (VI 1);
   check2 (sm_op SLogicalXorMonoid) (SI u32) (SI u32) (SI u32) (VI 2) (VI 1) (SI u32) (VI 0);
   check0 (sm_id SLogicalXorMonoid (SI u16)) (SI u16) (SI u32) (VI 0);
   check2 (sm_op SLogicalXorMonoid) (SI u16) (SI u16) (SI u16) (VI 0) (VI 0) (SI u32) (VI 0);
   check2 (sm_op SLogicalXorMonoid) (SI u16) (SI u16) (SI u16) (VI 0) (VI 1) (SI u32) (VI 1);
   check2 (sm_op SLogicalXorMonoid) (SI u16) (SI u16) (SI u16) (VI 2) (VI 0) (SI u32) (VI 1);
   check2 (sm_op SLogicalXorMonoid) (SI u16) (SI u16) (SI u16) (VI 2) (VI 1) (SI u32) (VI 0);
   check0 (sm_id SLogicalXorMonoid (SI u8)) (SI u8) (SI u32) (VI 0);
   check2 (sm_op SLogicalXorMonoid) (SI u8) (SI u8) (SI u8) (VI 0) (VI 0) (SI u32) (VI 0);
   check2 (sm_op SLogicalXorMonoid) (SI u8) (SI u8) (SI u8) (VI 0) (VI 1) (SI u32) (VI 1);
   check2 (sm_op SLogicalXorMonoid) (SI u8) (SI u8) (SI u8) (VI 2) (VI 0) (SI u32) (VI 1);
   check2 (sm_op SLogicalXorMonoid) (SI u8) (SI u8) (SI u8) (VI 2) (VI 1) (SI u32) (VI 0);
   check0 (sm_id SLogicalXorMonoid (SI i64)) (SI i64) (SI i64) (VI 0);
   check2 (sm_op SLogicalXorMonoid) (SI i64) (SI i64) (SI i64) (VI 0) (VI 0) (SI i64) (VI 0);
   check2 (sm_op SLogicalXorMonoid) (SI i64) (SI i64) (SI i64) (VI 0) (VI 1) (SI i64) (VI 1);
   check2 (sm_op SLogicalXorMonoid) (SI i64) (SI i64) (SI i64) (VI (-2)) (VI 0) (SI i64) (VI 1);
   check2 (sm_op SLogicalXorMonoid) (SI i64) (SI i64) (SI i64) (VI (-2)) (VI 1) (SI i64) (VI 0);
   check0 (sm_id SLogicalXorMonoid (SI i32)) (SI i32) (SI i32) (VI 0);
   check2 (sm_op SLogicalXorMonoid) (SI i32) (SI i32) (SI i32) (VI 0) (VI 0) (SI i32) (VI 0);
   check2 (sm_op SLogicalXorMonoid) (SI i32) (SI i32) (SI i32) (VI 0) (VI 1) (SI i32) (VI 1);
   check2 (sm_op SLogicalXorMonoid) (SI i32) (SI i32) (SI i32) (VI (-2)) (VI 0) (SI i32) (VI 1);
   check2 (sm_op SLogicalXorMonoid) (SI i32) (SI i32) (SI i32) (VI (-2)) (VI 1) (SI i32) (VI 0);
   check0 (sm_id SLogicalXorMonoid (SI i16)) (SI i16) (SI i32) (VI 0);
   check2 (sm_op SLogicalXorMonoid) (SI i16) (SI i16) (SI i16) (VI 0) (VI 0) (SI i32) (VI 0);
   check2 (sm_op SLogicalXorMonoid) (SI i16) (SI i16) (SI i16) (VI 0) (VI 1) (SI i32) (VI 1);
   check2 (sm_op SLogicalXorMonoid) (SI i16) (SI i16) (SI i16) (VI (-2)) (VI 0) (SI i32) (VI 1);
   check2 (sm_op SLogicalXorMonoid) (SI i16) (SI i16) (SI i16) (VI (-2)) (VI 1) (SI i32) (VI 0);
   check0 (sm_id SLogicalXorMonoid (SI i8)) (SI i8) (SI i32) (VI 0);
   check2 (sm_op SLogicalXorMonoid) (SI i8) (SI i8) (SI i8) (VI 0) (VI 0) (SI i32) (VI 0);
   check2 (sm_op SLogicalXorMonoid) (SI i8) (SI i8) (SI i8) (VI 0) (VI 1) (SI i32) (VI 1);
   check2 (sm_op SLogicalXorMonoid) (SI i8) (SI i8) (SI i8) (VI (-2)) (VI 0) (SI i32) (VI 1);
   check2 (sm_op SLogicalXorMonoid) (SI i8) (SI i8) (SI i8) (VI (-2)) (VI 1) (SI i32) (VI 0);
   check0 (sm_id SLogicalXorMonoid (SI CBool)) (SI CBool) (SI CBool) (VI 0);
   check2 (sm_op SLogicalXorMonoid) (SI CBool) (SI CBool) (SI CBool) (VI 0) (VI 0) (SI CBool) (VI 0);
   check2 (sm_op SLogicalXorMonoid) (SI CBool) (SI CBool) (SI CBool) (VI 0) (VI 1) (SI CBool) (VI 1);
   check2 (sm_op SLogicalXorMonoid) (SI CBool) (SI CBool) (SI CBool) (VI 1) (VI 0) (SI CBool) (VI 1);
   check2 (sm_op SLogicalXorMonoid) (SI CBool) (SI CBool) (SI CBool) (VI 1) (VI 1) (SI CBool) (VI 0) ].
Proof. vm_compute. reflexivity. Qed.

(** test_algebra_monoid.cpp:405-472 *)
Example monoid_logical_xnor_monoid_test : all_true
 [ check0 (sm_id SLogicalXnorMonoid (SF CDouble)) (SF CDouble) (SF CDouble) (VF (S754_finite false 4503599627370496 (-52)));
   check2 (sm_op SLogicalXnorMonoid) (SF CDouble) (SF CDouble) (SF CDouble) (VF f0) (VF f0) (SF CDouble) (VF (S754_finite false 4503599627370496 (-52)));
   check2 (sm_op SLogicalXnorMonoid) (SF CDouble) (SF CDouble) (SF CDouble) (VF f0) (VF (S754_finite false 4503599627370496 (-52))) (SF CDouble) (VF f0);
   check2 (sm_op SLogicalXnorMonoid) (SF CDouble) (SF CDouble) (SF CDouble) (VF (S754_finite true 4503599627370496 (-51))) (VF f0) (SF CDouble) (VF f0);
   check2 (sm_op SLogicalXnorMonoid) (SF CDouble) (SF CDouble) (SF CDouble) (VF (S754_finite false 4503599627370496 (-52))) (VF (S754_finite true 4503599627370496 (-52))) (SF CDouble) (VF (S754_finite false 4503599627370496 (-52)));
   check0 (sm_id SLogicalXnorMonoid (SF CFloat)) (SF CFloat) (SF CFloat) (VF (S754_finite false 8388608 (-23)));
   check2 (sm_op SLogicalXnorMonoid) (SF CFloat) (SF CFloat) (SF CFloat) (VF f0) (VF f0) (SF CFloat) (VF (S754_finite false 8388608 (-23)));
   check2 (sm_op SLogicalXnorMonoid) (SF CFloat) (SF CFloat) (SF CFloat) (VF f0) (VF (S754_finite false 8388608 (-23))) (SF CFloat) (VF f0);
   check2 (sm_op SLogicalXnorMonoid) (SF CFloat) (SF CFloat) (SF CFloat) (VF (S754_finite true 8388608 (-22))) (VF f0) (SF CFloat) (VF f0);
   check2 (sm_op SLogicalXnorMonoid) (SF CFloat) (SF CFloat) (SF CFloat) (VF (S754_finite false 8388608 (-23))) (VF (S754_finite true 8388608 (-23))) (SF CFloat) (VF (S754_finite false 8388608 (-23)));
   check0 (sm_id SLogicalXnorMonoid (SI u64)) (SI u64) (SI u64) (VI 1);
   check2 (sm_op SLogicalXnorMonoid) (SI u64) (SI u64) (SI u64) (VI 0) (VI 0) (SI u64) (VI 1);
   check2 (sm_op SLogicalXnorMonoid) (SI u64) (SI u64) (SI u64) (VI 0) (VI 1) (SI u64) (VI 0);
   check2 (sm_op SLogicalXnorMonoid) (SI u64) (SI u64) (SI u64) (VI 2) (VI 0) (SI u64) (VI 0);
   check2 (sm_op SLogicalXnorMonoid) (SI u64) (SI u64) (SI u64) (VI 2) (VI 1) (SI u64) (VI 1);
   check0 (sm_id SLogicalXnorMonoid (SI u32)) (SI u32) (SI u32) (VI 1);
   check2 (sm_op SLogicalXnorMonoid) (SI u32) (SI u32) (SI u32) (VI 0) (VI 0) (SI u32) (VI 1);
   check2 (sm_op SLogicalXnorMonoid) (SI u32) (SI u32) (SI u32) (VI 0) (VI 1) (SI u32) (VI 0);
   check2 (sm_op SLogicalXnorMonoid) (SI u32) (SI u32) (SI u32) (VI 2) (VI 0) (SI u32) (VI 0);
   check2 (sm_op SLogicalXnorMonoid) (SI u32) (SI u32) (SI u32) (VI 2) (VI 1) (SI u32) (VI 1);
   check0 (sm_id SLogicalXnorMonoid (SI u16)) (SI u16) (SI u32) (VI 1);
   check2 (sm_op SLogicalXnorMonoid) (SI u16) (SI u16) (SI u16) (VI 0) (VI 0) (SI u32) (VI 1);
   check2 (sm_op SLogicalXnorMonoid) (SI u16) (SI u16) (SI u16) (VI 0) (VI 1) (SI u32) (VI 0);
   check2 (sm_op SLogicalXnorMonoid) (SI u16) (SI u16) (SI u16) (VI 2) (VI 0) (SI u32) (VI 0);
   check2 (sm_op SLogicalXnorMonoid) (SI u16) (SI u16) (SI u16) (VI 2) (VI 1) (SI u32) (VI 1);
   check0 (sm_id SLogicalXnorMonoid (SI u8)) (SI u8) (SI u32) (VI 1);
   check2 (sm_op SLogicalXnorMonoid) (SI u8) (SI u8) (SI u8) (VI 0) (VI 0) (SI u32) (VI 1);
   check2 (sm_op SLogicalXnorMonoid) (SI u8) (SI u8) (SI u8) (VI 0) (VI 1) (SI u32) (VI 0);
   check2 (sm_op SLogicalXnorMonoid) (SI u8) (SI u8) (SI u8) (VI 2) (VI 0) (SI u32) (VI 0);
   check2 (sm_op SLogicalXnorMonoid) (SI u8) (SI u8) (SI u8) (VI 2) (VI 1) (SI u32) (VI 1);
   check0 (sm_id SLogicalXnorMonoid (SI i64)) (SI i64) (SI i64) (VI 1);
   check2 (sm_op SLogicalXnorMonoid) (SI i64) (SI i64) (SI i64) (VI 0) (VI 0) (SI i64) (VI 1);
   check2 (sm_op SLogicalXnorMonoid) (SI i64) (SI i64) (SI i64) (VI 0) (VI 1) (SI i64) (VI 0);
   check2 (sm_op SLogicalXnorMonoid) (SI i64) (SI i64) (SI i64) (VI (-2)) (VI 0) (SI i64) (VI 0);
   check2 (sm_op SLogicalXnorMonoid) (SI i64) (SI i64) (SI i64) (VI (-2)) (VI 1) (SI i64) (VI 1);
   check0 (sm_id SLogicalXnorMonoid (SI i32)) (SI i32) (SI i32) (VI 1);
   check2 (sm_op SLogicalXnorMonoid) (SI i32) (SI i32) (SI i32) (VI 0) (VI 0) (SI i32) (VI 1);
   check2 (sm_op SLogicalXnorMonoid) (SI i32) (SI i32) (SI i32) (VI 0) (VI 1) (SI i32) (VI 0);
   check2 (sm_op SLogicalXnorMonoid) (SI i32) (SI i32) (SI i32) (VI (-2)) (VI 0) (SI i32) (VI 0);
   check2 (sm_op SLogicalXnorMonoid) (SI i32) (SI i32) (SI i32) (VI (-2)) (VI 1) (SI i32) (VI 1);
   check0 (sm_id SLogicalXnorMonoid (SI i16)) (SI i16) (SI i32) (VI 1);
   check2 (sm_op SLogicalXnorMonoid) (SI i16) (SI i16) (SI i16) (VI 0) (VI 0) (SI i32) (VI 1);
   check2 (sm_op SLogicalXnorMonoid) (SI i16) (SI i16) (SI i16) (VI 0) (VI 1) (SI i32) (VI 0);
   check2 (sm_op SLogicalXnorMonoid) (SI i16) (SI i16) (SI i16) (VI (-2)) (VI 0) (SI i32) (VI 0);
   check2 (sm_op SLogicalXnorMonoid) (SI i16) (SI i16) (SI i16) (VI (-2)) (VI 1) (SI i32) (VI 1);
   check0 (sm_id SLogicalXnorMonoid (SI i8)) (SI i8) (SI i32) (VI 1);
   check2 (sm_op SLogicalXnorMonoid) (SI i8) (SI i8) (SI i8) (VI 0) (VI 0) (SI i32) (VI 1);
   check2 (sm_op SLogicalXnorMonoid) (SI i8) (SI i8) (SI i8) (VI 0) (VI 1) (SI i32) (VI 0);
   check2 (sm_op SLogicalXnorMonoid) (SI i8) (SI i8) (SI i8) (VI (-2)) (VI 0) (SI i32) (VI 0);
   check2 (sm_op SLogicalXnorMonoid) (SI i8) (SI i8) (SI i8) (VI (-2)) (VI 1) (SI i32) (VI 1);
   check0 (sm_id SLogicalXnorMonoid (SI CBool)) (SI CBool) (SI CBool) (VI 1);
   check2 (sm_op SLogicalXnorMonoid) (SI CBool) (SI CBool) (SI CBool) (VI 0) (VI 0) (SI CBool) (VI 1);
   check2 (sm_op SLogicalXnorMonoid) (SI CBool) (SI CBool) (SI CBool) (VI 0) (VI 1) (SI CBool) (VI 0);
   check2 (sm_op SLogicalXnorMonoid) (SI CBool) (SI CBool) (SI CBool) (VI 1) (VI 0) (SI CBool) (VI 0);
   check2 (sm_op SLogicalXnorMonoid) (SI CBool) (SI CBool) (SI CBool) (VI 1) (VI 1) (SI CBool) (VI 1) ].
Proof. vm_compute. reflexivity. Qed.

(** test_algebra_semiring.cpp:51-91 *)
Example semiring_arithmetic_semiring_test : all_true
 [ check0 (ss_zero SArithmeticSemiring (SF CDouble)) (SF CDouble) (SF CDouble) (VF f0);
   check2 (sm_op (ss_add SArithmeticSemiring)) (SF CDouble) (SF CDouble) (SF CDouble) (VF (S754_finite true 4503599627370496 (-51))) (VF (S754_finite false 4503599627370496 (-52))) (SF CDouble) (VF (S754_finite true 4503599627370496 (-52)));
   check2 (ss_mult SArithmeticSemiring) (SF CDouble) (SF CDouble) (SF CDouble) (VF (S754_finite true 4503599627370496 (-51))) (VF (S754_finite false 4503599627370496 (-52))) (SF CDouble) (VF (S754_finite true 4503599627370496 (-51)));
   check0 (ss_zero SArithmeticSemiring (SF CFloat)) (SF CFloat) (SF CFloat) (VF f0);
   check2 (sm_op (ss_add SArithmeticSemiring)) (SF CFloat) (SF CFloat) (SF CFloat) (VF (S754_finite true 8388608 (-22))) (VF (S754_finite false 8388608 (-23))) (SF CFloat) (VF (S754_finite true 8388608 (-23)));
   check2 (ss_mult SArithmeticSemiring) (SF CFloat) (SF CFloat) (SF CFloat) (VF (S754_finite true 8388608 (-22))) (VF (S754_finite false 8388608 (-23))) (SF CFloat) (VF (S754_finite true 8388608 (-22)));
   check0 (ss_zero SArithmeticSemiring (SI u64)) (SI u64) (SI u64) (VI 0);
   check2 (sm_op (ss_add SArithmeticSemiring)) (SI u64) (SI u64) (SI u64) (VI 2) (VI 1) (SI u64) (VI 3);
   check2 (ss_mult SArithmeticSemiring) (SI u64) (SI u64) (SI u64) (VI 2) (VI 1) (SI u64) (VI 2);
   check0 (ss_zero SArithmeticSemiring (SI u32)) (SI u32) (SI u32) (VI 0);
   check2 (sm_op (ss_add SArithmeticSemiring)) (SI u32) (SI u32) (SI u32) (VI 2) (VI 1) (SI u32) (VI 3);
   check2 (ss_mult SArithmeticSemiring) (SI u32) (SI u32) (SI u32) (VI 2) (VI 1) (SI u32) (VI 2);
   check0 (ss_zero SArithmeticSemiring (SI u16)) (SI u16) (SI u32) (VI 0);
   check2 (sm_op (ss_add SArithmeticSemiring)) (SI u16) (SI u16) (SI u16) (VI 2) (VI 1) (SI u32) (VI 3);
   check2 (ss_mult SArithmeticSemiring) (SI u16) (SI u16) (SI u16) (VI 2) (VI 1) (SI u32) (VI 2);
   check0 (ss_zero SArithmeticSemiring (SI u8)) (SI u8) (SI u32) (VI 0);
   check2 (sm_op (ss_add SArithmeticSemiring)) (SI u8) (SI u8) (SI u8) (VI 2) (VI 1) (SI u32) (VI 3);
   check2 (ss_mult SArithmeticSemiring) (SI u8) (SI u8) (SI u8) (VI 2) (VI 1) (SI u32) (VI 2);
   check0 (ss_zero SArithmeticSemiring (SI i64)) (SI i64) (SI i64) (VI 0);
   check2 (sm_op (ss_add SArithmeticSemiring)) (SI i64) (SI i64) (SI i64) (VI (-2)) (VI 1) (SI i64) (VI (-1));
   check2 (ss_mult SArithmeticSemiring) (SI i64) (SI i64) (SI i64) (VI (-2)) (VI 1) (SI i64) (VI (-2));
   check0 (ss_zero SArithmeticSemiring (SI i32)) (SI i32) (SI i32) (VI 0);
   check2 (sm_op (ss_add SArithmeticSemiring)) (SI i32) (SI i32) (SI i32) (VI (-2)) (VI 1) (SI i32) (VI (-1));
   check2 (ss_mult SArithmeticSemiring) (SI i32) (SI i32) (SI i32) (VI (-2)) (VI 1) (SI i32) (VI (-2));
   check0 (ss_zero SArithmeticSemiring (SI i16)) (SI i16) (SI i32) (VI 0);
   check2 (sm_op (ss_add SArithmeticSemiring)) (SI i16) (SI i16) (SI i16) (VI (-2)) (VI 1) (SI i32) (VI (-1));
   check2 (ss_mult SArithmeticSemiring) (SI i16) (SI i16) (SI i16) (VI (-2)) (VI 1) (SI i32) (VI (-2));
   check0 (ss_zero SArithmeticSemiring (SI i8)) (SI i8) (SI i32) (VI 0);
   check2 (sm_op (ss_add SArithmeticSemiring)) (SI i8) (SI i8) (SI i8) (VI (-2)) (VI 1) (SI i32) (VI (-1));
   check2 (ss_mult SArithmeticSemiring) (SI i8) (SI i8) (SI i8) (VI (-2)) (VI 1) (SI i32) (VI (-2));
   check0 (ss_zero SArithmeticSemiring (SI CBool)) (SI CBool) (SI CBool) (VI 0);
   check2 (sm_op (ss_add SArithmeticSemiring)) (SI CBool) (SI CBool) (SI CBool) (VI 0) (VI 0) (SI CBool) (VI 0);
   check2 (sm_op (ss_add SArithmeticSemiring)) (SI CBool) (SI CBool) (SI CBool) (VI 0) (VI 1) (SI CBool) (VI 1);
   check2 (ss_mult SArithmeticSemiring) (SI CBool) (SI CBool) (SI CBool) (VI 0) (VI 1) (SI CBool) (VI 0);
   check2 (ss_mult SArithmeticSemiring) (SI CBool) (SI CBool) (SI CBool) (VI 1) (VI 1) (SI CBool) (VI 1) ].
Proof. vm_compute. reflexivity. Qed.

(** test_algebra_semiring.cpp:94-161 *)
Example semiring_min_plus_semiring_test : all_true
 [ check0 (ss_zero SMinPlusSemiring (SF CDouble)) (SF CDouble) (SF CDouble) (VF finf);
   check2 (sm_op (ss_add SMinPlusSemiring)) (SF CDouble) (SF CDouble) (SF CDouble) (VF (S754_finite true 4503599627370496 (-51))) (VF (S754_finite false 4503599627370496 (-52))) (SF CDouble) (VF (S754_finite true 4503599627370496 (-51)));
   check2 (sm_op (ss_add SMinPlusSemiring)) (SF CDouble) (SF CDouble) (SF CDouble) (VF (S754_finite false 4503599627370496 (-51))) (VF (S754_finite false 4503599627370496 (-52))) (SF CDouble) (VF (S754_finite false 4503599627370496 (-52)));
   check2 (ss_mult SMinPlusSemiring) (SF CDouble) (SF CDouble) (SF CDouble) (VF (S754_finite true 4503599627370496 (-51))) (VF (S754_finite false 4503599627370496 (-52))) (SF CDouble) (VF (S754_finite true 4503599627370496 (-52)));
   check0 (ss_zero SMinPlusSemiring (SF CFloat)) (SF CFloat) (SF CFloat) (VF finf);
   check2 (sm_op (ss_add SMinPlusSemiring)) (SF CFloat) (SF CFloat) (SF CFloat) (VF (S754_finite true 8388608 (-22))) (VF (S754_finite false 8388608 (-23))) (SF CFloat) (VF (S754_finite true 8388608 (-22)));
   check2 (sm_op (ss_add SMinPlusSemiring)) (SF CFloat) (SF CFloat) (SF CFloat) (VF (S754_finite false 8388608 (-22))) (VF (S754_finite false 8388608 (-23))) (SF CFloat) (VF (S754_finite false 8388608 (-23)));
   check2 (ss_mult SMinPlusSemiring) (SF CFloat) (SF CFloat) (SF CFloat) (VF (S754_finite true 8388608 (-22))) (VF (S754_finite false 8388608 (-23))) (SF CFloat) (VF (S754_finite true 8388608 (-23)));
   check0 (ss_zero SMinPlusSemiring (SI u64)) (SI u64) (SI u64) (VI 18446744073709551615);
   check2 (sm_op (ss_add SMinPlusSemiring)) (SI u64) (SI u64) (SI u64) (VI 2) (VI 1) (SI u64) (VI 1);
   check2 (sm_op (ss_add SMinPlusSemiring)) (SI u64) (SI u64) (SI u64) (VI 2) (VI 3) (SI u64) (VI 2);
   check2 (ss_mult SMinPlusSemiring) (SI u64) (SI u64) (SI u64) (VI 2) (VI 1) (SI u64) (VI 3);
   check0 (ss_zero SMinPlusSemiring (SI u32)) (SI u32) (SI u32) (VI 4294967295);
   check2 (sm_op (ss_add SMinPlusSemiring)) (SI u32) (SI u32) (SI u32) (VI 2) (VI 1) (SI u32) (VI 1);
   check2 (sm_op (ss_add SMinPlusSemiring)) (SI u32) (SI u32) (SI u32) (VI 2) (VI 3) (SI u32) (VI 2);
   check2 (ss_mult SMinPlusSemiring) (SI u32) (SI u32) (SI u32) (VI 2) (VI 1) (SI u32) (VI 3);
   check0 (ss_zero SMinPlusSemiring (SI u16)) (SI u16) (SI u16) (VI 65535);
   check2 (sm_op (ss_add SMinPlusSemiring)) (SI u16) (SI u16) (SI u16) (VI 2) (VI 1) (SI u32) (VI 1);
   check2 (sm_op (ss_add SMinPlusSemiring)) (SI u16) (SI u16) (SI u16) (VI 2) (VI 3) (SI u32) (VI 2);
   check2 (ss_mult SMinPlusSemiring) (SI u16) (SI u16) (SI u16) (VI 2) (VI 1) (SI u32) (VI 3);
   check0 (ss_zero SMinPlusSemiring (SI u8)) (SI u8) (SI u8) (VI 255);
   check2 (sm_op (ss_add SMinPlusSemiring)) (SI u8) (SI u8) (SI u8) (VI 2) (VI 1) (SI u32) (VI 1);
   check2 (sm_op (ss_add SMinPlusSemiring)) (SI u8) (SI u8) (SI u8) (VI 2) (VI 3) (SI u32) (VI 2);
   check2 (ss_mult SMinPlusSemiring) (SI u8) (SI u8) (SI u8) (VI 2) (VI 1) (SI u32) (VI 3);
   check0 (ss_zero SMinPlusSemiring (SI i64)) (SI i64) (SI i64) (VI 9223372036854775807);
   check2 (sm_op (ss_add SMinPlusSemiring)) (SI i64) (SI i64) (SI i64) (VI (-2)) (VI 1) (SI i64) (VI (-2));
   check2 (sm_op (ss_add SMinPlusSemiring)) (SI i64) (SI i64) (SI i64) (VI 2) (VI (-1)) (SI i64) (VI (-1));
   check2 (ss_mult SMinPlusSemiring) (SI i64) (SI i64) (SI i64) (VI (-2)) (VI 1) (SI i64) (VI (-1));
   check0 (ss_zero SMinPlusSemiring (SI i32)) (SI i32) (SI i32) (VI 2147483647);
   check2 (sm_op (ss_add SMinPlusSemiring)) (SI i32) (SI i32) (SI i32) (VI (-2)) (VI 1) (SI i32) (VI (-2));
   check2 (sm_op (ss_add SMinPlusSemiring)) (SI i32) (SI i32) (SI i32) (VI 2) (VI (-1)) (SI i32) (VI (-1));
   check2 (ss_mult SMinPlusSemiring) (SI i32) (SI i32) (SI i32) (VI (-2)) (VI 1) (SI i32) (VI (-1));
   check0 (ss_zero SMinPlusSemiring (SI i16)) (SI i16) (SI i16) (VI 32767);
   check2 (sm_op (ss_add SMinPlusSemiring)) (SI i16) (SI i16) (SI i16) (VI (-2)) (VI 1) (SI i32) (VI (-2));
   check2 (sm_op (ss_add SMinPlusSemiring)) (SI i16) (SI i16) (SI i16) (VI 2) (VI (-1)) (SI i32) (VI (-1));
   check2 (ss_mult SMinPlusSemiring) (SI i16) (SI i16) (SI i16) (VI (-2)) (VI 1) (SI i32) (VI (-1));
   check0 (ss_zero SMinPlusSemiring (SI i8)) (SI i8) (SI i8) (VI 127);
   check2 (sm_op (ss_add SMinPlusSemiring)) (SI i8) (SI i8) (SI i8) (VI (-2)) (VI 1) (SI i32) (VI (-2));
   check2 (sm_op (ss_add SMinPlusSemiring)) (SI i8) (SI i8) (SI i8) (VI 2) (VI (-1)) (SI i32) (VI (-1));
   check2 (ss_mult SMinPlusSemiring) (SI i8) (SI i8) (SI i8) (VI (-2)) (VI 1) (SI i32) (VI (-1));
   check0 (ss_zero SMinPlusSemiring (SI CBool)) (SI CBool) (SI CBool) (VI 1);
   check2 (sm_op (ss_add SMinPlusSemiring)) (SI CBool) (SI CBool) (SI CBool) (VI 0) (VI 1) (SI CBool) (VI 0);
   check2 (sm_op (ss_add SMinPlusSemiring)) (SI CBool) (SI CBool) (SI CBool) (VI 1) (VI 1) (SI CBool) (VI 1);
   check2 (ss_mult SMinPlusSemiring) (SI CBool) (SI CBool) (SI CBool) (VI 0) (VI 0) (SI CBool) (VI 0);
   check2 (ss_mult SMinPlusSemiring) (SI CBool) (SI CBool) (SI CBool) (VI 1) (VI 0) (SI CBool) (VI 1) ].
Proof. vm_compute. reflexivity. Qed.

(** test_algebra_semiring.cpp:164-231 *)
Example semiring_max_plus_semiring_test : all_true
 [ check0 (ss_zero SMaxPlusSemiring (SF CDouble)) (SF CDouble) (SF CDouble) (VF fninf);
   check2 (sm_op (ss_add SMaxPlusSemiring)) (SF CDouble) (SF CDouble) (SF CDouble) (VF (S754_finite true 4503599627370496 (-51))) (VF (S754_finite false 4503599627370496 (-52))) (SF CDouble) (VF (S754_finite false 4503599627370496 (-52)));
   check2 (sm_op (ss_add SMaxPlusSemiring)) (SF CDouble) (SF CDouble) (SF CDouble) (VF (S754_finite false 4503599627370496 (-51))) (VF (S754_finite false 4503599627370496 (-52))) (SF CDouble) (VF (S754_finite false 4503599627370496 (-51)));
   check2 (ss_mult SMaxPlusSemiring) (SF CDouble) (SF CDouble) (SF CDouble) (VF (S754_finite true 4503599627370496 (-51))) (VF (S754_finite false 4503599627370496 (-52))) (SF CDouble) (VF (S754_finite true 4503599627370496 (-52)));
   check0 (ss_zero SMaxPlusSemiring (SF CFloat)) (SF CFloat) (SF CFloat) (VF fninf);
   check2 (sm_op (ss_add SMaxPlusSemiring)) (SF CFloat) (SF CFloat) (SF CFloat) (VF (S754_finite true 8388608 (-22))) (VF (S754_finite false 8388608 (-23))) (SF CFloat) (VF (S754_finite false 8388608 (-23)));
   check2 (sm_op (ss_add SMaxPlusSemiring)) (SF CFloat) (SF CFloat) (SF CFloat) (VF (S754_finite false 8388608 (-22))) (VF (S754_finite false 8388608 (-23))) (SF CFloat) (VF (S754_finite false 8388608 (-22)));
   check2 (ss_mult SMaxPlusSemiring) (SF CFloat) (SF CFloat) (SF CFloat) (VF (S754_finite true 8388608 (-22))) (VF (S754_finite false 8388608 (-23))) (SF CFloat) (VF (S754_finite true 8388608 (-23)));
   check0 (ss_zero SMaxPlusSemiring (SI u64)) (SI u64) (SI u64) (VI 0);
   check2 (sm_op (ss_add SMaxPlusSemiring)) (SI u64) (SI u64) (SI u64) (VI 2) (VI 1) (SI u64) (VI 2);
   check2 (sm_op (ss_add SMaxPlusSemiring)) (SI u64) (SI u64) (SI u64) (VI 2) (VI 3) (SI u64) (VI 3);
   check2 (ss_mult SMaxPlusSemiring) (SI u64) (SI u64) (SI u64) (VI 2) (VI 1) (SI u64) (VI 3);
   check0 (ss_zero SMaxPlusSemiring (SI u32)) (SI u32) (SI u32) (VI 0);
   check2 (sm_op (ss_add SMaxPlusSemiring)) (SI u32) (SI u32) (SI u32) (VI 2) (VI 1) (SI u32) (VI 2);
   check2 (sm_op (ss_add SMaxPlusSemiring)) (SI u32) (SI u32) (SI u32) (VI 2) (VI 3) (SI u32) (VI 3);
   check2 (ss_mult SMaxPlusSemiring) (SI u32) (SI u32) (SI u32) (VI 2) (VI 1) (SI u32) (VI 3);
   check0 (ss_zero SMaxPlusSemiring (SI u16)) (SI u16) (SI u16) (VI 0);
   check2 (sm_op (ss_add SMaxPlusSemiring)) (SI u16) (SI u16) (SI u16) (VI 2) (VI 1) (SI u32) (VI 2);
   check2 (sm_op (ss_add SMaxPlusSemiring)) (SI u16) (SI u16) (SI u16) (VI 2) (VI 3) (SI u32) (VI 3);
   check2 (ss_mult SMaxPlusSemiring) (SI u16) (SI u16) (SI u16) (VI 2) (VI 1) (SI u32) (VI 3);
   check0 (ss_zero SMaxPlusSemiring (SI u8)) (SI u8) (SI u8) (VI 0);
   check2 (sm_op (ss_add SMaxPlusSemiring)) (SI u8) (SI u8) (SI u8) (VI 2) (VI 1) (SI u32) (VI 2);
   check2 (sm_op (ss_add SMaxPlusSemiring)) (SI u8) (SI u8) (SI u8) (VI 2) (VI 3) (SI u32) (VI 3);
   check2 (ss_mult SMaxPlusSemiring) (SI u8) (SI u8) (SI u8) (VI 2) (VI 1) (SI u32) (VI 3);
   check0 (ss_zero SMaxPlusSemiring (SI i64)) (SI i64) (SI i64) (VI (-9223372036854775808));
   check2 (sm_op (ss_add SMaxPlusSemiring)) (SI i64) (SI i64) (SI i64) (VI (-2)) (VI 1) (SI i64) (VI 1);
   check2 (sm_op (ss_add SMaxPlusSemiring)) (SI i64) (SI i64) (SI i64) (VI 2) (VI (-1)) (SI i64) (VI 2);
   check2 (ss_mult SMaxPlusSemiring) (SI i64) (SI i64) (SI i64) (VI (-2)) (VI 1) (SI i64) (VI (-1));
   check0 (ss_zero SMaxPlusSemiring (SI i32)) (SI i32) (SI i32) (VI (-2147483648));
   check2 (sm_op (ss_add SMaxPlusSemiring)) (SI i32) (SI i32) (SI i32) (VI (-2)) (VI 1) (SI i32) (VI 1);
   check2 (sm_op (ss_add SMaxPlusSemiring)) (SI i32) (SI i32) (SI i32) (VI 2) (VI (-1)) (SI i32) (VI 2);
   check2 (ss_mult SMaxPlusSemiring) (SI i32) (SI i32) (SI i32) (VI (-2)) (VI 1) (SI i32) (VI (-1));
   check0 (ss_zero SMaxPlusSemiring (SI i16)) (SI i16) (SI i16) (VI (-32768));
   check2 (sm_op (ss_add SMaxPlusSemiring)) (SI i16) (SI i16) (SI i16) (VI (-2)) (VI 1) (SI i32) (VI 1);
   check2 (sm_op (ss_add SMaxPlusSemiring)) (SI i16) (SI i16) (SI i16) (VI 2) (VI (-1)) (SI i32) (VI 2);
   check2 (ss_mult SMaxPlusSemiring) (SI i16) (SI i16) (SI i16) (VI (-2)) (VI 1) (SI i32) (VI (-1));
   check0 (ss_zero SMaxPlusSemiring (SI i8)) (SI i8) (SI i8) (VI (-128));
   check2 (sm_op (ss_add SMaxPlusSemiring)) (SI i8) (SI i8) (SI i8) (VI (-2)) (VI 1) (SI i32) (VI 1);
   check2 (sm_op (ss_add SMaxPlusSemiring)) (SI i8) (SI i8) (SI i8) (VI 2) (VI (-1)) (SI i32) (VI 2);
   check2 (ss_mult SMaxPlusSemiring) (SI i8) (SI i8) (SI i8) (VI (-2)) (VI 1) (SI i32) (VI (-1));
   check0 (ss_zero SMaxPlusSemiring (SI CBool)) (SI CBool) (SI CBool) (VI 0);
   check2 (sm_op (ss_add SMaxPlusSemiring)) (SI CBool) (SI CBool) (SI CBool) (VI 0) (VI 1) (SI CBool) (VI 1);
   check2 (sm_op (ss_add SMaxPlusSemiring)) (SI CBool) (SI CBool) (SI CBool) (VI 1) (VI 1) (SI CBool) (VI 1);
   check2 (ss_mult SMaxPlusSemiring) (SI CBool) (SI CBool) (SI CBool) (VI 0) (VI 0) (SI CBool) (VI 0);
   check2 (ss_mult SMaxPlusSemiring) (SI CBool) (SI CBool) (SI CBool) (VI 1) (VI 0) (SI CBool) (VI 1) ].
Proof. vm_compute. reflexivity. Qed.

(** test_algebra_semiring.cpp:234-284 *)
Example semiring_min_times_semiring_test : all_true
 [ check0 (ss_zero SMinTimesSemiring (SF CDouble)) (SF CDouble) (SF CDouble) (VF finf);
   check2 (sm_op (ss_add SMinTimesSemiring)) (SF CDouble) (SF CDouble) (SF CDouble) (VF (S754_finite true 4503599627370496 (-51))) (VF (S754_finite false 4503599627370496 (-52))) (SF CDouble) (VF (S754_finite true 4503599627370496 (-51)));
   check2 (ss_mult SMinTimesSemiring) (SF CDouble) (SF CDouble) (SF CDouble) (VF (S754_finite true 4503599627370496 (-51))) (VF (S754_finite false 4503599627370496 (-52))) (SF CDouble) (VF (S754_finite true 4503599627370496 (-51)));
   check0 (ss_zero SMinTimesSemiring (SF CFloat)) (SF CFloat) (SF CFloat) (VF finf);
   check2 (sm_op (ss_add SMinTimesSemiring)) (SF CFloat) (SF CFloat) (SF CFloat) (VF (S754_finite true 8388608 (-22))) (VF (S754_finite false 8388608 (-23))) (SF CFloat) (VF (S754_finite true 8388608 (-22)));
   check2 (ss_mult SMinTimesSemiring) (SF CFloat) (SF CFloat) (SF CFloat) (VF (S754_finite true 8388608 (-22))) (VF (S754_finite false 8388608 (-23))) (SF CFloat) (VF (S754_finite true 8388608 (-22)));
   check0 (ss_zero SMinTimesSemiring (SI u64)) (SI u64) (SI u64) (VI 18446744073709551615);
   check2 (sm_op (ss_add SMinTimesSemiring)) (SI u64) (SI u64) (SI u64) (VI 2) (VI 1) (SI u64) (VI 1);
   check2 (ss_mult SMinTimesSemiring) (SI u64) (SI u64) (SI u64) (VI 2) (VI 1) (SI u64) (VI 2);
   check0 (ss_zero SMinTimesSemiring (SI u32)) (SI u32) (SI u32) (VI 4294967295);
   check2 (sm_op (ss_add SMinTimesSemiring)) (SI u32) (SI u32) (SI u32) (VI 2) (VI 1) (SI u32) (VI 1);
   check2 (ss_mult SMinTimesSemiring) (SI u32) (SI u32) (SI u32) (VI 2) (VI 1) (SI u32) (VI 2);
   check0 (ss_zero SMinTimesSemiring (SI u16)) (SI u16) (SI u16) (VI 65535);
   check2 (sm_op (ss_add SMinTimesSemiring)) (SI u16) (SI u16) (SI u16) (VI 2) (VI 1) (SI u32) (VI 1);
   check2 (ss_mult SMinTimesSemiring) (SI u16) (SI u16) (SI u16) (VI 2) (VI 1) (SI u32) (VI 2);
   check0 (ss_zero SMinTimesSemiring (SI u8)) (SI u8) (SI u8) (VI 255);
   check2 (sm_op (ss_add SMinTimesSemiring)) (SI u8) (SI u8) (SI u8) (VI 2) (VI 1) (SI u32) (VI 1);
   check2 (ss_mult SMinTimesSemiring) (SI u8) (SI u8) (SI u8) (VI 2) (VI 1) (SI u32) (VI 2);
   check0 (ss_zero SMinTimesSemiring (SI i64)) (SI i64) (SI i64) (VI 9223372036854775807);
   check2 (sm_op (ss_add SMinTimesSemiring)) (SI i64) (SI i64) (SI i64) (VI (-2)) (VI 1) (SI i64) (VI (-2));
   check2 (ss_mult SMinTimesSemiring) (SI i64) (SI i64) (SI i64) (VI (-2)) (VI 1) (SI i64) (VI (-2));
   check0 (ss_zero SMinTimesSemiring (SI i32)) (SI i32) (SI i32) (VI 2147483647);
   check2 (sm_op (ss_add SMinTimesSemiring)) (SI i32) (SI i32) (SI i32) (VI (-2)) (VI 1) (SI i32) (VI (-2));
   check2 (ss_mult SMinTimesSemiring) (SI i32) (SI i32) (SI i32) (VI (-2)) (VI 1) (SI i32) (VI (-2));
   check0 (ss_zero SMinTimesSemiring (SI i16)) (SI i16) (SI i16) (VI 32767);
   check2 (sm_op (ss_add SMinTimesSemiring)) (SI i16) (SI i16) (SI i16) (VI (-2)) (VI 1) (SI i32) (VI (-2));
   check2 (ss_mult SMinTimesSemiring) (SI i16) (SI i16) (SI i16) (VI (-2)) (VI 1) (SI i32) (VI (-2));
   check0 (ss_zero SMinTimesSemiring (SI i8)) (SI i8) (SI i8) (VI 127);
   check2 (sm_op (ss_add SMinTimesSemiring)) (SI i8) (SI i8) (SI i8) (VI (-2)) (VI 1) (SI i32) (VI (-2));
   check2 (ss_mult SMinTimesSemiring) (SI i8) (SI i8) (SI i8) (VI (-2)) (VI 1) (SI i32) (VI (-2));
   check0 (ss_zero SMinTimesSemiring (SI CBool)) (SI CBool) (SI CBool) (VI 1);
   check2 (sm_op (ss_add SMinTimesSemiring)) (SI CBool) (SI CBool) (SI CBool) (VI 0) (VI 0) (SI CBool) (VI 0);
   check2 (sm_op (ss_add SMinTimesSemiring)) (SI CBool) (SI CBool) (SI CBool) (VI 0) (VI 1) (SI CBool) (VI 0);
   check2 (ss_mult SMinTimesSemiring) (SI CBool) (SI CBool) (SI CBool) (VI 0) (VI 1) (SI CBool) (VI 0);
   check2 (ss_mult SMinTimesSemiring) (SI CBool) (SI CBool) (SI CBool) (VI 1) (VI 1) (SI CBool) (VI 1) ].
Proof. vm_compute. reflexivity. Qed.

(** test_algebra_semiring.cpp:287-333 *)
Example semiring_max_times_semiring_test : all_true
 [ check0 (ss_zero SMaxTimesSemiring (SF CDouble)) (SF CDouble) (SF CDouble) (VF fninf);
   check2 (sm_op (ss_add SMaxTimesSemiring)) (SF CDouble) (SF CDouble) (SF CDouble) (VF (S754_finite true 4503599627370496 (-51))) (VF (S754_finite false 4503599627370496 (-52))) (SF CDouble) (VF (S754_finite false 4503599627370496 (-52)));
   check2 (ss_mult SMaxTimesSemiring) (SF CDouble) (SF CDouble) (SF CDouble) (VF (S754_finite true 4503599627370496 (-51))) (VF (S754_finite false 4503599627370496 (-52))) (SF CDouble) (VF (S754_finite true 4503599627370496 (-51)));
   check0 (ss_zero SMaxTimesSemiring (SF CFloat)) (SF CFloat) (SF CFloat) (VF fninf);
   check2 (sm_op (ss_add SMaxTimesSemiring)) (SF CFloat) (SF CFloat) (SF CFloat) (VF (S754_finite true 8388608 (-22))) (VF (S754_finite false 8388608 (-23))) (SF CFloat) (VF (S754_finite false 8388608 (-23)));
   check2 (ss_mult SMaxTimesSemiring) (SF CFloat) (SF CFloat) (SF CFloat) (VF (S754_finite true 8388608 (-22))) (VF (S754_finite false 8388608 (-23))) (SF CFloat) (VF (S754_finite true 8388608 (-22)));
   check0 (ss_zero SMaxTimesSemiring (SI u64)) (SI u64) (SI u64) (VI 0);
   check2 (sm_op (ss_add SMaxTimesSemiring)) (SI u64) (SI u64) (SI u64) (VI 2) (VI 1) (SI u64) (VI 2);
   check2 (ss_mult SMaxTimesSemiring) (SI u64) (SI u64) (SI u64) (VI 2) (VI 1) (SI u64) (VI 2);
   check0 (ss_zero SMaxTimesSemiring (SI u32)) (SI u32) (SI u32) (VI 0);
   check2 (sm_op (ss_add SMaxTimesSemiring)) (SI u32) (SI u32) (SI u32) (VI 2) (VI 1) (SI u32) (VI 2);
   check2 (ss_mult SMaxTimesSemiring) (SI u32) (SI u32) (SI u32) (VI 2) (VI 1) (SI u32) (VI 2);
   check0 (ss_zero SMaxTimesSemiring (SI u16)) (SI u16) (SI u32) (VI 0);
   check2 (sm_op (ss_add SMaxTimesSemiring)) (SI u16) (SI u16) (SI u16) (VI 2) (VI 1) (SI u32) (VI 2);
   check2 (ss_mult SMaxTimesSemiring) (SI u16) (SI u16) (SI u16) (VI 2) (VI 1) (SI u32) (VI 2);
   check0 (ss_zero SMaxTimesSemiring (SI u8)) (SI u8) (SI u32) (VI 0);
   check2 (sm_op (ss_add SMaxTimesSemiring)) (SI u8) (SI u8) (SI u8) (VI 2) (VI 1) (SI u32) (VI 2);
   check2 (ss_mult SMaxTimesSemiring) (SI u8) (SI u8) (SI u8) (VI 2) (VI 1) (SI u32) (VI 2);
   check0 (ss_zero SMaxTimesSemiring (SI i64)) (SI i64) (SI i64) (VI (-9223372036854775808));
   check2 (sm_op (ss_add SMaxTimesSemiring)) (SI i64) (SI i64) (SI i64) (VI (-2)) (VI 1) (SI i64) (VI 1);
   check2 (ss_mult SMaxTimesSemiring) (SI i64) (SI i64) (SI i64) (VI (-2)) (VI 1) (SI i64) (VI (-2));
   check0 (ss_zero SMaxTimesSemiring (SI i32)) (SI i32) (SI i32) (VI (-2147483648));
   check2 (sm_op (ss_add SMaxTimesSemiring)) (SI i32) (SI i32) (SI i32) (VI (-2)) (VI 1) (SI i32) (VI 1);
   check2 (ss_mult SMaxTimesSemiring) (SI i32) (SI i32) (SI i32) (VI (-2)) (VI 1) (SI i32) (VI (-2));
   check0 (ss_zero SMaxTimesSemiring (SI i16)) (SI i16) (SI i16) (VI (-32768));
   check2 (sm_op (ss_add SMaxTimesSemiring)) (SI i16) (SI i16) (SI i16) (VI (-2)) (VI 1) (SI i32) (VI 1);
   check2 (ss_mult SMaxTimesSemiring) (SI i16) (SI i16) (SI i16) (VI (-2)) (VI 1) (SI i32) (VI (-2));
   check0 (ss_zero SMaxTimesSemiring (SI i8)) (SI i8) (SI i8) (VI (-128));
   check2 (sm_op (ss_add SMaxTimesSemiring)) (SI i8) (SI i8) (SI i8) (VI (-2)) (VI 1) (SI i32) (VI 1);
   check2 (ss_mult SMaxTimesSemiring) (SI i8) (SI i8) (SI i8) (VI (-2)) (VI 1) (SI i32) (VI (-2));
   check0 (ss_zero SMaxTimesSemiring (SI CBool)) (SI CBool) (SI CBool) (VI 0);
   check2 (sm_op (ss_add SMaxTimesSemiring)) (SI CBool) (SI CBool) (SI CBool) (VI 0) (VI 0) (SI CBool) (VI 0);
   check2 (sm_op (ss_add SMaxTimesSemiring)) (SI CBool) (SI CBool) (SI CBool) (VI 0) (VI 1) (SI CBool) (VI 1);
   check2 (ss_mult SMaxTimesSemiring) (SI CBool) (SI CBool) (SI CBool) (VI 0) (VI 1) (SI CBool) (VI 0);
   check2 (ss_mult SMaxTimesSemiring) (SI CBool) (SI CBool) (SI CBool) (VI 1) (VI 1) (SI CBool) (VI 1) ].
Proof. vm_compute. reflexivity. Qed.

(** test_algebra_semiring.cpp:336-386 *)
Example semiring_min_max_semiring_test : all_true
 [ check0 (ss_zero SMinMaxSemiring (SF CDouble)) (SF CDouble) (SF CDouble) (VF finf);
   check2 (sm_op (ss_add SMinMaxSemiring)) (SF CDouble) (SF CDouble) (SF CDouble) (VF (S754_finite true 4503599627370496 (-51))) (VF (S754_finite false 4503599627370496 (-52))) (SF CDouble) (VF (S754_finite true 4503599627370496 (-51)));
   check2 (ss_mult SMinMaxSemiring) (SF CDouble) (SF CDouble) (SF CDouble) (VF (S754_finite true 4503599627370496 (-51))) (VF (S754_finite false 4503599627370496 (-52))) (SF CDouble) (VF (S754_finite false 4503599627370496 (-52)));
   check0 (ss_zero SMinMaxSemiring (SF CFloat)) (SF CFloat) (SF CFloat) (VF finf);
   check2 (sm_op (ss_add SMinMaxSemiring)) (SF CFloat) (SF CFloat) (SF CFloat) (VF (S754_finite true 8388608 (-22))) (VF (S754_finite false 8388608 (-23))) (SF CFloat) (VF (S754_finite true 8388608 (-22)));
   check2 (ss_mult SMinMaxSemiring) (SF CFloat) (SF CFloat) (SF CFloat) (VF (S754_finite true 8388608 (-22))) (VF (S754_finite false 8388608 (-23))) (SF CFloat) (VF (S754_finite false 8388608 (-23)));
   check0 (ss_zero SMinMaxSemiring (SI u64)) (SI u64) (SI u64) (VI 18446744073709551615);
   check2 (sm_op (ss_add SMinMaxSemiring)) (SI u64) (SI u64) (SI u64) (VI 2) (VI 1) (SI u64) (VI 1);
   check2 (ss_mult SMinMaxSemiring) (SI u64) (SI u64) (SI u64) (VI 2) (VI 1) (SI u64) (VI 2);
   check0 (ss_zero SMinMaxSemiring (SI u32)) (SI u32) (SI u32) (VI 4294967295);
   check2 (sm_op (ss_add SMinMaxSemiring)) (SI u32) (SI u32) (SI u32) (VI 2) (VI 1) (SI u32) (VI 1);
   check2 (ss_mult SMinMaxSemiring) (SI u32) (SI u32) (SI u32) (VI 2) (VI 1) (SI u32) (VI 2);
   check0 (ss_zero SMinMaxSemiring (SI u16)) (SI u16) (SI u16) (VI 65535);
   check2 (sm_op (ss_add SMinMaxSemiring)) (SI u16) (SI u16) (SI u16) (VI 2) (VI 1) (SI u32) (VI 1);
   check2 (ss_mult SMinMaxSemiring) (SI u16) (SI u16) (SI u16) (VI 2) (VI 1) (SI u32) (VI 2);
   check0 (ss_zero SMinMaxSemiring (SI u8)) (SI u8) (SI u8) (VI 255);
   check2 (sm_op (ss_add SMinMaxSemiring)) (SI u8) (SI u8) (SI u8) (VI 2) (VI 1) (SI u32) (VI 1);
   check2 (ss_mult SMinMaxSemiring) (SI u8) (SI u8) (SI u8) (VI 2) (VI 1) (SI u32) (VI 2);
   check0 (ss_zero SMinMaxSemiring (SI i64)) (SI i64) (SI i64) (VI 9223372036854775807);
   check2 (sm_op (ss_add SMinMaxSemiring)) (SI i64) (SI i64) (SI i64) (VI (-2)) (VI 1) (SI i64) (VI (-2));
   check2 (ss_mult SMinMaxSemiring) (SI i64) (SI i64) (SI i64) (VI (-2)) (VI 1) (SI i64) (VI 1);
   check0 (ss_zero SMinMaxSemiring (SI i32)) (SI i32) (SI i32) (VI 2147483647);
   check2 (sm_op (ss_add SMinMaxSemiring)) (SI i32) (SI i32) (SI i32) (VI (-2)) (VI 1) (SI i32) (VI (-2));
   check2 (ss_mult SMinMaxSemiring) (SI i32) (SI i32) (SI i32) (VI (-2)) (VI 1) (SI i32) (VI 1);
   check0 (ss_zero SMinMaxSemiring (SI i16)) (SI i16) (SI i16) (VI 32767);
   check2 (sm_op (ss_add SMinMaxSemiring)) (SI i16) (SI i16) (SI i16) (VI (-2)) (VI 1) (SI i32) (VI (-2));
   check2 (ss_mult SMinMaxSemiring) (SI i16) (SI i16) (SI i16) (VI (-2)) (VI 1) (SI i32) (VI 1);
   check0 (ss_zero SMinMaxSemiring (SI i8)) (SI i8) (SI i8) (VI 127);
   check2 (sm_op (ss_add SMinMaxSemiring)) (SI i8) (SI i8) (SI i8) (VI (-2)) (VI 1) (SI i32) (VI (-2));
   check2 (ss_mult SMinMaxSemiring) (SI i8) (SI i8) (SI i8) (VI (-2)) (VI 1) (SI i32) (VI 1);
   check0 (ss_zero SMinMaxSemiring (SI CBool)) (SI CBool) (SI CBool) (VI 1);
   check2 (sm_op (ss_add SMinMaxSemiring)) (SI CBool) (SI CBool) (SI CBool) (VI 0) (VI 0) (SI CBool) (VI 0);
   check2 (sm_op (ss_add SMinMaxSemiring)) (SI CBool) (SI CBool) (SI CBool) (VI 0) (VI 1) (SI CBool) (VI 0);
   check2 (ss_mult SMinMaxSemiring) (SI CBool) (SI CBool) (SI CBool) (VI 0) (VI 1) (SI CBool) (VI 1);
   check2 (ss_mult SMinMaxSemiring) (SI CBool) (SI CBool) (SI CBool) (VI 1) (VI 1) (SI CBool) (VI 1) ].
Proof. vm_compute. reflexivity. Qed.

(** test_algebra_semiring.cpp:389-435 *)
Example semiring_max_min_semiring_test : all_true
 [ check0 (ss_zero SMaxMinSemiring (SF CDouble)) (SF CDouble) (SF CDouble) (VF fninf);
   check2 (sm_op (ss_add SMaxMinSemiring)) (SF CDouble) (SF CDouble) (SF CDouble) (VF (S754_finite true 4503599627370496 (-51))) (VF (S754_finite false 4503599627370496 (-52))) (SF CDouble) (VF (S754_finite false 4503599627370496 (-52)));
   check2 (ss_mult SMaxMinSemiring) (SF CDouble) (SF CDouble) (SF CDouble) (VF (S754_finite true 4503599627370496 (-51))) (VF (S754_finite false 4503599627370496 (-52))) (SF CDouble) (VF (S754_finite true 4503599627370496 (-51)));
   check0 (ss_zero SMaxMinSemiring (SF CFloat)) (SF CFloat) (SF CFloat) (VF fninf);
   check2 (sm_op (ss_add SMaxMinSemiring)) (SF CFloat) (SF CFloat) (SF CFloat) (VF (S754_finite true 8388608 (-22))) (VF (S754_finite false 8388608 (-23))) (SF CFloat) (VF (S754_finite false 8388608 (-23)));
   check2 (ss_mult SMaxMinSemiring) (SF CFloat) (SF CFloat) (SF CFloat) (VF (S754_finite true 8388608 (-22))) (VF (S754_finite false 8388608 (-23))) (SF CFloat) (VF (S754_finite true 8388608 (-22)));
   check0 (ss_zero SMaxMinSemiring (SI u64)) (SI u64) (SI u64) (VI 0);
   check2 (sm_op (ss_add SMaxMinSemiring)) (SI u64) (SI u64) (SI u64) (VI 2) (VI 1) (SI u64) (VI 2);
   check2 (ss_mult SMaxMinSemiring) (SI u64) (SI u64) (SI u64) (VI 2) (VI 1) (SI u64) (VI 1);
   check0 (ss_zero SMaxMinSemiring (SI u32)) (SI u32) (SI u32) (VI 0);
   check2 (sm_op (ss_add SMaxMinSemiring)) (SI u32) (SI u32) (SI u32) (VI 2) (VI 1) (SI u32) (VI 2);
   check2 (ss_mult SMaxMinSemiring) (SI u32) (SI u32) (SI u32) (VI 2) (VI 1) (SI u32) (VI 1);
   check0 (ss_zero SMaxMinSemiring (SI u16)) (SI u16) (SI u32) (VI 0);
   check2 (sm_op (ss_add SMaxMinSemiring)) (SI u16) (SI u16) (SI u16) (VI 2) (VI 1) (SI u32) (VI 2);
   check2 (ss_mult SMaxMinSemiring) (SI u16) (SI u16) (SI u16) (VI 2) (VI 1) (SI u32) (VI 1);
   check0 (ss_zero SMaxMinSemiring (SI u8)) (SI u8) (SI u32) (VI 0);
   check2 (sm_op (ss_add SMaxMinSemiring)) (SI u8) (SI u8) (SI u8) (VI 2) (VI 1) (SI u32) (VI 2);
   check2 (ss_mult SMaxMinSemiring) (SI u8) (SI u8) (SI u8) (VI 2) (VI 1) (SI u32) (VI 1);
   check0 (ss_zero SMaxMinSemiring (SI i64)) (SI i64) (SI i64) (VI (-9223372036854775808));
   check2 (sm_op (ss_add SMaxMinSemiring)) (SI i64) (SI i64) (SI i64) (VI (-2)) (VI 1) (SI i64) (VI 1);
   check2 (ss_mult SMaxMinSemiring) (SI i64) (SI i64) (SI i64) (VI (-2)) (VI 1) (SI i64) (VI (-2));
   check0 (ss_zero SMaxMinSemiring (SI i32)) (SI i32) (SI i32) (VI (-2147483648));
   check2 (sm_op (ss_add SMaxMinSemiring)) (SI i32) (SI i32) (SI i32) (VI (-2)) (VI 1) (SI i32) (VI 1);
   check2 (ss_mult SMaxMinSemiring) (SI i32) (SI i32) (SI i32) (VI (-2)) (VI 1) (SI i32) (VI (-2));
   check0 (ss_zero SMaxMinSemiring (SI i16)) (SI i16) (SI i16) (VI (-32768));
   check2 (sm_op (ss_add SMaxMinSemiring)) (SI i16) (SI i16) (SI i16) (VI (-2)) (VI 1) (SI i32) (VI 1);
   check2 (ss_mult SMaxMinSemiring) (SI i16) (SI i16) (SI i16) (VI (-2)) (VI 1) (SI i32) (VI (-2));
   check0 (ss_zero SMaxMinSemiring (SI i8)) (SI i8) (SI i8) (VI (-128));
   check2 (sm_op (ss_add SMaxMinSemiring)) (SI i8) (SI i8) (SI i8) (VI (-2)) (VI 1) (SI i32) (VI 1);
   check2 (ss_mult SMaxMinSemiring) (SI i8) (SI i8) (SI i8) (VI (-2)) (VI 1) (SI i32) (VI (-2));
   check0 (ss_zero SMaxMinSemiring (SI CBool)) (SI CBool) (SI CBool) (VI 0);
   check2 (sm_op (ss_add SMaxMinSemiring)) (SI CBool) (SI CBool) (SI CBool) (VI 0) (VI 0) (SI CBool) (VI 0);
   check2 (sm_op (ss_add SMaxMinSemiring)) (SI CBool) (SI CBool) (SI CBool) (VI 0) (VI 1) (SI CBool) (VI 1);
   check2 (ss_mult SMaxMinSemiring) (SI CBool) (SI CBool) (SI CBool) (VI 0) (VI 1) (SI CBool) (VI 0);
   check2 (ss_mult SMaxMinSemiring) (SI CBool) (SI CBool) (SI CBool) (VI 1) (VI 1) (SI CBool) (VI 1) ].
Proof. vm_compute. reflexivity. Qed.

(** test_algebra_semiring.cpp:438-496 *)
Example semiring_plus_min_semiring_test : all_true
 [ check0 (ss_zero SPlusMinSemiring (SF CDouble)) (SF CDouble) (SF CDouble) (VF f0);
   check2 (sm_op (ss_add SPlusMinSemiring)) (SF CDouble) (SF CDouble) (SF CDouble) (VF (S754_finite true 4503599627370496 (-51))) (VF (S754_finite false 4503599627370496 (-52))) (SF CDouble) (VF (S754_finite true 4503599627370496 (-52)));
   check2 (sm_op (ss_add SPlusMinSemiring)) (SF CDouble) (SF CDouble) (SF CDouble) (VF (S754_finite false 4503599627370496 (-51))) (VF (S754_finite false 4503599627370496 (-52))) (SF CDouble) (VF (S754_finite false 6755399441055744 (-51)));
   check2 (ss_mult SPlusMinSemiring) (SF CDouble) (SF CDouble) (SF CDouble) (VF (S754_finite true 4503599627370496 (-51))) (VF (S754_finite false 4503599627370496 (-52))) (SF CDouble) (VF (S754_finite true 4503599627370496 (-51)));
   check0 (ss_zero SPlusMinSemiring (SF CFloat)) (SF CFloat) (SF CFloat) (VF f0);
   check2 (sm_op (ss_add SPlusMinSemiring)) (SF CFloat) (SF CFloat) (SF CFloat) (VF (S754_finite true 8388608 (-22))) (VF (S754_finite false 8388608 (-23))) (SF CFloat) (VF (S754_finite true 8388608 (-23)));
   check2 (sm_op (ss_add SPlusMinSemiring)) (SF CFloat) (SF CFloat) (SF CFloat) (VF (S754_finite false 8388608 (-22))) (VF (S754_finite false 8388608 (-23))) (SF CFloat) (VF (S754_finite false 12582912 (-22)));
   check2 (ss_mult SPlusMinSemiring) (SF CFloat) (SF CFloat) (SF CFloat) (VF (S754_finite true 8388608 (-22))) (VF (S754_finite false 8388608 (-23))) (SF CFloat) (VF (S754_finite true 8388608 (-22)));
   check0 (ss_zero SPlusMinSemiring (SI u64)) (SI u64) (SI u64) (VI 0);
   check2 (sm_op (ss_add SPlusMinSemiring)) (SI u64) (SI u64) (SI u64) (VI 2) (VI 1) (SI u64) (VI 3);
   check2 (sm_op (ss_add SPlusMinSemiring)) (SI u64) (SI u64) (SI u64) (VI 2) (VI 3) (SI u64) (VI 5);
   check2 (ss_mult SPlusMinSemiring) (SI u64) (SI u64) (SI u64) (VI 2) (VI 1) (SI u64) (VI 1);
   check0 (ss_zero SPlusMinSemiring (SI u32)) (SI u32) (SI u32) (VI 0);
   check2 (sm_op (ss_add SPlusMinSemiring)) (SI u32) (SI u32) (SI u32) (VI 2) (VI 1) (SI u32) (VI 3);
   check2 (sm_op (ss_add SPlusMinSemiring)) (SI u32) (SI u32) (SI u32) (VI 2) (VI 3) (SI u32) (VI 5);
   check2 (ss_mult SPlusMinSemiring) (SI u32) (SI u32) (SI u32) (VI 2) (VI 1) (SI u32) (VI 1);
   check0 (ss_zero SPlusMinSemiring (SI u16)) (SI u16) (SI u32) (VI 0);
   check2 (sm_op (ss_add SPlusMinSemiring)) (SI u16) (SI u16) (SI u16) (VI 2) (VI 1) (SI u32) (VI 3);
   check2 (sm_op (ss_add SPlusMinSemiring)) (SI u16) (SI u16) (SI u16) (VI 2) (VI 3) (SI u32) (VI 5);
   check2 (ss_mult SPlusMinSemiring) (SI u16) (SI u16) (SI u16) (VI 2) (VI 1) (SI u32) (VI 1);
   check0 (ss_zero SPlusMinSemiring (SI u8)) (SI u8) (SI u32) (VI 0);
   check2 (sm_op (ss_add SPlusMinSemiring)) (SI u8) (SI u8) (SI u8) (VI 2) (VI 1) (SI u32) (VI 3);
   check2 (sm_op (ss_add SPlusMinSemiring)) (SI u8) (SI u8) (SI u8) (VI 2) (VI 3) (SI u32) (VI 5);
   check2 (ss_mult SPlusMinSemiring) (SI u8) (SI u8) (SI u8) (VI 2) (VI 1) (SI u32) (VI 1);
   check0 (ss_zero SPlusMinSemiring (SI i64)) (SI i64) (SI i64) (VI 0);
   check2 (sm_op (ss_add SPlusMinSemiring)) (SI i64) (SI i64) (SI i64) (VI (-2)) (VI 1) (SI i64) (VI (-1));
   check2 (sm_op (ss_add SPlusMinSemiring)) (SI i64) (SI i64) (SI i64) (VI 2) (VI (-1)) (SI i64) (VI 1);
   check2 (ss_mult SPlusMinSemiring) (SI i64) (SI i64) (SI i64) (VI (-2)) (VI 1) (SI i64) (VI (-2));
   check0 (ss_zero SPlusMinSemiring (SI i32)) (SI i32) (SI i32) (VI 0);
   check2 (sm_op (ss_add SPlusMinSemiring)) (SI i32) (SI i32) (SI i32) (VI (-2)) (VI 1) (SI i32) (VI (-1));
   check2 (sm_op (ss_add SPlusMinSemiring)) (SI i32) (SI i32) (SI i32) (VI 2) (VI (-1)) (SI i32) (VI 1);
   check2 (ss_mult SPlusMinSemiring) (SI i32) (SI i32) (SI i32) (VI (-2)) (VI 1) (SI i32) (VI (-2));
   check0 (ss_zero SPlusMinSemiring (SI i16)) (SI i16) (SI i32) (VI 0);
   check2 (sm_op (ss_add SPlusMinSemiring)) (SI i16) (SI i16) (SI i16) (VI (-2)) (VI 1) (SI i32) (VI (-1));
   check2 (sm_op (ss_add SPlusMinSemiring)) (SI i16) (SI i16) (SI i16) (VI 2) (VI (-1)) (SI i32) (VI 1);
   check2 (ss_mult SPlusMinSemiring) (SI i16) (SI i16) (SI i16) (VI (-2)) (VI 1) (SI i32) (VI (-2));
   check0 (ss_zero SPlusMinSemiring (SI i8)) (SI i8) (SI i32) (VI 0);
   check2 (sm_op (ss_add SPlusMinSemiring)) (SI i8) (SI i8) (SI i8) (VI (-2)) (VI 1) (SI i32) (VI (-1));
   check2 (sm_op (ss_add SPlusMinSemiring)) (SI i8) (SI i8) (SI i8) (VI 2) (VI (-1)) (SI i32) (VI 1);
   check2 (ss_mult SPlusMinSemiring) (SI i8) (SI i8) (SI i8) (VI (-2)) (VI 1) (SI i32) (VI (-2));
   check0 (ss_zero SPlusMinSemiring (SI CBool)) (SI CBool) (SI CBool) (VI 0);
   check2 (sm_op (ss_add SPlusMinSemiring)) (SI CBool) (SI CBool) (SI CBool) (VI 0) (VI 1) (SI CBool) (VI 1);
   check2 (sm_op (ss_add SPlusMinSemiring)) (SI CBool) (SI CBool) (SI CBool) (VI 1) (VI 1) (SI CBool) (VI 1);
   check2 (ss_mult SPlusMinSemiring) (SI CBool) (SI CBool) (SI CBool) (VI 0) (VI 0) (SI CBool) (VI 0);
   check2 (ss_mult SPlusMinSemiring) (SI CBool) (SI CBool) (SI CBool) (VI 1) (VI 0) (SI CBool) (VI 0);
   check2 (ss_mult SPlusMinSemiring) (SI CBool) (SI CBool) (SI CBool) (VI 1) (VI 1) (SI CBool) (VI 1) ].
Proof. vm_compute. reflexivity. Qed.

(** test_algebra_semiring.cpp:499-610 *)
Example semiring_logical_semiring_test : all_true
 [ check0 (ss_zero SLogicalSemiring (SF CDouble)) (SF CDouble) (SF CDouble) (VF f0);
   check2 (sm_op (ss_add SLogicalSemiring)) (SF CDouble) (SF CDouble) (SF CDouble) (VF (S754_finite true 4503599627370496 (-51))) (VF (S754_finite false 4503599627370496 (-52))) (SF CDouble) (VF (S754_finite false 4503599627370496 (-52)));
   check2 (sm_op (ss_add SLogicalSemiring)) (SF CDouble) (SF CDouble) (SF CDouble) (VF f0) (VF (S754_finite false 4503599627370496 (-52))) (SF CDouble) (VF (S754_finite false 4503599627370496 (-52)));
   check2 (sm_op (ss_add SLogicalSemiring)) (SF CDouble) (SF CDouble) (SF CDouble) (VF (S754_finite true 4503599627370496 (-51))) (VF f0) (SF CDouble) (VF (S754_finite false 4503599627370496 (-52)));
   check2 (sm_op (ss_add SLogicalSemiring)) (SF CDouble) (SF CDouble) (SF CDouble) (VF f0) (VF f0) (SF CDouble) (VF f0);
   check2 (ss_mult SLogicalSemiring) (SF CDouble) (SF CDouble) (SF CDouble) (VF (S754_finite true 4503599627370496 (-51))) (VF (S754_finite false 4503599627370496 (-52))) (SF CDouble) (VF (S754_finite false 4503599627370496 (-52)));
   check2 (ss_mult SLogicalSemiring) (SF CDouble) (SF CDouble) (SF CDouble) (VF f0) (VF (S754_finite false 4503599627370496 (-52))) (SF CDouble) (VF f0);
   check2 (ss_mult SLogicalSemiring) (SF CDouble) (SF CDouble) (SF CDouble) (VF (S754_finite true 4503599627370496 (-51))) (VF f0) (SF CDouble) (VF f0);
   check2 (ss_mult SLogicalSemiring) (SF CDouble) (SF CDouble) (SF CDouble) (VF f0) (VF f0) (SF CDouble) (VF f0);
   check0 (ss_zero SLogicalSemiring (SF CFloat)) (SF CFloat) (SF CFloat) (VF f0);
   check2 (sm_op (ss_add SLogicalSemiring)) (SF CFloat) (SF CFloat) (SF CFloat) (VF (S754_finite true 8388608 (-22))) (VF (S754_finite false 8388608 (-23))) (SF CFloat) (VF (S754_finite false 8388608 (-23)));
   check2 (sm_op (ss_add SLogicalSemiring)) (SF CFloat) (SF CFloat) (SF CFloat) (VF f0) (VF (S754_finite false 8388608 (-23))) (SF CFloat) (VF (S754_finite false 8388608 (-23)));
   check2 (sm_op (ss_add SLogicalSemiring)) (SF CFloat) (SF CFloat) (SF CFloat) (VF (S754_finite true 8388608 (-22))) (VF f0) (SF CFloat) (VF (S754_finite false 8388608 (-23)));
   check2 (sm_op (ss_add SLogicalSemiring)) (SF CFloat) (SF CFloat) (SF CFloat) (VF f0) (VF f0) (SF CFloat) (VF f0);
   check2 (ss_mult SLogicalSemiring) (SF CFloat) (SF CFloat) (SF CFloat) (VF (S754_finite true 8388608 (-22))) (VF (S754_finite false 8388608 (-23))) (SF CFloat) (VF (S754_finite false 8388608 (-23)));
   check2 (ss_mult SLogicalSemiring) (SF CFloat) (SF CFloat) (SF CFloat) (VF f0) (VF (S754_finite false 8388608 (-23))) (SF CFloat) (VF f0);
   check2 (ss_mult SLogicalSemiring) (SF CFloat) (SF CFloat) (SF CFloat) (VF (S754_finite true 8388608 (-22))) (VF f0) (SF CFloat) (VF f0);
   check2 (ss_mult SLogicalSemiring) (SF CFloat) (SF CFloat) (SF CFloat) (VF f0) (VF f0) (SF CFloat) (VF f0);
   check0 (ss_zero SLogicalSemiring (SI u64)) (SI u64) (SI u64) (VI 0);
   check2 (sm_op (ss_add SLogicalSemiring)) (SI u64) (SI u64) (SI u64) (VI 2) (VI 1) (SI u64) (VI 1);
   check2 (sm_op (ss_add SLogicalSemiring)) (SI u64) (SI u64) (SI u64) (VI 2) (VI 0) (SI u64) (VI 1);
   check2 (sm_op (ss_add SLogicalSemiring)) (SI u64) (SI u64) (SI u64) (VI 0) (VI 1) (SI u64) (VI 1);
   check2 (sm_op (ss_add SLogicalSemiring)) (SI u64) (SI u64) (SI u64) (VI 0) (VI 0) (SI u64) (VI 0);
   check2 (ss_mult SLogicalSemiring) (SI u64) (SI u64) (SI u64) (VI 2) (VI 1) (SI u64) (VI 1);
   check2 (ss_mult SLogicalSemiring) (SI u64) (SI u64) (SI u64) (VI 2) (VI 0) (SI u64) (VI 0);
   check2 (ss_mult SLogicalSemiring) (SI u64) (SI u64) (SI u64) (VI 0) (VI 1) (SI u64) (VI 0);
   check2 (ss_mult SLogicalSemiring) (SI u64) (SI u64) (SI u64) (VI 0) (VI 0) (SI u64) (VI 0);
   check0 (ss_zero SLogicalSemiring (SI u32)) (SI u32) (SI u32) (VI 0);
   check2 (sm_op (ss_add SLogicalSemiring)) (SI u32) (SI u32) (SI u32) (VI 2) (VI 1) (SI u32) (VI 1);
   check2 (sm_op (ss_add SLogicalSemiring)) (SI u32) (SI u32) (SI u32) (VI 2) (VI 0) (SI u32) (VI 1);
   check2 (sm_op (ss_add SLogicalSemiring)) (SI u32) (SI u32) (SI u32) (VI 0) (VI 1) (SI u32) (VI 1);
   check2 (sm_op (ss_add SLogicalSemiring)) (SI u32) (SI u32) (SI u32) (VI 0) (VI 0) (SI u32) (VI 0);
   check2 (ss_mult SLogicalSemiring) (SI u32) (SI u32) (SI u32) (VI 2) (VI 1) (SI u32) (VI 1);
   check2 (ss_mult SLogicalSemiring) (SI u32) (SI u32) (SI u32) (VI 2) (VI 0) (SI u32) (VI 0);
   check2 (ss_mult SLogicalSemiring) (SI u32) (SI u32) (SI u32) (VI 0) (VI 1) (SI u32) (VI 0);
   check2 (ss_mult SLogicalSemiring) (SI u32) (SI u32) (SI u32) (VI 0) (VI 0) (SI u32) (VI 0);
   check0 (ss_zero SLogicalSemiring (SI u16)) (SI u16) (SI u32) (VI 0);
   check2 (sm_op (ss_add SLogicalSemiring)) (SI u16) (SI u16) (SI u16) (VI 2) (VI 1) (SI u32) (VI 1);
   check2 (sm_op (ss_add SLogicalSemiring)) (SI u16) (SI u16) (SI u16) (VI 2) (VI 0) (SI u32) (VI 1);
   check2 (sm_op (ss_add SLogicalSemiring)) (SI u16) (SI u16) (SI u16) (VI 0) (VI 1) (SI u32) (VI 1);
   check2 (sm_op (ss_add SLogicalSemiring)) (SI u16) (SI u16) (SI u16) (VI 0) (VI 0) (SI u32) (VI 0);
   check2 (ss_mult SLogicalSemiring) (SI u16) (SI u16) (SI u16) (VI 2) (VI 1) (SI u32) (VI 1);
   check2 (ss_mult SLogicalSemiring) (SI u16) (SI u16) (SI u16) (VI 2) (VI 0) (SI u32) (VI 0);
   check2 (ss_mult SLogicalSemiring) (SI u16) (SI u16) (SI u16) (VI 0) (VI 1) (SI u32) (VI 0);
   check2 (ss_mult SLogicalSemiring) (SI u16) (SI u16) (SI u16) (VI 0) (VI 0) (SI u32) (VI 0);
   check0 (ss_zero SLogicalSemiring (SI u8)) (SI u8) (SI u32) (VI 0);
   check2 (sm_op (ss_add SLogicalSemiring)) (SI u8) (SI u8) (SI u8) (VI 2) (VI 1) (SI u32) (VI 1);
   check2 (sm_op (ss_add SLogicalSemiring)) (SI u8) (SI u8) (SI u8) (VI 2) (VI 0) (SI u32) (VI 1);
   check2 (sm_op (ss_add SLogicalSemiring)) (SI u8) (SI u8) (SI u8) (VI 0) (VI 1) (SI u32) (VI 1);
   check2 (sm_op (ss_add SLogicalSemiring)) (SI u8) (SI u8) (SI u8) (VI 0) (VI 0) (SI u32) (VI 0);
   check2 (ss_mult SLogicalSemiring) (SI u8) (SI u8) (SI u8) (VI 2) (VI 1) (SI u32) (VI 1);
   check2 (ss_mult SLogicalSemiring) (SI u8) (SI u8) (SI u8) (VI 2) (VI 0) (SI u32) (VI 0);
   check2 (ss_mult SLogicalSemiring) (SI u8) (SI u8) (SI u8) (VI 0) (VI 1) (SI u32) (VI 0);
   check2 (ss_mult SLogicalSemiring) (SI u8) (SI u8) (SI u8) (VI 0) (VI 0) (SI u32) (VI 0);
   check0 (ss_zero SLogicalSemiring (SI i64)) (SI i64) (SI i64) (VI 0);
   check2 (sm_op (ss_add SLogicalSemiring)) (SI i64) (SI i64) (SI i64) (VI (-2)) (VI 1) (SI i64) (VI 1);
   check2 (sm_op (ss_add SLogicalSemiring)) (SI i64) (SI i64) (SI i64) (VI (-2)) (VI 0) (SI i64) (VI 1);
   check2 (sm_op (ss_add SLogicalSemiring)) (SI i64) (SI i64) (SI i64) (VI 0) (VI 1) (SI i64) (VI 1);
   check2 (sm_op (ss_add SLogicalSemiring)) (SI i64) (SI i64) (SI i64) (VI 0) (VI 0) (SI i64) (VI 0);
   check2 (ss_mult SLogicalSemiring) (SI i64) (SI i64) (SI i64) (VI (-2)) (VI 1) (SI i64) (VI 1);
   check2 (ss_mult SLogicalSemiring) (SI i64) (SI i64) (SI i64) (VI (-2)) (VI 0) (SI i64) (VI 0);
   check2 (ss_mult SLogicalSemiring) (SI i64) (SI i64) (SI i64) (VI 0) (VI 1) (SI i64) (VI 0);
   check2 (ss_mult SLogicalSemiring) (SI i64) (SI i64) (SI i64) (VI 0) (VI 0) (SI i64) (VI 0);
   check0 (ss_zero SLogicalSemiring (SI i32)) (SI i32) (SI i32) (VI 0);
   check2 (sm_op (ss_add SLogicalSemiring)) (SI i32) (SI i32) (SI i32) (VI (-2)) (VI 1) (SI i32) (VI 1);
   check2 (sm_op (ss_add SLogicalSemiring)) (SI i32) (SI i32) (SI i32) (VI (-2)) (VI 0) (SI i32) (VI 1);
   check2 (sm_op (ss_add SLogicalSemiring)) (SI i32) (SI i32) (SI i32) (VI 0) (VI 1) (SI i32) (VI 1);
   check2 (sm_op (ss_add SLogicalSemiring)) (SI i32) (SI i32) (SI i32) (VI 0) (VI 0) (SI i32) (VI 0);
   check2 (ss_mult SLogicalSemiring) (SI i32) (SI i32) (SI i32) (VI (-2)) (VI 1) (SI i32) (VI 1);
   check2 (ss_mult SLogicalSemiring) (SI i32) (SI i32) (SI i32) (VI (-2)) (VI 0) (SI i32) (VI 0);
   check2 (ss_mult SLogicalSemiring) (SI i32) (SI i32) (SI i32) (VI 0) (VI 1) (SI i32) (VI 0);
   check2 (ss_mult SLogicalSemiring) (SI i32) (SI i32) (SI i32) (VI 0) (VI 0) (SI i32) (VI 0);
   check0 (ss_zero SLogicalSemiring (SI i16)) (SI i16) (SI i32) (VI 0);
   check2 (sm_op (ss_add SLogicalSemiring)) (SI i16) (SI i16) (SI i16) (VI (-2)) (VI 1) (SI i32) (VI 1);
   check2 (sm_op (ss_add SLogicalSemiring)) (SI i16) (SI i16) (SI i16) (VI (-2)) (VI 0) (SI i32) (VI 1);
   check2 (sm_op (ss_add SLogicalSemiring)) (SI i16) (SI i16) (SI i16) (VI 0) (VI 1) (SI i32) (VI 1);
   check2 (sm_op (ss_add SLogicalSemiring)) (SI i16) (SI i16) (SI i16) (VI 0) (VI 0) (SI i32) (VI 0);
   check2 (ss_mult SLogicalSemiring) (SI i16) (SI i16) (SI i16) (VI (-2)) (VI 1) (SI i32) (VI 1);
   check2 (ss_mult SLogicalSemiring) (SI i16) (SI i16) (SI i16) (VI (-2)) (VI 0) (SI i32) (VI 0);
   check2 (ss_mult SLogicalSemiring) (SI i16) (SI i16) (SI i16) (VI 0) (VI 1) (SI i32) (VI 0);
   check2 (ss_mult SLogicalSemiring) (SI i16) (SI i16) (SI i16) (VI 0) (VI 0) (SI i32) (VI 0);
   check0 (ss_zero SLogicalSemiring (SI i8)) (SI i8) (SI i32) (VI 0);
   check2 (sm_op (ss_add SLogicalSemiring)) (SI i8) (SI i8) (SI i8) (VI (-2)) (VI 1) (SI i32) (VI 1);
   check2 (sm_op (ss_add SLogicalSemiring)) (SI i8) (SI i8) (SI i8) (VI (-2)) (VI 0) (SI i32) (VI 1);
   check2 (sm_op (ss_add SLogicalSemiring)) (SI i8) (SI i8) (SI i8) (VI 0) (VI 1) (SI i32) (VI 1);
   check2 (sm_op (ss_add SLogicalSemiring)) (SI i8) (SI i8) (SI i8) (VI 0) (VI 0) (SI i32) (VI 0);
   check2 (ss_mult SLogicalSemiring) (SI i8) (SI i8) (SI i8) (VI (-2)) (VI 1) (SI i32) (VI 1);
   check2 (ss_mult SLogicalSemiring) (SI i8) (SI i8) (SI i8) (VI (-2)) (VI 0) (SI i32) (VI 0);
   check2 (ss_mult SLogicalSemiring) (SI i8) (SI i8) (SI i8) (VI 0) (VI 1) (SI i32) (VI 0);
   check2 (ss_mult SLogicalSemiring) (SI i8) (SI i8) (SI i8) (VI 0) (VI 0) (SI i32) (VI 0);
   check0 (ss_zero SLogicalSemiring (SI CBool)) (SI CBool) (SI CBool) (VI 0);
   check2 (sm_op (ss_add SLogicalSemiring)) (SI CBool) (SI CBool) (SI CBool) (VI 0) (VI 0) (SI CBool) (VI 0);
   check2 (sm_op (ss_add SLogicalSemiring)) (SI CBool) (SI CBool) (SI CBool) (VI 0) (VI 1) (SI CBool) (VI 1);
   check2 (sm_op (ss_add SLogicalSemiring)) (SI CBool) (SI CBool) (SI CBool) (VI 1) (VI 0) (SI CBool) (VI 1);
   check2 (sm_op (ss_add SLogicalSemiring)) (SI CBool) (SI CBool) (SI CBool) (VI 1) (VI 1) (SI CBool) (VI 1);
   check2 (ss_mult SLogicalSemiring) (SI CBool) (SI CBool) (SI CBool) (VI 0) (VI 0) (SI CBool) (VI 0);
   check2 (ss_mult SLogicalSemiring) (SI CBool) (SI CBool) (SI CBool) (VI 0) (VI 1) (SI CBool) (VI 0);
   check2 (ss_mult SLogicalSemiring) (SI CBool) (SI CBool) (SI CBool) (VI 1) (VI 0) (SI CBool) (VI 0);
   check2 (ss_mult SLogicalSemiring) (SI CBool) (SI CBool) (SI CBool) (VI 1) (VI 1) (SI CBool) (VI 1) ].
Proof. vm_compute. reflexivity. Qed.

(** test_algebra_semiring.cpp:613-724 *)
Example semiring_and_or_semiring_test : all_true
 [ check0 (ss_zero SAndOrSemiring (SF CDouble)) (SF CDouble) (SF CDouble) (VF (S754_finite false 4503599627370496 (-52)));
   check2 (ss_mult SAndOrSemiring) (SF CDouble) (SF CDouble) (SF CDouble) (VF (S754_finite true 4503599627370496 (-51))) (VF (S754_finite false 4503599627370496 (-52))) (SF CDouble) (VF (S754_finite false 4503599627370496 (-52)));
   check2 (ss_mult SAndOrSemiring) (SF CDouble) (SF CDouble) (SF CDouble) (VF f0) (VF (S754_finite false 4503599627370496 (-52))) (SF CDouble) (VF (S754_finite false 4503599627370496 (-52)));
   check2 (ss_mult SAndOrSemiring) (SF CDouble) (SF CDouble) (SF CDouble) (VF (S754_finite true 4503599627370496 (-51))) (VF f0) (SF CDouble) (VF (S754_finite false 4503599627370496 (-52)));
   check2 (ss_mult SAndOrSemiring) (SF CDouble) (SF CDouble) (SF CDouble) (VF f0) (VF f0) (SF CDouble) (VF f0);
   check2 (sm_op (ss_add SAndOrSemiring)) (SF CDouble) (SF CDouble) (SF CDouble) (VF (S754_finite true 4503599627370496 (-51))) (VF (S754_finite false 4503599627370496 (-52))) (SF CDouble) (VF (S754_finite false 4503599627370496 (-52)));
   check2 (sm_op (ss_add SAndOrSemiring)) (SF CDouble) (SF CDouble) (SF CDouble) (VF f0) (VF (S754_finite false 4503599627370496 (-52))) (SF CDouble) (VF f0);
   check2 (sm_op (ss_add SAndOrSemiring)) (SF CDouble) (SF CDouble) (SF CDouble) (VF (S754_finite true 4503599627370496 (-51))) (VF f0) (SF CDouble) (VF f0);
   check2 (sm_op (ss_add SAndOrSemiring)) (SF CDouble) (SF CDouble) (SF CDouble) (VF f0) (VF f0) (SF CDouble) (VF f0);
   check0 (ss_zero SAndOrSemiring (SF CFloat)) (SF CFloat) (SF CFloat) (VF (S754_finite false 8388608 (-23)));
   check2 (ss_mult SAndOrSemiring) (SF CFloat) (SF CFloat) (SF CFloat) (VF (S754_finite true 8388608 (-22))) (VF (S754_finite false 8388608 (-23))) (SF CFloat) (VF (S754_finite false 8388608 (-23)));
   check2 (ss_mult SAndOrSemiring) (SF CFloat) (SF CFloat) (SF CFloat) (VF f0) (VF (S754_finite false 8388608 (-23))) (SF CFloat) (VF (S754_finite false 8388608 (-23)));
   check2 (ss_mult SAndOrSemiring) (SF CFloat) (SF CFloat) (SF CFloat) (VF (S754_finite true 8388608 (-22))) (VF f0) (SF CFloat) (VF (S754_finite false 8388608 (-23)));
   check2 (ss_mult SAndOrSemiring) (SF CFloat) (SF CFloat) (SF CFloat) (VF f0) (VF f0) (SF CFloat) (VF f0);
   check2 (sm_op (ss_add SAndOrSemiring)) (SF CFloat) (SF CFloat) (SF CFloat) (VF (S754_finite true 8388608 (-22))) (VF (S754_finite false 8388608 (-23))) (SF CFloat) (VF (S754_finite false 8388608 (-23)));
   check2 (sm_op (ss_add SAndOrSemiring)) (SF CFloat) (SF CFloat) (SF CFloat) (VF f0) (VF (S754_finite false 8388608 (-23))) (SF CFloat) (VF f0);
   check2 (sm_op (ss_add SAndOrSemiring)) (SF CFloat) (SF CFloat) (SF CFloat) (VF (S754_finite true 8388608 (-22))) (VF f0) (SF CFloat) (VF f0);
   check2 (sm_op (ss_add SAndOrSemiring)) (SF CFloat) (SF CFloat) (SF CFloat) (VF f0) (VF f0) (SF CFloat) (VF f0);
   check0 (ss_zero SAndOrSemiring (SI u64)) (SI u64) (SI u64) (VI 1);
   check2 (ss_mult SAndOrSemiring) (SI u64) (SI u64) (SI u64) (VI 2) (VI 1) (SI u64) (VI 1);
   check2 (ss_mult SAndOrSemiring) (SI u64) (SI u64) (SI u64) (VI 2) (VI 0) (SI u64) (VI 1);
   check2 (ss_mult SAndOrSemiring) (SI u64) (SI u64) (SI u64) (VI 0) (VI 1) (SI u64) (VI 1);
   check2 (ss_mult SAndOrSemiring) (SI u64) (SI u64) (SI u64) (VI 0) (VI 0) (SI u64) (VI 0);
   check2 (sm_op (ss_add SAndOrSemiring)) (SI u64) (SI u64) (SI u64) (VI 2) (VI 1) (SI u64) (VI 1);
   check2 (sm_op (ss_add SAndOrSemiring)) (SI u64) (SI u64) (SI u64) (VI 2) (VI 0) (SI u64) (VI 0);
   check2 (sm_op (ss_add SAndOrSemiring)) (SI u64) (SI u64) (SI u64) (VI 0) (VI 1) (SI u64) (VI 0);
   check2 (sm_op (ss_add SAndOrSemiring)) (SI u64) (SI u64) (SI u64) (VI 0) (VI 0) (SI u64) (VI 0);
   check0 (ss_zero SAndOrSemiring (SI u32)) (SI u32) (SI u32) (VI 1);
   check2 (ss_mult SAndOrSemiring) (SI u32) (SI u32) (SI u32) (VI 2) (VI 1) (SI u32) (VI 1);
   check2 (ss_mult SAndOrSemiring) (SI u32) (SI u32) (SI u32) (VI 2) (VI 0) (SI u32) (VI 1);
   check2 (ss_mult SAndOrSemiring) (SI u32) (SI u32) (SI u32) (VI 0) (VI 1) (SI u32) (VI 1);
   check2 (ss_mult SAndOrSemiring) (SI u32) (SI u32) (SI u32) (VI 0) (VI 0) (SI u32) (VI 0);
   check2 (sm_op (ss_add SAndOrSemiring)) (SI u32) (SI u32) (SI u32) (VI 2) (VI 1) (SI u32) (VI 1);
   check2 (sm_op (ss_add SAndOrSemiring)) (SI u32) (SI u32) (SI u32) (VI 2) (VI 0) (SI u32) (VI 0);
   check2 (sm_op (ss_add SAndOrSemiring)) (SI u32) (SI u32) (SI u32) (VI 0) (VI 1) (SI u32) (VI 0);
   check2 (sm_op (ss_add SAndOrSemiring)) (SI u32) (SI u32) (SI u32) (VI 0) (VI 0) (SI u32) (VI 0);
   check0 (ss_zero SAndOrSemiring (SI u16)) (SI u16) (SI u32) (VI 1);
   check2 (ss_mult SAndOrSemiring) (SI u16) (SI u16) (SI u16) (VI 2) (VI 1) (SI u32) (VI 1);
   check2 (ss_mult SAndOrSemiring) (SI u16) (SI u16) (SI u16) (VI 2) (VI 0) (SI u32) (VI 1);
   check2 (ss_mult SAndOrSemiring) (SI u16) (SI u16) (SI u16) (VI 0) (VI 1) (SI u32) (VI 1);
   check2 (ss_mult SAndOrSemiring) (SI u16) (SI u16) (SI u16) (VI 0) (VI 0) (SI u32) (VI 0);
   check2 (sm_op (ss_add SAndOrSemiring)) (SI u16) (SI u16) (SI u16) (VI 2) (VI 1) (SI u32) (VI 1);
   check2 (sm_op (ss_add SAndOrSemiring)) (SI u16) (SI u16) (SI u16) (VI 2) (VI 0) (SI u32) (VI 0);
   check2 (sm_op (ss_add SAndOrSemiring)) (SI u16) (SI u16) (SI u16) (VI 0) (VI 1) (SI u32) (VI 0);
   check2 (sm_op (ss_add SAndOrSemiring)) (SI u16) (SI u16) (SI u16) (VI 0) (VI 0) (SI u32) (VI 0);
   check0 (ss_zero SAndOrSemiring (SI u8)) (SI u8) (SI u32) (VI 1);
   check2 (ss_mult SAndOrSemiring) (SI u8) (SI u8) (SI u8) (VI 2) (VI 1) (SI u32) (VI 1);
   check2 (ss_mult SAndOrSemiring) (SI u8) (SI u8) (SI u8) (VI 2) (VI 0) (SI u32) (VI 1);
   check2 (ss_mult SAndOrSemiring) (SI u8) (SI u8) (SI u8) (VI 0) (VI 1) (SI u32) (VI 1);
   check2 (ss_mult SAndOrSemiring) (SI u8) (SI u8) (SI u8) (VI 0) (VI 0) (SI u32) (VI 0);
   check2 (sm_op (ss_add SAndOrSemiring)) (SI u8) (SI u8) (SI u8) (VI 2) (VI 1) (SI u32) (VI 1);
   check2 (sm_op (ss_add SAndOrSemiring)) (SI u8) (SI u8) (SI u8) (VI 2) (VI 0) (SI u32) (VI 0);
   check2 (sm_op (ss_add SAndOrSemiring)) (SI u8) (SI u8) (SI u8) (VI 0) (VI 1) (SI u32) (VI 0);
   check2 (sm_op (ss_add SAndOrSemiring)) (SI u8) (SI u8) (SI u8) (VI 0) (VI 0) (SI u32) (VI 0);
   check0 (ss_zero SAndOrSemiring (SI i64)) (SI i64) (SI i64) (VI 1);
   check2 (ss_mult SAndOrSemiring) (SI i64) (SI i64) (SI i64) (VI (-2)) (VI 1) (SI i64) (VI 1);
   check2 (ss_mult SAndOrSemiring) (SI i64) (SI i64) (SI i64) (VI (-2)) (VI 0) (SI i64) (VI 1);
   check2 (ss_mult SAndOrSemiring) (SI i64) (SI i64) (SI i64) (VI 0) (VI 1) (SI i64) (VI 1);
   check2 (ss_mult SAndOrSemiring) (SI i64) (SI i64) (SI i64) (VI 0) (VI 0) (SI i64) (VI 0);
   check2 (sm_op (ss_add SAndOrSemiring)) (SI i64) (SI i64) (SI i64) (VI (-2)) (VI 1) (SI i64) (VI 1);
   check2 (sm_op (ss_add SAndOrSemiring)) (SI i64) (SI i64) (SI i64) (VI (-2)) (VI 0) (SI i64) (VI 0);
   check2 (sm_op (ss_add SAndOrSemiring)) (SI i64) (SI i64) (SI i64) (VI 0) (VI 1) (SI i64) (VI 0);
   check2 (sm_op (ss_add SAndOrSemiring)) (SI i64) (SI i64) (SI i64) (VI 0) (VI 0) (SI i64) (VI 0);
   check0 (ss_zero SAndOrSemiring (SI i32)) (SI i32) (SI i32) (VI 1);
   check2 (ss_mult SAndOrSemiring) (SI i32) (SI i32) (SI i32) (VI (-2)) (VI 1) (SI i32) (VI 1);
   check2 (ss_mult SAndOrSemiring) (SI i32) (SI i32) (SI i32) (VI (-2)) (VI 0) (SI i32) (VI 1);
   check2 (ss_mult SAndOrSemiring) (SI i32) (SI i32) (SI i32) (VI 0) (VI 1) (SI i32) (VI 1);
   check2 (ss_mult SAndOrSemiring) (SI i32) (SI i32) (SI i32) (VI 0) (VI 0) (SI i32) (VI 0);
   check2 (sm_op (ss_add SAndOrSemiring)) (SI i32) (SI i32) (SI i32) (VI (-2)) (VI 1) (SI i32) (VI 1);
   check2 (sm_op (ss_add SAndOrSemiring)) (SI i32) (SI i32) (SI i32) (VI (-2)) (VI 0) (SI i32) (VI 0);
   check2 (sm_op (ss_add SAndOrSemiring)) (SI i32) (SI i32) (SI i32) (VI 0) (VI 1) (SI i32) (VI 0);
   check2 (sm_op (ss_add SAndOrSemiring)) (SI i32) (SI i32) (SI i32) (VI 0) (VI 0) (SI i32) (VI 0);
   check0 (ss_zero SAndOrSemiring (SI i16)) (SI i16) (SI i32) (VI 1);
   check2 (ss_mult SAndOrSemiring) (SI i16) (SI i16) (SI i16) (VI (-2)) (VI 1) (SI i32) (VI 1);
   check2 (ss_mult SAndOrSemiring) (SI i16) (SI i16) (SI i16) (VI (-2)) (VI 0) (SI i32) (VI 1);
   check2 (ss_mult SAndOrSemiring) (SI i16) (SI i16) (SI i16) (VI 0) (VI 1) (SI i32) (VI 1);
   check2 (ss_mult SAndOrSemiring) (SI i16) (SI i16) (SI i16) (VI 0) (VI 0) (SI i32) (VI 0);
   check2 (sm_op (ss_add SAndOrSemiring)) (SI i16) (SI i16) (SI i16) (VI (-2)) (VI 1) (SI i32) (VI 1);
   check2 (sm_op (ss_add SAndOrSemiring)) (SI i16) (SI i16) (SI i16) (VI (-2)) (VI 0) (SI i32) (VI 0);
   check2 (sm_op (ss_add SAndOrSemiring)) (SI i16) (SI i16) (SI i16) (VI 0) (VI 1) (SI i32) (VI 0);
   check2 (sm_op (ss_add SAndOrSemiring)) (SI i16) (SI i16) (SI i16) (VI 0) (VI 0) (SI i32) (VI 0);
   check0 (ss_zero SAndOrSemiring (SI i8)) (SI i8) (SI i32) (VI 1);
   check2 (ss_mult SAndOrSemiring) (SI i8) (SI i8) (SI i8) (VI (-2)) (VI 1) (SI i32) (VI 1);
   check2 (ss_mult SAndOrSemiring) (SI i8) (SI i8) (SI i8) (VI (-2)) (VI 0) (SI i32) (VI 1);
   check2 (ss_mult SAndOrSemiring) (SI i8) (SI i8) (SI i8) (VI 0) (VI 1) (SI i32) (VI 1);
   check2 (ss_mult SAndOrSemiring) (SI i8) (SI i8) (SI i8) (VI 0) (VI 0) (SI i32) (VI 0);
   check2 (sm_op (ss_add SAndOrSemiring)) (SI i8) (SI i8) (SI i8) (VI (-2)) (VI 1) (SI i32) (VI 1);
   check2 (sm_op (ss_add SAndOrSemiring)) (SI i8) (SI i8) (SI i8) (VI (-2)) (VI 0) (SI i32) (VI 0);
   check2 (sm_op (ss_add SAndOrSemiring)) (SI i8) (SI i8) (SI i8) (VI 0) (VI 1) (SI i32) (VI 0);
   check2 (sm_op (ss_add SAndOrSemiring)) (SI i8) (SI i8) (SI i8) (VI 0) (VI 0) (SI i32) (VI 0);
   check0 (ss_zero SAndOrSemiring (SI CBool)) (SI CBool) (SI CBool) (VI 1);
   check2 (ss_mult SAndOrSemiring) (SI CBool) (SI CBool) (SI CBool) (VI 0) (VI 0) (SI CBool) (VI 0);
   check2 (ss_mult SAndOrSemiring) (SI CBool) (SI CBool) (SI CBool) (VI 0) (VI 1) (SI CBool) (VI 1);
   check2 (ss_mult SAndOrSemiring) (SI CBool) (SI CBool) (SI CBool) (VI 1) (VI 0) (SI CBool) (VI 1);
   check2 (ss_mult SAndOrSemiring) (SI CBool) (SI CBool) (SI CBool) (VI 1) (VI 1) (SI CBool) (VI 1);
   check2 (sm_op (ss_add SAndOrSemiring)) (SI CBool) (SI CBool) (SI CBool) (VI 0) (VI 0) (SI CBool) (VI 0);
   check2 (sm_op (ss_add SAndOrSemiring)) (SI CBool) (SI CBool) (SI CBool) (VI 0) (VI 1) (SI CBool) (VI 0);
   check2 (sm_op (ss_add SAndOrSemiring)) (SI CBool) (SI CBool) (SI CBool) (VI 1) (VI 0) (SI CBool) (VI 0);
   check2 (sm_op (ss_add SAndOrSemiring)) (SI CBool) (SI CBool) (SI CBool) (VI 1) (VI 1) (SI CBool) (VI 1) ].
Proof. vm_compute. reflexivity. Qed.

(** test_algebra_semiring.cpp:727-838 *)
Example semiring_xor_and_semiring_test : all_true
 [ check0 (ss_zero SXorAndSemiring (SF CDouble)) (SF CDouble) (SF CDouble) (VF f0);
   check2 (sm_op (ss_add SXorAndSemiring)) (SF CDouble) (SF CDouble) (SF CDouble) (VF (S754_finite true 4503599627370496 (-51))) (VF (S754_finite false 4503599627370496 (-52))) (SF CDouble) (VF f0);
   check2 (sm_op (ss_add SXorAndSemiring)) (SF CDouble) (SF CDouble) (SF CDouble) (VF f0) (VF (S754_finite false 4503599627370496 (-52))) (SF CDouble) (VF (S754_finite false 4503599627370496 (-52)));
   check2 (sm_op (ss_add SXorAndSemiring)) (SF CDouble) (SF CDouble) (SF CDouble) (VF (S754_finite true 4503599627370496 (-51))) (VF f0) (SF CDouble) (VF (S754_finite false 4503599627370496 (-52)));
   check2 (sm_op (ss_add SXorAndSemiring)) (SF CDouble) (SF CDouble) (SF CDouble) (VF f0) (VF f0) (SF CDouble) (VF f0);
   check2 (ss_mult SXorAndSemiring) (SF CDouble) (SF CDouble) (SF CDouble) (VF (S754_finite true 4503599627370496 (-51))) (VF (S754_finite false 4503599627370496 (-52))) (SF CDouble) (VF (S754_finite false 4503599627370496 (-52)));
   check2 (ss_mult SXorAndSemiring) (SF CDouble) (SF CDouble) (SF CDouble) (VF f0) (VF (S754_finite false 4503599627370496 (-52))) (SF CDouble) (VF f0);
   check2 (ss_mult SXorAndSemiring) (SF CDouble) (SF CDouble) (SF CDouble) (VF (S754_finite true 4503599627370496 (-51))) (VF f0) (SF CDouble) (VF f0);
   check2 (ss_mult SXorAndSemiring) (SF CDouble) (SF CDouble) (SF CDouble) (VF f0) (VF f0) (SF CDouble) (VF f0);
   check0 (ss_zero SXorAndSemiring (SF CFloat)) (SF CFloat) (SF CFloat) (VF f0);
   check2 (sm_op (ss_add SXorAndSemiring)) (SF CFloat) (SF CFloat) (SF CFloat) (VF (S754_finite true 8388608 (-22))) (VF (S754_finite false 8388608 (-23))) (SF CFloat) (VF f0);
   check2 (sm_op (ss_add SXorAndSemiring)) (SF CFloat) (SF CFloat) (SF CFloat) (VF f0) (VF (S754_finite false 8388608 (-23))) (SF CFloat) (VF (S754_finite false 8388608 (-23)));
   check2 (sm_op (ss_add SXorAndSemiring)) (SF CFloat) (SF CFloat) (SF CFloat) (VF (S754_finite true 8388608 (-22))) (VF f0) (SF CFloat) (VF (S754_finite false 8388608 (-23)));
   check2 (sm_op (ss_add SXorAndSemiring)) (SF CFloat) (SF CFloat) (SF CFloat) (VF f0) (VF f0) (SF CFloat) (VF f0);
   check2 (ss_mult SXorAndSemiring) (SF CFloat) (SF CFloat) (SF CFloat) (VF (S754_finite true 8388608 (-22))) (VF (S754_finite false 8388608 (-23))) (SF CFloat) (VF (S754_finite false 8388608 (-23)));
   check2 (ss_mult SXorAndSemiring) (SF CFloat) (SF CFloat) (SF CFloat) (VF f0) (VF (S754_finite false 8388608 (-23))) (SF CFloat) (VF f0);
   check2 (ss_mult SXorAndSemiring) (SF CFloat) (SF CFloat) (SF CFloat) (VF (S754_finite true 8388608 (-22))) (VF f0) (SF CFloat) (VF f0);
   check2 (ss_mult SXorAndSemiring) (SF CFloat) (SF CFloat) (SF CFloat) (VF f0) (VF f0) (SF CFloat) (VF f0);
   check0 (ss_zero SXorAndSemiring (SI u64)) (SI u64) (SI u64) (VI 0);
   check2 (sm_op (ss_add SXorAndSemiring)) (SI u64) (SI u64) (SI u64) (VI 2) (VI 1) (SI u64) (VI 0);
   check2 (sm_op (ss_add SXorAndSemiring)) (SI u64) (SI u64) (SI u64) (VI 2) (VI 0) (SI u64) (VI 1);
   check2 (sm_op (ss_add SXorAndSemiring)) (SI u64) (SI u64) (SI u64) (VI 0) (VI 1) (SI u64) (VI 1);
   check2 (sm_op (ss_add SXorAndSemiring)) (SI u64) (SI u64) (SI u64) (VI 0) (VI 0) (SI u64) (VI 0);
   check2 (ss_mult SXorAndSemiring) (SI u64) (SI u64) (SI u64) (VI 2) (VI 1) (SI u64) (VI 1);
   check2 (ss_mult SXorAndSemiring) (SI u64) (SI u64) (SI u64) (VI 2) (VI 0) (SI u64) (VI 0);
   check2 (ss_mult SXorAndSemiring) (SI u64) (SI u64) (SI u64) (VI 0) (VI 1) (SI u64) (VI 0);
   check2 (ss_mult SXorAndSemiring) (SI u64) (SI u64) (SI u64) (VI 0) (VI 0) (SI u64) (VI 0);
   check0 (ss_zero SXorAndSemiring (SI u32)) (SI u32) (SI u32) (VI 0);
   check2 (sm_op (ss_add SXorAndSemiring)) (SI u32) (SI u32) (SI u32) (VI 2) (VI 1) (SI u32) (VI 0);
   check2 (sm_op (ss_add SXorAndSemiring)) (SI u32) (SI u32) (SI u32) (VI 2) (VI 0) (SI u32) (VI 1);
   check2 (sm_op (ss_add SXorAndSemiring)) (SI u32) (SI u32) (SI u32) (VI 0) (VI 1) (SI u32) (VI 1);
   check2 (sm_op (ss_add SXorAndSemiring)) (SI u32) (SI u32) (SI u32) (VI 0) (VI 0) (SI u32) (VI 0);
   check2 (ss_mult SXorAndSemiring) (SI u32) (SI u32) (SI u32) (VI 2) (VI 1) (SI u32) (VI 1);
   check2 (ss_mult SXorAndSemiring) (SI u32) (SI u32) (SI u32) (VI 2) (VI 0) (SI u32) (VI 0);
   check2 (ss_mult SXorAndSemiring) (SI u32) (SI u32) (SI u32) (VI 0) (VI 1) (SI u32) (VI 0);
   check2 (ss_mult SXorAndSemiring) (SI u32) (SI u32) (SI u32) (VI 0) (VI 0) (SI u32) (VI 0);
   check0 (ss_zero SXorAndSemiring (SI u16)) (SI u16) (SI u32) (VI 0);
   check2 (sm_op (ss_add SXorAndSemiring)) (SI u16) (SI u16) (SI u16) (VI 2) (VI 1) (SI u32) (VI 0);
   check2 (sm_op (ss_add SXorAndSemiring)) (SI u16) (SI u16) (SI u16) (VI 2) (VI 0) (SI u32) (VI 1);
   check2 (sm_op (ss_add SXorAndSemiring)) (SI u16) (SI u16) (SI u16) (VI 0) (VI 1) (SI u32) (VI 1);
   check2 (sm_op (ss_add SXorAndSemiring)) (SI u16) (SI u16) (SI u16) (VI 0) (VI 0) (SI u32) (VI 0);
   check2 (ss_mult SXorAndSemiring) (SI u16) (SI u16) (SI u16) (VI 2) (VI 1) (SI u32) (VI 1);
   check2 (ss_mult SXorAndSemiring) (SI u16) (SI u16) (SI u16) (VI 2) (VI 0) (SI u32) (VI 0);
   check2 (ss_mult SXorAndSemiring) (SI u16) (SI u16) (SI u16) (VI 0) (VI 1) (SI u32) (VI 0);
   check2 (ss_mult SXorAndSemiring) (SI u16) (SI u16) (SI u16) (VI 0) (VI 0) (SI u32) (VI 0);
   check0 (ss_zero SXorAndSemiring (SI u8)) (SI u8) (SI u32) (VI 0);
   check2 (sm_op (ss_add SXorAndSemiring)) (SI u8) (SI u8) (SI u8) (VI 2) (VI 1) (SI u32) (VI 0);
   check2 (sm_op (ss_add SXorAndSemiring)) (SI u8) (SI u8) (SI u8) (VI 2) (VI 0) (SI u32) (VI 1);
   check2 (sm_op (ss_add SXorAndSemiring)) (SI u8) (SI u8) (SI u8) (VI 0) (VI 1) (SI u32) (VI 1);
   check2 (sm_op (ss_add SXorAndSemiring)) (SI u8) (SI u8) (SI u8) (VI 0) (VI 0) (SI u32) (VI 0);
   check2 (ss_mult SXorAndSemiring) (SI u8) (SI u8) (SI u8) (VI 2) (VI 1) (SI u32) (VI 1);
   check2 (ss_mult SXorAndSemiring) (SI u8) (SI u8) (SI u8) (VI 2) (VI 0) (SI u32) (VI 0);
   check2 (ss_mult SXorAndSemiring) (SI u8) (SI u8) (SI u8) (VI 0) (VI 1) (SI u32) (VI 0);
   check2 (ss_mult SXorAndSemiring) (SI u8) (SI u8) (SI u8) (VI 0) (VI 0) (SI u32) (VI 0);
   check0 (ss_zero SXorAndSemiring (SI i64)) (SI i64) (SI i64) (VI 0);
   check2 (sm_op (ss_add SXorAndSemiring)) (SI i64) (SI i64) (SI i64) (VI (-2)) (VI 1) (SI i64) (VI 0);
   check2 (sm_op (ss_add SXorAndSemiring)) (SI i64) (SI i64) (SI i64) (VI (-2)) (VI 0) (SI i64) (VI 1);
   check2 (sm_op (ss_add SXorAndSemiring)) (SI i64) (SI i64) (SI i64) (VI 0) (VI 1) (SI i64) (VI 1);
   check2 (sm_op (ss_add SXorAndSemiring)) (SI i64) (SI i64) (SI i64) (VI 0) (VI 0) (SI i64) (VI 0);
   check2 (ss_mult SXorAndSemiring) (SI i64) (SI i64) (SI i64) (VI (-2)) (VI 1) (SI i64) (VI 1);
   check2 (ss_mult SXorAndSemiring) (SI i64) (SI i64) (SI i64) (VI (-2)) (VI 0) (SI i64) (VI 0);
   check2 (ss_mult SXorAndSemiring) (SI i64) (SI i64) (SI i64) (VI 0) (VI 1) (SI i64) (VI 0);
   check2 (ss_mult SXorAndSemiring) (SI i64) (SI i64) (SI i64) (VI 0) (VI 0) (SI i64) (VI 0);
   check0 (ss_zero SXorAndSemiring (SI i32)) (SI i32) (SI i32) (VI 0);
   check2 (sm_op (ss_add SXorAndSemiring)) (SI i32) (SI i32) (SI i32) (VI (-2)) (VI 1) (SI i32) (VI 0);
   check2 (sm_op (ss_add SXorAndSemiring)) (SI i32) (SI i32) (SI i32) (VI (-2)) (VI 0) (SI i32) (VI 1);
   check2 (sm_op (ss_add SXorAndSemiring)) (SI i32) (SI i32) (SI i32) (VI 0) (VI 1) (SI i32) (VI 1);
   check2 (sm_op (ss_add SXorAndSemiring)) (SI i32) (SI i32) (SI i32) (VI 0) (VI 0) (SI i32) (VI 0);
   check2 (ss_mult SXorAndSemiring) (SI i32) (SI i32) (SI i32) (VI (-2)) (VI 1) (SI i32) (VI 1);
   check2 (ss_mult SXorAndSemiring) (SI i32) (SI i32) (SI i32) (VI (-2)) (VI 0) (SI i32) (VI 0);
   check2 (ss_mult SXorAndSemiring) (SI i32) (SI i32) (SI i32) (VI 0) (VI 1) (SI i32) (VI 0);
   check2 (ss_mult SXorAndSemiring) (SI i32) (SI i32) (SI i32) (VI 0) (VI 0) (SI i32) (VI 0);
   check0 (ss_zero SXorAndSemiring (SI i16)) (SI i16) (SI i32) (VI 0);
   check2 (sm_op (ss_add SXorAndSemiring)) (SI i16) (SI i16) (SI i16) (VI (-2)) (VI 1) (SI i32) (VI 0);
   check2 (sm_op (ss_add SXorAndSemiring)) (SI i16) (SI i16) (SI i16) (VI (-2)) (VI 0) (SI i32) (VI 1);
   check2 (sm_op (ss_add SXorAndSemiring)) (SI i16) (SI i16) (SI i16) (VI 0) (VI 1) (SI i32) (VI 1);
   check2 (sm_op (ss_add SXorAndSemiring)) (SI i16) (SI i16) (SI i16) (VI 0) (VI 0) (SI i32) (VI 0);
   check2 (ss_mult SXorAndSemiring) (SI i16) (SI i16) (SI i16) (VI (-2)) (VI 1) (SI i32) (VI 1);
   check2 (ss_mult SXorAndSemiring) (SI i16) (SI i16) (SI i16) (VI (-2)) (VI 0) (SI i32) (VI 0);
   check2 (ss_mult SXorAndSemiring) (SI i16) (SI i16) (SI i16) (VI 0) (VI 1) (SI i32) (VI 0);
   check2 (ss_mult SXorAndSemiring) (SI i16) (SI i16) (SI i16) (VI 0) (VI 0) (SI i32) (VI 0);
   check0 (ss_zero SXorAndSemiring (SI i8)) (SI i8) (SI i32) (VI 0);
   check2 (sm_op (ss_add SXorAndSemiring)) (SI i8) (SI i8) (SI i8) (VI (-2)) (VI 1) (SI i32) (VI 0);
   check2 (sm_op (ss_add SXorAndSemiring)) (SI i8) (SI i8) (SI i8) (VI (-2)) (VI 0) (SI i32) (VI 1);
   check2 (sm_op (ss_add SXorAndSemiring)) (SI i8) (SI i8) (SI i8) (VI 0) (VI 1) (SI i32) (VI 1);
   check2 (sm_op (ss_add SXorAndSemiring)) (SI i8) (SI i8) (SI i8) (VI 0) (VI 0) (SI i32) (VI 0);
   check2 (ss_mult SXorAndSemiring) (SI i8) (SI i8) (SI i8) (VI (-2)) (VI 1) (SI i32) (VI 1);
   check2 (ss_mult SXorAndSemiring) (SI i8) (SI i8) (SI i8) (VI (-2)) (VI 0) (SI i32) (VI 0);
   check2 (ss_mult SXorAndSemiring) (SI i8) (SI i8) (SI i8) (VI 0) (VI 1) (SI i32) (VI 0);
   check2 (ss_mult SXorAndSemiring) (SI i8) (SI i8) (SI i8) (VI 0) (VI 0) (SI i32) (VI 0);
   check0 (ss_zero SXorAndSemiring (SI CBool)) (SI CBool) (SI CBool) (VI 0);
   check2 (sm_op (ss_add SXorAndSemiring)) (SI CBool) (SI CBool) (SI CBool) (VI 0) (VI 0) (SI CBool) (VI 0);
   check2 (sm_op (ss_add SXorAndSemiring)) (SI CBool) (SI CBool) (SI CBool) (VI 0) (VI 1) (SI CBool) (VI 1);
   check2 (sm_op (ss_add SXorAndSemiring)) (SI CBool) (SI CBool) (SI CBool) (VI 1) (VI 0) (SI CBool) (VI 1);
   check2 (sm_op (ss_add SXorAndSemiring)) (SI CBool) (SI CBool) (SI CBool) (VI 1) (VI 1) (SI CBool) (VI 0);
   check2 (ss_mult SXorAndSemiring) (SI CBool) (SI CBool) (SI CBool) (VI 0) (VI 0) (SI CBool) (VI 0);
   check2 (ss_mult SXorAndSemiring) (SI CBool) (SI CBool) (SI CBool) (VI 0) (VI 1) (SI CBool) (VI 0);
   check2 (ss_mult SXorAndSemiring) (SI CBool) (SI CBool) (SI CBool) (VI 1) (VI 0) (SI CBool) (VI 0);
   check2 (ss_mult SXorAndSemiring) (SI CBool) (SI CBool) (SI CBool) (VI 1) (VI 1) (SI CBool) (VI 1) ].
Proof. vm_compute. reflexivity. Qed.

(** test_algebra_semiring.cpp:841-952 *)
Example semiring_xnor_or_semiring_test : all_true
 [ check0 (ss_zero SXnorOrSemiring (SF CDouble)) (SF CDouble) (SF CDouble) (VF (S754_finite false 4503599627370496 (-52)));
   check2 (ss_mult SXnorOrSemiring) (SF CDouble) (SF CDouble) (SF CDouble) (VF (S754_finite true 4503599627370496 (-51))) (VF (S754_finite false 4503599627370496 (-52))) (SF CDouble) (VF (S754_finite false 4503599627370496 (-52)));
   check2 (ss_mult SXnorOrSemiring) (SF CDouble) (SF CDouble) (SF CDouble) (VF f0) (VF (S754_finite false 4503599627370496 (-52))) (SF CDouble) (VF (S754_finite false 4503599627370496 (-52)));
   check2 (ss_mult SXnorOrSemiring) (SF CDouble) (SF CDouble) (SF CDouble) (VF (S754_finite true 4503599627370496 (-51))) (VF f0) (SF CDouble) (VF (S754_finite false 4503599627370496 (-52)));
   check2 (ss_mult SXnorOrSemiring) (SF CDouble) (SF CDouble) (SF CDouble) (VF f0) (VF f0) (SF CDouble) (VF f0);
   check2 (sm_op (ss_add SXnorOrSemiring)) (SF CDouble) (SF CDouble) (SF CDouble) (VF (S754_finite true 4503599627370496 (-51))) (VF (S754_finite false 4503599627370496 (-52))) (SF CDouble) (VF (S754_finite false 4503599627370496 (-52)));
   check2 (sm_op (ss_add SXnorOrSemiring)) (SF CDouble) (SF CDouble) (SF CDouble) (VF f0) (VF (S754_finite false 4503599627370496 (-52))) (SF CDouble) (VF f0);
   check2 (sm_op (ss_add SXnorOrSemiring)) (SF CDouble) (SF CDouble) (SF CDouble) (VF (S754_finite true 4503599627370496 (-51))) (VF f0) (SF CDouble) (VF f0);
   check2 (sm_op (ss_add SXnorOrSemiring)) (SF CDouble) (SF CDouble) (SF CDouble) (VF f0) (VF f0) (SF CDouble) (VF (S754_finite false 4503599627370496 (-52)));
   check0 (ss_zero SXnorOrSemiring (SF CFloat)) (SF CFloat) (SF CFloat) (VF (S754_finite false 8388608 (-23)));
   check2 (ss_mult SXnorOrSemiring) (SF CFloat) (SF CFloat) (SF CFloat) (VF (S754_finite true 8388608 (-22))) (VF (S754_finite false 8388608 (-23))) (SF CFloat) (VF (S754_finite false 8388608 (-23)));
   check2 (ss_mult SXnorOrSemiring) (SF CFloat) (SF CFloat) (SF CFloat) (VF f0) (VF (S754_finite false 8388608 (-23))) (SF CFloat) (VF (S754_finite false 8388608 (-23)));
   check2 (ss_mult SXnorOrSemiring) (SF CFloat) (SF CFloat) (SF CFloat) (VF (S754_finite true 8388608 (-22))) (VF f0) (SF CFloat) (VF (S754_finite false 8388608 (-23)));
   check2 (ss_mult SXnorOrSemiring) (SF CFloat) (SF CFloat) (SF CFloat) (VF f0) (VF f0) (SF CFloat) (VF f0);
   check2 (sm_op (ss_add SXnorOrSemiring)) (SF CFloat) (SF CFloat) (SF CFloat) (VF (S754_finite true 8388608 (-22))) (VF (S754_finite false 8388608 (-23))) (SF CFloat) (VF (S754_finite false 8388608 (-23)));
   check2 (sm_op (ss_add SXnorOrSemiring)) (SF CFloat) (SF CFloat) (SF CFloat) (VF f0) (VF (S754_finite false 8388608 (-23))) (SF CFloat) (VF f0);
   check2 (sm_op (ss_add SXnorOrSemiring)) (SF CFloat) (SF CFloat) (SF CFloat) (VF (S754_finite true 8388608 (-22))) (VF f0) (SF CFloat) (VF f0);
   check2 (sm_op (ss_add SXnorOrSemiring)) (SF CFloat) (SF CFloat) (SF CFloat) (VF f0) (VF f0) (SF CFloat) (VF (S754_finite false 8388608 (-23)));
   check0 (ss_zero SXnorOrSemiring (SI u64)) (SI u64) (SI u64) (VI 1);
   check2 (ss_mult SXnorOrSemiring) (SI u64) (SI u64) (SI u64) (VI 2) (VI 1) (SI u64) (VI 1);
   check2 (ss_mult SXnorOrSemiring) (SI u64) (SI u64) (SI u64) (VI 2) (VI 0) (SI u64) (VI 1);
   check2 (ss_mult SXnorOrSemiring) (SI u64) (SI u64) (SI u64) (VI 0) (VI 1) (SI u64) (VI 1);
   check2 (ss_mult SXnorOrSemiring) (SI u64) (SI u64) (SI u64) (VI 0) (VI 0) (SI u64) (VI 0);
   check2 (sm_op (ss_add SXnorOrSemiring)) (SI u64) (SI u64) (SI u64) (VI 2) (VI 1) (SI u64) (VI 1);
   check2 (sm_op (ss_add SXnorOrSemiring)) (SI u64) (SI u64) (SI u64) (VI 2) (VI 0) (SI u64) (VI 0);
   check2 (sm_op (ss_add SXnorOrSemiring)) (SI u64) (SI u64) (SI u64) (VI 0) (VI 1) (SI u64) (VI 0);
   check2 (sm_op (ss_add SXnorOrSemiring)) (SI u64) (SI u64) (SI u64) (VI 0) (VI 0) (SI u64) (VI 1);
   check0 (ss_zero SXnorOrSemiring (SI u32)) (SI u32) (SI u32) (VI 1);
   check2 (ss_mult SXnorOrSemiring) (SI u32) (SI u32) (SI u32) (VI 2) (VI 1) (SI u32) (VI 1);
   check2 (ss_mult SXnorOrSemiring) (SI u32) (SI u32) (SI u32) (VI 2) (VI 0) (SI u32) (VI 1);
   check2 (ss_mult SXnorOrSemiring) (SI u32) (SI u32) (SI u32) (VI 0) (VI 1) (SI u32) (VI 1);
   check2 (ss_mult SXnorOrSemiring) (SI u32) (SI u32) (SI u32) (VI 0) (VI 0) (SI u32) (VI 0);
   check2 (sm_op (ss_add SXnorOrSemiring)) (SI u32) (SI u32) (SI u32) (VI 2) (VI 1) (SI u32) (VI 1);
   check2 (sm_op (ss_add SXnorOrSemiring)) (SI u32) (SI u32) (SI u32) (VI 2) (VI 0) (SI u32) (VI 0);
   check2 (sm_op (ss_add SXnorOrSemiring)) (SI u32) (SI u32) (SI u32) (VI 0) (VI 1) (SI u32) (VI 0);
   check2 (sm_op (ss_add SXnorOrSemiring)) (SI u32) (SI u32) (SI u32) (VI 0) (VI 0) (SI u32) (VI 1);
   check0 (ss_zero SXnorOrSemiring (SI u16)) (SI u16) (SI u32) (VI 1);
   check2 (ss_mult SXnorOrSemiring) (SI u16) (SI u16) (SI u16) (VI 2) (VI 1) (SI u32) (VI 1);
   check2 (ss_mult SXnorOrSemiring) (SI u16) (SI u16) (SI u16) (VI 2) (VI 0) (SI u32) (VI 1);
   check2 (ss_mult SXnorOrSemiring) (SI u16) (SI u16) (SI u16) (VI 0) (VI 1) (SI u32) (VI 1);
   check2 (ss_mult SXnorOrSemiring) (SI u16) (SI u16) (SI u16) (VI 0) (VI 0) (SI u32) (VI 0);
   check2 (sm_op (ss_add SXnorOrSemiring)) (SI u16) (SI u16) (SI u16) (VI 2) (VI 1) (SI u32) (VI 1);
   check2 (sm_op (ss_add SXnorOrSemiring)) (SI u16) (SI u16) (SI u16) (VI 2) (VI 0) (SI u32) (VI 0);
   check2 (sm_op (ss_add SXnorOrSemiring)) (SI u16) (SI u16) (SI u16) (VI 0) (VI 1) (SI u32) (VI 0);
   check2 (sm_op (ss_add SXnorOrSemiring)) (SI u16) (SI u16) (SI u16) (VI 0) (VI 0) (SI u32) (VI 1);
   check0 (ss_zero SXnorOrSemiring (SI u8)) (SI u8) (SI u32) (VI 1);
   check2 (ss_mult SXnorOrSemiring) (SI u8) (SI u8) (SI u8) (VI 2) (VI 1) (SI u32) (VI 1);
   check2 (ss_mult SXnorOrSemiring) (SI u8) (SI u8) (SI u8) (VI 2) (VI 0) (SI u32) (VI 1);
   check2 (ss_mult SXnorOrSemiring) (SI u8) (SI u8) (SI u8) (VI 0) (VI 1) (SI u32) (VI 1);
   check2 (ss_mult SXnorOrSemiring) (SI u8) (SI u8) (SI u8) (VI 0) (VI 0) (SI u32) (VI 0);
   check2 (sm_op (ss_add SXnorOrSemiring)) (SI u8) (SI u8) (SI u8) (VI 2) (VI 1) (SI u32) (VI 1);
   check2 (sm_op (ss_add SXnorOrSemiring)) (SI u8) (SI u8) (SI u8) (VI 2) (VI 0) (SI u32) (VI 0);
   check2 (sm_op (ss_add SXnorOrSemiring)) (SI u8) (SI u8) (SI u8) (VI 0) (VI 1) (SI u32) (VI 0);
   check2 (sm_op (ss_add SXnorOrSemiring)) (SI u8) (SI u8) (SI u8) (VI 0) (VI 0) (SI u32) (VI 1);
   check0 (ss_zero SXnorOrSemiring (SI i64)) (SI i64) (SI i64) (VI 1);
   check2 (ss_mult SXnorOrSemiring) (SI i64) (SI i64) (SI i64) (VI (-2)) (VI 1) (SI i64) (VI 1);
   check2 (ss_mult SXnorOrSemiring) (SI i64) (SI i64) (SI i64) (VI (-2)) (VI 0) (SI i64) (VI 1);
   check2 (ss_mult SXnorOrSemiring) (SI i64) (SI i64) (SI i64) (VI 0) (VI 1) (SI i64) (VI 1);
   check2 (ss_mult SXnorOrSemiring) (SI i64) (SI i64) (SI i64) (VI 0) (VI 0) (SI i64) (VI 0);
   check2 (sm_op (ss_add SXnorOrSemiring)) (SI i64) (SI i64) (SI i64) (VI (-2)) (VI 1) (SI i64) (VI 1);
   check2 (sm_op (ss_add SXnorOrSemiring)) (SI i64) (SI i64) (SI i64) (VI (-2)) (VI 0) (SI i64) (VI 0);
   check2 (sm_op (ss_add SXnorOrSemiring)) (SI i64) (SI i64) (SI i64) (VI 0) (VI 1) (SI i64) (VI 0);
   check2 (sm_op (ss_add SXnorOrSemiring)) (SI i64) (SI i64) (SI i64) (VI 0) (VI 0) (SI i64) (VI 1);
   check0 (ss_zero SXnorOrSemiring (SI i32)) (SI i32) (SI i32) (VI 1);
   check2 (ss_mult SXnorOrSemiring) (SI i32) (SI i32) (SI i32) (VI (-2)) (VI 1) (SI i32) (VI 1);
   check2 (ss_mult SXnorOrSemiring) (SI i32) (SI i32) (SI i32) (VI (-2)) (VI 0) (SI i32) (VI 1);
   check2 (ss_mult SXnorOrSemiring) (SI i32) (SI i32) (SI i32) (VI 0) (VI 1) (SI i32) (VI 1);
   check2 (ss_mult SXnorOrSemiring) (SI i32) (SI i32) (SI i32) (VI 0) (VI 0) (SI i32) (VI 0);
   check2 (sm_op (ss_add SXnorOrSemiring)) (SI i32) (SI i32) (SI i32) (VI (-2)) (VI 1) (SI i32) (VI 1);
   check2 (sm_op (ss_add SXnorOrSemiring)) (SI i32) (SI i32) (SI i32) (VI (-2)) (VI 0) (SI i32) (VI 0);
   check2 (sm_op (ss_add SXnorOrSemiring)) (SI i32) (SI i32) (SI i32) (VI 0) (VI 1) (SI i32) (VI 0);
   check2 (sm_op (ss_add SXnorOrSemiring)) (SI i32) (SI i32) (SI i32) (VI 0) (VI 0) (SI i32) (VI 1);
   check0 (ss_zero SXnorOrSemiring (SI i16)) (SI i16) (SI i32) (VI 1);
   check2 (ss_mult SXnorOrSemiring) (SI i16) (SI i16) (SI i16) (VI (-2)) (VI 1) (SI i32) (VI 1);
   check2 (ss_mult SXnorOrSemiring) (SI i16) (SI i16) (SI i16) (VI (-2)) (VI 0) (SI i32) (VI 1);
   check2 (ss_mult SXnorOrSemiring) (SI i16) (SI i16) (SI i16) (VI 0) (VI 1) (SI i32) (VI 1);
   check2 (ss_mult SXnorOrSemiring) (SI i16) (SI i16) (SI i16) (VI 0) (VI 0) (SI i32) (VI 0);
   check2 (sm_op (ss_add SXnorOrSemiring)) (SI i16) (SI i16) (SI i16) (VI (-2)) (VI 1) (SI i32) (VI 1);
   check2 (sm_op (ss_add SXnorOrSemiring)) (SI i16) (SI i16) (SI i16) (VI (-2)) (VI 0) (SI i32) (VI 0);
   check2 (sm_op (ss_add SXnorOrSemiring)) (SI i16) (SI i16) (SI i16) (VI 0) (VI 1) (SI i32) (VI 0);
   check2 (sm_op (ss_add SXnorOrSemiring)) (SI i16) (SI i16) (SI i16) (VI 0) (VI 0) (SI i32) (VI 1);
   check0 (ss_zero SXnorOrSemiring (SI i8)) (SI i8) (SI i32) (VI 1);
   check2 (ss_mult SXnorOrSemiring) (SI i8) (SI i8) (SI i8) (VI (-2)) (VI 1) (SI i32) (VI 1);
   check2 (ss_mult SXnorOrSemiring) (SI i8) (SI i8) (SI i8) (VI (-2)) (VI 0) (SI i32) (VI 1);
   check2 (ss_mult SXnorOrSemiring) (SI i8) (SI i8) (SI i8) (VI 0) (VI 1) (SI i32) (VI 1);
   check2 (ss_mult SXnorOrSemiring) (SI i8) (SI i8) (SI i8) (VI 0) (VI 0) (SI i32) (VI 0);
   check2 (sm_op (ss_add SXnorOrSemiring)) (SI i8) (SI i8) (SI i8) (VI (-2)) (VI 1) (SI i32) (VI 1);
   check2 (sm_op (ss_add SXnorOrSemiring)) (SI i8) (SI i8) (SI i8) (VI (-2)) (VI 0) (SI i32) (VI 0);
   check2 (sm_op (ss_add SXnorOrSemiring)) (SI i8) (SI i8) (SI i8) (VI 0) (VI 1) (SI i32) (VI 0);
   check2 (sm_op (ss_add SXnorOrSemiring)) (SI i8) (SI i8) (SI i8) (VI 0) (VI 0) (SI i32) (VI 1);
   check0 (ss_zero SXnorOrSemiring (SI CBool)) (SI CBool) (SI CBool) (VI 1);
   check2 (ss_mult SXnorOrSemiring) (SI CBool) (SI CBool) (SI CBool) (VI 0) (VI 0) (SI CBool) (VI 0);
   check2 (ss_mult SXnorOrSemiring) (SI CBool) (SI CBool) (SI CBool) (VI 0) (VI 1) (SI CBool) (VI 1);
   check2 (ss_mult SXnorOrSemiring) (SI CBool) (SI CBool) (SI CBool) (VI 1) (VI 0) (SI CBool) (VI 1);
   check2 (ss_mult SXnorOrSemiring) (SI CBool) (SI CBool) (SI CBool) (VI 1) (VI 1) (SI CBool) (VI 1);
   check2 (sm_op (ss_add SXnorOrSemiring)) (SI CBool) (SI CBool) (SI CBool) (VI 0) (VI 0) (SI CBool) (VI 1);
   check2 (sm_op (ss_add SXnorOrSemiring)) (SI CBool) (SI CBool) (SI CBool) (VI 0) (VI 1) (SI CBool) (VI 0);
   check2 (sm_op (ss_add SXnorOrSemiring)) (SI CBool) (SI CBool) (SI CBool) (VI 1) (VI 0) (SI CBool) (VI 0);
   check2 (sm_op (ss_add SXnorOrSemiring)) (SI CBool) (SI CBool) (SI CBool) (VI 1) (VI 1) (SI CBool) (VI 1) ].
Proof. vm_compute. reflexivity. Qed.

(** test_algebra_semiring.cpp:955-1022 *)
Example semiring_min_first_test : all_true
 [ check0 (ss_zero SMinFirstSemiring (SF CDouble)) (SF CDouble) (SF CDouble) (VF finf);
   check2 (sm_op (ss_add SMinFirstSemiring)) (SF CDouble) (SF CDouble) (SF CDouble) (VF (S754_finite true 4503599627370496 (-51))) (VF (S754_finite false 4503599627370496 (-52))) (SF CDouble) (VF (S754_finite true 4503599627370496 (-51)));
   check2 (sm_op (ss_add SMinFirstSemiring)) (SF CDouble) (SF CDouble) (SF CDouble) (VF (S754_finite false 4503599627370496 (-51))) (VF (S754_finite false 4503599627370496 (-52))) (SF CDouble) (VF (S754_finite false 4503599627370496 (-52)));
   check2 (ss_mult SMinFirstSemiring) (SF CDouble) (SF CDouble) (SF CDouble) (VF (S754_finite true 4503599627370496 (-51))) (VF (S754_finite false 4503599627370496 (-52))) (SF CDouble) (VF (S754_finite true 4503599627370496 (-51)));
   check0 (ss_zero SMinFirstSemiring (SF CFloat)) (SF CFloat) (SF CFloat) (VF finf);
   check2 (sm_op (ss_add SMinFirstSemiring)) (SF CFloat) (SF CFloat) (SF CFloat) (VF (S754_finite true 8388608 (-22))) (VF (S754_finite false 8388608 (-23))) (SF CFloat) (VF (S754_finite true 8388608 (-22)));
   check2 (sm_op (ss_add SMinFirstSemiring)) (SF CFloat) (SF CFloat) (SF CFloat) (VF (S754_finite false 8388608 (-22))) (VF (S754_finite false 8388608 (-23))) (SF CFloat) (VF (S754_finite false 8388608 (-23)));
   check2 (ss_mult SMinFirstSemiring) (SF CFloat) (SF CFloat) (SF CFloat) (VF (S754_finite true 8388608 (-22))) (VF (S754_finite false 8388608 (-23))) (SF CFloat) (VF (S754_finite true 8388608 (-22)));
   check0 (ss_zero SMinFirstSemiring (SI u64)) (SI u64) (SI u64) (VI 18446744073709551615);
   check2 (sm_op (ss_add SMinFirstSemiring)) (SI u64) (SI u64) (SI u64) (VI 2) (VI 1) (SI u64) (VI 1);
   check2 (sm_op (ss_add SMinFirstSemiring)) (SI u64) (SI u64) (SI u64) (VI 2) (VI 3) (SI u64) (VI 2);
   check2 (ss_mult SMinFirstSemiring) (SI u64) (SI u64) (SI u64) (VI 2) (VI 1) (SI u64) (VI 2);
   check0 (ss_zero SMinFirstSemiring (SI u32)) (SI u32) (SI u32) (VI 4294967295);
   check2 (sm_op (ss_add SMinFirstSemiring)) (SI u32) (SI u32) (SI u32) (VI 2) (VI 1) (SI u32) (VI 1);
   check2 (sm_op (ss_add SMinFirstSemiring)) (SI u32) (SI u32) (SI u32) (VI 2) (VI 3) (SI u32) (VI 2);
   check2 (ss_mult SMinFirstSemiring) (SI u32) (SI u32) (SI u32) (VI 2) (VI 1) (SI u32) (VI 2);
   check0 (ss_zero SMinFirstSemiring (SI u16)) (SI u16) (SI u16) (VI 65535);
   check2 (sm_op (ss_add SMinFirstSemiring)) (SI u16) (SI u16) (SI u16) (VI 2) (VI 1) (SI u32) (VI 1);
   check2 (sm_op (ss_add SMinFirstSemiring)) (SI u16) (SI u16) (SI u16) (VI 2) (VI 3) (SI u32) (VI 2);
   check2 (ss_mult SMinFirstSemiring) (SI u16) (SI u16) (SI u16) (VI 2) (VI 1) (SI u32) (VI 2);
   check0 (ss_zero SMinFirstSemiring (SI u8)) (SI u8) (SI u8) (VI 255);
   check2 (sm_op (ss_add SMinFirstSemiring)) (SI u8) (SI u8) (SI u8) (VI 2) (VI 1) (SI u32) (VI 1);
   check2 (sm_op (ss_add SMinFirstSemiring)) (SI u8) (SI u8) (SI u8) (VI 2) (VI 3) (SI u32) (VI 2);
   check2 (ss_mult SMinFirstSemiring) (SI u8) (SI u8) (SI u8) (VI 2) (VI 1) (SI u32) (VI 2);
   check0 (ss_zero SMinFirstSemiring (SI i64)) (SI i64) (SI i64) (VI 9223372036854775807);
   check2 (sm_op (ss_add SMinFirstSemiring)) (SI i64) (SI i64) (SI i64) (VI (-2)) (VI 1) (SI i64) (VI (-2));
   check2 (sm_op (ss_add SMinFirstSemiring)) (SI i64) (SI i64) (SI i64) (VI 2) (VI (-1)) (SI i64) (VI (-1));
   check2 (ss_mult SMinFirstSemiring) (SI i64) (SI i64) (SI i64) (VI (-2)) (VI 1) (SI i64) (VI (-2));
   check0 (ss_zero SMinFirstSemiring (SI i32)) (SI i32) (SI i32) (VI 2147483647);
   check2 (sm_op (ss_add SMinFirstSemiring)) (SI i32) (SI i32) (SI i32) (VI (-2)) (VI 1) (SI i32) (VI (-2));
   check2 (sm_op (ss_add SMinFirstSemiring)) (SI i32) (SI i32) (SI i32) (VI 2) (VI (-1)) (SI i32) (VI (-1));
   check2 (ss_mult SMinFirstSemiring) (SI i32) (SI i32) (SI i32) (VI (-2)) (VI 1) (SI i32) (VI (-2));
   check0 (ss_zero SMinFirstSemiring (SI i16)) (SI i16) (SI i16) (VI 32767);
   check2 (sm_op (ss_add SMinFirstSemiring)) (SI i16) (SI i16) (SI i16) (VI (-2)) (VI 1) (SI i32) (VI (-2));
   check2 (sm_op (ss_add SMinFirstSemiring)) (SI i16) (SI i16) (SI i16) (VI 2) (VI (-1)) (SI i32) (VI (-1));
   check2 (ss_mult SMinFirstSemiring) (SI i16) (SI i16) (SI i16) (VI (-2)) (VI 1) (SI i32) (VI (-2));
   check0 (ss_zero SMinFirstSemiring (SI i8)) (SI i8) (SI i8) (VI 127);
   check2 (sm_op (ss_add SMinFirstSemiring)) (SI i8) (SI i8) (SI i8) (VI (-2)) (VI 1) (SI i32) (VI (-2));
   check2 (sm_op (ss_add SMinFirstSemiring)) (SI i8) (SI i8) (SI i8) (VI 2) (VI (-1)) (SI i32) (VI (-1));
   check2 (ss_mult SMinFirstSemiring) (SI i8) (SI i8) (SI i8) (VI (-2)) (VI 1) (SI i32) (VI (-2));
   check0 (ss_zero SMinFirstSemiring (SI CBool)) (SI CBool) (SI CBool) (VI 1);
   check2 (sm_op (ss_add SMinFirstSemiring)) (SI CBool) (SI CBool) (SI CBool) (VI 0) (VI 1) (SI CBool) (VI 0);
   check2 (sm_op (ss_add SMinFirstSemiring)) (SI CBool) (SI CBool) (SI CBool) (VI 1) (VI 1) (SI CBool) (VI 1);
   check2 (ss_mult SMinFirstSemiring) (SI CBool) (SI CBool) (SI CBool) (VI 1) (VI 0) (SI CBool) (VI 1);
   check2 (ss_mult SMinFirstSemiring) (SI CBool) (SI CBool) (SI CBool) (VI 0) (VI 1) (SI CBool) (VI 0) ].
Proof. vm_compute. reflexivity. Qed.

(** test_algebra_semiring.cpp:1025-1092 *)
Example semiring_min_second_test : all_true
 [ check0 (ss_zero SMinSecondSemiring (SF CDouble)) (SF CDouble) (SF CDouble) (VF finf);
   check2 (sm_op (ss_add SMinSecondSemiring)) (SF CDouble) (SF CDouble) (SF CDouble) (VF (S754_finite true 4503599627370496 (-51))) (VF (S754_finite false 4503599627370496 (-52))) (SF CDouble) (VF (S754_finite true 4503599627370496 (-51)));
   check2 (sm_op (ss_add SMinSecondSemiring)) (SF CDouble) (SF CDouble) (SF CDouble) (VF (S754_finite false 4503599627370496 (-51))) (VF (S754_finite false 4503599627370496 (-52))) (SF CDouble) (VF (S754_finite false 4503599627370496 (-52)));
   check2 (ss_mult SMinSecondSemiring) (SF CDouble) (SF CDouble) (SF CDouble) (VF (S754_finite true 4503599627370496 (-51))) (VF (S754_finite false 4503599627370496 (-52))) (SF CDouble) (VF (S754_finite false 4503599627370496 (-52)));
   check0 (ss_zero SMinSecondSemiring (SF CFloat)) (SF CFloat) (SF CFloat) (VF finf);
   check2 (sm_op (ss_add SMinSecondSemiring)) (SF CFloat) (SF CFloat) (SF CFloat) (VF (S754_finite true 8388608 (-22))) (VF (S754_finite false 8388608 (-23))) (SF CFloat) (VF (S754_finite true 8388608 (-22)));
   check2 (sm_op (ss_add SMinSecondSemiring)) (SF CFloat) (SF CFloat) (SF CFloat) (VF (S754_finite false 8388608 (-22))) (VF (S754_finite false 8388608 (-23))) (SF CFloat) (VF (S754_finite false 8388608 (-23)));
   check2 (ss_mult SMinSecondSemiring) (SF CFloat) (SF CFloat) (SF CFloat) (VF (S754_finite true 8388608 (-22))) (VF (S754_finite false 8388608 (-23))) (SF CFloat) (VF (S754_finite false 8388608 (-23)));
   check0 (ss_zero SMinSecondSemiring (SI u64)) (SI u64) (SI u64) (VI 18446744073709551615);
   check2 (sm_op (ss_add SMinSecondSemiring)) (SI u64) (SI u64) (SI u64) (VI 2) (VI 1) (SI u64) (VI 1);
   check2 (sm_op (ss_add SMinSecondSemiring)) (SI u64) (SI u64) (SI u64) (VI 2) (VI 3) (SI u64) (VI 2);
   check2 (ss_mult SMinSecondSemiring) (SI u64) (SI u64) (SI u64) (VI 2) (VI 1) (SI u64) (VI 1);
   check0 (ss_zero SMinSecondSemiring (SI u32)) (SI u32) (SI u32) (VI 4294967295);
   check2 (sm_op (ss_add SMinSecondSemiring)) (SI u32) (SI u32) (SI u32) (VI 2) (VI 1) (SI u32) (VI 1);
   check2 (sm_op (ss_add SMinSecondSemiring)) (SI u32) (SI u32) (SI u32) (VI 2) (VI 3) (SI u32) (VI 2);
   check2 (ss_mult SMinSecondSemiring) (SI u32) (SI u32) (SI u32) (VI 2) (VI 1) (SI u32) (VI 1);
   check0 (ss_zero SMinSecondSemiring (SI u16)) (SI u16) (SI u16) (VI 65535);
   check2 (sm_op (ss_add SMinSecondSemiring)) (SI u16) (SI u16) (SI u16) (VI 2) (VI 1) (SI u32) (VI 1);
   check2 (sm_op (ss_add SMinSecondSemiring)) (SI u16) (SI u16) (SI u16) (VI 2) (VI 3) (SI u32) (VI 2);
   check2 (ss_mult SMinSecondSemiring) (SI u16) (SI u16) (SI u16) (VI 2) (VI 1) (SI u32) (VI 1);
   check0 (ss_zero SMinSecondSemiring (SI u8)) (SI u8) (SI u8) (VI 255);
   check2 (sm_op (ss_add SMinSecondSemiring)) (SI u8) (SI u8) (SI u8) (VI 2) (VI 1) (SI u32) (VI 1);
   check2 (sm_op (ss_add SMinSecondSemiring)) (SI u8) (SI u8) (SI u8) (VI 2) (VI 3) (SI u32) (VI 2);
   check2 (ss_mult SMinSecondSemiring) (SI u8) (SI u8) (SI u8) (VI 2) (VI 1) (SI u32) (VI 1);
   check0 (ss_zero SMinSecondSemiring (SI i64)) (SI i64) (SI i64) (VI 9223372036854775807);
   check2 (sm_op (ss_add SMinSecondSemiring)) (SI i64) (SI i64) (SI i64) (VI (-2)) (VI 1) (SI i64) (VI (-2));
   check2 (sm_op (ss_add SMinSecondSemiring)) (SI i64) (SI i64) (SI i64) (VI 2) (VI (-1)) (SI i64) (VI (-1));
   check2 (ss_mult SMinSecondSemiring) (SI i64) (SI i64) (SI i64) (VI (-2)) (VI 1) (SI i64) (VI 1);
   check0 (ss_zero SMinSecondSemiring (SI i32)) (SI i32) (SI i32) (VI 2147483647);
   check2 (sm_op (ss_add SMinSecondSemiring)) (SI i32) (SI i32) (SI i32) (VI (-2)) (VI 1) (SI i32) (VI (-2));
   check2 (sm_op (ss_add SMinSecondSemiring)) (SI i32) (SI i32) (SI i32) (VI 2) (VI (-1)) (SI i32) (VI (-1));
   check2 (ss_mult SMinSecondSemiring) (SI i32) (SI i32) (SI i32) (VI (-2)) (VI 1) (SI i32) (VI 1);
   check0 (ss_zero SMinSecondSemiring (SI i16)) (SI i16) (SI i16) (VI 32767);
   check2 (sm_op (ss_add SMinSecondSemiring)) (SI i16) (SI i16) (SI i16) (VI (-2)) (VI 1) (SI i32) (VI (-2));
   check2 (sm_op (ss_add SMinSecondSemiring)) (SI i16) (SI i16) (SI i16) (VI 2) (VI (-1)) (SI i32) (VI (-1));
   check2 (ss_mult SMinSecondSemiring) (SI i16) (SI i16) (SI i16) (VI (-2)) (VI 1) (SI i32) (VI 1);
   check0 (ss_zero SMinSecondSemiring (SI i8)) (SI i8) (SI i8) (VI 127);
   check2 (sm_op (ss_add SMinSecondSemiring)) (SI i8) (SI i8) (SI i8) (VI (-2)) (VI 1) (SI i32) (VI (-2));
   check2 (sm_op (ss_add SMinSecondSemiring)) (SI i8) (SI i8) (SI i8) (VI 2) (VI (-1)) (SI i32) (VI (-1));
   check2 (ss_mult SMinSecondSemiring) (SI i8) (SI i8) (SI i8) (VI (-2)) (VI 1) (SI i32) (VI 1);
   check0 (ss_zero SMinSecondSemiring (SI CBool)) (SI CBool) (SI CBool) (VI 1);
   check2 (sm_op (ss_add SMinSecondSemiring)) (SI CBool) (SI CBool) (SI CBool) (VI 0) (VI 1) (SI CBool) (VI 0);
   check2 (sm_op (ss_add SMinSecondSemiring)) (SI CBool) (SI CBool) (SI CBool) (VI 1) (VI 1) (SI CBool) (VI 1);
   check2 (ss_mult SMinSecondSemiring) (SI CBool) (SI CBool) (SI CBool) (VI 1) (VI 0) (SI CBool) (VI 0);
   check2 (ss_mult SMinSecondSemiring) (SI CBool) (SI CBool) (SI CBool) (VI 0) (VI 1) (SI CBool) (VI 1) ].
Proof. vm_compute. reflexivity. Qed.

(** test_algebra_semiring.cpp:1095-1141 *)
Example semiring_max_first_test : all_true
 [ check0 (ss_zero SMaxFirstSemiring (SF CDouble)) (SF CDouble) (SF CDouble) (VF fninf);
   check2 (sm_op (ss_add SMaxFirstSemiring)) (SF CDouble) (SF CDouble) (SF CDouble) (VF (S754_finite true 4503599627370496 (-51))) (VF (S754_finite false 4503599627370496 (-52))) (SF CDouble) (VF (S754_finite false 4503599627370496 (-52)));
   check2 (ss_mult SMaxFirstSemiring) (SF CDouble) (SF CDouble) (SF CDouble) (VF (S754_finite true 4503599627370496 (-51))) (VF (S754_finite false 4503599627370496 (-52))) (SF CDouble) (VF (S754_finite true 4503599627370496 (-51)));
   check0 (ss_zero SMaxFirstSemiring (SF CFloat)) (SF CFloat) (SF CFloat) (VF fninf);
   check2 (sm_op (ss_add SMaxFirstSemiring)) (SF CFloat) (SF CFloat) (SF CFloat) (VF (S754_finite true 8388608 (-22))) (VF (S754_finite false 8388608 (-23))) (SF CFloat) (VF (S754_finite false 8388608 (-23)));
   check2 (ss_mult SMaxFirstSemiring) (SF CFloat) (SF CFloat) (SF CFloat) (VF (S754_finite true 8388608 (-22))) (VF (S754_finite false 8388608 (-23))) (SF CFloat) (VF (S754_finite true 8388608 (-22)));
   check0 (ss_zero SMaxFirstSemiring (SI u64)) (SI u64) (SI u64) (VI 0);
   check2 (sm_op (ss_add SMaxFirstSemiring)) (SI u64) (SI u64) (SI u64) (VI 2) (VI 1) (SI u64) (VI 2);
   check2 (ss_mult SMaxFirstSemiring) (SI u64) (SI u64) (SI u64) (VI 2) (VI 1) (SI u64) (VI 2);
   check0 (ss_zero SMaxFirstSemiring (SI u32)) (SI u32) (SI u32) (VI 0);
   check2 (sm_op (ss_add SMaxFirstSemiring)) (SI u32) (SI u32) (SI u32) (VI 2) (VI 1) (SI u32) (VI 2);
   check2 (ss_mult SMaxFirstSemiring) (SI u32) (SI u32) (SI u32) (VI 2) (VI 1) (SI u32) (VI 2);
   check0 (ss_zero SMaxFirstSemiring (SI u16)) (SI u16) (SI u32) (VI 0);
   check2 (sm_op (ss_add SMaxFirstSemiring)) (SI u16) (SI u16) (SI u16) (VI 2) (VI 1) (SI u32) (VI 2);
   check2 (ss_mult SMaxFirstSemiring) (SI u16) (SI u16) (SI u16) (VI 2) (VI 1) (SI u32) (VI 2);
   check0 (ss_zero SMaxFirstSemiring (SI u8)) (SI u8) (SI u32) (VI 0);
   check2 (sm_op (ss_add SMaxFirstSemiring)) (SI u8) (SI u8) (SI u8) (VI 2) (VI 1) (SI u32) (VI 2);
   check2 (ss_mult SMaxFirstSemiring) (SI u8) (SI u8) (SI u8) (VI 2) (VI 1) (SI u32) (VI 2);
   check0 (ss_zero SMaxFirstSemiring (SI i64)) (SI i64) (SI i64) (VI (-9223372036854775808));
   check2 (sm_op (ss_add SMaxFirstSemiring)) (SI i64) (SI i64) (SI i64) (VI (-2)) (VI 1) (SI i64) (VI 1);
   check2 (ss_mult SMaxFirstSemiring) (SI i64) (SI i64) (SI i64) (VI (-2)) (VI 1) (SI i64) (VI (-2));
   check0 (ss_zero SMaxFirstSemiring (SI i32)) (SI i32) (SI i32) (VI (-2147483648));
   check2 (sm_op (ss_add SMaxFirstSemiring)) (SI i32) (SI i32) (SI i32) (VI (-2)) (VI 1) (SI i32) (VI 1);
   check2 (ss_mult SMaxFirstSemiring) (SI i32) (SI i32) (SI i32) (VI (-2)) (VI 1) (SI i32) (VI (-2));
   check0 (ss_zero SMaxFirstSemiring (SI i16)) (SI i16) (SI i16) (VI (-32768));
   check2 (sm_op (ss_add SMaxFirstSemiring)) (SI i16) (SI i16) (SI i16) (VI (-2)) (VI 1) (SI i32) (VI 1);
   check2 (ss_mult SMaxFirstSemiring) (SI i16) (SI i16) (SI i16) (VI (-2)) (VI 1) (SI i32) (VI (-2));
   check0 (ss_zero SMaxFirstSemiring (SI i8)) (SI i8) (SI i8) (VI (-128));
   check2 (sm_op (ss_add SMaxFirstSemiring)) (SI i8) (SI i8) (SI i8) (VI (-2)) (VI 1) (SI i32) (VI 1);
   check2 (ss_mult SMaxFirstSemiring) (SI i8) (SI i8) (SI i8) (VI (-2)) (VI 1) (SI i32) (VI (-2));
   check0 (ss_zero SMaxFirstSemiring (SI CBool)) (SI CBool) (SI CBool) (VI 0);
   check2 (sm_op (ss_add SMaxFirstSemiring)) (SI CBool) (SI CBool) (SI CBool) (VI 0) (VI 0) (SI CBool) (VI 0);
   check2 (sm_op (ss_add SMaxFirstSemiring)) (SI CBool) (SI CBool) (SI CBool) (VI 0) (VI 1) (SI CBool) (VI 1);
   check2 (ss_mult SMaxFirstSemiring) (SI CBool) (SI CBool) (SI CBool) (VI 0) (VI 1) (SI CBool) (VI 0);
   check2 (ss_mult SMaxFirstSemiring) (SI CBool) (SI CBool) (SI CBool) (VI 1) (VI 0) (SI CBool) (VI 1) ].
Proof. vm_compute. reflexivity. Qed.

(** test_algebra_semiring.cpp:1144-1190 *)
Example semiring_max_second_test : all_true
 [ check0 (ss_zero SMaxSecondSemiring (SF CDouble)) (SF CDouble) (SF CDouble) (VF fninf);
   check2 (sm_op (ss_add SMaxSecondSemiring)) (SF CDouble) (SF CDouble) (SF CDouble) (VF (S754_finite true 4503599627370496 (-51))) (VF (S754_finite false 4503599627370496 (-52))) (SF CDouble) (VF (S754_finite false 4503599627370496 (-52)));
   check2 (ss_mult SMaxSecondSemiring) (SF CDouble) (SF CDouble) (SF CDouble) (VF (S754_finite true 4503599627370496 (-51))) (VF (S754_finite false 4503599627370496 (-52))) (SF CDouble) (VF (S754_finite false 4503599627370496 (-52)));
   check0 (ss_zero SMaxSecondSemiring (SF CFloat)) (SF CFloat) (SF CFloat) (VF fninf);
   check2 (sm_op (ss_add SMaxSecondSemiring)) (SF CFloat) (SF CFloat) (SF CFloat) (VF (S754_finite true 8388608 (-22))) (VF (S754_finite false 8388608 (-23))) (SF CFloat) (VF (S754_finite false 8388608 (-23)));
   check2 (ss_mult SMaxSecondSemiring) (SF CFloat) (SF CFloat) (SF CFloat) (VF (S754_finite true 8388608 (-22))) (VF (S754_finite false 8388608 (-23))) (SF CFloat) (VF (S754_finite false 8388608 (-23)));
   check0 (ss_zero SMaxSecondSemiring (SI u64)) (SI u64) (SI u64) (VI 0);
   check2 (sm_op (ss_add SMaxSecondSemiring)) (SI u64) (SI u64) (SI u64) (VI 2) (VI 1) (SI u64) (VI 2);
   check2 (ss_mult SMaxSecondSemiring) (SI u64) (SI u64) (SI u64) (VI 2) (VI 1) (SI u64) (VI 1);
   check0 (ss_zero SMaxSecondSemiring (SI u32)) (SI u32) (SI u32) (VI 0);
   check2 (sm_op (ss_add SMaxSecondSemiring)) (SI u32) (SI u32) (SI u32) (VI 2) (VI 1) (SI u32) (VI 2);
   check2 (ss_mult SMaxSecondSemiring) (SI u32) (SI u32) (SI u32) (VI 2) (VI 1) (SI u32) (VI 1);
   check0 (ss_zero SMaxSecondSemiring (SI u16)) (SI u16) (SI u32) (VI 0);
   check2 (sm_op (ss_add SMaxSecondSemiring)) (SI u16) (SI u16) (SI u16) (VI 2) (VI 1) (SI u32) (VI 2);
   check2 (ss_mult SMaxSecondSemiring) (SI u16) (SI u16) (SI u16) (VI 2) (VI 1) (SI u32) (VI 1);
   check0 (ss_zero SMaxSecondSemiring (SI u8)) (SI u8) (SI u32) (VI 0);
   check2 (sm_op (ss_add SMaxSecondSemiring)) (SI u8) (SI u8) (SI u8) (VI 2) (VI 1) (SI u32) (VI 2);
   check2 (ss_mult SMaxSecondSemiring) (SI u8) (SI u8) (SI u8) (VI 2) (VI 1) (SI u32) (VI 1);
   check0 (ss_zero SMaxSecondSemiring (SI i64)) (SI i64) (SI i64) (VI (-9223372036854775808));
   check2 (sm_op (ss_add SMaxSecondSemiring)) (SI i64) (SI i64) (SI i64) (VI (-2)) (VI 1) (SI i64) (VI 1);
   check2 (ss_mult SMaxSecondSemiring) (SI i64) (SI i64) (SI i64) (VI (-2)) (VI 1) (SI i64) (VI 1);
   check0 (ss_zero SMaxSecondSemiring (SI i32)) (SI i32) (SI i32) (VI (-2147483648));
   check2 (sm_op (ss_add SMaxSecondSemiring)) (SI i32) (SI i32) (SI i32) (VI (-2)) (VI 1) (SI i32) (VI 1);
   check2 (ss_mult SMaxSecondSemiring) (SI i32) (SI i32) (SI i32) (VI (-2)) (VI 1) (SI i32) (VI 1);
   check0 (ss_zero SMaxSecondSemiring (SI i16)) (SI i16) (SI i16) (VI (-32768));
   check2 (sm_op (ss_add SMaxSecondSemiring)) (SI i16) (SI i16) (SI i16) (VI (-2)) (VI 1) (SI i32) (VI 1);
   check2 (ss_mult SMaxSecondSemiring) (SI i16) (SI i16) (SI i16) (VI (-2)) (VI 1) (SI i32) (VI 1);
   check0 (ss_zero SMaxSecondSemiring (SI i8)) (SI i8) (SI i8) (VI (-128));
   check2 (sm_op (ss_add SMaxSecondSemiring)) (SI i8) (SI i8) (SI i8) (VI (-2)) (VI 1) (SI i32) (VI 1);
   check2 (ss_mult SMaxSecondSemiring) (SI i8) (SI i8) (SI i8) (VI (-2)) (VI 1) (SI i32) (VI 1);
   check0 (ss_zero SMaxSecondSemiring (SI CBool)) (SI CBool) (SI CBool) (VI 0);
   check2 (sm_op (ss_add SMaxSecondSemiring)) (SI CBool) (SI CBool) (SI CBool) (VI 0) (VI 0) (SI CBool) (VI 0);
   check2 (sm_op (ss_add SMaxSecondSemiring)) (SI CBool) (SI CBool) (SI CBool) (VI 0) (VI 1) (SI CBool) (VI 1);
   check2 (ss_mult SMaxSecondSemiring) (SI CBool) (SI CBool) (SI CBool) (VI 0) (VI 1) (SI CBool) (VI 1);
   check2 (ss_mult SMaxSecondSemiring) (SI CBool) (SI CBool) (SI CBool) (VI 1) (VI 0) (SI CBool) (VI 0) ].
Proof. vm_compute. reflexivity. Qed.
