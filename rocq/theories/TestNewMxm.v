(** The tests of /repo/src/test/test_new_mxm.cpp, run on the model.  Generated translation. *)
From Verif Require Import TestRun.


(** test_new_mxm.cpp:196-226 *)
Example mxm_reg :
 (x_mA <- mnew 3 3 ;;
  x_mA_1 <- mbuild TyD qsecond x_mA [0; 0; 0; 1; 1; 1; 2; 2; 2] [0; 1; 2; 0; 1; 2; 0; 1; 2] [12; 7;
    3; 4; 5; 6; 7; 8; 9]%Q ;;
  x_mB <- mnew 3 4 ;;
  x_mB_1 <- mbuild TyD qsecond x_mB [0; 0; 0; 0; 1; 1; 1; 2; 2; 2; 2] [0; 1; 2; 3; 0; 1; 2; 0; 1; 2;
    3] [5; 8; 1; 2; 6; 7; 3; 4; 5; 9; 1]%Q ;;
  x_result <- mnew 3 4 ;;
  x_answer <- mnew 3 4 ;;
  x_answer_1 <- mbuild TyD qsecond x_answer [0; 0; 0; 0; 1; 1; 1; 1; 2; 2; 2; 2] [0; 1; 2; 3; 0; 1;
    2; 3; 0; 1; 2; 3] [114; 160; 60; 27; 74; 97; 73; 14; 119; 157; 112; 23]%Q ;;
  x_result_1 <- t_mxm TyD noacc (mkSr qplus qtimes TyD) NoMask MERGE x_result (Mat x_mA_1) (Mat
    x_mB_1) ;;
  x_q <- meq x_result_1 x_answer_1 ;;
  _ <- check x_q ;;
  Ok tt) = Ok tt.
Proof. vm_compute. reflexivity. Qed.

(** test_new_mxm.cpp:196-226, optimized_sequential platform *)
Example mxm_reg_opt :
 (x_mA <- mnew 3 3 ;;
  x_mA_1 <- mbuild TyD qsecond x_mA [0; 0; 0; 1; 1; 1; 2; 2; 2] [0; 1; 2; 0; 1; 2; 0; 1; 2] [12; 7;
    3; 4; 5; 6; 7; 8; 9]%Q ;;
  x_mB <- mnew 3 4 ;;
  x_mB_1 <- mbuild TyD qsecond x_mB [0; 0; 0; 0; 1; 1; 1; 2; 2; 2; 2] [0; 1; 2; 3; 0; 1; 2; 0; 1; 2;
    3] [5; 8; 1; 2; 6; 7; 3; 4; 5; 9; 1]%Q ;;
  x_result <- mnew 3 4 ;;
  x_answer <- mnew 3 4 ;;
  x_answer_1 <- mbuild TyD qsecond x_answer [0; 0; 0; 0; 1; 1; 1; 1; 2; 2; 2; 2] [0; 1; 2; 3; 0; 1;
    2; 3; 0; 1; 2; 3] [114; 160; 60; 27; 74; 97; 73; 14; 119; 157; 112; 23]%Q ;;
  x_result_1 <- t_opt_mxm TyD noacc TyD (mkSr qplus qtimes TyD) NoMask MERGE x_result (OMat (Other
    x_mA_1)) (OMat (Other x_mB_1)) ;;
  x_q <- meq x_result_1 x_answer_1 ;;
  _ <- check x_q ;;
  Ok tt) = Ok tt.
Proof. vm_compute. reflexivity. Qed.

(** test_new_mxm.cpp:230-260 *)
Example test_a_transpose :
 (x_mA <- mnew 3 3 ;;
  x_mA_1 <- mbuild TyD qsecond x_mA [0; 0; 0; 1; 1; 1; 2; 2; 2] [0; 1; 2; 0; 1; 2; 0; 1; 2] [12; 7;
    3; 4; 5; 6; 7; 8; 9]%Q ;;
  x_mB <- mnew 3 4 ;;
  x_mB_1 <- mbuild TyD qsecond x_mB [0; 0; 0; 0; 1; 1; 1; 2; 2; 2; 2] [0; 1; 2; 3; 0; 1; 2; 0; 1; 2;
    3] [5; 8; 1; 2; 6; 7; 3; 4; 5; 9; 1]%Q ;;
  x_result <- mnew 3 4 ;;
  x_answer <- mnew 3 4 ;;
  x_answer_1 <- mbuild TyD qsecond x_answer [0; 0; 0; 0; 1; 1; 1; 1; 2; 2; 2; 2] [0; 1; 2; 3; 0; 1;
    2; 3; 0; 1; 2; 3] [112; 159; 87; 31; 97; 131; 94; 22; 87; 111; 102; 15]%Q ;;
  x_result_1 <- t_mxm TyD noacc (mkSr qplus qtimes TyD) NoMask MERGE x_result (Trn x_mA_1) (Mat
    x_mB_1) ;;
  x_q <- meq x_result_1 x_answer_1 ;;
  _ <- check x_q ;;
  Ok tt) = Ok tt.
Proof. vm_compute. reflexivity. Qed.

(** test_new_mxm.cpp:230-260, optimized_sequential platform *)
Example test_a_transpose_opt :
 (x_mA <- mnew 3 3 ;;
  x_mA_1 <- mbuild TyD qsecond x_mA [0; 0; 0; 1; 1; 1; 2; 2; 2] [0; 1; 2; 0; 1; 2; 0; 1; 2] [12; 7;
    3; 4; 5; 6; 7; 8; 9]%Q ;;
  x_mB <- mnew 3 4 ;;
  x_mB_1 <- mbuild TyD qsecond x_mB [0; 0; 0; 0; 1; 1; 1; 2; 2; 2; 2] [0; 1; 2; 3; 0; 1; 2; 0; 1; 2;
    3] [5; 8; 1; 2; 6; 7; 3; 4; 5; 9; 1]%Q ;;
  x_result <- mnew 3 4 ;;
  x_answer <- mnew 3 4 ;;
  x_answer_1 <- mbuild TyD qsecond x_answer [0; 0; 0; 0; 1; 1; 1; 1; 2; 2; 2; 2] [0; 1; 2; 3; 0; 1;
    2; 3; 0; 1; 2; 3] [112; 159; 87; 31; 97; 131; 94; 22; 87; 111; 102; 15]%Q ;;
  x_result_1 <- t_opt_mxm TyD noacc TyD (mkSr qplus qtimes TyD) NoMask MERGE x_result (OTrn (Other
    x_mA_1)) (OMat (Other x_mB_1)) ;;
  x_q <- meq x_result_1 x_answer_1 ;;
  _ <- check x_q ;;
  Ok tt) = Ok tt.
Proof. vm_compute. reflexivity. Qed.

(** test_new_mxm.cpp:263-292 *)
Example test_b_transpose :
 (x_mA <- mnew 3 3 ;;
  x_mA_1 <- mbuild TyD qsecond x_mA [0; 0; 0; 1; 1; 1; 2; 2; 2] [0; 1; 2; 0; 1; 2; 0; 1; 2] [12; 7;
    3; 4; 5; 6; 7; 8; 9]%Q ;;
  x_mB <- mnew 3 3 ;;
  x_mB_1 <- mbuild TyD qsecond x_mB [0; 0; 0; 1; 1; 1; 2; 2; 2] [0; 1; 2; 0; 1; 2; 0; 1; 2] [5; 8;
    1; 2; 6; 7; 3; 4; 5]%Q ;;
  x_result <- mnew 3 3 ;;
  x_answer <- mnew 3 3 ;;
  x_answer_1 <- mbuild TyD qsecond x_answer [0; 0; 0; 1; 1; 1; 2; 2; 2] [0; 1; 2; 0; 1; 2; 0; 1; 2]
    [119; 87; 79; 66; 80; 62; 108; 125; 98]%Q ;;
  x_result_1 <- t_mxm TyD noacc (mkSr qplus qtimes TyD) NoMask MERGE x_result (Mat x_mA_1) (Trn
    x_mB_1) ;;
  x_q <- meq x_result_1 x_answer_1 ;;
  _ <- check x_q ;;
  Ok tt) = Ok tt.
Proof. vm_compute. reflexivity. Qed.

(** test_new_mxm.cpp:263-292, optimized_sequential platform *)
Example test_b_transpose_opt :
 (x_mA <- mnew 3 3 ;;
  x_mA_1 <- mbuild TyD qsecond x_mA [0; 0; 0; 1; 1; 1; 2; 2; 2] [0; 1; 2; 0; 1; 2; 0; 1; 2] [12; 7;
    3; 4; 5; 6; 7; 8; 9]%Q ;;
  x_mB <- mnew 3 3 ;;
  x_mB_1 <- mbuild TyD qsecond x_mB [0; 0; 0; 1; 1; 1; 2; 2; 2] [0; 1; 2; 0; 1; 2; 0; 1; 2] [5; 8;
    1; 2; 6; 7; 3; 4; 5]%Q ;;
  x_result <- mnew 3 3 ;;
  x_answer <- mnew 3 3 ;;
  x_answer_1 <- mbuild TyD qsecond x_answer [0; 0; 0; 1; 1; 1; 2; 2; 2] [0; 1; 2; 0; 1; 2; 0; 1; 2]
    [119; 87; 79; 66; 80; 62; 108; 125; 98]%Q ;;
  x_result_1 <- t_opt_mxm TyD noacc TyD (mkSr qplus qtimes TyD) NoMask MERGE x_result (OMat (Other
    x_mA_1)) (OTrn (Other x_mB_1)) ;;
  x_q <- meq x_result_1 x_answer_1 ;;
  _ <- check x_q ;;
  Ok tt) = Ok tt.
Proof. vm_compute. reflexivity. Qed.

(** test_new_mxm.cpp:295-324 *)
Example test_a_and_b_transpose :
 (x_mA <- mnew 3 3 ;;
  x_mA_1 <- mbuild TyD qsecond x_mA [0; 0; 0; 1; 1; 1; 2; 2; 2] [0; 1; 2; 0; 1; 2; 0; 1; 2] [12; 7;
    3; 4; 5; 6; 7; 8; 9]%Q ;;
  x_mB <- mnew 3 3 ;;
  x_mB_1 <- mbuild TyD qsecond x_mB [0; 0; 0; 1; 1; 1; 2; 2; 2] [0; 1; 2; 0; 1; 2; 0; 1; 2] [5; 8;
    1; 2; 6; 7; 3; 4; 5]%Q ;;
  x_result <- mnew 3 3 ;;
  x_answer <- mnew 3 3 ;;
  x_answer_1 <- mbuild TyD qsecond x_answer [0; 0; 0; 1; 1; 1; 2; 2; 2] [0; 1; 2; 0; 1; 2; 0; 1; 2]
    [99; 97; 87; 83; 100; 81; 72; 105; 78]%Q ;;
  x_result_1 <- t_mxm TyD noacc (mkSr qplus qtimes TyD) NoMask MERGE x_result (Trn x_mA_1) (Trn
    x_mB_1) ;;
  x_q <- meq x_result_1 x_answer_1 ;;
  _ <- check x_q ;;
  Ok tt) = Ok tt.
Proof. vm_compute. reflexivity. Qed.

(** test_new_mxm.cpp:295-324, optimized_sequential platform *)
Example test_a_and_b_transpose_opt :
 (x_mA <- mnew 3 3 ;;
  x_mA_1 <- mbuild TyD qsecond x_mA [0; 0; 0; 1; 1; 1; 2; 2; 2] [0; 1; 2; 0; 1; 2; 0; 1; 2] [12; 7;
    3; 4; 5; 6; 7; 8; 9]%Q ;;
  x_mB <- mnew 3 3 ;;
  x_mB_1 <- mbuild TyD qsecond x_mB [0; 0; 0; 1; 1; 1; 2; 2; 2] [0; 1; 2; 0; 1; 2; 0; 1; 2] [5; 8;
    1; 2; 6; 7; 3; 4; 5]%Q ;;
  x_result <- mnew 3 3 ;;
  x_answer <- mnew 3 3 ;;
  x_answer_1 <- mbuild TyD qsecond x_answer [0; 0; 0; 1; 1; 1; 2; 2; 2] [0; 1; 2; 0; 1; 2; 0; 1; 2]
    [99; 97; 87; 83; 100; 81; 72; 105; 78]%Q ;;
  x_result_1 <- t_opt_mxm TyD noacc TyD (mkSr qplus qtimes TyD) NoMask MERGE x_result (OTrn (Other
    x_mA_1)) (OTrn (Other x_mB_1)) ;;
  x_q <- meq x_result_1 x_answer_1 ;;
  _ <- check x_q ;;
  Ok tt) = Ok tt.
Proof. vm_compute. reflexivity. Qed.
