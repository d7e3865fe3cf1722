(** The tests of /repo/src/test/test_views.cpp, run on the model.  Generated translation. *)
From Verif Require Import TestRun.


(** test_views.cpp:45-70 *)
Example test_mxm :
 (x_mA <- mdense0 TyD [[12; 7; 3]; [4; 5; 6]; [7; 8; 9]]%Q 0%Q ;;
  x_mB <- mdense0 TyD [[5; 8; 1; 2]; [6; 7; 3; 0]; [4; 5; 9; 1]]%Q 0%Q ;;
  x_result <- mnew 3 4 ;;
  x_answer <- mdense0 TyD [[114; 160; 60; 27]; [74; 97; 73; 14]; [119; 157; 112; 23]]%Q 0%Q ;;
  x_result_1 <- t_mxm TyD noacc (mkSr qplus qtimes TyD) NoMask MERGE x_result (Mat x_mA) (Mat x_mB)
    ;;
  x_q <- meq x_result_1 x_answer ;;
  _ <- check x_q ;;
  Ok tt) = Ok tt.
Proof. vm_compute. reflexivity. Qed.

(** test_views.cpp:73-103 *)
Example test_mxm_masked :
 (x_mA <- mdense0 TyD [[12; 7; 3]; [4; 5; 6]; [7; 8; 9]]%Q 0%Q ;;
  x_mB <- mdense0 TyD [[5; 8; 1; 2]; [6; 7; 3; 0]; [4; 5; 9; 1]]%Q 0%Q ;;
  x_result <- mnew 3 4 ;;
  x_answer <- mdense0 TyD [[114; 0; 0; 0]; [74; 97; 0; 0]; [119; 157; 112; 0]]%Q 0%Q ;;
  x_mask <- mdense0 (TyU 8) [[1; 0; 0; 0]; [1; 1; 0; 0]; [1; 1; 1; 0]]%Q 0%Q ;;
  x_result_1 <- t_mxm TyD noacc (mkSr qplus qtimes TyD) (MVal x_mask) MERGE x_result (Mat x_mA) (Mat
    x_mB) ;;
  x_q <- meq x_result_1 x_answer ;;
  _ <- check x_q ;;
  Ok tt) = Ok tt.
Proof. vm_compute. reflexivity. Qed.

(** test_views.cpp:106-136 *)
Example test_mxm_complemented_mask :
 (x_mA <- mdense0 TyD [[12; 7; 3]; [4; 5; 6]; [7; 8; 9]]%Q 0%Q ;;
  x_mB <- mdense0 TyD [[5; 8; 1; 2]; [6; 7; 3; 0]; [4; 5; 9; 1]]%Q 0%Q ;;
  x_result <- mnew 3 4 ;;
  x_answer <- mdense0 TyD [[114; 0; 0; 0]; [74; 97; 0; 0]; [119; 157; 112; 0]]%Q 0%Q ;;
  x_mask <- mdense0 (TyU 8) [[0; 1; 1; 1]; [0; 0; 1; 1]; [0; 0; 0; 1]]%Q 0%Q ;;
  x_result_1 <- t_mxm TyD noacc (mkSr qplus qtimes TyD) (MComp x_mask) MERGE x_result (Mat x_mA)
    (Mat x_mB) ;;
  x_q <- meq x_result_1 x_answer ;;
  _ <- check x_q ;;
  Ok tt) = Ok tt.
Proof. vm_compute. reflexivity. Qed.

(** test_views.cpp:139-169 *)
Example test_mxm_structure_mask :
 (x_mA <- mdense0 TyD [[12; 7; 3]; [4; 5; 6]; [7; 8; 9]]%Q 0%Q ;;
  x_mB <- mdense0 TyD [[5; 8; 1; 2]; [6; 7; 3; 0]; [4; 5; 9; 1]]%Q 0%Q ;;
  x_result <- mnew 3 4 ;;
  x_answer <- mdense0 TyD [[114; 0; 0; 0]; [74; 97; 0; 0]; [119; 157; 112; 0]]%Q 0%Q ;;
  x_mask <- mdense0 (TyU 8) [[1; 99; 99; 99]; [0; 1; 99; 99]; [0; 0; 1; 99]]%Q 99%Q ;;
  x_result_1 <- t_mxm TyD noacc (mkSr qplus qtimes TyD) (MStruct x_mask) MERGE x_result (Mat x_mA)
    (Mat x_mB) ;;
  x_q <- meq x_result_1 x_answer ;;
  _ <- check x_q ;;
  Ok tt) = Ok tt.
Proof. vm_compute. reflexivity. Qed.

(** test_views.cpp:172-203 *)
Example test_mxm_complemented_structure_mask :
 (x_mA <- mdense0 TyD [[12; 7; 3]; [4; 5; 6]; [7; 8; 9]]%Q 0%Q ;;
  x_mB <- mdense0 TyD [[5; 8; 1; 2]; [6; 7; 3; 0]; [4; 5; 9; 1]]%Q 0%Q ;;
  x_result <- mnew 3 4 ;;
  x_answer <- mdense0 TyD [[114; 0; 0; 0]; [74; 97; 0; 0]; [119; 157; 112; 0]]%Q 0%Q ;;
  x_mask <- mdense0 (TyU 8) [[99; 1; 0; 1]; [99; 99; 0; 1]; [99; 99; 99; 0]]%Q 99%Q ;;
  x_result_1 <- t_mxm TyD noacc (mkSr qplus qtimes TyD) (MSComp x_mask) MERGE x_result (Mat x_mA)
    (Mat x_mB) ;;
  x_q <- meq x_result_1 x_answer ;;
  _ <- check x_q ;;
  Ok tt) = Ok tt.
Proof. vm_compute. reflexivity. Qed.

(** test_views.cpp:206-233 *)
Example test_mxm_a_transpose :
 (x_mA <- mdense0 TyD [[12; 7; 3]; [4; 5; 6]; [7; 8; 9]]%Q 0%Q ;;
  x_mB <- mdense0 TyD [[5; 8; 1; 2]; [6; 7; 3; 0]; [4; 5; 9; 1]]%Q 0%Q ;;
  x_result <- mnew 3 4 ;;
  x_answer <- mnew 3 4 ;;
  x_answer_1 <- mbuild TyD qsecond x_answer [0; 0; 0; 0; 1; 1; 1; 1; 2; 2; 2; 2] [0; 1; 2; 3; 0; 1;
    2; 3; 0; 1; 2; 3] [112; 159; 87; 31; 97; 131; 94; 22; 87; 111; 102; 15]%Q ;;
  x_result_1 <- t_mxm TyD noacc (mkSr qplus qtimes TyD) NoMask MERGE x_result (Trn x_mA) (Mat x_mB)
    ;;
  x_q <- meq x_result_1 x_answer_1 ;;
  _ <- check x_q ;;
  Ok tt) = Ok tt.
Proof. vm_compute. reflexivity. Qed.

(** test_views.cpp:236-262 *)
Example test_mxm_b_transpose :
 (x_mA <- mdense0 TyD [[12; 7; 3]; [4; 5; 6]; [7; 8; 9]]%Q 0%Q ;;
  x_mB <- mdense0 TyD [[5; 8; 1]; [2; 6; 7]; [3; 4; 5]]%Q 0%Q ;;
  x_result <- mnew 3 3 ;;
  x_answer <- mnew 3 3 ;;
  x_answer_1 <- mbuild TyD qsecond x_answer [0; 0; 0; 1; 1; 1; 2; 2; 2] [0; 1; 2; 0; 1; 2; 0; 1; 2]
    [119; 87; 79; 66; 80; 62; 108; 125; 98]%Q ;;
  x_result_1 <- t_mxm TyD noacc (mkSr qplus qtimes TyD) NoMask MERGE x_result (Mat x_mA) (Trn x_mB)
    ;;
  x_q <- meq x_result_1 x_answer_1 ;;
  _ <- check x_q ;;
  Ok tt) = Ok tt.
Proof. vm_compute. reflexivity. Qed.

(** test_views.cpp:265-291 *)
Example test_mxm_a_and_b_transpose :
 (x_mA <- mdense0 TyD [[12; 7; 3]; [4; 5; 6]; [7; 8; 9]]%Q 0%Q ;;
  x_mB <- mdense0 TyD [[5; 8; 1]; [2; 6; 7]; [3; 4; 5]]%Q 0%Q ;;
  x_result <- mnew 3 3 ;;
  x_answer <- mnew 3 3 ;;
  x_answer_1 <- mbuild TyD qsecond x_answer [0; 0; 0; 1; 1; 1; 2; 2; 2] [0; 1; 2; 0; 1; 2; 0; 1; 2]
    [99; 97; 87; 83; 100; 81; 72; 105; 78]%Q ;;
  x_result_1 <- t_mxm TyD noacc (mkSr qplus qtimes TyD) NoMask MERGE x_result (Trn x_mA) (Trn x_mB)
    ;;
  x_q <- meq x_result_1 x_answer_1 ;;
  _ <- check x_q ;;
  Ok tt) = Ok tt.
Proof. vm_compute. reflexivity. Qed.

(** test_views.cpp:298-319 *)
Example test_mxv :
 (x_mA <- mdense0 TyD [[12; 7; 3]; [4; 5; 6]; [7; 8; 9]]%Q 0%Q ;;
  x_mB <- vdense0 TyD [5; 6; 4]%Q 0%Q ;;
  x_result <- vnew 3 ;;
  x_answer <- vdense0 TyD [114; 74; 119]%Q 0%Q ;;
  x_result_1 <- t_mxv TyD noacc (mkSr qplus qtimes TyD) NoMask MERGE x_result (Mat x_mA) x_mB ;;
  x_q <- veq x_result_1 x_answer ;;
  _ <- check x_q ;;
  Ok tt) = Ok tt.
Proof. vm_compute. reflexivity. Qed.

(** test_views.cpp:322-346 *)
Example test_mxv_masked :
 (x_mA <- mdense0 TyD [[12; 7; 3]; [4; 5; 6]; [7; 8; 9]]%Q 0%Q ;;
  x_mB <- vdense0 TyD [5; 6; 4]%Q 0%Q ;;
  x_result <- vnew 3 ;;
  x_answer <- vdense0 TyD [114; 74; 0]%Q 0%Q ;;
  x_mask <- vdense0 (TyU 8) [1; 1; 0]%Q 0%Q ;;
  x_result_1 <- t_mxv TyD noacc (mkSr qplus qtimes TyD) (MVal x_mask) MERGE x_result (Mat x_mA) x_mB
    ;;
  x_q <- veq x_result_1 x_answer ;;
  _ <- check x_q ;;
  Ok tt) = Ok tt.
Proof. vm_compute. reflexivity. Qed.

(** test_views.cpp:349-373 *)
Example test_mxv_complemented_mask :
 (x_mA <- mdense0 TyD [[12; 7; 3]; [4; 5; 6]; [7; 8; 9]]%Q 0%Q ;;
  x_mB <- vdense0 TyD [5; 6; 4]%Q 0%Q ;;
  x_result <- vnew 3 ;;
  x_answer <- vdense0 TyD [114; 74; 0]%Q 0%Q ;;
  x_mask <- vdense0 (TyU 8) [0; 0; 1]%Q 0%Q ;;
  x_result_1 <- t_mxv TyD noacc (mkSr qplus qtimes TyD) (MComp x_mask) MERGE x_result (Mat x_mA)
    x_mB ;;
  x_q <- veq x_result_1 x_answer ;;
  _ <- check x_q ;;
  Ok tt) = Ok tt.
Proof. vm_compute. reflexivity. Qed.

(** test_views.cpp:376-400 *)
Example test_mxv_structure_mask :
 (x_mA <- mdense0 TyD [[12; 7; 3]; [4; 5; 6]; [7; 8; 9]]%Q 0%Q ;;
  x_mB <- vdense0 TyD [5; 6; 4]%Q 0%Q ;;
  x_result <- vnew 3 ;;
  x_answer <- vdense0 TyD [114; 74; 0]%Q 0%Q ;;
  x_mask <- vdense0 (TyU 8) [1; 0; 99]%Q 99%Q ;;
  x_result_1 <- t_mxv TyD noacc (mkSr qplus qtimes TyD) (MStruct x_mask) MERGE x_result (Mat x_mA)
    x_mB ;;
  x_q <- veq x_result_1 x_answer ;;
  _ <- check x_q ;;
  Ok tt) = Ok tt.
Proof. vm_compute. reflexivity. Qed.

(** test_views.cpp:403-428 *)
Example test_mxv_complemented_structure_mask :
 (x_mA <- mdense0 TyD [[12; 7; 3]; [4; 5; 6]; [7; 8; 9]]%Q 0%Q ;;
  x_mB <- vdense0 TyD [5; 6; 4]%Q 0%Q ;;
  x_result <- vnew 3 ;;
  x_answer <- vdense0 TyD [114; 74; 0]%Q 0%Q ;;
  x_mask <- vdense0 (TyU 8) [99; 99; 0]%Q 99%Q ;;
  x_result_1 <- t_mxv TyD noacc (mkSr qplus qtimes TyD) (MSComp x_mask) MERGE x_result (Mat x_mA)
    x_mB ;;
  x_q <- veq x_result_1 x_answer ;;
  _ <- check x_q ;;
  Ok tt) = Ok tt.
Proof. vm_compute. reflexivity. Qed.
