(** The tests of /repo/src/test/test_mxm_ABT.cpp, run on the model.  Generated translation. *)
From Verif Require Import TestRun.

Definition d_A_dense_3x3 : list (list Q) :=
  [[12; 7; 3];
   [4; 5; 6];
   [7; 8; 9]]%Q.
Definition d_BT_dense_3x4 : list (list Q) :=
  [[5; 6; 4];
   [8; 7; 5];
   [1; 3; 9];
   [2; 0; 1]]%Q.
Definition d_Answer_dense : list (list Q) :=
  [[114; 160; 60; 27];
   [74; 97; 73; 14];
   [119; 157; 112; 23]]%Q.
Definition d_A_sparse_3x3 : list (list Q) :=
  [[12; 7; 0];
   [0; (-5); 0];
   [7; 0; 9]]%Q.
Definition d_AT_sparse_3x3 : list (list Q) :=
  [[12; 0; 7];
   [7; (-5); 0];
   [0; 0; 9]]%Q.
Definition d_BT_sparse_3x4 : list (list Q) :=
  [[5; 0; 4];
   [8; (-7); 0];
   [0; 3; 0];
   [(-2); 0; 1]]%Q.
Definition d_AA_answer_sparse : list (list Q) :=
  [[144; 49; 0];
   [0; 25; 0];
   [147; 49; 81]]%Q.
Definition d_Answer_sparse : list (list Q) :=
  [[60; 47; 21; (-24)];
   [0; 35; (-15); 0];
   [71; 56; 0; (-5)]]%Q.
Definition d_Symmetric_4x4 : list (list Q) :=
  [[1; 1; 0; 0];
   [1; 2; 2; 0];
   [0; 2; 3; 3];
   [0; 0; 3; 4]]%Q.
Definition d_Symmetric2_4x4 : list (list Q) :=
  [[2; 3; 2; 0];
   [3; 9; 10; 6];
   [2; 10; 22; 21];
   [0; 6; 21; 25]]%Q.
Definition d_Ones_4x4 : list (list Q) :=
  [[1; 1; 1; 1];
   [1; 1; 1; 1];
   [1; 1; 1; 1];
   [1; 1; 1; 1]]%Q.
Definition d_Ones_3x4 : list (list Q) :=
  [[1; 1; 1; 1];
   [1; 1; 1; 1];
   [1; 1; 1; 1]]%Q.
Definition d_Ones_3x3 : list (list Q) :=
  [[1; 1; 1];
   [1; 1; 1];
   [1; 1; 1]]%Q.
Definition d_Identity_3x3 : list (list Q) :=
  [[1; 0; 0];
   [0; 1; 0];
   [0; 0; 1]]%Q.
Definition d_Lower_3x3 : list (list Q) :=
  [[1; 0; 0];
   [1; 1; 0];
   [1; 1; 1]]%Q.
Definition d_Lower_3x4 : list (list Q) :=
  [[1; 0; 0; 0];
   [1; 1; 0; 0];
   [1; 1; 1; 0]]%Q.
Definition d_Lower_4x4 : list (list Q) :=
  [[1; 0; 0; 0];
   [1; 1; 0; 0];
   [1; 1; 1; 0];
   [1; 1; 1; 1]]%Q.
Definition d_NotLower_3x3 : list (list Q) :=
  [[0; 1; 1];
   [0; 0; 1];
   [0; 0; 0]]%Q.
Definition d_NotLower_3x4 : list (list Q) :=
  [[0; 1; 1; 1];
   [0; 0; 1; 1];
   [0; 0; 0; 1]]%Q.
Definition d_NotLower_4x4 : list (list Q) :=
  [[0; 1; 1; 1];
   [0; 0; 1; 1];
   [0; 0; 0; 1];
   [0; 0; 0; 0]]%Q.
Definition d_LowerMask_3x4 : list (list Q) :=
  [[1; 0; 0; 0];
   [1; (1 # 2); 0; 0];
   [1; (-1); (3 # 2); 0]]%Q.
Definition d_LowerBool_3x4 : list (list Q) :=
  [[1; 0; 0; 0];
   [1; 1; 0; 0];
   [1; 1; 1; 0]]%Q.
Definition d_LowerBool_3x3 : list (list Q) :=
  [[1; 0; 0];
   [1; 1; 0];
   [1; 1; 1]]%Q.
Definition d_NotLowerBool_3x3 : list (list Q) :=
  [[0; 1; 1];
   [0; 0; 1];
   [0; 0; 0]]%Q.

(** test_mxm_ABT.cpp:232-248 *)
Example test_mxm_NoMask_NoAccum_ABT_empty :
 (x_Zero <- mnew 3 3 ;;
  x_Ones <- mdense0 TyD d_Ones_3x3 0%Q ;;
  x_C <- mdense0 TyD d_Ones_3x3 0%Q ;;
  x_mD <- mdense0 TyD d_Ones_3x3 0%Q ;;
  x_C_1 <- t_mxm TyD noacc (mkSr qplus qtimes TyD) NoMask MERGE x_C (Mat x_Zero) (Trn x_Ones) ;;
  x_q <- meq x_C_1 x_Zero ;;
  _ <- check x_q ;;
  x_mD_1 <- t_mxm TyD noacc (mkSr qplus qtimes TyD) NoMask MERGE x_mD (Mat x_Ones) (Trn x_Zero) ;;
  x_q_1 <- meq x_mD_1 x_Zero ;;
  _ <- check x_q_1 ;;
  Ok tt) = Ok tt.
Proof. vm_compute. reflexivity. Qed.

(** test_mxm_ABT.cpp:232-248, optimized_sequential platform *)
Example test_mxm_NoMask_NoAccum_ABT_empty_opt :
 (x_Zero <- mnew 3 3 ;;
  x_Ones <- mdense0 TyD d_Ones_3x3 0%Q ;;
  x_C <- mdense0 TyD d_Ones_3x3 0%Q ;;
  x_mD <- mdense0 TyD d_Ones_3x3 0%Q ;;
  x_C_1 <- t_opt_mxm TyD noacc TyD (mkSr qplus qtimes TyD) NoMask MERGE x_C (OMat (Other x_Zero))
    (OTrn (Other x_Ones)) ;;
  x_q <- meq x_C_1 x_Zero ;;
  _ <- check x_q ;;
  x_mD_1 <- t_opt_mxm TyD noacc TyD (mkSr qplus qtimes TyD) NoMask MERGE x_mD (OMat (Other x_Ones))
    (OTrn (Other x_Zero)) ;;
  x_q_1 <- meq x_mD_1 x_Zero ;;
  _ <- check x_q_1 ;;
  Ok tt) = Ok tt.
Proof. vm_compute. reflexivity. Qed.

(** test_mxm_ABT.cpp:251-266 *)
Example test_mxm_NoMask_NoAccum_ABT_dense :
 (x_A <- mdense0 TyD d_A_dense_3x3 0%Q ;;
  x_B <- mdense0 TyD d_BT_dense_3x4 0%Q ;;
  x_result <- mnew 3 4 ;;
  x_answer <- mdense0 TyD d_Answer_dense 0%Q ;;
  x_result_1 <- t_mxm TyD noacc (mkSr qplus qtimes TyD) NoMask MERGE x_result (Mat x_A) (Trn x_B) ;;
  x_q <- meq x_result_1 x_answer ;;
  _ <- check x_q ;;
  Ok tt) = Ok tt.
Proof. vm_compute. reflexivity. Qed.

(** test_mxm_ABT.cpp:251-266, optimized_sequential platform *)
Example test_mxm_NoMask_NoAccum_ABT_dense_opt :
 (x_A <- mdense0 TyD d_A_dense_3x3 0%Q ;;
  x_B <- mdense0 TyD d_BT_dense_3x4 0%Q ;;
  x_result <- mnew 3 4 ;;
  x_answer <- mdense0 TyD d_Answer_dense 0%Q ;;
  x_result_1 <- t_opt_mxm TyD noacc TyD (mkSr qplus qtimes TyD) NoMask MERGE x_result (OMat (Other
    x_A)) (OTrn (Other x_B)) ;;
  x_q <- meq x_result_1 x_answer ;;
  _ <- check x_q ;;
  Ok tt) = Ok tt.
Proof. vm_compute. reflexivity. Qed.

(** test_mxm_ABT.cpp:269-294 *)
Example test_mxm_NoMask_NoAccum_ABT_emptyRowA_emptyColB :
 (x_A <- mdense0 TyD [[8; 1; 6]; [0; 0; 0]; [4; 9; 2]]%Q 0%Q ;;
  x_B <- mdense0 TyD [[0; 1; 0]; [0; 0; 0]; [0; 1; 1]; [1; 1; 1]]%Q 0%Q ;;
  x_result <- mnew 3 4 ;;
  x_answer <- mdense0 TyD [[1; 0; 7; 15]; [0; 0; 0; 0]; [9; 0; 11; 15]]%Q 0%Q ;;
  x_result_1 <- t_mxm TyD noacc (mkSr qplus qtimes TyD) NoMask MERGE x_result (Mat x_A) (Trn x_B) ;;
  x_q <- meq x_result_1 x_answer ;;
  _ <- check x_q ;;
  Ok tt) = Ok tt.
Proof. vm_compute. reflexivity. Qed.

(** test_mxm_ABT.cpp:269-294, optimized_sequential platform *)
Example test_mxm_NoMask_NoAccum_ABT_emptyRowA_emptyColB_opt :
 (x_A <- mdense0 TyD [[8; 1; 6]; [0; 0; 0]; [4; 9; 2]]%Q 0%Q ;;
  x_B <- mdense0 TyD [[0; 1; 0]; [0; 0; 0]; [0; 1; 1]; [1; 1; 1]]%Q 0%Q ;;
  x_result <- mnew 3 4 ;;
  x_answer <- mdense0 TyD [[1; 0; 7; 15]; [0; 0; 0; 0]; [9; 0; 11; 15]]%Q 0%Q ;;
  x_result_1 <- t_opt_mxm TyD noacc TyD (mkSr qplus qtimes TyD) NoMask MERGE x_result (OMat (Other
    x_A)) (OTrn (Other x_B)) ;;
  x_q <- meq x_result_1 x_answer ;;
  _ <- check x_q ;;
  Ok tt) = Ok tt.
Proof. vm_compute. reflexivity. Qed.

(** test_mxm_ABT.cpp:297-322 *)
Example test_mxm_NoMask_NoAccum_ABT_emptyColA_emptyRowB :
 (x_A <- mdense0 TyD [[8; 0; 6]; [1; 0; 9]; [4; 0; 2]]%Q 0%Q ;;
  x_B <- mdense0 TyD [[0; 1; 0]; [1; 0; 0]; [0; 1; 0]; [1; 1; 0]]%Q 0%Q ;;
  x_result <- mnew 3 4 ;;
  x_answer <- mdense0 TyD [[0; 8; 0; 8]; [0; 1; 0; 1]; [0; 4; 0; 4]]%Q 0%Q ;;
  x_result_1 <- t_mxm TyD noacc (mkSr qplus qtimes TyD) NoMask MERGE x_result (Mat x_A) (Trn x_B) ;;
  x_q <- meq x_result_1 x_answer ;;
  _ <- check x_q ;;
  Ok tt) = Ok tt.
Proof. vm_compute. reflexivity. Qed.

(** test_mxm_ABT.cpp:297-322, optimized_sequential platform *)
Example test_mxm_NoMask_NoAccum_ABT_emptyColA_emptyRowB_opt :
 (x_A <- mdense0 TyD [[8; 0; 6]; [1; 0; 9]; [4; 0; 2]]%Q 0%Q ;;
  x_B <- mdense0 TyD [[0; 1; 0]; [1; 0; 0]; [0; 1; 0]; [1; 1; 0]]%Q 0%Q ;;
  x_result <- mnew 3 4 ;;
  x_answer <- mdense0 TyD [[0; 8; 0; 8]; [0; 1; 0; 1]; [0; 4; 0; 4]]%Q 0%Q ;;
  x_result_1 <- t_opt_mxm TyD noacc TyD (mkSr qplus qtimes TyD) NoMask MERGE x_result (OMat (Other
    x_A)) (OTrn (Other x_B)) ;;
  x_q <- meq x_result_1 x_answer ;;
  _ <- check x_q ;;
  Ok tt) = Ok tt.
Proof. vm_compute. reflexivity. Qed.

(** test_mxm_ABT.cpp:325-338 *)
Example test_mxm_NoMask_NoAccum_ABT_ABdup :
 (x_mat <- mdense0 TyD d_Symmetric_4x4 0%Q ;;
  x_m3 <- mnew 4 4 ;;
  x_answer <- mdense0 TyD d_Symmetric2_4x4 0%Q ;;
  x_m3_1 <- t_mxm TyD noacc (mkSr qplus qtimes TyD) NoMask MERGE x_m3 (Mat x_mat) (Trn x_mat) ;;
  x_q <- meq x_m3_1 x_answer ;;
  _ <- check x_q ;;
  Ok tt) = Ok tt.
Proof. vm_compute. reflexivity. Qed.

(** test_mxm_ABT.cpp:325-338, optimized_sequential platform *)
Example test_mxm_NoMask_NoAccum_ABT_ABdup_opt :
 (x_mat <- mdense0 TyD d_Symmetric_4x4 0%Q ;;
  x_m3 <- mnew 4 4 ;;
  x_answer <- mdense0 TyD d_Symmetric2_4x4 0%Q ;;
  x_m3_1 <- t_opt_mxm TyD noacc TyD (mkSr qplus qtimes TyD) NoMask MERGE x_m3 (OMat (Other x_mat))
    (OTrn (Other x_mat)) ;;
  x_q <- meq x_m3_1 x_answer ;;
  _ <- check x_q ;;
  Ok tt) = Ok tt.
Proof. vm_compute. reflexivity. Qed.

(** test_mxm_ABT.cpp:341-354 *)
Example test_mxm_NoMask_NoAccum_ABT_ACdup :
 (x_C <- mdense0 TyD d_A_sparse_3x3 0%Q ;;
  x_B <- mdense0 TyD d_AT_sparse_3x3 0%Q ;;
  x_answer <- mdense0 TyD d_AA_answer_sparse 0%Q ;;
  x_C_1 <- t_mxm TyD noacc (mkSr qplus qtimes TyD) NoMask MERGE x_C (Mat x_C) (Trn x_B) ;;
  x_q <- meq x_C_1 x_answer ;;
  _ <- check x_q ;;
  Ok tt) = Ok tt.
Proof. vm_compute. reflexivity. Qed.

(** test_mxm_ABT.cpp:341-354, optimized_sequential platform *)
Example test_mxm_NoMask_NoAccum_ABT_ACdup_opt :
 (x_C <- mdense0 TyD d_A_sparse_3x3 0%Q ;;
  x_B <- mdense0 TyD d_AT_sparse_3x3 0%Q ;;
  x_answer <- mdense0 TyD d_AA_answer_sparse 0%Q ;;
  x_C_1 <- t_opt_mxm TyD noacc TyD (mkSr qplus qtimes TyD) NoMask MERGE x_C (OMat (TheOutput (fun x
    => x))) (OTrn (Other x_B)) ;;
  x_q <- meq x_C_1 x_answer ;;
  _ <- check x_q ;;
  Ok tt) = Ok tt.
Proof. vm_compute. reflexivity. Qed.

(** test_mxm_ABT.cpp:357-370 *)
Example test_mxm_NoMask_NoAccum_ABT_BCdup :
 (x_A <- mdense0 TyD d_A_sparse_3x3 0%Q ;;
  x_C <- mdense0 TyD d_AT_sparse_3x3 0%Q ;;
  x_answer <- mdense0 TyD d_AA_answer_sparse 0%Q ;;
  x_C_1 <- t_mxm TyD noacc (mkSr qplus qtimes TyD) NoMask MERGE x_C (Mat x_A) (Trn x_C) ;;
  x_q <- meq x_C_1 x_answer ;;
  _ <- check x_q ;;
  Ok tt) = Ok tt.
Proof. vm_compute. reflexivity. Qed.

(** test_mxm_ABT.cpp:357-370, optimized_sequential platform *)
Example test_mxm_NoMask_NoAccum_ABT_BCdup_opt :
 (x_A <- mdense0 TyD d_A_sparse_3x3 0%Q ;;
  x_C <- mdense0 TyD d_AT_sparse_3x3 0%Q ;;
  x_answer <- mdense0 TyD d_AA_answer_sparse 0%Q ;;
  x_C_1 <- t_opt_mxm TyD noacc TyD (mkSr qplus qtimes TyD) NoMask MERGE x_C (OMat (Other x_A)) (OTrn
    (TheOutput (fun x => x))) ;;
  x_q <- meq x_C_1 x_answer ;;
  _ <- check x_q ;;
  Ok tt) = Ok tt.
Proof. vm_compute. reflexivity. Qed.

(** test_mxm_ABT.cpp:377-389 *)
Example test_mxm_NoMask_Accum_ABT :
 (x_A <- mdense0 TyD d_A_dense_3x3 0%Q ;;
  x_B <- mdense0 TyD d_BT_dense_3x4 0%Q ;;
  x_result <- mnew 3 4 ;;
  x_answer <- mdense0 TyD d_Answer_dense 0%Q ;;
  x_result_1 <- t_mxm TyD (acc TyD qsecond) (mkSr qplus qtimes TyD) NoMask MERGE x_result (Mat x_A)
    (Trn x_B) ;;
  x_q <- meq x_result_1 x_answer ;;
  _ <- check x_q ;;
  Ok tt) = Ok tt.
Proof. vm_compute. reflexivity. Qed.

(** test_mxm_ABT.cpp:377-389, optimized_sequential platform *)
Example test_mxm_NoMask_Accum_ABT_opt :
 (x_A <- mdense0 TyD d_A_dense_3x3 0%Q ;;
  x_B <- mdense0 TyD d_BT_dense_3x4 0%Q ;;
  x_result <- mnew 3 4 ;;
  x_answer <- mdense0 TyD d_Answer_dense 0%Q ;;
  x_result_1 <- t_opt_mxm TyD (acc TyD qsecond) TyD (mkSr qplus qtimes TyD) NoMask MERGE x_result
    (OMat (Other x_A)) (OTrn (Other x_B)) ;;
  x_q <- meq x_result_1 x_answer ;;
  _ <- check x_q ;;
  Ok tt) = Ok tt.
Proof. vm_compute. reflexivity. Qed.

(** test_mxm_ABT.cpp:392-408 *)
Example test_mxm_NoMask_Accum_ABT_empty :
 (x_Zero <- mnew 3 3 ;;
  x_Ones <- mdense0 TyD d_Ones_3x3 0%Q ;;
  x_C <- mdense0 TyD d_Ones_3x3 0%Q ;;
  x_mD <- mdense0 TyD d_Ones_3x3 0%Q ;;
  x_C_1 <- t_mxm TyD (acc TyD qplus) (mkSr qplus qtimes TyD) NoMask MERGE x_C (Mat x_Zero) (Trn
    x_Ones) ;;
  x_q <- meq x_C_1 x_Ones ;;
  _ <- check x_q ;;
  x_mD_1 <- t_mxm TyD (acc TyD qplus) (mkSr qplus qtimes TyD) NoMask MERGE x_mD (Mat x_Ones) (Trn
    x_Zero) ;;
  x_q_1 <- meq x_mD_1 x_Ones ;;
  _ <- check x_q_1 ;;
  Ok tt) = Ok tt.
Proof. vm_compute. reflexivity. Qed.

(** test_mxm_ABT.cpp:392-408, optimized_sequential platform *)
Example test_mxm_NoMask_Accum_ABT_empty_opt :
 (x_Zero <- mnew 3 3 ;;
  x_Ones <- mdense0 TyD d_Ones_3x3 0%Q ;;
  x_C <- mdense0 TyD d_Ones_3x3 0%Q ;;
  x_mD <- mdense0 TyD d_Ones_3x3 0%Q ;;
  x_C_1 <- t_opt_mxm TyD (acc TyD qplus) TyD (mkSr qplus qtimes TyD) NoMask MERGE x_C (OMat (Other
    x_Zero)) (OTrn (Other x_Ones)) ;;
  x_q <- meq x_C_1 x_Ones ;;
  _ <- check x_q ;;
  x_mD_1 <- t_opt_mxm TyD (acc TyD qplus) TyD (mkSr qplus qtimes TyD) NoMask MERGE x_mD (OMat (Other
    x_Ones)) (OTrn (Other x_Zero)) ;;
  x_q_1 <- meq x_mD_1 x_Ones ;;
  _ <- check x_q_1 ;;
  Ok tt) = Ok tt.
Proof. vm_compute. reflexivity. Qed.

(** test_mxm_ABT.cpp:411-440 *)
Example test_mxm_NoMask_Accum_ABT_stored_zero_result :
 (x_A <- mdense0 TyI [[1; 1; 0; 0]; [1; 2; 2; 0]; [0; 2; 3; 3]; [0; 0; 3; 4]]%Q 0%Q ;;
  x_B <- mdense0 TyI [[1; (-1); 0; 0]; [(-2); 1; 0; 0]; [0; 0; 3; (-3)]; [0; 0; (-4); 3]]%Q 0%Q ;;
  x_result <- mnew 4 4 ;;
  x_answer <- mdense0 TyI [[0; (-1); 666; 666]; [(-1); 0; 6; (-8)]; [(-2); 2; 0; (-3)]; [666; 666;
    (-3); 0]]%Q 666%Q ;;
  x_result_1 <- t_mxm TyI (acc TyI (op3 TyI TyI TyI qsecond)) (mkSr (op3 TyI TyI TyI qplus) (op3 TyI
    TyI TyI qtimes) TyI) NoMask MERGE x_result (Mat x_A) (Trn x_B) ;;
  x_q <- meq x_result_1 x_answer ;;
  _ <- check x_q ;;
  _ <- check (Qeq_bool (inject_Z (nvals x_result_1)) 12%Q) ;;
  Ok tt) = Ok tt.
Proof. vm_compute. reflexivity. Qed.

(** test_mxm_ABT.cpp:411-440, optimized_sequential platform *)
Example test_mxm_NoMask_Accum_ABT_stored_zero_result_opt :
 (x_A <- mdense0 TyI [[1; 1; 0; 0]; [1; 2; 2; 0]; [0; 2; 3; 3]; [0; 0; 3; 4]]%Q 0%Q ;;
  x_B <- mdense0 TyI [[1; (-1); 0; 0]; [(-2); 1; 0; 0]; [0; 0; 3; (-3)]; [0; 0; (-4); 3]]%Q 0%Q ;;
  x_result <- mnew 4 4 ;;
  x_answer <- mdense0 TyI [[0; (-1); 666; 666]; [(-1); 0; 6; (-8)]; [(-2); 2; 0; (-3)]; [666; 666;
    (-3); 0]]%Q 666%Q ;;
  x_result_1 <- t_opt_mxm TyI (acc TyI (op3 TyI TyI TyI qsecond)) TyI (mkSr (op3 TyI TyI TyI qplus)
    (op3 TyI TyI TyI qtimes) TyI) NoMask MERGE x_result (OMat (Other x_A)) (OTrn (Other x_B)) ;;
  x_q <- meq x_result_1 x_answer ;;
  _ <- check x_q ;;
  _ <- check (Qeq_bool (inject_Z (nvals x_result_1)) 12%Q) ;;
  Ok tt) = Ok tt.
Proof. vm_compute. reflexivity. Qed.

(** test_mxm_ABT.cpp:443-456 *)
Example test_mxm_NoMask_Accum_ABT_ABdup_Cempty :
 (x_mat <- mdense0 TyD d_Symmetric_4x4 0%Q ;;
  x_result <- mnew 4 4 ;;
  x_answer <- mdense0 TyD d_Symmetric2_4x4 0%Q ;;
  x_result_1 <- t_mxm TyD (acc TyD qsecond) (mkSr qplus qtimes TyD) NoMask MERGE x_result (Mat
    x_mat) (Trn x_mat) ;;
  x_q <- meq x_result_1 x_answer ;;
  _ <- check x_q ;;
  Ok tt) = Ok tt.
Proof. vm_compute. reflexivity. Qed.

(** test_mxm_ABT.cpp:443-456, optimized_sequential platform *)
Example test_mxm_NoMask_Accum_ABT_ABdup_Cempty_opt :
 (x_mat <- mdense0 TyD d_Symmetric_4x4 0%Q ;;
  x_result <- mnew 4 4 ;;
  x_answer <- mdense0 TyD d_Symmetric2_4x4 0%Q ;;
  x_result_1 <- t_opt_mxm TyD (acc TyD qsecond) TyD (mkSr qplus qtimes TyD) NoMask MERGE x_result
    (OMat (Other x_mat)) (OTrn (Other x_mat)) ;;
  x_q <- meq x_result_1 x_answer ;;
  _ <- check x_q ;;
  Ok tt) = Ok tt.
Proof. vm_compute. reflexivity. Qed.

(** test_mxm_ABT.cpp:459-484 *)
Example test_mxm_NoMask_Accum_ABT_emptyRowA_emptyColB :
 (x_A <- mdense0 TyD [[8; 1; 6]; [0; 0; 0]; [4; 9; 2]]%Q 0%Q ;;
  x_B <- mdense0 TyD [[0; 1; 0]; [0; 0; 0]; [0; 1; 1]; [1; 1; 1]]%Q 0%Q ;;
  x_result <- mdense0 TyD d_Ones_3x4 0%Q ;;
  x_answer <- mdense0 TyD [[2; 1; 8; 16]; [1; 1; 1; 1]; [10; 1; 12; 16]]%Q 0%Q ;;
  x_result_1 <- t_mxm TyD (acc TyD qplus) (mkSr qplus qtimes TyD) NoMask MERGE x_result (Mat x_A)
    (Trn x_B) ;;
  x_q <- meq x_result_1 x_answer ;;
  _ <- check x_q ;;
  Ok tt) = Ok tt.
Proof. vm_compute. reflexivity. Qed.

(** test_mxm_ABT.cpp:459-484, optimized_sequential platform *)
Example test_mxm_NoMask_Accum_ABT_emptyRowA_emptyColB_opt :
 (x_A <- mdense0 TyD [[8; 1; 6]; [0; 0; 0]; [4; 9; 2]]%Q 0%Q ;;
  x_B <- mdense0 TyD [[0; 1; 0]; [0; 0; 0]; [0; 1; 1]; [1; 1; 1]]%Q 0%Q ;;
  x_result <- mdense0 TyD d_Ones_3x4 0%Q ;;
  x_answer <- mdense0 TyD [[2; 1; 8; 16]; [1; 1; 1; 1]; [10; 1; 12; 16]]%Q 0%Q ;;
  x_result_1 <- t_opt_mxm TyD (acc TyD qplus) TyD (mkSr qplus qtimes TyD) NoMask MERGE x_result
    (OMat (Other x_A)) (OTrn (Other x_B)) ;;
  x_q <- meq x_result_1 x_answer ;;
  _ <- check x_q ;;
  Ok tt) = Ok tt.
Proof. vm_compute. reflexivity. Qed.

(** test_mxm_ABT.cpp:487-512 *)
Example test_mxm_NoMask_Accum_ABT_emptyColA_emptyRowB :
 (x_A <- mdense0 TyD [[8; 0; 6]; [1; 0; 9]; [4; 0; 2]]%Q 0%Q ;;
  x_B <- mdense0 TyD [[0; 1; 0]; [1; 0; 0]; [0; 1; 0]; [1; 1; 0]]%Q 0%Q ;;
  x_result <- mdense0 TyD d_Ones_3x4 0%Q ;;
  x_answer <- mdense0 TyD [[1; 9; 1; 9]; [1; 2; 1; 2]; [1; 5; 1; 5]]%Q 0%Q ;;
  x_result_1 <- t_mxm TyD (acc TyD qplus) (mkSr qplus qtimes TyD) NoMask MERGE x_result (Mat x_A)
    (Trn x_B) ;;
  x_q <- meq x_result_1 x_answer ;;
  _ <- check x_q ;;
  Ok tt) = Ok tt.
Proof. vm_compute. reflexivity. Qed.

(** test_mxm_ABT.cpp:487-512, optimized_sequential platform *)
Example test_mxm_NoMask_Accum_ABT_emptyColA_emptyRowB_opt :
 (x_A <- mdense0 TyD [[8; 0; 6]; [1; 0; 9]; [4; 0; 2]]%Q 0%Q ;;
  x_B <- mdense0 TyD [[0; 1; 0]; [1; 0; 0]; [0; 1; 0]; [1; 1; 0]]%Q 0%Q ;;
  x_result <- mdense0 TyD d_Ones_3x4 0%Q ;;
  x_answer <- mdense0 TyD [[1; 9; 1; 9]; [1; 2; 1; 2]; [1; 5; 1; 5]]%Q 0%Q ;;
  x_result_1 <- t_opt_mxm TyD (acc TyD qplus) TyD (mkSr qplus qtimes TyD) NoMask MERGE x_result
    (OMat (Other x_A)) (OTrn (Other x_B)) ;;
  x_q <- meq x_result_1 x_answer ;;
  _ <- check x_q ;;
  Ok tt) = Ok tt.
Proof. vm_compute. reflexivity. Qed.

(** test_mxm_ABT.cpp:515-535 *)
Example test_mxm_NoMask_Accum_ABT_ABdup :
 (x_mat <- mdense0 TyD d_A_sparse_3x3 0%Q ;;
  x_m3 <- mdense0 TyD d_Ones_3x3 0%Q ;;
  x_answer <- mdense0 TyD [[194; (-34); 85]; [(-34); 26; 1]; [85; 1; 131]]%Q 0%Q ;;
  x_m3_1 <- t_mxm TyD (acc TyD qplus) (mkSr qplus qtimes TyD) NoMask MERGE x_m3 (Mat x_mat) (Trn
    x_mat) ;;
  x_q <- meq x_m3_1 x_answer ;;
  _ <- check x_q ;;
  Ok tt) = Ok tt.
Proof. vm_compute. reflexivity. Qed.

(** test_mxm_ABT.cpp:515-535, optimized_sequential platform *)
Example test_mxm_NoMask_Accum_ABT_ABdup_opt :
 (x_mat <- mdense0 TyD d_A_sparse_3x3 0%Q ;;
  x_m3 <- mdense0 TyD d_Ones_3x3 0%Q ;;
  x_answer <- mdense0 TyD [[194; (-34); 85]; [(-34); 26; 1]; [85; 1; 131]]%Q 0%Q ;;
  x_m3_1 <- t_opt_mxm TyD (acc TyD qplus) TyD (mkSr qplus qtimes TyD) NoMask MERGE x_m3 (OMat (Other
    x_mat)) (OTrn (Other x_mat)) ;;
  x_q <- meq x_m3_1 x_answer ;;
  _ <- check x_q ;;
  Ok tt) = Ok tt.
Proof. vm_compute. reflexivity. Qed.

(** test_mxm_ABT.cpp:538-556 *)
Example test_mxm_NoMask_Accum_ABT_ACdup :
 (x_C <- mdense0 TyD d_A_sparse_3x3 0%Q ;;
  x_B <- mdense0 TyD d_AT_sparse_3x3 0%Q ;;
  x_answer <- mdense0 TyD [[156; 56; 0]; [0; 20; 0]; [154; 49; 90]]%Q 0%Q ;;
  x_C_1 <- t_mxm TyD (acc TyD qplus) (mkSr qplus qtimes TyD) NoMask MERGE x_C (Mat x_C) (Trn x_B) ;;
  x_q <- meq x_C_1 x_answer ;;
  _ <- check x_q ;;
  Ok tt) = Ok tt.
Proof. vm_compute. reflexivity. Qed.

(** test_mxm_ABT.cpp:538-556, optimized_sequential platform *)
Example test_mxm_NoMask_Accum_ABT_ACdup_opt :
 (x_C <- mdense0 TyD d_A_sparse_3x3 0%Q ;;
  x_B <- mdense0 TyD d_AT_sparse_3x3 0%Q ;;
  x_answer <- mdense0 TyD [[156; 56; 0]; [0; 20; 0]; [154; 49; 90]]%Q 0%Q ;;
  x_C_1 <- t_opt_mxm TyD (acc TyD qplus) TyD (mkSr qplus qtimes TyD) NoMask MERGE x_C (OMat
    (TheOutput (fun x => x))) (OTrn (Other x_B)) ;;
  x_q <- meq x_C_1 x_answer ;;
  _ <- check x_q ;;
  Ok tt) = Ok tt.
Proof. vm_compute. reflexivity. Qed.

(** test_mxm_ABT.cpp:559-577 *)
Example test_mxm_NoMask_Accum_ABT_BCdup :
 (x_A <- mdense0 TyD d_A_sparse_3x3 0%Q ;;
  x_C <- mdense0 TyD d_A_sparse_3x3 0%Q ;;
  x_answer <- mdense0 TyD [[205; (-28); 84]; [(-35); 20; 0]; [91; 0; 139]]%Q 0%Q ;;
  x_C_1 <- t_mxm TyD (acc TyD qplus) (mkSr qplus qtimes TyD) NoMask MERGE x_C (Mat x_A) (Trn x_C) ;;
  x_q <- meq x_C_1 x_answer ;;
  _ <- check x_q ;;
  Ok tt) = Ok tt.
Proof. vm_compute. reflexivity. Qed.

(** test_mxm_ABT.cpp:559-577, optimized_sequential platform *)
Example test_mxm_NoMask_Accum_ABT_BCdup_opt :
 (x_A <- mdense0 TyD d_A_sparse_3x3 0%Q ;;
  x_C <- mdense0 TyD d_A_sparse_3x3 0%Q ;;
  x_answer <- mdense0 TyD [[205; (-28); 84]; [(-35); 20; 0]; [91; 0; 139]]%Q 0%Q ;;
  x_C_1 <- t_opt_mxm TyD (acc TyD qplus) TyD (mkSr qplus qtimes TyD) NoMask MERGE x_C (OMat (Other
    x_A)) (OTrn (TheOutput (fun x => x))) ;;
  x_q <- meq x_C_1 x_answer ;;
  _ <- check x_q ;;
  Ok tt) = Ok tt.
Proof. vm_compute. reflexivity. Qed.

(** test_mxm_ABT.cpp:584-662 *)
Example test_mxm_Mask_NoAccum_ABT :
 (x_A <- mdense0 TyD d_A_sparse_3x3 0%Q ;;
  x_Identity <- mdense0 TyD d_Identity_3x3 0%Q ;;
  x_Empty <- mnew 3 3 ;;
  x_Ones <- mdense0 TyD d_Ones_3x3 0%Q ;;
  x_C <- mnew 3 3 ;;
  x_MLower <- mdense0 TyD d_Lower_3x3 0%Q ;;
  x_MNotLower <- mdense0 TyD d_NotLower_3x3 0%Q ;;
  x_AFilled <- mdense0 TyD [[12; 7; 1]; [1; (-5); 1]; [7; 1; 9]]%Q 0%Q ;;
  x_C_1 <- lil_assign x_C x_Ones ;;
  x_C_2 <- t_mxm TyD noacc (mkSr qplus qtimes TyD) (MVal x_Empty) MERGE x_C_1 (Mat x_A) (Trn
    x_Identity) ;;
  x_q <- meq x_C_2 x_Ones ;;
  _ <- check x_q ;;
  x_C_3 <- lil_assign x_C_2 x_Ones ;;
  x_C_4 <- t_mxm TyD noacc (mkSr qplus qtimes TyD) (MVal x_Ones) MERGE x_C_3 (Mat x_A) (Trn
    x_Identity) ;;
  x_q_1 <- meq x_C_4 x_A ;;
  _ <- check x_q_1 ;;
  x_C_5 <- lil_assign x_C_4 x_Ones ;;
  x_C_6 <- t_mxm TyD noacc (mkSr qplus qtimes TyD) (MVal x_A) MERGE x_C_5 (Mat x_A) (Trn x_Identity)
    ;;
  x_q_2 <- meq x_C_6 x_AFilled ;;
  _ <- check x_q_2 ;;
  x_C_7 <- lil_assign x_C_6 x_Ones ;;
  x_C_8 <- t_mxm TyD noacc (mkSr qplus qtimes TyD) (MVal x_MLower) MERGE x_C_7 (Mat x_Ones) (Trn
    x_Identity) ;;
  x_q_3 <- meq x_C_8 x_Ones ;;
  _ <- check x_q_3 ;;
  x_C_9 <- lil_assign x_C_8 x_Ones ;;
  x_C_10 <- t_mxm TyD noacc (mkSr qplus qtimes TyD) (MVal x_MNotLower) MERGE x_C_9 (Mat x_Ones) (Trn
    x_Identity) ;;
  x_q_4 <- meq x_C_10 x_Ones ;;
  _ <- check x_q_4 ;;
  x_C_11 <- lil_assign x_C_10 x_Ones ;;
  x_C_12 <- t_mxm TyD noacc (mkSr qplus qtimes TyD) (MVal x_Empty) REPLACE x_C_11 (Mat x_A) (Trn
    x_Identity) ;;
  x_q_5 <- meq x_C_12 x_Empty ;;
  _ <- check x_q_5 ;;
  x_C_13 <- lil_assign x_C_12 x_Ones ;;
  x_C_14 <- t_mxm TyD noacc (mkSr qplus qtimes TyD) (MVal x_Ones) REPLACE x_C_13 (Mat x_A) (Trn
    x_Identity) ;;
  x_q_6 <- meq x_C_14 x_A ;;
  _ <- check x_q_6 ;;
  x_C_15 <- lil_assign x_C_14 x_Ones ;;
  x_C_16 <- t_mxm TyD noacc (mkSr qplus qtimes TyD) (MVal x_MLower) REPLACE x_C_15 (Mat x_Ones) (Trn
    x_Identity) ;;
  x_q_7 <- meq x_C_16 x_MLower ;;
  _ <- check x_q_7 ;;
  x_C_17 <- lil_assign x_C_16 x_Ones ;;
  x_C_18 <- t_mxm TyD noacc (mkSr qplus qtimes TyD) (MVal x_MNotLower) REPLACE x_C_17 (Mat x_Ones)
    (Trn x_Identity) ;;
  x_q_8 <- meq x_C_18 x_MNotLower ;;
  _ <- check x_q_8 ;;
  Ok tt) = Ok tt.
Proof. vm_compute. reflexivity. Qed.

(** test_mxm_ABT.cpp:584-662, optimized_sequential platform *)
Example test_mxm_Mask_NoAccum_ABT_opt :
 (x_A <- mdense0 TyD d_A_sparse_3x3 0%Q ;;
  x_Identity <- mdense0 TyD d_Identity_3x3 0%Q ;;
  x_Empty <- mnew 3 3 ;;
  x_Ones <- mdense0 TyD d_Ones_3x3 0%Q ;;
  x_C <- mnew 3 3 ;;
  x_MLower <- mdense0 TyD d_Lower_3x3 0%Q ;;
  x_MNotLower <- mdense0 TyD d_NotLower_3x3 0%Q ;;
  x_AFilled <- mdense0 TyD [[12; 7; 1]; [1; (-5); 1]; [7; 1; 9]]%Q 0%Q ;;
  x_C_1 <- lil_assign x_C x_Ones ;;
  x_C_2 <- t_opt_mxm TyD noacc TyD (mkSr qplus qtimes TyD) (MVal (Other x_Empty)) MERGE x_C_1 (OMat
    (Other x_A)) (OTrn (Other x_Identity)) ;;
  x_q <- meq x_C_2 x_Ones ;;
  _ <- check x_q ;;
  x_C_3 <- lil_assign x_C_2 x_Ones ;;
  x_C_4 <- t_opt_mxm TyD noacc TyD (mkSr qplus qtimes TyD) (MVal (Other x_Ones)) MERGE x_C_3 (OMat
    (Other x_A)) (OTrn (Other x_Identity)) ;;
  x_q_1 <- meq x_C_4 x_A ;;
  _ <- check x_q_1 ;;
  x_C_5 <- lil_assign x_C_4 x_Ones ;;
  x_C_6 <- t_opt_mxm TyD noacc TyD (mkSr qplus qtimes TyD) (MVal (Other x_A)) MERGE x_C_5 (OMat
    (Other x_A)) (OTrn (Other x_Identity)) ;;
  x_q_2 <- meq x_C_6 x_AFilled ;;
  _ <- check x_q_2 ;;
  x_C_7 <- lil_assign x_C_6 x_Ones ;;
  x_C_8 <- t_opt_mxm TyD noacc TyD (mkSr qplus qtimes TyD) (MVal (Other x_MLower)) MERGE x_C_7 (OMat
    (Other x_Ones)) (OTrn (Other x_Identity)) ;;
  x_q_3 <- meq x_C_8 x_Ones ;;
  _ <- check x_q_3 ;;
  x_C_9 <- lil_assign x_C_8 x_Ones ;;
  x_C_10 <- t_opt_mxm TyD noacc TyD (mkSr qplus qtimes TyD) (MVal (Other x_MNotLower)) MERGE x_C_9
    (OMat (Other x_Ones)) (OTrn (Other x_Identity)) ;;
  x_q_4 <- meq x_C_10 x_Ones ;;
  _ <- check x_q_4 ;;
  x_C_11 <- lil_assign x_C_10 x_Ones ;;
  x_C_12 <- t_opt_mxm TyD noacc TyD (mkSr qplus qtimes TyD) (MVal (Other x_Empty)) REPLACE x_C_11
    (OMat (Other x_A)) (OTrn (Other x_Identity)) ;;
  x_q_5 <- meq x_C_12 x_Empty ;;
  _ <- check x_q_5 ;;
  x_C_13 <- lil_assign x_C_12 x_Ones ;;
  x_C_14 <- t_opt_mxm TyD noacc TyD (mkSr qplus qtimes TyD) (MVal (Other x_Ones)) REPLACE x_C_13
    (OMat (Other x_A)) (OTrn (Other x_Identity)) ;;
  x_q_6 <- meq x_C_14 x_A ;;
  _ <- check x_q_6 ;;
  x_C_15 <- lil_assign x_C_14 x_Ones ;;
  x_C_16 <- t_opt_mxm TyD noacc TyD (mkSr qplus qtimes TyD) (MVal (Other x_MLower)) REPLACE x_C_15
    (OMat (Other x_Ones)) (OTrn (Other x_Identity)) ;;
  x_q_7 <- meq x_C_16 x_MLower ;;
  _ <- check x_q_7 ;;
  x_C_17 <- lil_assign x_C_16 x_Ones ;;
  x_C_18 <- t_opt_mxm TyD noacc TyD (mkSr qplus qtimes TyD) (MVal (Other x_MNotLower)) REPLACE
    x_C_17 (OMat (Other x_Ones)) (OTrn (Other x_Identity)) ;;
  x_q_8 <- meq x_C_18 x_MNotLower ;;
  _ <- check x_q_8 ;;
  Ok tt) = Ok tt.
Proof. vm_compute. reflexivity. Qed.

(** test_mxm_ABT.cpp:665-714 *)
Example test_mxm_Mask_NoAccum_ABTM_empty :
 (x_Empty <- mnew 3 3 ;;
  x_Ones <- mdense0 TyD d_Ones_3x3 0%Q ;;
  x_C <- mnew 3 3 ;;
  x_M <- mdense0 TyB d_LowerBool_3x3 0%Q ;;
  x_mUpper <- mdense0 TyD d_NotLower_3x3 0%Q ;;
  x_C_1 <- lil_assign x_C x_Ones ;;
  x_C_2 <- t_mxm TyD noacc (mkSr qplus qtimes TyD) (MVal x_M) MERGE x_C_1 (Mat x_Empty) (Trn x_Ones)
    ;;
  x_q <- meq x_C_2 x_mUpper ;;
  _ <- check x_q ;;
  x_C_3 <- lil_assign x_C_2 x_Ones ;;
  x_C_4 <- t_mxm TyD noacc (mkSr qplus qtimes TyD) (MVal x_M) MERGE x_C_3 (Mat x_Ones) (Trn x_Empty)
    ;;
  x_q_1 <- meq x_C_4 x_mUpper ;;
  _ <- check x_q_1 ;;
  x_C_5 <- lil_assign x_C_4 x_Ones ;;
  x_C_6 <- t_mxm TyD noacc (mkSr qplus qtimes TyD) (MVal x_Empty) MERGE x_C_5 (Mat x_Ones) (Trn
    x_Empty) ;;
  x_q_2 <- meq x_C_6 x_Ones ;;
  _ <- check x_q_2 ;;
  x_C_7 <- lil_assign x_C_6 x_Ones ;;
  x_C_8 <- t_mxm TyD noacc (mkSr qplus qtimes TyD) (MVal x_M) REPLACE x_C_7 (Mat x_Empty) (Trn
    x_Ones) ;;
  x_q_3 <- meq x_C_8 x_Empty ;;
  _ <- check x_q_3 ;;
  x_C_9 <- lil_assign x_C_8 x_Ones ;;
  x_C_10 <- t_mxm TyD noacc (mkSr qplus qtimes TyD) (MVal x_M) REPLACE x_C_9 (Mat x_Ones) (Trn
    x_Empty) ;;
  x_q_4 <- meq x_C_10 x_Empty ;;
  _ <- check x_q_4 ;;
  x_C_11 <- lil_assign x_C_10 x_Ones ;;
  x_C_12 <- t_mxm TyD noacc (mkSr qplus qtimes TyD) (MVal x_Empty) REPLACE x_C_11 (Mat x_Ones) (Trn
    x_Empty) ;;
  x_q_5 <- meq x_C_12 x_Empty ;;
  _ <- check x_q_5 ;;
  Ok tt) = Ok tt.
Proof. vm_compute. reflexivity. Qed.

(** test_mxm_ABT.cpp:665-714, optimized_sequential platform *)
Example test_mxm_Mask_NoAccum_ABTM_empty_opt :
 (x_Empty <- mnew 3 3 ;;
  x_Ones <- mdense0 TyD d_Ones_3x3 0%Q ;;
  x_C <- mnew 3 3 ;;
  x_M <- mdense0 TyB d_LowerBool_3x3 0%Q ;;
  x_mUpper <- mdense0 TyD d_NotLower_3x3 0%Q ;;
  x_C_1 <- lil_assign x_C x_Ones ;;
  x_C_2 <- t_opt_mxm TyD noacc TyD (mkSr qplus qtimes TyD) (MVal (Other x_M)) MERGE x_C_1 (OMat
    (Other x_Empty)) (OTrn (Other x_Ones)) ;;
  x_q <- meq x_C_2 x_mUpper ;;
  _ <- check x_q ;;
  x_C_3 <- lil_assign x_C_2 x_Ones ;;
  x_C_4 <- t_opt_mxm TyD noacc TyD (mkSr qplus qtimes TyD) (MVal (Other x_M)) MERGE x_C_3 (OMat
    (Other x_Ones)) (OTrn (Other x_Empty)) ;;
  x_q_1 <- meq x_C_4 x_mUpper ;;
  _ <- check x_q_1 ;;
  x_C_5 <- lil_assign x_C_4 x_Ones ;;
  x_C_6 <- t_opt_mxm TyD noacc TyD (mkSr qplus qtimes TyD) (MVal (Other x_Empty)) MERGE x_C_5 (OMat
    (Other x_Ones)) (OTrn (Other x_Empty)) ;;
  x_q_2 <- meq x_C_6 x_Ones ;;
  _ <- check x_q_2 ;;
  x_C_7 <- lil_assign x_C_6 x_Ones ;;
  x_C_8 <- t_opt_mxm TyD noacc TyD (mkSr qplus qtimes TyD) (MVal (Other x_M)) REPLACE x_C_7 (OMat
    (Other x_Empty)) (OTrn (Other x_Ones)) ;;
  x_q_3 <- meq x_C_8 x_Empty ;;
  _ <- check x_q_3 ;;
  x_C_9 <- lil_assign x_C_8 x_Ones ;;
  x_C_10 <- t_opt_mxm TyD noacc TyD (mkSr qplus qtimes TyD) (MVal (Other x_M)) REPLACE x_C_9 (OMat
    (Other x_Ones)) (OTrn (Other x_Empty)) ;;
  x_q_4 <- meq x_C_10 x_Empty ;;
  _ <- check x_q_4 ;;
  x_C_11 <- lil_assign x_C_10 x_Ones ;;
  x_C_12 <- t_opt_mxm TyD noacc TyD (mkSr qplus qtimes TyD) (MVal (Other x_Empty)) REPLACE x_C_11
    (OMat (Other x_Ones)) (OTrn (Other x_Empty)) ;;
  x_q_5 <- meq x_C_12 x_Empty ;;
  _ <- check x_q_5 ;;
  Ok tt) = Ok tt.
Proof. vm_compute. reflexivity. Qed.

(** test_mxm_ABT.cpp:717-732 *)
Example test_mxm_Mask_NoAccum_ABT_Merge_full_mask :
 (x_A <- mdense0 TyD d_A_dense_3x3 0%Q ;;
  x_B <- mdense0 TyD d_BT_dense_3x4 0%Q ;;
  x_result <- mnew 3 4 ;;
  x_answer <- mdense0 TyD d_Answer_dense 0%Q ;;
  x_mask <- mdense0 TyD d_Ones_3x4 0%Q ;;
  x_result_1 <- t_mxm TyD noacc (mkSr qplus qtimes TyD) (MVal x_mask) MERGE x_result (Mat x_A) (Trn
    x_B) ;;
  x_q <- meq x_result_1 x_answer ;;
  _ <- check x_q ;;
  Ok tt) = Ok tt.
Proof. vm_compute. reflexivity. Qed.

(** test_mxm_ABT.cpp:717-732, optimized_sequential platform *)
Example test_mxm_Mask_NoAccum_ABT_Merge_full_mask_opt :
 (x_A <- mdense0 TyD d_A_dense_3x3 0%Q ;;
  x_B <- mdense0 TyD d_BT_dense_3x4 0%Q ;;
  x_result <- mnew 3 4 ;;
  x_answer <- mdense0 TyD d_Answer_dense 0%Q ;;
  x_mask <- mdense0 TyD d_Ones_3x4 0%Q ;;
  x_result_1 <- t_opt_mxm TyD noacc TyD (mkSr qplus qtimes TyD) (MVal (Other x_mask)) MERGE x_result
    (OMat (Other x_A)) (OTrn (Other x_B)) ;;
  x_q <- meq x_result_1 x_answer ;;
  _ <- check x_q ;;
  Ok tt) = Ok tt.
Proof. vm_compute. reflexivity. Qed.

(** test_mxm_ABT.cpp:736-751 *)
Example test_mxm_Mask_NoAccum_ABT_mask_not_full :
 (x_A <- mdense0 TyD d_A_dense_3x3 0%Q ;;
  x_B <- mdense0 TyD d_BT_dense_3x4 0%Q ;;
  x_answer <- mdense0 TyD d_Answer_dense 0%Q ;;
  x_result <- mnew 3 4 ;;
  x_mask <- mdense0 TyD d_Answer_dense 0%Q ;;
  x_result_1 <- t_mxm TyD noacc (mkSr qplus qtimes TyD) (MVal x_mask) MERGE x_result (Mat x_A) (Trn
    x_B) ;;
  x_q <- meq x_result_1 x_answer ;;
  _ <- check x_q ;;
  Ok tt) = Ok tt.
Proof. vm_compute. reflexivity. Qed.

(** test_mxm_ABT.cpp:736-751, optimized_sequential platform *)
Example test_mxm_Mask_NoAccum_ABT_mask_not_full_opt :
 (x_A <- mdense0 TyD d_A_dense_3x3 0%Q ;;
  x_B <- mdense0 TyD d_BT_dense_3x4 0%Q ;;
  x_answer <- mdense0 TyD d_Answer_dense 0%Q ;;
  x_result <- mnew 3 4 ;;
  x_mask <- mdense0 TyD d_Answer_dense 0%Q ;;
  x_result_1 <- t_opt_mxm TyD noacc TyD (mkSr qplus qtimes TyD) (MVal (Other x_mask)) MERGE x_result
    (OMat (Other x_A)) (OTrn (Other x_B)) ;;
  x_q <- meq x_result_1 x_answer ;;
  _ <- check x_q ;;
  Ok tt) = Ok tt.
Proof. vm_compute. reflexivity. Qed.

(** test_mxm_ABT.cpp:754-775 *)
Example test_mxm_Mask_NoAccum_ABT_Merge_Cones_Mlower_stored_zero :
 (x_A <- mdense0 TyD d_A_dense_3x3 0%Q ;;
  x_B <- mdense0 TyD d_BT_dense_3x4 0%Q ;;
  x_M <- mdense0 TyD d_Lower_3x4 0%Q ;;
  x_M_1 <- lil_setElement x_M 0 1 (cast TyD 0%Q) ;;
  _ <- check (Qeq_bool (inject_Z (nvals x_M_1)) 7%Q) ;;
  x_result <- mdense0 TyD d_Ones_3x4 0%Q ;;
  x_answer <- mdense0 TyD [[114; 1; 1; 1]; [74; 97; 1; 1]; [119; 157; 112; 1]]%Q 0%Q ;;
  x_result_1 <- t_mxm TyD noacc (mkSr qplus qtimes TyD) (MVal x_M_1) MERGE x_result (Mat x_A) (Trn
    x_B) ;;
  _ <- check (Qeq_bool (inject_Z (nvals x_result_1)) 12%Q) ;;
  x_q <- meq x_result_1 x_answer ;;
  _ <- check x_q ;;
  Ok tt) = Ok tt.
Proof. vm_compute. reflexivity. Qed.

(** test_mxm_ABT.cpp:754-775, optimized_sequential platform *)
Example test_mxm_Mask_NoAccum_ABT_Merge_Cones_Mlower_stored_zero_opt :
 (x_A <- mdense0 TyD d_A_dense_3x3 0%Q ;;
  x_B <- mdense0 TyD d_BT_dense_3x4 0%Q ;;
  x_M <- mdense0 TyD d_Lower_3x4 0%Q ;;
  x_M_1 <- lil_setElement x_M 0 1 (cast TyD 0%Q) ;;
  _ <- check (Qeq_bool (inject_Z (nvals x_M_1)) 7%Q) ;;
  x_result <- mdense0 TyD d_Ones_3x4 0%Q ;;
  x_answer <- mdense0 TyD [[114; 1; 1; 1]; [74; 97; 1; 1]; [119; 157; 112; 1]]%Q 0%Q ;;
  x_result_1 <- t_opt_mxm TyD noacc TyD (mkSr qplus qtimes TyD) (MVal (Other x_M_1)) MERGE x_result
    (OMat (Other x_A)) (OTrn (Other x_B)) ;;
  _ <- check (Qeq_bool (inject_Z (nvals x_result_1)) 12%Q) ;;
  x_q <- meq x_result_1 x_answer ;;
  _ <- check x_q ;;
  Ok tt) = Ok tt.
Proof. vm_compute. reflexivity. Qed.

(** test_mxm_ABT.cpp:778-820 *)
Example test_mxm_Mask_NoAccum_ABT_emptyRowA_emptyColB :
 (x_A <- mdense0 TyD [[8; 1; 6]; [0; 0; 0]; [4; 9; 2]]%Q 0%Q ;;
  x_B <- mdense0 TyD [[0; 1; 0]; [0; 0; 0]; [0; 1; 1]; [1; 1; 1]]%Q 0%Q ;;
  x_Lower <- mdense0 TyD d_Lower_3x4 0%Q ;;
  x_Ones <- mdense0 TyD d_Ones_3x4 0%Q ;;
  x_C <- mnew 3 4 ;;
  x_answer <- mdense0 TyD [[1; 0; 0; 0]; [0; 0; 0; 0]; [9; 0; 11; 0]]%Q 0%Q ;;
  x_C_1 <- lil_assign x_C x_Ones ;;
  x_C_2 <- t_mxm TyD noacc (mkSr qplus qtimes TyD) (MVal x_Lower) REPLACE x_C_1 (Mat x_A) (Trn x_B)
    ;;
  x_q <- meq x_C_2 x_answer ;;
  _ <- check x_q ;;
  x_answer2 <- mdense0 TyD [[1; 1; 1; 1]; [0; 0; 1; 1]; [9; 0; 11; 1]]%Q 0%Q ;;
  x_C_3 <- lil_assign x_C_2 x_Ones ;;
  x_C_4 <- t_mxm TyD noacc (mkSr qplus qtimes TyD) (MVal x_Lower) MERGE x_C_3 (Mat x_A) (Trn x_B) ;;
  x_q_1 <- meq x_C_4 x_answer2 ;;
  _ <- check x_q_1 ;;
  Ok tt) = Ok tt.
Proof. vm_compute. reflexivity. Qed.

(** test_mxm_ABT.cpp:778-820, optimized_sequential platform *)
Example test_mxm_Mask_NoAccum_ABT_emptyRowA_emptyColB_opt :
 (x_A <- mdense0 TyD [[8; 1; 6]; [0; 0; 0]; [4; 9; 2]]%Q 0%Q ;;
  x_B <- mdense0 TyD [[0; 1; 0]; [0; 0; 0]; [0; 1; 1]; [1; 1; 1]]%Q 0%Q ;;
  x_Lower <- mdense0 TyD d_Lower_3x4 0%Q ;;
  x_Ones <- mdense0 TyD d_Ones_3x4 0%Q ;;
  x_C <- mnew 3 4 ;;
  x_answer <- mdense0 TyD [[1; 0; 0; 0]; [0; 0; 0; 0]; [9; 0; 11; 0]]%Q 0%Q ;;
  x_C_1 <- lil_assign x_C x_Ones ;;
  x_C_2 <- t_opt_mxm TyD noacc TyD (mkSr qplus qtimes TyD) (MVal (Other x_Lower)) REPLACE x_C_1
    (OMat (Other x_A)) (OTrn (Other x_B)) ;;
  x_q <- meq x_C_2 x_answer ;;
  _ <- check x_q ;;
  x_answer2 <- mdense0 TyD [[1; 1; 1; 1]; [0; 0; 1; 1]; [9; 0; 11; 1]]%Q 0%Q ;;
  x_C_3 <- lil_assign x_C_2 x_Ones ;;
  x_C_4 <- t_opt_mxm TyD noacc TyD (mkSr qplus qtimes TyD) (MVal (Other x_Lower)) MERGE x_C_3 (OMat
    (Other x_A)) (OTrn (Other x_B)) ;;
  x_q_1 <- meq x_C_4 x_answer2 ;;
  _ <- check x_q_1 ;;
  Ok tt) = Ok tt.
Proof. vm_compute. reflexivity. Qed.

(** test_mxm_ABT.cpp:823-865 *)
Example test_mxm_Mask_NoAccum_ABT_emptyColA_emptyRowB :
 (x_A <- mdense0 TyD [[8; 0; 6]; [1; 0; 9]; [4; 0; 2]]%Q 0%Q ;;
  x_B <- mdense0 TyD [[0; 1; 0]; [1; 0; 0]; [0; 1; 0]; [1; 1; 0]]%Q 0%Q ;;
  x_Lower <- mdense0 TyD d_Lower_3x4 0%Q ;;
  x_Ones <- mdense0 TyD d_Ones_3x4 0%Q ;;
  x_C <- mnew 3 4 ;;
  x_answer <- mdense0 TyD [[0; 0; 0; 0]; [0; 1; 0; 0]; [0; 4; 0; 0]]%Q 0%Q ;;
  x_C_1 <- lil_assign x_C x_Ones ;;
  x_C_2 <- t_mxm TyD noacc (mkSr qplus qtimes TyD) (MVal x_Lower) REPLACE x_C_1 (Mat x_A) (Trn x_B)
    ;;
  x_q <- meq x_C_2 x_answer ;;
  _ <- check x_q ;;
  x_answer2 <- mdense0 TyD [[0; 1; 1; 1]; [0; 1; 1; 1]; [0; 4; 0; 1]]%Q 0%Q ;;
  x_C_3 <- lil_assign x_C_2 x_Ones ;;
  x_C_4 <- t_mxm TyD noacc (mkSr qplus qtimes TyD) (MVal x_Lower) MERGE x_C_3 (Mat x_A) (Trn x_B) ;;
  x_q_1 <- meq x_C_4 x_answer2 ;;
  _ <- check x_q_1 ;;
  Ok tt) = Ok tt.
Proof. vm_compute. reflexivity. Qed.

(** test_mxm_ABT.cpp:823-865, optimized_sequential platform *)
Example test_mxm_Mask_NoAccum_ABT_emptyColA_emptyRowB_opt :
 (x_A <- mdense0 TyD [[8; 0; 6]; [1; 0; 9]; [4; 0; 2]]%Q 0%Q ;;
  x_B <- mdense0 TyD [[0; 1; 0]; [1; 0; 0]; [0; 1; 0]; [1; 1; 0]]%Q 0%Q ;;
  x_Lower <- mdense0 TyD d_Lower_3x4 0%Q ;;
  x_Ones <- mdense0 TyD d_Ones_3x4 0%Q ;;
  x_C <- mnew 3 4 ;;
  x_answer <- mdense0 TyD [[0; 0; 0; 0]; [0; 1; 0; 0]; [0; 4; 0; 0]]%Q 0%Q ;;
  x_C_1 <- lil_assign x_C x_Ones ;;
  x_C_2 <- t_opt_mxm TyD noacc TyD (mkSr qplus qtimes TyD) (MVal (Other x_Lower)) REPLACE x_C_1
    (OMat (Other x_A)) (OTrn (Other x_B)) ;;
  x_q <- meq x_C_2 x_answer ;;
  _ <- check x_q ;;
  x_answer2 <- mdense0 TyD [[0; 1; 1; 1]; [0; 1; 1; 1]; [0; 4; 0; 1]]%Q 0%Q ;;
  x_C_3 <- lil_assign x_C_2 x_Ones ;;
  x_C_4 <- t_opt_mxm TyD noacc TyD (mkSr qplus qtimes TyD) (MVal (Other x_Lower)) MERGE x_C_3 (OMat
    (Other x_A)) (OTrn (Other x_B)) ;;
  x_q_1 <- meq x_C_4 x_answer2 ;;
  _ <- check x_q_1 ;;
  Ok tt) = Ok tt.
Proof. vm_compute. reflexivity. Qed.

(** test_mxm_ABT.cpp:868-910 *)
Example test_mxm_Mask_NoAccum_ABT_emptyRowM :
 (x_A <- mdense0 TyD [[8; 1; 6]; [0; 0; 0]; [4; 9; 2]]%Q 0%Q ;;
  x_B <- mdense0 TyD [[0; 1; 0]; [0; 0; 0]; [0; 1; 1]]%Q 0%Q ;;
  x_NotLower <- mdense0 TyD d_NotLower_3x3 0%Q ;;
  x_Ones <- mdense0 TyD d_Ones_3x3 0%Q ;;
  x_C <- mnew 3 3 ;;
  x_answer <- mdense0 TyD [[0; 0; 7]; [0; 0; 0]; [0; 0; 0]]%Q 0%Q ;;
  x_C_1 <- lil_assign x_C x_Ones ;;
  x_C_2 <- t_mxm TyD noacc (mkSr qplus qtimes TyD) (MVal x_NotLower) REPLACE x_C_1 (Mat x_A) (Trn
    x_B) ;;
  x_q <- meq x_C_2 x_answer ;;
  _ <- check x_q ;;
  x_answer2 <- mdense0 TyD [[1; 0; 7]; [1; 1; 0]; [1; 1; 1]]%Q 0%Q ;;
  x_C_3 <- lil_assign x_C_2 x_Ones ;;
  x_C_4 <- t_mxm TyD noacc (mkSr qplus qtimes TyD) (MVal x_NotLower) MERGE x_C_3 (Mat x_A) (Trn x_B)
    ;;
  x_q_1 <- meq x_C_4 x_answer2 ;;
  _ <- check x_q_1 ;;
  Ok tt) = Ok tt.
Proof. vm_compute. reflexivity. Qed.

(** test_mxm_ABT.cpp:868-910, optimized_sequential platform *)
Example test_mxm_Mask_NoAccum_ABT_emptyRowM_opt :
 (x_A <- mdense0 TyD [[8; 1; 6]; [0; 0; 0]; [4; 9; 2]]%Q 0%Q ;;
  x_B <- mdense0 TyD [[0; 1; 0]; [0; 0; 0]; [0; 1; 1]]%Q 0%Q ;;
  x_NotLower <- mdense0 TyD d_NotLower_3x3 0%Q ;;
  x_Ones <- mdense0 TyD d_Ones_3x3 0%Q ;;
  x_C <- mnew 3 3 ;;
  x_answer <- mdense0 TyD [[0; 0; 7]; [0; 0; 0]; [0; 0; 0]]%Q 0%Q ;;
  x_C_1 <- lil_assign x_C x_Ones ;;
  x_C_2 <- t_opt_mxm TyD noacc TyD (mkSr qplus qtimes TyD) (MVal (Other x_NotLower)) REPLACE x_C_1
    (OMat (Other x_A)) (OTrn (Other x_B)) ;;
  x_q <- meq x_C_2 x_answer ;;
  _ <- check x_q ;;
  x_answer2 <- mdense0 TyD [[1; 0; 7]; [1; 1; 0]; [1; 1; 1]]%Q 0%Q ;;
  x_C_3 <- lil_assign x_C_2 x_Ones ;;
  x_C_4 <- t_opt_mxm TyD noacc TyD (mkSr qplus qtimes TyD) (MVal (Other x_NotLower)) MERGE x_C_3
    (OMat (Other x_A)) (OTrn (Other x_B)) ;;
  x_q_1 <- meq x_C_4 x_answer2 ;;
  _ <- check x_q_1 ;;
  Ok tt) = Ok tt.
Proof. vm_compute. reflexivity. Qed.

(** test_mxm_ABT.cpp:913-951 *)
Example test_mxm_Mask_NoAccum_ABT_ABdup :
 (x_mat <- mdense0 TyD d_Symmetric_4x4 0%Q ;;
  x_Lower <- mdense0 TyD d_Lower_4x4 0%Q ;;
  x_Ones <- mdense0 TyD d_Ones_4x4 0%Q ;;
  x_C <- mnew 4 4 ;;
  x_answer <- mdense0 TyD [[2; 1; 1; 1]; [3; 9; 1; 1]; [2; 10; 22; 1]; [0; 6; 21; 25]]%Q 0%Q ;;
  x_C_1 <- lil_assign x_C x_Ones ;;
  x_C_2 <- t_mxm TyD noacc (mkSr qplus qtimes TyD) (MVal x_Lower) MERGE x_C_1 (Mat x_mat) (Trn
    x_mat) ;;
  x_q <- meq x_C_2 x_answer ;;
  _ <- check x_q ;;
  x_answer2 <- mdense0 TyD [[2; 0; 0; 0]; [3; 9; 0; 0]; [2; 10; 22; 0]; [0; 6; 21; 25]]%Q 0%Q ;;
  x_C_3 <- lil_assign x_C_2 x_Ones ;;
  x_C_4 <- t_mxm TyD noacc (mkSr qplus qtimes TyD) (MVal x_Lower) REPLACE x_C_3 (Mat x_mat) (Trn
    x_mat) ;;
  x_q_1 <- meq x_C_4 x_answer2 ;;
  _ <- check x_q_1 ;;
  Ok tt) = Ok tt.
Proof. vm_compute. reflexivity. Qed.

(** test_mxm_ABT.cpp:913-951, optimized_sequential platform *)
Example test_mxm_Mask_NoAccum_ABT_ABdup_opt :
 (x_mat <- mdense0 TyD d_Symmetric_4x4 0%Q ;;
  x_Lower <- mdense0 TyD d_Lower_4x4 0%Q ;;
  x_Ones <- mdense0 TyD d_Ones_4x4 0%Q ;;
  x_C <- mnew 4 4 ;;
  x_answer <- mdense0 TyD [[2; 1; 1; 1]; [3; 9; 1; 1]; [2; 10; 22; 1]; [0; 6; 21; 25]]%Q 0%Q ;;
  x_C_1 <- lil_assign x_C x_Ones ;;
  x_C_2 <- t_opt_mxm TyD noacc TyD (mkSr qplus qtimes TyD) (MVal (Other x_Lower)) MERGE x_C_1 (OMat
    (Other x_mat)) (OTrn (Other x_mat)) ;;
  x_q <- meq x_C_2 x_answer ;;
  _ <- check x_q ;;
  x_answer2 <- mdense0 TyD [[2; 0; 0; 0]; [3; 9; 0; 0]; [2; 10; 22; 0]; [0; 6; 21; 25]]%Q 0%Q ;;
  x_C_3 <- lil_assign x_C_2 x_Ones ;;
  x_C_4 <- t_opt_mxm TyD noacc TyD (mkSr qplus qtimes TyD) (MVal (Other x_Lower)) REPLACE x_C_3
    (OMat (Other x_mat)) (OTrn (Other x_mat)) ;;
  x_q_1 <- meq x_C_4 x_answer2 ;;
  _ <- check x_q_1 ;;
  Ok tt) = Ok tt.
Proof. vm_compute. reflexivity. Qed.

(** test_mxm_ABT.cpp:954-992 *)
Example test_mxm_Mask_NoAccum_ABT_ACdup :
 (x_mat <- mdense0 TyD d_Symmetric_4x4 0%Q ;;
  x_Lower <- mdense0 TyD d_Lower_4x4 0%Q ;;
  x_Ones <- mdense0 TyD d_Ones_4x4 0%Q ;;
  x_C <- mnew 4 4 ;;
  x_answer <- mdense0 TyD [[2; 1; 0; 0]; [3; 9; 2; 0]; [2; 10; 22; 3]; [0; 6; 21; 25]]%Q 0%Q ;;
  x_C_1 <- lil_assign x_C x_mat ;;
  x_C_2 <- t_mxm TyD noacc (mkSr qplus qtimes TyD) (MVal x_Lower) MERGE x_C_1 (Mat x_C_1) (Trn
    x_mat) ;;
  x_q <- meq x_C_2 x_answer ;;
  _ <- check x_q ;;
  x_answer2 <- mdense0 TyD [[2; 0; 0; 0]; [3; 9; 0; 0]; [2; 10; 22; 0]; [0; 6; 21; 25]]%Q 0%Q ;;
  x_C_3 <- lil_assign x_C_2 x_mat ;;
  x_C_4 <- t_mxm TyD noacc (mkSr qplus qtimes TyD) (MVal x_Lower) REPLACE x_C_3 (Mat x_C_3) (Trn
    x_mat) ;;
  x_q_1 <- meq x_C_4 x_answer2 ;;
  _ <- check x_q_1 ;;
  Ok tt) = Ok tt.
Proof. vm_compute. reflexivity. Qed.

(** test_mxm_ABT.cpp:954-992, optimized_sequential platform *)
Example test_mxm_Mask_NoAccum_ABT_ACdup_opt :
 (x_mat <- mdense0 TyD d_Symmetric_4x4 0%Q ;;
  x_Lower <- mdense0 TyD d_Lower_4x4 0%Q ;;
  x_Ones <- mdense0 TyD d_Ones_4x4 0%Q ;;
  x_C <- mnew 4 4 ;;
  x_answer <- mdense0 TyD [[2; 1; 0; 0]; [3; 9; 2; 0]; [2; 10; 22; 3]; [0; 6; 21; 25]]%Q 0%Q ;;
  x_C_1 <- lil_assign x_C x_mat ;;
  x_C_2 <- t_opt_mxm TyD noacc TyD (mkSr qplus qtimes TyD) (MVal (Other x_Lower)) MERGE x_C_1 (OMat
    (TheOutput (fun x => x))) (OTrn (Other x_mat)) ;;
  x_q <- meq x_C_2 x_answer ;;
  _ <- check x_q ;;
  x_answer2 <- mdense0 TyD [[2; 0; 0; 0]; [3; 9; 0; 0]; [2; 10; 22; 0]; [0; 6; 21; 25]]%Q 0%Q ;;
  x_C_3 <- lil_assign x_C_2 x_mat ;;
  x_C_4 <- t_opt_mxm TyD noacc TyD (mkSr qplus qtimes TyD) (MVal (Other x_Lower)) REPLACE x_C_3
    (OMat (TheOutput (fun x => x))) (OTrn (Other x_mat)) ;;
  x_q_1 <- meq x_C_4 x_answer2 ;;
  _ <- check x_q_1 ;;
  Ok tt) = Ok tt.
Proof. vm_compute. reflexivity. Qed.

(** test_mxm_ABT.cpp:995-1042 *)
Example test_mxm_Mask_NoAccum_ABT_BCdup :
 (x_mat <- mdense0 TyD d_Symmetric_4x4 0%Q ;;
  x_Lower <- mdense0 TyD d_Lower_4x4 0%Q ;;
  x_Ones <- mdense0 TyD d_Ones_4x4 0%Q ;;
  x_C <- mnew 4 4 ;;
  x_answer <- mdense0 TyD [[2; 1; 0; 0]; [3; 9; 2; 0]; [2; 10; 22; 3]; [0; 6; 21; 25]]%Q 0%Q ;;
  x_C_1 <- lil_assign x_C x_mat ;;
  x_C_2 <- t_mxm TyD noacc (mkSr qplus qtimes TyD) (MVal x_Lower) MERGE x_C_1 (Mat x_mat) (Trn
    x_C_1) ;;
  x_q <- meq x_C_2 x_answer ;;
  _ <- check x_q ;;
  x_C_3 <- lil_assign x_C_2 x_mat ;;
  x_C_4 <- t_mxm TyD noacc (mkSr qplus qtimes TyD) (MVal x_Lower) MERGE x_C_3 (Mat x_mat) (Trn
    x_mat) ;;
  x_q_1 <- meq x_C_4 x_answer ;;
  _ <- check x_q_1 ;;
  x_answer2 <- mdense0 TyD [[2; 0; 0; 0]; [3; 9; 0; 0]; [2; 10; 22; 0]; [0; 6; 21; 25]]%Q 0%Q ;;
  x_C_5 <- lil_assign x_C_4 x_mat ;;
  x_C_6 <- t_mxm TyD noacc (mkSr qplus qtimes TyD) (MVal x_Lower) REPLACE x_C_5 (Mat x_mat) (Trn
    x_C_5) ;;
  x_q_2 <- meq x_C_6 x_answer2 ;;
  _ <- check x_q_2 ;;
  Ok tt) = Ok tt.
Proof. vm_compute. reflexivity. Qed.

(** test_mxm_ABT.cpp:995-1042, optimized_sequential platform *)
Example test_mxm_Mask_NoAccum_ABT_BCdup_opt :
 (x_mat <- mdense0 TyD d_Symmetric_4x4 0%Q ;;
  x_Lower <- mdense0 TyD d_Lower_4x4 0%Q ;;
  x_Ones <- mdense0 TyD d_Ones_4x4 0%Q ;;
  x_C <- mnew 4 4 ;;
  x_answer <- mdense0 TyD [[2; 1; 0; 0]; [3; 9; 2; 0]; [2; 10; 22; 3]; [0; 6; 21; 25]]%Q 0%Q ;;
  x_C_1 <- lil_assign x_C x_mat ;;
  x_C_2 <- t_opt_mxm TyD noacc TyD (mkSr qplus qtimes TyD) (MVal (Other x_Lower)) MERGE x_C_1 (OMat
    (Other x_mat)) (OTrn (TheOutput (fun x => x))) ;;
  x_q <- meq x_C_2 x_answer ;;
  _ <- check x_q ;;
  x_C_3 <- lil_assign x_C_2 x_mat ;;
  x_C_4 <- t_opt_mxm TyD noacc TyD (mkSr qplus qtimes TyD) (MVal (Other x_Lower)) MERGE x_C_3 (OMat
    (Other x_mat)) (OTrn (Other x_mat)) ;;
  x_q_1 <- meq x_C_4 x_answer ;;
  _ <- check x_q_1 ;;
  x_answer2 <- mdense0 TyD [[2; 0; 0; 0]; [3; 9; 0; 0]; [2; 10; 22; 0]; [0; 6; 21; 25]]%Q 0%Q ;;
  x_C_5 <- lil_assign x_C_4 x_mat ;;
  x_C_6 <- t_opt_mxm TyD noacc TyD (mkSr qplus qtimes TyD) (MVal (Other x_Lower)) REPLACE x_C_5
    (OMat (Other x_mat)) (OTrn (TheOutput (fun x => x))) ;;
  x_q_2 <- meq x_C_6 x_answer2 ;;
  _ <- check x_q_2 ;;
  Ok tt) = Ok tt.
Proof. vm_compute. reflexivity. Qed.

(** test_mxm_ABT.cpp:1045-1082 *)
Example test_mxm_Mask_NoAccum_ABT_MCdup :
 (x_mat <- mdense0 TyD d_Symmetric_4x4 0%Q ;;
  x_Lower <- mdense0 TyD d_Lower_4x4 0%Q ;;
  x_C <- mnew 4 4 ;;
  x_answer <- mdense0 TyD [[2; 0; 0; 0]; [3; 9; 0; 0]; [2; 10; 22; 0]; [0; 6; 21; 25]]%Q 0%Q ;;
  x_C_1 <- lil_assign x_C x_Lower ;;
  x_C_2 <- t_mxm TyD noacc (mkSr qplus qtimes TyD) (MVal x_C_1) MERGE x_C_1 (Mat x_mat) (Trn x_mat)
    ;;
  x_q <- meq x_C_2 x_answer ;;
  _ <- check x_q ;;
  x_answer2 <- mdense0 TyD [[2; 0; 0; 0]; [3; 9; 0; 0]; [2; 10; 22; 0]; [0; 6; 21; 25]]%Q 0%Q ;;
  x_C_3 <- lil_assign x_C_2 x_Lower ;;
  x_C_4 <- t_mxm TyD noacc (mkSr qplus qtimes TyD) (MVal x_C_3) REPLACE x_C_3 (Mat x_mat) (Trn
    x_mat) ;;
  x_q_1 <- meq x_C_4 x_answer2 ;;
  _ <- check x_q_1 ;;
  Ok tt) = Ok tt.
Proof. vm_compute. reflexivity. Qed.

(** test_mxm_ABT.cpp:1045-1082, optimized_sequential platform *)
Example test_mxm_Mask_NoAccum_ABT_MCdup_opt :
 (x_mat <- mdense0 TyD d_Symmetric_4x4 0%Q ;;
  x_Lower <- mdense0 TyD d_Lower_4x4 0%Q ;;
  x_C <- mnew 4 4 ;;
  x_answer <- mdense0 TyD [[2; 0; 0; 0]; [3; 9; 0; 0]; [2; 10; 22; 0]; [0; 6; 21; 25]]%Q 0%Q ;;
  x_C_1 <- lil_assign x_C x_Lower ;;
  x_C_2 <- t_opt_mxm TyD noacc TyD (mkSr qplus qtimes TyD) (MVal (TheOutput (fun x => x))) MERGE
    x_C_1 (OMat (Other x_mat)) (OTrn (Other x_mat)) ;;
  x_q <- meq x_C_2 x_answer ;;
  _ <- check x_q ;;
  x_answer2 <- mdense0 TyD [[2; 0; 0; 0]; [3; 9; 0; 0]; [2; 10; 22; 0]; [0; 6; 21; 25]]%Q 0%Q ;;
  x_C_3 <- lil_assign x_C_2 x_Lower ;;
  x_C_4 <- t_opt_mxm TyD noacc TyD (mkSr qplus qtimes TyD) (MVal (TheOutput (fun x => x))) REPLACE
    x_C_3 (OMat (Other x_mat)) (OTrn (Other x_mat)) ;;
  x_q_1 <- meq x_C_4 x_answer2 ;;
  _ <- check x_q_1 ;;
  Ok tt) = Ok tt.
Proof. vm_compute. reflexivity. Qed.

(** test_mxm_ABT.cpp:1089-1197 *)
Example test_mxm_Mask_Accum_ABT :
 (x_A <- mdense0 TyD d_A_sparse_3x3 0%Q ;;
  x_Identity <- mdense0 TyD d_Identity_3x3 0%Q ;;
  x_Empty <- mnew 3 3 ;;
  x_Ones <- mdense0 TyD d_Ones_3x3 0%Q ;;
  x_C <- mnew 3 3 ;;
  x_MLower <- mdense0 TyD d_Lower_3x3 0%Q ;;
  x_MNotLower <- mdense0 TyD d_NotLower_3x3 0%Q ;;
  x_AFilled <- mdense0 TyD [[12; 7; 1]; [1; (-5); 1]; [7; 1; 9]]%Q 0%Q ;;
  x_C_1 <- lil_assign x_C x_Ones ;;
  x_C_2 <- t_mxm TyD (acc TyD qplus) (mkSr qplus qtimes TyD) (MVal x_Empty) MERGE x_C_1 (Mat x_A)
    (Trn x_Identity) ;;
  x_q <- meq x_C_2 x_Ones ;;
  _ <- check x_q ;;
  x_C_3 <- lil_assign x_C_2 x_Ones ;;
  x_C_4 <- t_mxm TyD (acc TyD qplus) (mkSr qplus qtimes TyD) (MVal x_A) MERGE x_C_3 (Mat x_A) (Trn
    x_Identity) ;;
  x_t <- mdense0 TyD [[13; 8; 1]; [1; (-4); 1]; [8; 1; 10]]%Q 0%Q ;;
  x_q_1 <- meq x_C_4 x_t ;;
  _ <- check x_q_1 ;;
  x_C_5 <- lil_assign x_C_4 x_Ones ;;
  x_C_6 <- t_mxm TyD (acc TyD qplus) (mkSr qplus qtimes TyD) (MVal x_MLower) MERGE x_C_5 (Mat
    x_Ones) (Trn x_Identity) ;;
  x_t_1 <- mdense0 TyD [[2; 1; 1]; [2; 2; 1]; [2; 2; 2]]%Q 0%Q ;;
  x_q_2 <- meq x_C_6 x_t_1 ;;
  _ <- check x_q_2 ;;
  x_C_7 <- lil_assign x_C_6 x_Ones ;;
  x_C_8 <- t_mxm TyD (acc TyD qplus) (mkSr qplus qtimes TyD) (MVal x_MNotLower) MERGE x_C_7 (Mat
    x_Ones) (Trn x_Identity) ;;
  x_t_2 <- mdense0 TyD [[1; 2; 2]; [1; 1; 2]; [1; 1; 1]]%Q 0%Q ;;
  x_q_3 <- meq x_C_8 x_t_2 ;;
  _ <- check x_q_3 ;;
  x_C_9 <- lil_assign x_C_8 x_Ones ;;
  x_C_10 <- t_mxm TyD (acc TyD qplus) (mkSr qplus qtimes TyD) (MVal x_Empty) REPLACE x_C_9 (Mat x_A)
    (Trn x_Identity) ;;
  x_q_4 <- meq x_C_10 x_Empty ;;
  _ <- check x_q_4 ;;
  x_C_11 <- lil_assign x_C_10 x_Ones ;;
  x_C_12 <- t_mxm TyD (acc TyD qplus) (mkSr qplus qtimes TyD) (MVal x_Ones) REPLACE x_C_11 (Mat x_A)
    (Trn x_Identity) ;;
  x_t_3 <- mdense0 TyD [[13; 8; 1]; [1; (-4); 1]; [8; 1; 10]]%Q 0%Q ;;
  x_q_5 <- meq x_C_12 x_t_3 ;;
  _ <- check x_q_5 ;;
  x_C_13 <- lil_assign x_C_12 x_Ones ;;
  x_C_14 <- t_mxm TyD (acc TyD qplus) (mkSr qplus qtimes TyD) (MVal x_MLower) REPLACE x_C_13 (Mat
    x_Ones) (Trn x_Identity) ;;
  x_t_4 <- mdense0 TyD [[2; 0; 0]; [2; 2; 0]; [2; 2; 2]]%Q 0%Q ;;
  x_q_6 <- meq x_C_14 x_t_4 ;;
  _ <- check x_q_6 ;;
  x_C_15 <- lil_assign x_C_14 x_Ones ;;
  x_C_16 <- t_mxm TyD (acc TyD qplus) (mkSr qplus qtimes TyD) (MVal x_MNotLower) REPLACE x_C_15 (Mat
    x_Ones) (Trn x_Identity) ;;
  x_t_5 <- mdense0 TyD [[0; 2; 2]; [0; 0; 2]; [0; 0; 0]]%Q 0%Q ;;
  x_q_7 <- meq x_C_16 x_t_5 ;;
  _ <- check x_q_7 ;;
  Ok tt) = Ok tt.
Proof. vm_compute. reflexivity. Qed.

(** test_mxm_ABT.cpp:1089-1197, optimized_sequential platform *)
Example test_mxm_Mask_Accum_ABT_opt :
 (x_A <- mdense0 TyD d_A_sparse_3x3 0%Q ;;
  x_Identity <- mdense0 TyD d_Identity_3x3 0%Q ;;
  x_Empty <- mnew 3 3 ;;
  x_Ones <- mdense0 TyD d_Ones_3x3 0%Q ;;
  x_C <- mnew 3 3 ;;
  x_MLower <- mdense0 TyD d_Lower_3x3 0%Q ;;
  x_MNotLower <- mdense0 TyD d_NotLower_3x3 0%Q ;;
  x_AFilled <- mdense0 TyD [[12; 7; 1]; [1; (-5); 1]; [7; 1; 9]]%Q 0%Q ;;
  x_C_1 <- lil_assign x_C x_Ones ;;
  x_C_2 <- t_opt_mxm TyD (acc TyD qplus) TyD (mkSr qplus qtimes TyD) (MVal (Other x_Empty)) MERGE
    x_C_1 (OMat (Other x_A)) (OTrn (Other x_Identity)) ;;
  x_q <- meq x_C_2 x_Ones ;;
  _ <- check x_q ;;
  x_C_3 <- lil_assign x_C_2 x_Ones ;;
  x_C_4 <- t_opt_mxm TyD (acc TyD qplus) TyD (mkSr qplus qtimes TyD) (MVal (Other x_A)) MERGE x_C_3
    (OMat (Other x_A)) (OTrn (Other x_Identity)) ;;
  x_t <- mdense0 TyD [[13; 8; 1]; [1; (-4); 1]; [8; 1; 10]]%Q 0%Q ;;
  x_q_1 <- meq x_C_4 x_t ;;
  _ <- check x_q_1 ;;
  x_C_5 <- lil_assign x_C_4 x_Ones ;;
  x_C_6 <- t_opt_mxm TyD (acc TyD qplus) TyD (mkSr qplus qtimes TyD) (MVal (Other x_MLower)) MERGE
    x_C_5 (OMat (Other x_Ones)) (OTrn (Other x_Identity)) ;;
  x_t_1 <- mdense0 TyD [[2; 1; 1]; [2; 2; 1]; [2; 2; 2]]%Q 0%Q ;;
  x_q_2 <- meq x_C_6 x_t_1 ;;
  _ <- check x_q_2 ;;
  x_C_7 <- lil_assign x_C_6 x_Ones ;;
  x_C_8 <- t_opt_mxm TyD (acc TyD qplus) TyD (mkSr qplus qtimes TyD) (MVal (Other x_MNotLower))
    MERGE x_C_7 (OMat (Other x_Ones)) (OTrn (Other x_Identity)) ;;
  x_t_2 <- mdense0 TyD [[1; 2; 2]; [1; 1; 2]; [1; 1; 1]]%Q 0%Q ;;
  x_q_3 <- meq x_C_8 x_t_2 ;;
  _ <- check x_q_3 ;;
  x_C_9 <- lil_assign x_C_8 x_Ones ;;
  x_C_10 <- t_opt_mxm TyD (acc TyD qplus) TyD (mkSr qplus qtimes TyD) (MVal (Other x_Empty)) REPLACE
    x_C_9 (OMat (Other x_A)) (OTrn (Other x_Identity)) ;;
  x_q_4 <- meq x_C_10 x_Empty ;;
  _ <- check x_q_4 ;;
  x_C_11 <- lil_assign x_C_10 x_Ones ;;
  x_C_12 <- t_opt_mxm TyD (acc TyD qplus) TyD (mkSr qplus qtimes TyD) (MVal (Other x_Ones)) REPLACE
    x_C_11 (OMat (Other x_A)) (OTrn (Other x_Identity)) ;;
  x_t_3 <- mdense0 TyD [[13; 8; 1]; [1; (-4); 1]; [8; 1; 10]]%Q 0%Q ;;
  x_q_5 <- meq x_C_12 x_t_3 ;;
  _ <- check x_q_5 ;;
  x_C_13 <- lil_assign x_C_12 x_Ones ;;
  x_C_14 <- t_opt_mxm TyD (acc TyD qplus) TyD (mkSr qplus qtimes TyD) (MVal (Other x_MLower))
    REPLACE x_C_13 (OMat (Other x_Ones)) (OTrn (Other x_Identity)) ;;
  x_t_4 <- mdense0 TyD [[2; 0; 0]; [2; 2; 0]; [2; 2; 2]]%Q 0%Q ;;
  x_q_6 <- meq x_C_14 x_t_4 ;;
  _ <- check x_q_6 ;;
  x_C_15 <- lil_assign x_C_14 x_Ones ;;
  x_C_16 <- t_opt_mxm TyD (acc TyD qplus) TyD (mkSr qplus qtimes TyD) (MVal (Other x_MNotLower))
    REPLACE x_C_15 (OMat (Other x_Ones)) (OTrn (Other x_Identity)) ;;
  x_t_5 <- mdense0 TyD [[0; 2; 2]; [0; 0; 2]; [0; 0; 0]]%Q 0%Q ;;
  x_q_7 <- meq x_C_16 x_t_5 ;;
  _ <- check x_q_7 ;;
  Ok tt) = Ok tt.
Proof. vm_compute. reflexivity. Qed.

(** test_mxm_ABT.cpp:1200-1247 *)
Example test_mxm_Mask_Accum_ABTMempty :
 (x_Empty <- mnew 3 3 ;;
  x_Ones <- mdense0 TyD d_Ones_3x3 0%Q ;;
  x_C <- mnew 3 3 ;;
  x_M <- mdense0 TyB d_LowerBool_3x3 0%Q ;;
  x_C_1 <- lil_assign x_C x_Ones ;;
  x_C_2 <- t_mxm TyD (acc TyD qplus) (mkSr qplus qtimes TyD) (MVal x_M) MERGE x_C_1 (Mat x_Empty)
    (Trn x_Ones) ;;
  x_q <- meq x_C_2 x_Ones ;;
  _ <- check x_q ;;
  x_C_3 <- lil_assign x_C_2 x_Ones ;;
  x_C_4 <- t_mxm TyD (acc TyD qplus) (mkSr qplus qtimes TyD) (MVal x_M) MERGE x_C_3 (Mat x_Ones)
    (Trn x_Empty) ;;
  x_q_1 <- meq x_C_4 x_Ones ;;
  _ <- check x_q_1 ;;
  x_C_5 <- lil_assign x_C_4 x_Ones ;;
  x_C_6 <- t_mxm TyD (acc TyD qplus) (mkSr qplus qtimes TyD) (MVal x_Empty) MERGE x_C_5 (Mat x_Ones)
    (Trn x_Ones) ;;
  x_q_2 <- meq x_C_6 x_Ones ;;
  _ <- check x_q_2 ;;
  x_C_7 <- lil_assign x_C_6 x_Ones ;;
  x_C_8 <- t_mxm TyD (acc TyD qplus) (mkSr qplus qtimes TyD) (MVal x_M) REPLACE x_C_7 (Mat x_Empty)
    (Trn x_Ones) ;;
  x_t <- mdense0 TyD d_Lower_3x3 0%Q ;;
  x_q_3 <- meq x_C_8 x_t ;;
  _ <- check x_q_3 ;;
  x_C_9 <- lil_assign x_C_8 x_Ones ;;
  x_C_10 <- t_mxm TyD (acc TyD qplus) (mkSr qplus qtimes TyD) (MVal x_M) REPLACE x_C_9 (Mat x_Ones)
    (Trn x_Empty) ;;
  x_t_1 <- mdense0 TyD d_Lower_3x3 0%Q ;;
  x_q_4 <- meq x_C_10 x_t_1 ;;
  _ <- check x_q_4 ;;
  x_C_11 <- lil_assign x_C_10 x_Ones ;;
  x_C_12 <- t_mxm TyD (acc TyD qplus) (mkSr qplus qtimes TyD) (MVal x_Empty) REPLACE x_C_11 (Mat
    x_Ones) (Trn x_Empty) ;;
  x_q_5 <- meq x_C_12 x_Empty ;;
  _ <- check x_q_5 ;;
  Ok tt) = Ok tt.
Proof. vm_compute. reflexivity. Qed.

(** test_mxm_ABT.cpp:1200-1247, optimized_sequential platform *)
Example test_mxm_Mask_Accum_ABTMempty_opt :
 (x_Empty <- mnew 3 3 ;;
  x_Ones <- mdense0 TyD d_Ones_3x3 0%Q ;;
  x_C <- mnew 3 3 ;;
  x_M <- mdense0 TyB d_LowerBool_3x3 0%Q ;;
  x_C_1 <- lil_assign x_C x_Ones ;;
  x_C_2 <- t_opt_mxm TyD (acc TyD qplus) TyD (mkSr qplus qtimes TyD) (MVal (Other x_M)) MERGE x_C_1
    (OMat (Other x_Empty)) (OTrn (Other x_Ones)) ;;
  x_q <- meq x_C_2 x_Ones ;;
  _ <- check x_q ;;
  x_C_3 <- lil_assign x_C_2 x_Ones ;;
  x_C_4 <- t_opt_mxm TyD (acc TyD qplus) TyD (mkSr qplus qtimes TyD) (MVal (Other x_M)) MERGE x_C_3
    (OMat (Other x_Ones)) (OTrn (Other x_Empty)) ;;
  x_q_1 <- meq x_C_4 x_Ones ;;
  _ <- check x_q_1 ;;
  x_C_5 <- lil_assign x_C_4 x_Ones ;;
  x_C_6 <- t_opt_mxm TyD (acc TyD qplus) TyD (mkSr qplus qtimes TyD) (MVal (Other x_Empty)) MERGE
    x_C_5 (OMat (Other x_Ones)) (OTrn (Other x_Ones)) ;;
  x_q_2 <- meq x_C_6 x_Ones ;;
  _ <- check x_q_2 ;;
  x_C_7 <- lil_assign x_C_6 x_Ones ;;
  x_C_8 <- t_opt_mxm TyD (acc TyD qplus) TyD (mkSr qplus qtimes TyD) (MVal (Other x_M)) REPLACE
    x_C_7 (OMat (Other x_Empty)) (OTrn (Other x_Ones)) ;;
  x_t <- mdense0 TyD d_Lower_3x3 0%Q ;;
  x_q_3 <- meq x_C_8 x_t ;;
  _ <- check x_q_3 ;;
  x_C_9 <- lil_assign x_C_8 x_Ones ;;
  x_C_10 <- t_opt_mxm TyD (acc TyD qplus) TyD (mkSr qplus qtimes TyD) (MVal (Other x_M)) REPLACE
    x_C_9 (OMat (Other x_Ones)) (OTrn (Other x_Empty)) ;;
  x_t_1 <- mdense0 TyD d_Lower_3x3 0%Q ;;
  x_q_4 <- meq x_C_10 x_t_1 ;;
  _ <- check x_q_4 ;;
  x_C_11 <- lil_assign x_C_10 x_Ones ;;
  x_C_12 <- t_opt_mxm TyD (acc TyD qplus) TyD (mkSr qplus qtimes TyD) (MVal (Other x_Empty)) REPLACE
    x_C_11 (OMat (Other x_Ones)) (OTrn (Other x_Empty)) ;;
  x_q_5 <- meq x_C_12 x_Empty ;;
  _ <- check x_q_5 ;;
  Ok tt) = Ok tt.
Proof. vm_compute. reflexivity. Qed.

(** test_mxm_ABT.cpp:1250-1292 *)
Example test_mxm_Mask_Accum_ABT_emptyRowA_emptyColB :
 (x_A <- mdense0 TyD [[8; 1; 6]; [0; 0; 0]; [4; 9; 2]]%Q 0%Q ;;
  x_B <- mdense0 TyD [[0; 1; 0]; [0; 0; 0]; [0; 1; 1]; [1; 1; 1]]%Q 0%Q ;;
  x_Lower <- mdense0 TyD d_Lower_3x4 0%Q ;;
  x_Ones <- mdense0 TyD d_Ones_3x4 0%Q ;;
  x_C <- mnew 3 4 ;;
  x_answer <- mdense0 TyD [[2; 0; 0; 0]; [1; 1; 0; 0]; [10; 1; 12; 0]]%Q 0%Q ;;
  x_C_1 <- lil_assign x_C x_Ones ;;
  x_C_2 <- t_mxm TyD (acc TyD qplus) (mkSr qplus qtimes TyD) (MVal x_Lower) REPLACE x_C_1 (Mat x_A)
    (Trn x_B) ;;
  x_q <- meq x_C_2 x_answer ;;
  _ <- check x_q ;;
  x_answer2 <- mdense0 TyD [[2; 1; 1; 1]; [1; 1; 1; 1]; [10; 1; 12; 1]]%Q 0%Q ;;
  x_C_3 <- lil_assign x_C_2 x_Ones ;;
  x_C_4 <- t_mxm TyD (acc TyD qplus) (mkSr qplus qtimes TyD) (MVal x_Lower) MERGE x_C_3 (Mat x_A)
    (Trn x_B) ;;
  x_q_1 <- meq x_C_4 x_answer2 ;;
  _ <- check x_q_1 ;;
  Ok tt) = Ok tt.
Proof. vm_compute. reflexivity. Qed.

(** test_mxm_ABT.cpp:1250-1292, optimized_sequential platform *)
Example test_mxm_Mask_Accum_ABT_emptyRowA_emptyColB_opt :
 (x_A <- mdense0 TyD [[8; 1; 6]; [0; 0; 0]; [4; 9; 2]]%Q 0%Q ;;
  x_B <- mdense0 TyD [[0; 1; 0]; [0; 0; 0]; [0; 1; 1]; [1; 1; 1]]%Q 0%Q ;;
  x_Lower <- mdense0 TyD d_Lower_3x4 0%Q ;;
  x_Ones <- mdense0 TyD d_Ones_3x4 0%Q ;;
  x_C <- mnew 3 4 ;;
  x_answer <- mdense0 TyD [[2; 0; 0; 0]; [1; 1; 0; 0]; [10; 1; 12; 0]]%Q 0%Q ;;
  x_C_1 <- lil_assign x_C x_Ones ;;
  x_C_2 <- t_opt_mxm TyD (acc TyD qplus) TyD (mkSr qplus qtimes TyD) (MVal (Other x_Lower)) REPLACE
    x_C_1 (OMat (Other x_A)) (OTrn (Other x_B)) ;;
  x_q <- meq x_C_2 x_answer ;;
  _ <- check x_q ;;
  x_answer2 <- mdense0 TyD [[2; 1; 1; 1]; [1; 1; 1; 1]; [10; 1; 12; 1]]%Q 0%Q ;;
  x_C_3 <- lil_assign x_C_2 x_Ones ;;
  x_C_4 <- t_opt_mxm TyD (acc TyD qplus) TyD (mkSr qplus qtimes TyD) (MVal (Other x_Lower)) MERGE
    x_C_3 (OMat (Other x_A)) (OTrn (Other x_B)) ;;
  x_q_1 <- meq x_C_4 x_answer2 ;;
  _ <- check x_q_1 ;;
  Ok tt) = Ok tt.
Proof. vm_compute. reflexivity. Qed.

(** test_mxm_ABT.cpp:1295-1338 *)
Example test_mxm_Mask_Accum_ABT_emptyColA_emptyRowB :
 (x_A <- mdense0 TyD [[8; 0; 6]; [1; 0; 9]; [4; 0; 2]]%Q 0%Q ;;
  x_B <- mdense0 TyD [[0; 1; 0]; [1; 0; 0]; [0; 1; 0]; [1; 1; 0]]%Q 0%Q ;;
  x_Lower <- mdense0 TyD d_Lower_3x4 0%Q ;;
  x_Ones <- mdense0 TyD d_Ones_3x4 0%Q ;;
  x_C <- mnew 3 4 ;;
  x_answer <- mdense0 TyD [[1; 0; 0; 0]; [1; 2; 0; 0]; [1; 5; 1; 0]]%Q 0%Q ;;
  x_C_1 <- lil_assign x_C x_Ones ;;
  x_C_2 <- t_mxm TyD (acc TyD qplus) (mkSr qplus qtimes TyD) (MVal x_Lower) REPLACE x_C_1 (Mat x_A)
    (Trn x_B) ;;
  x_q <- meq x_C_2 x_answer ;;
  _ <- check x_q ;;
  x_answer2 <- mdense0 TyD [[1; 1; 1; 1]; [1; 2; 1; 1]; [1; 5; 1; 1]]%Q 0%Q ;;
  x_C_3 <- lil_assign x_C_2 x_Ones ;;
  x_C_4 <- t_mxm TyD (acc TyD qplus) (mkSr qplus qtimes TyD) (MVal x_Lower) MERGE x_C_3 (Mat x_A)
    (Trn x_B) ;;
  x_q_1 <- meq x_C_4 x_answer2 ;;
  _ <- check x_q_1 ;;
  Ok tt) = Ok tt.
Proof. vm_compute. reflexivity. Qed.

(** test_mxm_ABT.cpp:1295-1338, optimized_sequential platform *)
Example test_mxm_Mask_Accum_ABT_emptyColA_emptyRowB_opt :
 (x_A <- mdense0 TyD [[8; 0; 6]; [1; 0; 9]; [4; 0; 2]]%Q 0%Q ;;
  x_B <- mdense0 TyD [[0; 1; 0]; [1; 0; 0]; [0; 1; 0]; [1; 1; 0]]%Q 0%Q ;;
  x_Lower <- mdense0 TyD d_Lower_3x4 0%Q ;;
  x_Ones <- mdense0 TyD d_Ones_3x4 0%Q ;;
  x_C <- mnew 3 4 ;;
  x_answer <- mdense0 TyD [[1; 0; 0; 0]; [1; 2; 0; 0]; [1; 5; 1; 0]]%Q 0%Q ;;
  x_C_1 <- lil_assign x_C x_Ones ;;
  x_C_2 <- t_opt_mxm TyD (acc TyD qplus) TyD (mkSr qplus qtimes TyD) (MVal (Other x_Lower)) REPLACE
    x_C_1 (OMat (Other x_A)) (OTrn (Other x_B)) ;;
  x_q <- meq x_C_2 x_answer ;;
  _ <- check x_q ;;
  x_answer2 <- mdense0 TyD [[1; 1; 1; 1]; [1; 2; 1; 1]; [1; 5; 1; 1]]%Q 0%Q ;;
  x_C_3 <- lil_assign x_C_2 x_Ones ;;
  x_C_4 <- t_opt_mxm TyD (acc TyD qplus) TyD (mkSr qplus qtimes TyD) (MVal (Other x_Lower)) MERGE
    x_C_3 (OMat (Other x_A)) (OTrn (Other x_B)) ;;
  x_q_1 <- meq x_C_4 x_answer2 ;;
  _ <- check x_q_1 ;;
  Ok tt) = Ok tt.
Proof. vm_compute. reflexivity. Qed.

(** test_mxm_ABT.cpp:1341-1383 *)
Example test_mxm_Mask_Accum_ABT_emptyRowM :
 (x_A <- mdense0 TyD [[8; 1; 6]; [0; 0; 0]; [4; 9; 2]]%Q 0%Q ;;
  x_B <- mdense0 TyD [[0; 1; 0]; [0; 0; 0]; [0; 1; 1]]%Q 0%Q ;;
  x_NotLower <- mdense0 TyD d_NotLower_3x3 0%Q ;;
  x_Ones <- mdense0 TyD d_Ones_3x3 0%Q ;;
  x_C <- mnew 3 3 ;;
  x_answer <- mdense0 TyD [[0; 1; 8]; [0; 0; 1]; [0; 0; 0]]%Q 0%Q ;;
  x_C_1 <- lil_assign x_C x_Ones ;;
  x_C_2 <- t_mxm TyD (acc TyD qplus) (mkSr qplus qtimes TyD) (MVal x_NotLower) REPLACE x_C_1 (Mat
    x_A) (Trn x_B) ;;
  x_q <- meq x_C_2 x_answer ;;
  _ <- check x_q ;;
  x_answer2 <- mdense0 TyD [[1; 1; 8]; [1; 1; 1]; [1; 1; 1]]%Q 0%Q ;;
  x_C_3 <- lil_assign x_C_2 x_Ones ;;
  x_C_4 <- t_mxm TyD (acc TyD qplus) (mkSr qplus qtimes TyD) (MVal x_NotLower) MERGE x_C_3 (Mat x_A)
    (Trn x_B) ;;
  x_q_1 <- meq x_C_4 x_answer2 ;;
  _ <- check x_q_1 ;;
  Ok tt) = Ok tt.
Proof. vm_compute. reflexivity. Qed.

(** test_mxm_ABT.cpp:1341-1383, optimized_sequential platform *)
Example test_mxm_Mask_Accum_ABT_emptyRowM_opt :
 (x_A <- mdense0 TyD [[8; 1; 6]; [0; 0; 0]; [4; 9; 2]]%Q 0%Q ;;
  x_B <- mdense0 TyD [[0; 1; 0]; [0; 0; 0]; [0; 1; 1]]%Q 0%Q ;;
  x_NotLower <- mdense0 TyD d_NotLower_3x3 0%Q ;;
  x_Ones <- mdense0 TyD d_Ones_3x3 0%Q ;;
  x_C <- mnew 3 3 ;;
  x_answer <- mdense0 TyD [[0; 1; 8]; [0; 0; 1]; [0; 0; 0]]%Q 0%Q ;;
  x_C_1 <- lil_assign x_C x_Ones ;;
  x_C_2 <- t_opt_mxm TyD (acc TyD qplus) TyD (mkSr qplus qtimes TyD) (MVal (Other x_NotLower))
    REPLACE x_C_1 (OMat (Other x_A)) (OTrn (Other x_B)) ;;
  x_q <- meq x_C_2 x_answer ;;
  _ <- check x_q ;;
  x_answer2 <- mdense0 TyD [[1; 1; 8]; [1; 1; 1]; [1; 1; 1]]%Q 0%Q ;;
  x_C_3 <- lil_assign x_C_2 x_Ones ;;
  x_C_4 <- t_opt_mxm TyD (acc TyD qplus) TyD (mkSr qplus qtimes TyD) (MVal (Other x_NotLower)) MERGE
    x_C_3 (OMat (Other x_A)) (OTrn (Other x_B)) ;;
  x_q_1 <- meq x_C_4 x_answer2 ;;
  _ <- check x_q_1 ;;
  Ok tt) = Ok tt.
Proof. vm_compute. reflexivity. Qed.

(** test_mxm_ABT.cpp:1386-1424 *)
Example test_mxm_Mask_Accum_ABT_ABdup :
 (x_mat <- mdense0 TyD d_Symmetric_4x4 0%Q ;;
  x_Lower <- mdense0 TyD d_Lower_4x4 0%Q ;;
  x_Ones <- mdense0 TyD d_Ones_4x4 0%Q ;;
  x_C <- mnew 4 4 ;;
  x_answer <- mdense0 TyD [[3; 1; 1; 1]; [4; 10; 1; 1]; [3; 11; 23; 1]; [1; 7; 22; 26]]%Q 0%Q ;;
  x_C_1 <- lil_assign x_C x_Ones ;;
  x_C_2 <- t_mxm TyD (acc TyD qplus) (mkSr qplus qtimes TyD) (MVal x_Lower) MERGE x_C_1 (Mat x_mat)
    (Trn x_mat) ;;
  x_q <- meq x_C_2 x_answer ;;
  _ <- check x_q ;;
  x_answer2 <- mdense0 TyD [[3; 0; 0; 0]; [4; 10; 0; 0]; [3; 11; 23; 0]; [1; 7; 22; 26]]%Q 0%Q ;;
  x_C_3 <- lil_assign x_C_2 x_Ones ;;
  x_C_4 <- t_mxm TyD (acc TyD qplus) (mkSr qplus qtimes TyD) (MVal x_Lower) REPLACE x_C_3 (Mat
    x_mat) (Trn x_mat) ;;
  x_q_1 <- meq x_C_4 x_answer2 ;;
  _ <- check x_q_1 ;;
  Ok tt) = Ok tt.
Proof. vm_compute. reflexivity. Qed.

(** test_mxm_ABT.cpp:1386-1424, optimized_sequential platform *)
Example test_mxm_Mask_Accum_ABT_ABdup_opt :
 (x_mat <- mdense0 TyD d_Symmetric_4x4 0%Q ;;
  x_Lower <- mdense0 TyD d_Lower_4x4 0%Q ;;
  x_Ones <- mdense0 TyD d_Ones_4x4 0%Q ;;
  x_C <- mnew 4 4 ;;
  x_answer <- mdense0 TyD [[3; 1; 1; 1]; [4; 10; 1; 1]; [3; 11; 23; 1]; [1; 7; 22; 26]]%Q 0%Q ;;
  x_C_1 <- lil_assign x_C x_Ones ;;
  x_C_2 <- t_opt_mxm TyD (acc TyD qplus) TyD (mkSr qplus qtimes TyD) (MVal (Other x_Lower)) MERGE
    x_C_1 (OMat (Other x_mat)) (OTrn (Other x_mat)) ;;
  x_q <- meq x_C_2 x_answer ;;
  _ <- check x_q ;;
  x_answer2 <- mdense0 TyD [[3; 0; 0; 0]; [4; 10; 0; 0]; [3; 11; 23; 0]; [1; 7; 22; 26]]%Q 0%Q ;;
  x_C_3 <- lil_assign x_C_2 x_Ones ;;
  x_C_4 <- t_opt_mxm TyD (acc TyD qplus) TyD (mkSr qplus qtimes TyD) (MVal (Other x_Lower)) REPLACE
    x_C_3 (OMat (Other x_mat)) (OTrn (Other x_mat)) ;;
  x_q_1 <- meq x_C_4 x_answer2 ;;
  _ <- check x_q_1 ;;
  Ok tt) = Ok tt.
Proof. vm_compute. reflexivity. Qed.

(** test_mxm_ABT.cpp:1427-1466 *)
Example test_mxm_Mask_Accum_ABT_ACdup :
 (x_mat <- mdense0 TyD d_Symmetric_4x4 0%Q ;;
  x_Lower <- mdense0 TyD d_Lower_4x4 0%Q ;;
  x_Ones <- mdense0 TyD d_Ones_4x4 0%Q ;;
  x_C <- mnew 4 4 ;;
  x_answer <- mdense0 TyD [[3; 1; 0; 0]; [4; 11; 2; 0]; [2; 12; 25; 3]; [0; 6; 24; 29]]%Q 0%Q ;;
  x_C_1 <- lil_assign x_C x_mat ;;
  x_C_2 <- t_mxm TyD (acc TyD qplus) (mkSr qplus qtimes TyD) (MVal x_Lower) MERGE x_C_1 (Mat x_C_1)
    (Trn x_mat) ;;
  x_q <- meq x_C_2 x_answer ;;
  _ <- check x_q ;;
  x_answer2 <- mdense0 TyD [[3; 0; 0; 0]; [4; 11; 0; 0]; [2; 12; 25; 0]; [0; 6; 24; 29]]%Q 0%Q ;;
  x_C_3 <- lil_assign x_C_2 x_mat ;;
  x_C_4 <- t_mxm TyD (acc TyD qplus) (mkSr qplus qtimes TyD) (MVal x_Lower) REPLACE x_C_3 (Mat
    x_C_3) (Trn x_mat) ;;
  x_q_1 <- meq x_C_4 x_answer2 ;;
  _ <- check x_q_1 ;;
  Ok tt) = Ok tt.
Proof. vm_compute. reflexivity. Qed.

(** test_mxm_ABT.cpp:1427-1466, optimized_sequential platform *)
Example test_mxm_Mask_Accum_ABT_ACdup_opt :
 (x_mat <- mdense0 TyD d_Symmetric_4x4 0%Q ;;
  x_Lower <- mdense0 TyD d_Lower_4x4 0%Q ;;
  x_Ones <- mdense0 TyD d_Ones_4x4 0%Q ;;
  x_C <- mnew 4 4 ;;
  x_answer <- mdense0 TyD [[3; 1; 0; 0]; [4; 11; 2; 0]; [2; 12; 25; 3]; [0; 6; 24; 29]]%Q 0%Q ;;
  x_C_1 <- lil_assign x_C x_mat ;;
  x_C_2 <- t_opt_mxm TyD (acc TyD qplus) TyD (mkSr qplus qtimes TyD) (MVal (Other x_Lower)) MERGE
    x_C_1 (OMat (TheOutput (fun x => x))) (OTrn (Other x_mat)) ;;
  x_q <- meq x_C_2 x_answer ;;
  _ <- check x_q ;;
  x_answer2 <- mdense0 TyD [[3; 0; 0; 0]; [4; 11; 0; 0]; [2; 12; 25; 0]; [0; 6; 24; 29]]%Q 0%Q ;;
  x_C_3 <- lil_assign x_C_2 x_mat ;;
  x_C_4 <- t_opt_mxm TyD (acc TyD qplus) TyD (mkSr qplus qtimes TyD) (MVal (Other x_Lower)) REPLACE
    x_C_3 (OMat (TheOutput (fun x => x))) (OTrn (Other x_mat)) ;;
  x_q_1 <- meq x_C_4 x_answer2 ;;
  _ <- check x_q_1 ;;
  Ok tt) = Ok tt.
Proof. vm_compute. reflexivity. Qed.

(** test_mxm_ABT.cpp:1469-1516 *)
Example test_mxm_Mask_Accum_ABT_BCdup :
 (x_mat <- mdense0 TyD d_Symmetric_4x4 0%Q ;;
  x_Lower <- mdense0 TyD d_Lower_4x4 0%Q ;;
  x_Ones <- mdense0 TyD d_Ones_4x4 0%Q ;;
  x_C <- mnew 4 4 ;;
  x_answer <- mdense0 TyD [[3; 1; 0; 0]; [4; 11; 2; 0]; [2; 12; 25; 3]; [0; 6; 24; 29]]%Q 0%Q ;;
  x_C_1 <- lil_assign x_C x_mat ;;
  x_C_2 <- t_mxm TyD (acc TyD qplus) (mkSr qplus qtimes TyD) (MVal x_Lower) MERGE x_C_1 (Mat x_mat)
    (Trn x_C_1) ;;
  x_q <- meq x_C_2 x_answer ;;
  _ <- check x_q ;;
  x_C_3 <- lil_assign x_C_2 x_mat ;;
  x_C_4 <- t_mxm TyD (acc TyD qplus) (mkSr qplus qtimes TyD) (MVal x_Lower) MERGE x_C_3 (Mat x_mat)
    (Trn x_mat) ;;
  x_q_1 <- meq x_C_4 x_answer ;;
  _ <- check x_q_1 ;;
  x_answer2 <- mdense0 TyD [[3; 0; 0; 0]; [4; 11; 0; 0]; [2; 12; 25; 0]; [0; 6; 24; 29]]%Q 0%Q ;;
  x_C_5 <- lil_assign x_C_4 x_mat ;;
  x_C_6 <- t_mxm TyD (acc TyD qplus) (mkSr qplus qtimes TyD) (MVal x_Lower) REPLACE x_C_5 (Mat
    x_mat) (Trn x_C_5) ;;
  x_q_2 <- meq x_C_6 x_answer2 ;;
  _ <- check x_q_2 ;;
  Ok tt) = Ok tt.
Proof. vm_compute. reflexivity. Qed.

(** test_mxm_ABT.cpp:1469-1516, optimized_sequential platform *)
Example test_mxm_Mask_Accum_ABT_BCdup_opt :
 (x_mat <- mdense0 TyD d_Symmetric_4x4 0%Q ;;
  x_Lower <- mdense0 TyD d_Lower_4x4 0%Q ;;
  x_Ones <- mdense0 TyD d_Ones_4x4 0%Q ;;
  x_C <- mnew 4 4 ;;
  x_answer <- mdense0 TyD [[3; 1; 0; 0]; [4; 11; 2; 0]; [2; 12; 25; 3]; [0; 6; 24; 29]]%Q 0%Q ;;
  x_C_1 <- lil_assign x_C x_mat ;;
  x_C_2 <- t_opt_mxm TyD (acc TyD qplus) TyD (mkSr qplus qtimes TyD) (MVal (Other x_Lower)) MERGE
    x_C_1 (OMat (Other x_mat)) (OTrn (TheOutput (fun x => x))) ;;
  x_q <- meq x_C_2 x_answer ;;
  _ <- check x_q ;;
  x_C_3 <- lil_assign x_C_2 x_mat ;;
  x_C_4 <- t_opt_mxm TyD (acc TyD qplus) TyD (mkSr qplus qtimes TyD) (MVal (Other x_Lower)) MERGE
    x_C_3 (OMat (Other x_mat)) (OTrn (Other x_mat)) ;;
  x_q_1 <- meq x_C_4 x_answer ;;
  _ <- check x_q_1 ;;
  x_answer2 <- mdense0 TyD [[3; 0; 0; 0]; [4; 11; 0; 0]; [2; 12; 25; 0]; [0; 6; 24; 29]]%Q 0%Q ;;
  x_C_5 <- lil_assign x_C_4 x_mat ;;
  x_C_6 <- t_opt_mxm TyD (acc TyD qplus) TyD (mkSr qplus qtimes TyD) (MVal (Other x_Lower)) REPLACE
    x_C_5 (OMat (Other x_mat)) (OTrn (TheOutput (fun x => x))) ;;
  x_q_2 <- meq x_C_6 x_answer2 ;;
  _ <- check x_q_2 ;;
  Ok tt) = Ok tt.
Proof. vm_compute. reflexivity. Qed.

(** test_mxm_ABT.cpp:1519-1556 *)
Example test_mxm_Mask_Accum_ABT_MCdup :
 (x_mat <- mdense0 TyD d_Symmetric_4x4 0%Q ;;
  x_Lower <- mdense0 TyD d_Lower_4x4 0%Q ;;
  x_C <- mnew 4 4 ;;
  x_answer <- mdense0 TyD [[3; 0; 0; 0]; [4; 10; 0; 0]; [3; 11; 23; 0]; [1; 7; 22; 26]]%Q 0%Q ;;
  x_C_1 <- lil_assign x_C x_Lower ;;
  x_C_2 <- t_mxm TyD (acc TyD qplus) (mkSr qplus qtimes TyD) (MVal x_C_1) MERGE x_C_1 (Mat x_mat)
    (Trn x_mat) ;;
  x_q <- meq x_C_2 x_answer ;;
  _ <- check x_q ;;
  x_answer2 <- mdense0 TyD [[3; 0; 0; 0]; [4; 10; 0; 0]; [3; 11; 23; 0]; [1; 7; 22; 26]]%Q 0%Q ;;
  x_C_3 <- lil_assign x_C_2 x_Lower ;;
  x_C_4 <- t_mxm TyD (acc TyD qplus) (mkSr qplus qtimes TyD) (MVal x_C_3) REPLACE x_C_3 (Mat x_mat)
    (Trn x_mat) ;;
  x_q_1 <- meq x_C_4 x_answer2 ;;
  _ <- check x_q_1 ;;
  Ok tt) = Ok tt.
Proof. vm_compute. reflexivity. Qed.

(** test_mxm_ABT.cpp:1519-1556, optimized_sequential platform *)
Example test_mxm_Mask_Accum_ABT_MCdup_opt :
 (x_mat <- mdense0 TyD d_Symmetric_4x4 0%Q ;;
  x_Lower <- mdense0 TyD d_Lower_4x4 0%Q ;;
  x_C <- mnew 4 4 ;;
  x_answer <- mdense0 TyD [[3; 0; 0; 0]; [4; 10; 0; 0]; [3; 11; 23; 0]; [1; 7; 22; 26]]%Q 0%Q ;;
  x_C_1 <- lil_assign x_C x_Lower ;;
  x_C_2 <- t_opt_mxm TyD (acc TyD qplus) TyD (mkSr qplus qtimes TyD) (MVal (TheOutput (fun x => x)))
    MERGE x_C_1 (OMat (Other x_mat)) (OTrn (Other x_mat)) ;;
  x_q <- meq x_C_2 x_answer ;;
  _ <- check x_q ;;
  x_answer2 <- mdense0 TyD [[3; 0; 0; 0]; [4; 10; 0; 0]; [3; 11; 23; 0]; [1; 7; 22; 26]]%Q 0%Q ;;
  x_C_3 <- lil_assign x_C_2 x_Lower ;;
  x_C_4 <- t_opt_mxm TyD (acc TyD qplus) TyD (mkSr qplus qtimes TyD) (MVal (TheOutput (fun x => x)))
    REPLACE x_C_3 (OMat (Other x_mat)) (OTrn (Other x_mat)) ;;
  x_q_1 <- meq x_C_4 x_answer2 ;;
  _ <- check x_q_1 ;;
  Ok tt) = Ok tt.
Proof. vm_compute. reflexivity. Qed.

(** test_mxm_ABT.cpp:1559-1581 *)
Example test_mxm_Mask_Accum_ABT_Replace_lower_mask_result_ones :
 (x_A <- mdense0 TyD d_A_dense_3x3 0%Q ;;
  x_B <- mdense0 TyD d_BT_dense_3x4 0%Q ;;
  x_M <- mdense0 TyD d_LowerMask_3x4 0%Q ;;
  _ <- check (Qeq_bool (inject_Z (nvals x_M)) 6%Q) ;;
  x_result <- mdense0 TyD d_Ones_3x4 0%Q ;;
  x_answer <- mdense0 TyD [[114; 0; 0; 0]; [74; 97; 0; 0]; [119; 157; 112; 0]]%Q 0%Q ;;
  x_result_1 <- t_mxm TyD (acc TyD qsecond) (mkSr qplus qtimes TyD) (MVal x_M) REPLACE x_result (Mat
    x_A) (Trn x_B) ;;
  _ <- check (Qeq_bool (inject_Z (nvals x_result_1)) 6%Q) ;;
  x_q <- meq x_result_1 x_answer ;;
  _ <- check x_q ;;
  Ok tt) = Ok tt.
Proof. vm_compute. reflexivity. Qed.

(** test_mxm_ABT.cpp:1559-1581, optimized_sequential platform *)
Example test_mxm_Mask_Accum_ABT_Replace_lower_mask_result_ones_opt :
 (x_A <- mdense0 TyD d_A_dense_3x3 0%Q ;;
  x_B <- mdense0 TyD d_BT_dense_3x4 0%Q ;;
  x_M <- mdense0 TyD d_LowerMask_3x4 0%Q ;;
  _ <- check (Qeq_bool (inject_Z (nvals x_M)) 6%Q) ;;
  x_result <- mdense0 TyD d_Ones_3x4 0%Q ;;
  x_answer <- mdense0 TyD [[114; 0; 0; 0]; [74; 97; 0; 0]; [119; 157; 112; 0]]%Q 0%Q ;;
  x_result_1 <- t_opt_mxm TyD (acc TyD qsecond) TyD (mkSr qplus qtimes TyD) (MVal (Other x_M))
    REPLACE x_result (OMat (Other x_A)) (OTrn (Other x_B)) ;;
  _ <- check (Qeq_bool (inject_Z (nvals x_result_1)) 6%Q) ;;
  x_q <- meq x_result_1 x_answer ;;
  _ <- check x_q ;;
  Ok tt) = Ok tt.
Proof. vm_compute. reflexivity. Qed.

(** test_mxm_ABT.cpp:1584-1606 *)
Example test_mxm_Mask_Accum_ABT_Replace_bool_masked_result_ones :
 (x_A <- mdense0 TyD d_A_dense_3x3 0%Q ;;
  x_B <- mdense0 TyD d_BT_dense_3x4 0%Q ;;
  x_M <- mdense0 TyB d_LowerBool_3x4 0%Q ;;
  _ <- check (Qeq_bool (inject_Z (nvals x_M)) 6%Q) ;;
  x_result <- mdense0 TyD d_Ones_3x4 0%Q ;;
  x_answer <- mdense0 TyD [[114; 0; 0; 0]; [74; 97; 0; 0]; [119; 157; 112; 0]]%Q 0%Q ;;
  x_result_1 <- t_mxm TyD (acc TyD qsecond) (mkSr qplus qtimes TyD) (MVal x_M) REPLACE x_result (Mat
    x_A) (Trn x_B) ;;
  _ <- check (Qeq_bool (inject_Z (nvals x_result_1)) 6%Q) ;;
  x_q <- meq x_result_1 x_answer ;;
  _ <- check x_q ;;
  Ok tt) = Ok tt.
Proof. vm_compute. reflexivity. Qed.

(** test_mxm_ABT.cpp:1584-1606, optimized_sequential platform *)
Example test_mxm_Mask_Accum_ABT_Replace_bool_masked_result_ones_opt :
 (x_A <- mdense0 TyD d_A_dense_3x3 0%Q ;;
  x_B <- mdense0 TyD d_BT_dense_3x4 0%Q ;;
  x_M <- mdense0 TyB d_LowerBool_3x4 0%Q ;;
  _ <- check (Qeq_bool (inject_Z (nvals x_M)) 6%Q) ;;
  x_result <- mdense0 TyD d_Ones_3x4 0%Q ;;
  x_answer <- mdense0 TyD [[114; 0; 0; 0]; [74; 97; 0; 0]; [119; 157; 112; 0]]%Q 0%Q ;;
  x_result_1 <- t_opt_mxm TyD (acc TyD qsecond) TyD (mkSr qplus qtimes TyD) (MVal (Other x_M))
    REPLACE x_result (OMat (Other x_A)) (OTrn (Other x_B)) ;;
  _ <- check (Qeq_bool (inject_Z (nvals x_result_1)) 6%Q) ;;
  x_q <- meq x_result_1 x_answer ;;
  _ <- check x_q ;;
  Ok tt) = Ok tt.
Proof. vm_compute. reflexivity. Qed.

(** test_mxm_ABT.cpp:1609-1631 *)
Example test_mxm_Mask_Accum_ABT_Replace_mask_stored_zero_result_ones :
 (x_A <- mdense0 TyD d_A_dense_3x3 0%Q ;;
  x_B <- mdense0 TyD d_BT_dense_3x4 0%Q ;;
  x_M <- mdense0 TyD d_Lower_3x4 0%Q ;;
  x_M_1 <- lil_setElement x_M 0 1 (cast TyD 0%Q) ;;
  _ <- check (Qeq_bool (inject_Z (nvals x_M_1)) 7%Q) ;;
  x_result <- mdense0 TyD d_Ones_3x4 0%Q ;;
  x_answer <- mdense0 TyD [[114; 0; 0; 0]; [74; 97; 0; 0]; [119; 157; 112; 0]]%Q 0%Q ;;
  x_result_1 <- t_mxm TyD (acc TyD qsecond) (mkSr qplus qtimes TyD) (MVal x_M_1) REPLACE x_result
    (Mat x_A) (Trn x_B) ;;
  _ <- check (Qeq_bool (inject_Z (nvals x_result_1)) 6%Q) ;;
  x_q <- meq x_result_1 x_answer ;;
  _ <- check x_q ;;
  Ok tt) = Ok tt.
Proof. vm_compute. reflexivity. Qed.

(** test_mxm_ABT.cpp:1609-1631, optimized_sequential platform *)
Example test_mxm_Mask_Accum_ABT_Replace_mask_stored_zero_result_ones_opt :
 (x_A <- mdense0 TyD d_A_dense_3x3 0%Q ;;
  x_B <- mdense0 TyD d_BT_dense_3x4 0%Q ;;
  x_M <- mdense0 TyD d_Lower_3x4 0%Q ;;
  x_M_1 <- lil_setElement x_M 0 1 (cast TyD 0%Q) ;;
  _ <- check (Qeq_bool (inject_Z (nvals x_M_1)) 7%Q) ;;
  x_result <- mdense0 TyD d_Ones_3x4 0%Q ;;
  x_answer <- mdense0 TyD [[114; 0; 0; 0]; [74; 97; 0; 0]; [119; 157; 112; 0]]%Q 0%Q ;;
  x_result_1 <- t_opt_mxm TyD (acc TyD qsecond) TyD (mkSr qplus qtimes TyD) (MVal (Other x_M_1))
    REPLACE x_result (OMat (Other x_A)) (OTrn (Other x_B)) ;;
  _ <- check (Qeq_bool (inject_Z (nvals x_result_1)) 6%Q) ;;
  x_q <- meq x_result_1 x_answer ;;
  _ <- check x_q ;;
  Ok tt) = Ok tt.
Proof. vm_compute. reflexivity. Qed.

(** test_mxm_ABT.cpp:1634-1658 *)
Example test_mxm_Mask_Accum_ABT_Merge_Cones_Mlower :
 (x_A <- mdense0 TyD d_A_dense_3x3 0%Q ;;
  x_B <- mdense0 TyD d_BT_dense_3x4 0%Q ;;
  x_M <- mdense0 TyD [[1; 0; 0; 0]; [1; 1; 0; 0]; [1; 1; 1; 0]]%Q 0%Q ;;
  _ <- check (Qeq_bool (inject_Z (nvals x_M)) 6%Q) ;;
  x_result <- mdense0 TyD d_Ones_3x4 0%Q ;;
  x_answer <- mdense0 TyD [[114; 1; 1; 1]; [74; 97; 1; 1]; [119; 157; 112; 1]]%Q 0%Q ;;
  x_result_1 <- t_mxm TyD (acc TyD qsecond) (mkSr qplus qtimes TyD) (MVal x_M) MERGE x_result (Mat
    x_A) (Trn x_B) ;;
  _ <- check (Qeq_bool (inject_Z (nvals x_result_1)) 12%Q) ;;
  x_q <- meq x_result_1 x_answer ;;
  _ <- check x_q ;;
  Ok tt) = Ok tt.
Proof. vm_compute. reflexivity. Qed.

(** test_mxm_ABT.cpp:1634-1658, optimized_sequential platform *)
Example test_mxm_Mask_Accum_ABT_Merge_Cones_Mlower_opt :
 (x_A <- mdense0 TyD d_A_dense_3x3 0%Q ;;
  x_B <- mdense0 TyD d_BT_dense_3x4 0%Q ;;
  x_M <- mdense0 TyD [[1; 0; 0; 0]; [1; 1; 0; 0]; [1; 1; 1; 0]]%Q 0%Q ;;
  _ <- check (Qeq_bool (inject_Z (nvals x_M)) 6%Q) ;;
  x_result <- mdense0 TyD d_Ones_3x4 0%Q ;;
  x_answer <- mdense0 TyD [[114; 1; 1; 1]; [74; 97; 1; 1]; [119; 157; 112; 1]]%Q 0%Q ;;
  x_result_1 <- t_opt_mxm TyD (acc TyD qsecond) TyD (mkSr qplus qtimes TyD) (MVal (Other x_M)) MERGE
    x_result (OMat (Other x_A)) (OTrn (Other x_B)) ;;
  _ <- check (Qeq_bool (inject_Z (nvals x_result_1)) 12%Q) ;;
  x_q <- meq x_result_1 x_answer ;;
  _ <- check x_q ;;
  Ok tt) = Ok tt.
Proof. vm_compute. reflexivity. Qed.

(** test_mxm_ABT.cpp:1665-1749 *)
Example test_mxm_CompMask_NoAccum_ABT :
 (x_A <- mdense0 TyD d_A_sparse_3x3 0%Q ;;
  x_Identity <- mdense0 TyD d_Identity_3x3 0%Q ;;
  x_Empty <- mnew 3 3 ;;
  x_Ones <- mdense0 TyD d_Ones_3x3 0%Q ;;
  x_C <- mnew 3 3 ;;
  x_MLower <- mdense0 TyD d_Lower_3x3 0%Q ;;
  x_MNotLower <- mdense0 TyD d_NotLower_3x3 0%Q ;;
  x_NotA <- mdense0 TyD [[0; 0; 1]; [1; 0; 1]; [0; 1; 0]]%Q 0%Q ;;
  x_AFilled <- mdense0 TyD [[12; 7; 1]; [1; (-5); 1]; [7; 1; 9]]%Q 0%Q ;;
  x_C_1 <- lil_assign x_C x_Ones ;;
  x_C_2 <- t_mxm TyD noacc (mkSr qplus qtimes TyD) (MComp x_Ones) MERGE x_C_1 (Mat x_A) (Trn
    x_Identity) ;;
  x_q <- meq x_C_2 x_Ones ;;
  _ <- check x_q ;;
  x_C_3 <- lil_assign x_C_2 x_Ones ;;
  x_C_4 <- t_mxm TyD noacc (mkSr qplus qtimes TyD) (MComp x_Empty) MERGE x_C_3 (Mat x_A) (Trn
    x_Identity) ;;
  x_q_1 <- meq x_C_4 x_A ;;
  _ <- check x_q_1 ;;
  x_C_5 <- lil_assign x_C_4 x_Ones ;;
  x_C_6 <- t_mxm TyD noacc (mkSr qplus qtimes TyD) (MComp x_NotA) MERGE x_C_5 (Mat x_A) (Trn
    x_Identity) ;;
  x_q_2 <- meq x_C_6 x_AFilled ;;
  _ <- check x_q_2 ;;
  x_C_7 <- lil_assign x_C_6 x_Ones ;;
  x_C_8 <- t_mxm TyD noacc (mkSr qplus qtimes TyD) (MComp x_MNotLower) MERGE x_C_7 (Mat x_Ones) (Trn
    x_Identity) ;;
  x_q_3 <- meq x_C_8 x_Ones ;;
  _ <- check x_q_3 ;;
  x_C_9 <- lil_assign x_C_8 x_Ones ;;
  x_C_10 <- t_mxm TyD noacc (mkSr qplus qtimes TyD) (MComp x_MLower) MERGE x_C_9 (Mat x_Ones) (Trn
    x_Identity) ;;
  x_q_4 <- meq x_C_10 x_Ones ;;
  _ <- check x_q_4 ;;
  x_C_11 <- lil_assign x_C_10 x_Ones ;;
  x_C_12 <- t_mxm TyD noacc (mkSr qplus qtimes TyD) (MComp x_Ones) REPLACE x_C_11 (Mat x_A) (Trn
    x_Identity) ;;
  x_q_5 <- meq x_C_12 x_Empty ;;
  _ <- check x_q_5 ;;
  x_C_13 <- lil_assign x_C_12 x_Ones ;;
  x_C_14 <- t_mxm TyD noacc (mkSr qplus qtimes TyD) (MComp x_Empty) REPLACE x_C_13 (Mat x_A) (Trn
    x_Identity) ;;
  x_q_6 <- meq x_C_14 x_A ;;
  _ <- check x_q_6 ;;
  x_C_15 <- lil_assign x_C_14 x_Ones ;;
  x_C_16 <- t_mxm TyD noacc (mkSr qplus qtimes TyD) (MComp x_MNotLower) REPLACE x_C_15 (Mat x_Ones)
    (Trn x_Identity) ;;
  x_q_7 <- meq x_C_16 x_MLower ;;
  _ <- check x_q_7 ;;
  x_C_17 <- lil_assign x_C_16 x_Ones ;;
  x_C_18 <- t_mxm TyD noacc (mkSr qplus qtimes TyD) (MComp x_MLower) REPLACE x_C_17 (Mat x_Ones)
    (Trn x_Identity) ;;
  x_q_8 <- meq x_C_18 x_MNotLower ;;
  _ <- check x_q_8 ;;
  Ok tt) = Ok tt.
Proof. vm_compute. reflexivity. Qed.

(** test_mxm_ABT.cpp:1665-1749, optimized_sequential platform *)
Example test_mxm_CompMask_NoAccum_ABT_opt :
 (x_A <- mdense0 TyD d_A_sparse_3x3 0%Q ;;
  x_Identity <- mdense0 TyD d_Identity_3x3 0%Q ;;
  x_Empty <- mnew 3 3 ;;
  x_Ones <- mdense0 TyD d_Ones_3x3 0%Q ;;
  x_C <- mnew 3 3 ;;
  x_MLower <- mdense0 TyD d_Lower_3x3 0%Q ;;
  x_MNotLower <- mdense0 TyD d_NotLower_3x3 0%Q ;;
  x_NotA <- mdense0 TyD [[0; 0; 1]; [1; 0; 1]; [0; 1; 0]]%Q 0%Q ;;
  x_AFilled <- mdense0 TyD [[12; 7; 1]; [1; (-5); 1]; [7; 1; 9]]%Q 0%Q ;;
  x_C_1 <- lil_assign x_C x_Ones ;;
  x_C_2 <- t_opt_mxm TyD noacc TyD (mkSr qplus qtimes TyD) (MComp (Other x_Ones)) MERGE x_C_1 (OMat
    (Other x_A)) (OTrn (Other x_Identity)) ;;
  x_q <- meq x_C_2 x_Ones ;;
  _ <- check x_q ;;
  x_C_3 <- lil_assign x_C_2 x_Ones ;;
  x_C_4 <- t_opt_mxm TyD noacc TyD (mkSr qplus qtimes TyD) (MComp (Other x_Empty)) MERGE x_C_3 (OMat
    (Other x_A)) (OTrn (Other x_Identity)) ;;
  x_q_1 <- meq x_C_4 x_A ;;
  _ <- check x_q_1 ;;
  x_C_5 <- lil_assign x_C_4 x_Ones ;;
  x_C_6 <- t_opt_mxm TyD noacc TyD (mkSr qplus qtimes TyD) (MComp (Other x_NotA)) MERGE x_C_5 (OMat
    (Other x_A)) (OTrn (Other x_Identity)) ;;
  x_q_2 <- meq x_C_6 x_AFilled ;;
  _ <- check x_q_2 ;;
  x_C_7 <- lil_assign x_C_6 x_Ones ;;
  x_C_8 <- t_opt_mxm TyD noacc TyD (mkSr qplus qtimes TyD) (MComp (Other x_MNotLower)) MERGE x_C_7
    (OMat (Other x_Ones)) (OTrn (Other x_Identity)) ;;
  x_q_3 <- meq x_C_8 x_Ones ;;
  _ <- check x_q_3 ;;
  x_C_9 <- lil_assign x_C_8 x_Ones ;;
  x_C_10 <- t_opt_mxm TyD noacc TyD (mkSr qplus qtimes TyD) (MComp (Other x_MLower)) MERGE x_C_9
    (OMat (Other x_Ones)) (OTrn (Other x_Identity)) ;;
  x_q_4 <- meq x_C_10 x_Ones ;;
  _ <- check x_q_4 ;;
  x_C_11 <- lil_assign x_C_10 x_Ones ;;
  x_C_12 <- t_opt_mxm TyD noacc TyD (mkSr qplus qtimes TyD) (MComp (Other x_Ones)) REPLACE x_C_11
    (OMat (Other x_A)) (OTrn (Other x_Identity)) ;;
  x_q_5 <- meq x_C_12 x_Empty ;;
  _ <- check x_q_5 ;;
  x_C_13 <- lil_assign x_C_12 x_Ones ;;
  x_C_14 <- t_opt_mxm TyD noacc TyD (mkSr qplus qtimes TyD) (MComp (Other x_Empty)) REPLACE x_C_13
    (OMat (Other x_A)) (OTrn (Other x_Identity)) ;;
  x_q_6 <- meq x_C_14 x_A ;;
  _ <- check x_q_6 ;;
  x_C_15 <- lil_assign x_C_14 x_Ones ;;
  x_C_16 <- t_opt_mxm TyD noacc TyD (mkSr qplus qtimes TyD) (MComp (Other x_MNotLower)) REPLACE
    x_C_15 (OMat (Other x_Ones)) (OTrn (Other x_Identity)) ;;
  x_q_7 <- meq x_C_16 x_MLower ;;
  _ <- check x_q_7 ;;
  x_C_17 <- lil_assign x_C_16 x_Ones ;;
  x_C_18 <- t_opt_mxm TyD noacc TyD (mkSr qplus qtimes TyD) (MComp (Other x_MLower)) REPLACE x_C_17
    (OMat (Other x_Ones)) (OTrn (Other x_Identity)) ;;
  x_q_8 <- meq x_C_18 x_MNotLower ;;
  _ <- check x_q_8 ;;
  Ok tt) = Ok tt.
Proof. vm_compute. reflexivity. Qed.

(** test_mxm_ABT.cpp:1752-1813 *)
Example test_mxm_CompMask_NoAccum_ABT_empty :
 (x_Empty <- mnew 3 3 ;;
  x_Ones <- mdense0 TyD d_Ones_3x3 0%Q ;;
  x_Identity <- mdense0 TyD d_Identity_3x3 0%Q ;;
  x_C <- mnew 3 3 ;;
  x_M <- mdense0 TyB d_LowerBool_3x3 0%Q ;;
  x_mUpper <- mdense0 TyD d_NotLower_3x3 0%Q ;;
  x_C_1 <- lil_assign x_C x_Ones ;;
  x_C_2 <- t_mxm TyD noacc (mkSr qplus qtimes TyD) (MComp x_mUpper) MERGE x_C_1 (Mat x_Empty) (Trn
    x_Ones) ;;
  x_q <- meq x_C_2 x_mUpper ;;
  _ <- check x_q ;;
  x_C_3 <- lil_assign x_C_2 x_Ones ;;
  x_C_4 <- t_mxm TyD noacc (mkSr qplus qtimes TyD) (MComp x_mUpper) MERGE x_C_3 (Mat x_Ones) (Trn
    x_Empty) ;;
  x_q_1 <- meq x_C_4 x_mUpper ;;
  _ <- check x_q_1 ;;
  x_C_5 <- lil_assign x_C_4 x_Ones ;;
  x_C_6 <- t_mxm TyD noacc (mkSr qplus qtimes TyD) (MComp x_Ones) MERGE x_C_5 (Mat x_Ones) (Trn
    x_Empty) ;;
  x_q_2 <- meq x_C_6 x_Ones ;;
  _ <- check x_q_2 ;;
  x_C_7 <- lil_assign x_C_6 x_Empty ;;
  x_C_8 <- t_mxm TyD noacc (mkSr qplus qtimes TyD) (MComp x_Empty) MERGE x_C_7 (Mat x_Ones) (Trn
    x_Identity) ;;
  x_q_3 <- meq x_C_8 x_Ones ;;
  _ <- check x_q_3 ;;
  x_C_9 <- lil_assign x_C_8 x_Ones ;;
  x_C_10 <- t_mxm TyD noacc (mkSr qplus qtimes TyD) (MComp x_mUpper) REPLACE x_C_9 (Mat x_Empty)
    (Trn x_Ones) ;;
  x_q_4 <- meq x_C_10 x_Empty ;;
  _ <- check x_q_4 ;;
  x_C_11 <- lil_assign x_C_10 x_Ones ;;
  x_C_12 <- t_mxm TyD noacc (mkSr qplus qtimes TyD) (MComp x_mUpper) REPLACE x_C_11 (Mat x_Ones)
    (Trn x_Empty) ;;
  x_q_5 <- meq x_C_12 x_Empty ;;
  _ <- check x_q_5 ;;
  x_C_13 <- lil_assign x_C_12 x_Ones ;;
  x_C_14 <- t_mxm TyD noacc (mkSr qplus qtimes TyD) (MComp x_Ones) REPLACE x_C_13 (Mat x_Ones) (Trn
    x_Empty) ;;
  x_q_6 <- meq x_C_14 x_Empty ;;
  _ <- check x_q_6 ;;
  x_C_15 <- lil_assign x_C_14 x_Empty ;;
  x_C_16 <- t_mxm TyD noacc (mkSr qplus qtimes TyD) (MComp x_Empty) REPLACE x_C_15 (Mat x_Ones) (Trn
    x_Identity) ;;
  x_q_7 <- meq x_C_16 x_Ones ;;
  _ <- check x_q_7 ;;
  Ok tt) = Ok tt.
Proof. vm_compute. reflexivity. Qed.

(** test_mxm_ABT.cpp:1752-1813, optimized_sequential platform *)
Example test_mxm_CompMask_NoAccum_ABT_empty_opt :
 (x_Empty <- mnew 3 3 ;;
  x_Ones <- mdense0 TyD d_Ones_3x3 0%Q ;;
  x_Identity <- mdense0 TyD d_Identity_3x3 0%Q ;;
  x_C <- mnew 3 3 ;;
  x_M <- mdense0 TyB d_LowerBool_3x3 0%Q ;;
  x_mUpper <- mdense0 TyD d_NotLower_3x3 0%Q ;;
  x_C_1 <- lil_assign x_C x_Ones ;;
  x_C_2 <- t_opt_mxm TyD noacc TyD (mkSr qplus qtimes TyD) (MComp (Other x_mUpper)) MERGE x_C_1
    (OMat (Other x_Empty)) (OTrn (Other x_Ones)) ;;
  x_q <- meq x_C_2 x_mUpper ;;
  _ <- check x_q ;;
  x_C_3 <- lil_assign x_C_2 x_Ones ;;
  x_C_4 <- t_opt_mxm TyD noacc TyD (mkSr qplus qtimes TyD) (MComp (Other x_mUpper)) MERGE x_C_3
    (OMat (Other x_Ones)) (OTrn (Other x_Empty)) ;;
  x_q_1 <- meq x_C_4 x_mUpper ;;
  _ <- check x_q_1 ;;
  x_C_5 <- lil_assign x_C_4 x_Ones ;;
  x_C_6 <- t_opt_mxm TyD noacc TyD (mkSr qplus qtimes TyD) (MComp (Other x_Ones)) MERGE x_C_5 (OMat
    (Other x_Ones)) (OTrn (Other x_Empty)) ;;
  x_q_2 <- meq x_C_6 x_Ones ;;
  _ <- check x_q_2 ;;
  x_C_7 <- lil_assign x_C_6 x_Empty ;;
  x_C_8 <- t_opt_mxm TyD noacc TyD (mkSr qplus qtimes TyD) (MComp (Other x_Empty)) MERGE x_C_7 (OMat
    (Other x_Ones)) (OTrn (Other x_Identity)) ;;
  x_q_3 <- meq x_C_8 x_Ones ;;
  _ <- check x_q_3 ;;
  x_C_9 <- lil_assign x_C_8 x_Ones ;;
  x_C_10 <- t_opt_mxm TyD noacc TyD (mkSr qplus qtimes TyD) (MComp (Other x_mUpper)) REPLACE x_C_9
    (OMat (Other x_Empty)) (OTrn (Other x_Ones)) ;;
  x_q_4 <- meq x_C_10 x_Empty ;;
  _ <- check x_q_4 ;;
  x_C_11 <- lil_assign x_C_10 x_Ones ;;
  x_C_12 <- t_opt_mxm TyD noacc TyD (mkSr qplus qtimes TyD) (MComp (Other x_mUpper)) REPLACE x_C_11
    (OMat (Other x_Ones)) (OTrn (Other x_Empty)) ;;
  x_q_5 <- meq x_C_12 x_Empty ;;
  _ <- check x_q_5 ;;
  x_C_13 <- lil_assign x_C_12 x_Ones ;;
  x_C_14 <- t_opt_mxm TyD noacc TyD (mkSr qplus qtimes TyD) (MComp (Other x_Ones)) REPLACE x_C_13
    (OMat (Other x_Ones)) (OTrn (Other x_Empty)) ;;
  x_q_6 <- meq x_C_14 x_Empty ;;
  _ <- check x_q_6 ;;
  x_C_15 <- lil_assign x_C_14 x_Empty ;;
  x_C_16 <- t_opt_mxm TyD noacc TyD (mkSr qplus qtimes TyD) (MComp (Other x_Empty)) REPLACE x_C_15
    (OMat (Other x_Ones)) (OTrn (Other x_Identity)) ;;
  x_q_7 <- meq x_C_16 x_Ones ;;
  _ <- check x_q_7 ;;
  Ok tt) = Ok tt.
Proof. vm_compute. reflexivity. Qed.

(** test_mxm_ABT.cpp:1816-1837 *)
Example test_mxm_CompMask_NoAccum_ABT_Merge_Cones_Mlower_stored_zero :
 (x_A <- mdense0 TyD d_A_dense_3x3 0%Q ;;
  x_B <- mdense0 TyD d_BT_dense_3x4 0%Q ;;
  x_M <- mdense0 TyD d_NotLower_3x4 0%Q ;;
  x_M_1 <- lil_setElement x_M 0 0 (cast TyD 0%Q) ;;
  _ <- check (Qeq_bool (inject_Z (nvals x_M_1)) 7%Q) ;;
  x_result <- mdense0 TyD d_Ones_3x4 0%Q ;;
  x_answer <- mdense0 TyD [[114; 1; 1; 1]; [74; 97; 1; 1]; [119; 157; 112; 1]]%Q 0%Q ;;
  x_result_1 <- t_mxm TyD noacc (mkSr qplus qtimes TyD) (MComp x_M_1) MERGE x_result (Mat x_A) (Trn
    x_B) ;;
  _ <- check (Qeq_bool (inject_Z (nvals x_result_1)) 12%Q) ;;
  x_q <- meq x_result_1 x_answer ;;
  _ <- check x_q ;;
  Ok tt) = Ok tt.
Proof. vm_compute. reflexivity. Qed.

(** test_mxm_ABT.cpp:1816-1837, optimized_sequential platform *)
Example test_mxm_CompMask_NoAccum_ABT_Merge_Cones_Mlower_stored_zero_opt :
 (x_A <- mdense0 TyD d_A_dense_3x3 0%Q ;;
  x_B <- mdense0 TyD d_BT_dense_3x4 0%Q ;;
  x_M <- mdense0 TyD d_NotLower_3x4 0%Q ;;
  x_M_1 <- lil_setElement x_M 0 0 (cast TyD 0%Q) ;;
  _ <- check (Qeq_bool (inject_Z (nvals x_M_1)) 7%Q) ;;
  x_result <- mdense0 TyD d_Ones_3x4 0%Q ;;
  x_answer <- mdense0 TyD [[114; 1; 1; 1]; [74; 97; 1; 1]; [119; 157; 112; 1]]%Q 0%Q ;;
  x_result_1 <- t_opt_mxm TyD noacc TyD (mkSr qplus qtimes TyD) (MComp (Other x_M_1)) MERGE x_result
    (OMat (Other x_A)) (OTrn (Other x_B)) ;;
  _ <- check (Qeq_bool (inject_Z (nvals x_result_1)) 12%Q) ;;
  x_q <- meq x_result_1 x_answer ;;
  _ <- check x_q ;;
  Ok tt) = Ok tt.
Proof. vm_compute. reflexivity. Qed.

(** test_mxm_ABT.cpp:1840-1882 *)
Example test_mxm_CompMask_NoAccum_ABT_emptyRowA_emptyColB :
 (x_A <- mdense0 TyD [[8; 1; 6]; [0; 0; 0]; [4; 9; 2]]%Q 0%Q ;;
  x_B <- mdense0 TyD [[0; 1; 0]; [0; 0; 0]; [0; 1; 1]; [1; 1; 1]]%Q 0%Q ;;
  x_NotLower <- mdense0 TyD d_NotLower_3x4 0%Q ;;
  x_Ones <- mdense0 TyD d_Ones_3x4 0%Q ;;
  x_C <- mnew 3 4 ;;
  x_answer <- mdense0 TyD [[1; 0; 0; 0]; [0; 0; 0; 0]; [9; 0; 11; 0]]%Q 0%Q ;;
  x_C_1 <- lil_assign x_C x_Ones ;;
  x_C_2 <- t_mxm TyD noacc (mkSr qplus qtimes TyD) (MComp x_NotLower) REPLACE x_C_1 (Mat x_A) (Trn
    x_B) ;;
  x_q <- meq x_C_2 x_answer ;;
  _ <- check x_q ;;
  x_answer2 <- mdense0 TyD [[1; 1; 1; 1]; [0; 0; 1; 1]; [9; 0; 11; 1]]%Q 0%Q ;;
  x_C_3 <- lil_assign x_C_2 x_Ones ;;
  x_C_4 <- t_mxm TyD noacc (mkSr qplus qtimes TyD) (MComp x_NotLower) MERGE x_C_3 (Mat x_A) (Trn
    x_B) ;;
  x_q_1 <- meq x_C_4 x_answer2 ;;
  _ <- check x_q_1 ;;
  Ok tt) = Ok tt.
Proof. vm_compute. reflexivity. Qed.

(** test_mxm_ABT.cpp:1840-1882, optimized_sequential platform *)
Example test_mxm_CompMask_NoAccum_ABT_emptyRowA_emptyColB_opt :
 (x_A <- mdense0 TyD [[8; 1; 6]; [0; 0; 0]; [4; 9; 2]]%Q 0%Q ;;
  x_B <- mdense0 TyD [[0; 1; 0]; [0; 0; 0]; [0; 1; 1]; [1; 1; 1]]%Q 0%Q ;;
  x_NotLower <- mdense0 TyD d_NotLower_3x4 0%Q ;;
  x_Ones <- mdense0 TyD d_Ones_3x4 0%Q ;;
  x_C <- mnew 3 4 ;;
  x_answer <- mdense0 TyD [[1; 0; 0; 0]; [0; 0; 0; 0]; [9; 0; 11; 0]]%Q 0%Q ;;
  x_C_1 <- lil_assign x_C x_Ones ;;
  x_C_2 <- t_opt_mxm TyD noacc TyD (mkSr qplus qtimes TyD) (MComp (Other x_NotLower)) REPLACE x_C_1
    (OMat (Other x_A)) (OTrn (Other x_B)) ;;
  x_q <- meq x_C_2 x_answer ;;
  _ <- check x_q ;;
  x_answer2 <- mdense0 TyD [[1; 1; 1; 1]; [0; 0; 1; 1]; [9; 0; 11; 1]]%Q 0%Q ;;
  x_C_3 <- lil_assign x_C_2 x_Ones ;;
  x_C_4 <- t_opt_mxm TyD noacc TyD (mkSr qplus qtimes TyD) (MComp (Other x_NotLower)) MERGE x_C_3
    (OMat (Other x_A)) (OTrn (Other x_B)) ;;
  x_q_1 <- meq x_C_4 x_answer2 ;;
  _ <- check x_q_1 ;;
  Ok tt) = Ok tt.
Proof. vm_compute. reflexivity. Qed.

(** test_mxm_ABT.cpp:1885-1927 *)
Example test_mxm_CompMask_NoAccum_ABT_emptyColA_emptyRowB :
 (x_A <- mdense0 TyD [[8; 0; 6]; [1; 0; 9]; [4; 0; 2]]%Q 0%Q ;;
  x_B <- mdense0 TyD [[0; 1; 0]; [1; 0; 0]; [0; 1; 0]; [1; 1; 0]]%Q 0%Q ;;
  x_NotLower <- mdense0 TyD d_NotLower_3x4 0%Q ;;
  x_Ones <- mdense0 TyD d_Ones_3x4 0%Q ;;
  x_C <- mnew 3 4 ;;
  x_answer <- mdense0 TyD [[0; 0; 0; 0]; [0; 1; 0; 0]; [0; 4; 0; 0]]%Q 0%Q ;;
  x_C_1 <- lil_assign x_C x_Ones ;;
  x_C_2 <- t_mxm TyD noacc (mkSr qplus qtimes TyD) (MComp x_NotLower) REPLACE x_C_1 (Mat x_A) (Trn
    x_B) ;;
  x_q <- meq x_C_2 x_answer ;;
  _ <- check x_q ;;
  x_answer2 <- mdense0 TyD [[0; 1; 1; 1]; [0; 1; 1; 1]; [0; 4; 0; 1]]%Q 0%Q ;;
  x_C_3 <- lil_assign x_C_2 x_Ones ;;
  x_C_4 <- t_mxm TyD noacc (mkSr qplus qtimes TyD) (MComp x_NotLower) MERGE x_C_3 (Mat x_A) (Trn
    x_B) ;;
  x_q_1 <- meq x_C_4 x_answer2 ;;
  _ <- check x_q_1 ;;
  Ok tt) = Ok tt.
Proof. vm_compute. reflexivity. Qed.

(** test_mxm_ABT.cpp:1885-1927, optimized_sequential platform *)
Example test_mxm_CompMask_NoAccum_ABT_emptyColA_emptyRowB_opt :
 (x_A <- mdense0 TyD [[8; 0; 6]; [1; 0; 9]; [4; 0; 2]]%Q 0%Q ;;
  x_B <- mdense0 TyD [[0; 1; 0]; [1; 0; 0]; [0; 1; 0]; [1; 1; 0]]%Q 0%Q ;;
  x_NotLower <- mdense0 TyD d_NotLower_3x4 0%Q ;;
  x_Ones <- mdense0 TyD d_Ones_3x4 0%Q ;;
  x_C <- mnew 3 4 ;;
  x_answer <- mdense0 TyD [[0; 0; 0; 0]; [0; 1; 0; 0]; [0; 4; 0; 0]]%Q 0%Q ;;
  x_C_1 <- lil_assign x_C x_Ones ;;
  x_C_2 <- t_opt_mxm TyD noacc TyD (mkSr qplus qtimes TyD) (MComp (Other x_NotLower)) REPLACE x_C_1
    (OMat (Other x_A)) (OTrn (Other x_B)) ;;
  x_q <- meq x_C_2 x_answer ;;
  _ <- check x_q ;;
  x_answer2 <- mdense0 TyD [[0; 1; 1; 1]; [0; 1; 1; 1]; [0; 4; 0; 1]]%Q 0%Q ;;
  x_C_3 <- lil_assign x_C_2 x_Ones ;;
  x_C_4 <- t_opt_mxm TyD noacc TyD (mkSr qplus qtimes TyD) (MComp (Other x_NotLower)) MERGE x_C_3
    (OMat (Other x_A)) (OTrn (Other x_B)) ;;
  x_q_1 <- meq x_C_4 x_answer2 ;;
  _ <- check x_q_1 ;;
  Ok tt) = Ok tt.
Proof. vm_compute. reflexivity. Qed.

(** test_mxm_ABT.cpp:1930-1971 *)
Example test_mxm_CompMask_NoAccum_ABT_emptyRowM :
 (x_A <- mdense0 TyD [[8; 1; 6]; [0; 0; 0]; [4; 9; 2]]%Q 0%Q ;;
  x_B <- mdense0 TyD [[0; 1; 0]; [0; 0; 0]; [0; 1; 1]]%Q 0%Q ;;
  x_Lower <- mdense0 TyD d_Lower_3x3 0%Q ;;
  x_Ones <- mdense0 TyD d_Ones_3x3 0%Q ;;
  x_C <- mnew 3 3 ;;
  x_answer <- mdense0 TyD [[0; 0; 7]; [0; 0; 0]; [0; 0; 0]]%Q 0%Q ;;
  x_C_1 <- lil_assign x_C x_Ones ;;
  x_C_2 <- t_mxm TyD noacc (mkSr qplus qtimes TyD) (MComp x_Lower) REPLACE x_C_1 (Mat x_A) (Trn x_B)
    ;;
  x_q <- meq x_C_2 x_answer ;;
  _ <- check x_q ;;
  x_answer2 <- mdense0 TyD [[1; 0; 7]; [1; 1; 0]; [1; 1; 1]]%Q 0%Q ;;
  x_C_3 <- lil_assign x_C_2 x_Ones ;;
  x_C_4 <- t_mxm TyD noacc (mkSr qplus qtimes TyD) (MComp x_Lower) MERGE x_C_3 (Mat x_A) (Trn x_B)
    ;;
  x_q_1 <- meq x_C_4 x_answer2 ;;
  _ <- check x_q_1 ;;
  Ok tt) = Ok tt.
Proof. vm_compute. reflexivity. Qed.

(** test_mxm_ABT.cpp:1930-1971, optimized_sequential platform *)
Example test_mxm_CompMask_NoAccum_ABT_emptyRowM_opt :
 (x_A <- mdense0 TyD [[8; 1; 6]; [0; 0; 0]; [4; 9; 2]]%Q 0%Q ;;
  x_B <- mdense0 TyD [[0; 1; 0]; [0; 0; 0]; [0; 1; 1]]%Q 0%Q ;;
  x_Lower <- mdense0 TyD d_Lower_3x3 0%Q ;;
  x_Ones <- mdense0 TyD d_Ones_3x3 0%Q ;;
  x_C <- mnew 3 3 ;;
  x_answer <- mdense0 TyD [[0; 0; 7]; [0; 0; 0]; [0; 0; 0]]%Q 0%Q ;;
  x_C_1 <- lil_assign x_C x_Ones ;;
  x_C_2 <- t_opt_mxm TyD noacc TyD (mkSr qplus qtimes TyD) (MComp (Other x_Lower)) REPLACE x_C_1
    (OMat (Other x_A)) (OTrn (Other x_B)) ;;
  x_q <- meq x_C_2 x_answer ;;
  _ <- check x_q ;;
  x_answer2 <- mdense0 TyD [[1; 0; 7]; [1; 1; 0]; [1; 1; 1]]%Q 0%Q ;;
  x_C_3 <- lil_assign x_C_2 x_Ones ;;
  x_C_4 <- t_opt_mxm TyD noacc TyD (mkSr qplus qtimes TyD) (MComp (Other x_Lower)) MERGE x_C_3 (OMat
    (Other x_A)) (OTrn (Other x_B)) ;;
  x_q_1 <- meq x_C_4 x_answer2 ;;
  _ <- check x_q_1 ;;
  Ok tt) = Ok tt.
Proof. vm_compute. reflexivity. Qed.

(** test_mxm_ABT.cpp:1974-2012 *)
Example test_mxm_CompMask_NoAccum_ABT_ABdup :
 (x_mat <- mdense0 TyD d_Symmetric_4x4 0%Q ;;
  x_NotLower <- mdense0 TyD d_NotLower_4x4 0%Q ;;
  x_Ones <- mdense0 TyD d_Ones_4x4 0%Q ;;
  x_C <- mnew 4 4 ;;
  x_answer <- mdense0 TyD [[2; 1; 1; 1]; [3; 9; 1; 1]; [2; 10; 22; 1]; [0; 6; 21; 25]]%Q 0%Q ;;
  x_C_1 <- lil_assign x_C x_Ones ;;
  x_C_2 <- t_mxm TyD noacc (mkSr qplus qtimes TyD) (MComp x_NotLower) MERGE x_C_1 (Mat x_mat) (Trn
    x_mat) ;;
  x_q <- meq x_C_2 x_answer ;;
  _ <- check x_q ;;
  x_answer2 <- mdense0 TyD [[2; 0; 0; 0]; [3; 9; 0; 0]; [2; 10; 22; 0]; [0; 6; 21; 25]]%Q 0%Q ;;
  x_C_3 <- lil_assign x_C_2 x_Ones ;;
  x_C_4 <- t_mxm TyD noacc (mkSr qplus qtimes TyD) (MComp x_NotLower) REPLACE x_C_3 (Mat x_mat) (Trn
    x_mat) ;;
  x_q_1 <- meq x_C_4 x_answer2 ;;
  _ <- check x_q_1 ;;
  Ok tt) = Ok tt.
Proof. vm_compute. reflexivity. Qed.

(** test_mxm_ABT.cpp:1974-2012, optimized_sequential platform *)
Example test_mxm_CompMask_NoAccum_ABT_ABdup_opt :
 (x_mat <- mdense0 TyD d_Symmetric_4x4 0%Q ;;
  x_NotLower <- mdense0 TyD d_NotLower_4x4 0%Q ;;
  x_Ones <- mdense0 TyD d_Ones_4x4 0%Q ;;
  x_C <- mnew 4 4 ;;
  x_answer <- mdense0 TyD [[2; 1; 1; 1]; [3; 9; 1; 1]; [2; 10; 22; 1]; [0; 6; 21; 25]]%Q 0%Q ;;
  x_C_1 <- lil_assign x_C x_Ones ;;
  x_C_2 <- t_opt_mxm TyD noacc TyD (mkSr qplus qtimes TyD) (MComp (Other x_NotLower)) MERGE x_C_1
    (OMat (Other x_mat)) (OTrn (Other x_mat)) ;;
  x_q <- meq x_C_2 x_answer ;;
  _ <- check x_q ;;
  x_answer2 <- mdense0 TyD [[2; 0; 0; 0]; [3; 9; 0; 0]; [2; 10; 22; 0]; [0; 6; 21; 25]]%Q 0%Q ;;
  x_C_3 <- lil_assign x_C_2 x_Ones ;;
  x_C_4 <- t_opt_mxm TyD noacc TyD (mkSr qplus qtimes TyD) (MComp (Other x_NotLower)) REPLACE x_C_3
    (OMat (Other x_mat)) (OTrn (Other x_mat)) ;;
  x_q_1 <- meq x_C_4 x_answer2 ;;
  _ <- check x_q_1 ;;
  Ok tt) = Ok tt.
Proof. vm_compute. reflexivity. Qed.

(** test_mxm_ABT.cpp:2015-2053 *)
Example test_mxm_CompMask_NoAccum_ABT_ACdup :
 (x_mat <- mdense0 TyD d_Symmetric_4x4 0%Q ;;
  x_NotLower <- mdense0 TyD d_NotLower_4x4 0%Q ;;
  x_Ones <- mdense0 TyD d_Ones_4x4 0%Q ;;
  x_C <- mnew 4 4 ;;
  x_answer <- mdense0 TyD [[2; 1; 0; 0]; [3; 9; 2; 0]; [2; 10; 22; 3]; [0; 6; 21; 25]]%Q 0%Q ;;
  x_C_1 <- lil_assign x_C x_mat ;;
  x_C_2 <- t_mxm TyD noacc (mkSr qplus qtimes TyD) (MComp x_NotLower) MERGE x_C_1 (Mat x_C_1) (Trn
    x_mat) ;;
  x_q <- meq x_C_2 x_answer ;;
  _ <- check x_q ;;
  x_answer2 <- mdense0 TyD [[2; 0; 0; 0]; [3; 9; 0; 0]; [2; 10; 22; 0]; [0; 6; 21; 25]]%Q 0%Q ;;
  x_C_3 <- lil_assign x_C_2 x_mat ;;
  x_C_4 <- t_mxm TyD noacc (mkSr qplus qtimes TyD) (MComp x_NotLower) REPLACE x_C_3 (Mat x_C_3) (Trn
    x_mat) ;;
  x_q_1 <- meq x_C_4 x_answer2 ;;
  _ <- check x_q_1 ;;
  Ok tt) = Ok tt.
Proof. vm_compute. reflexivity. Qed.

(** test_mxm_ABT.cpp:2015-2053, optimized_sequential platform *)
Example test_mxm_CompMask_NoAccum_ABT_ACdup_opt :
 (x_mat <- mdense0 TyD d_Symmetric_4x4 0%Q ;;
  x_NotLower <- mdense0 TyD d_NotLower_4x4 0%Q ;;
  x_Ones <- mdense0 TyD d_Ones_4x4 0%Q ;;
  x_C <- mnew 4 4 ;;
  x_answer <- mdense0 TyD [[2; 1; 0; 0]; [3; 9; 2; 0]; [2; 10; 22; 3]; [0; 6; 21; 25]]%Q 0%Q ;;
  x_C_1 <- lil_assign x_C x_mat ;;
  x_C_2 <- t_opt_mxm TyD noacc TyD (mkSr qplus qtimes TyD) (MComp (Other x_NotLower)) MERGE x_C_1
    (OMat (TheOutput (fun x => x))) (OTrn (Other x_mat)) ;;
  x_q <- meq x_C_2 x_answer ;;
  _ <- check x_q ;;
  x_answer2 <- mdense0 TyD [[2; 0; 0; 0]; [3; 9; 0; 0]; [2; 10; 22; 0]; [0; 6; 21; 25]]%Q 0%Q ;;
  x_C_3 <- lil_assign x_C_2 x_mat ;;
  x_C_4 <- t_opt_mxm TyD noacc TyD (mkSr qplus qtimes TyD) (MComp (Other x_NotLower)) REPLACE x_C_3
    (OMat (TheOutput (fun x => x))) (OTrn (Other x_mat)) ;;
  x_q_1 <- meq x_C_4 x_answer2 ;;
  _ <- check x_q_1 ;;
  Ok tt) = Ok tt.
Proof. vm_compute. reflexivity. Qed.

(** test_mxm_ABT.cpp:2056-2103 *)
Example test_mxm_CompMask_NoAccum_ABT_BCdup :
 (x_mat <- mdense0 TyD d_Symmetric_4x4 0%Q ;;
  x_NotLower <- mdense0 TyD d_NotLower_4x4 0%Q ;;
  x_Ones <- mdense0 TyD d_Ones_4x4 0%Q ;;
  x_C <- mnew 4 4 ;;
  x_answer <- mdense0 TyD [[2; 1; 0; 0]; [3; 9; 2; 0]; [2; 10; 22; 3]; [0; 6; 21; 25]]%Q 0%Q ;;
  x_C_1 <- lil_assign x_C x_mat ;;
  x_C_2 <- t_mxm TyD noacc (mkSr qplus qtimes TyD) (MComp x_NotLower) MERGE x_C_1 (Mat x_mat) (Trn
    x_C_1) ;;
  x_q <- meq x_C_2 x_answer ;;
  _ <- check x_q ;;
  x_C_3 <- lil_assign x_C_2 x_mat ;;
  x_C_4 <- t_mxm TyD noacc (mkSr qplus qtimes TyD) (MComp x_NotLower) MERGE x_C_3 (Mat x_mat) (Trn
    x_mat) ;;
  x_q_1 <- meq x_C_4 x_answer ;;
  _ <- check x_q_1 ;;
  x_answer2 <- mdense0 TyD [[2; 0; 0; 0]; [3; 9; 0; 0]; [2; 10; 22; 0]; [0; 6; 21; 25]]%Q 0%Q ;;
  x_C_5 <- lil_assign x_C_4 x_mat ;;
  x_C_6 <- t_mxm TyD noacc (mkSr qplus qtimes TyD) (MComp x_NotLower) REPLACE x_C_5 (Mat x_mat) (Trn
    x_C_5) ;;
  x_q_2 <- meq x_C_6 x_answer2 ;;
  _ <- check x_q_2 ;;
  Ok tt) = Ok tt.
Proof. vm_compute. reflexivity. Qed.

(** test_mxm_ABT.cpp:2056-2103, optimized_sequential platform *)
Example test_mxm_CompMask_NoAccum_ABT_BCdup_opt :
 (x_mat <- mdense0 TyD d_Symmetric_4x4 0%Q ;;
  x_NotLower <- mdense0 TyD d_NotLower_4x4 0%Q ;;
  x_Ones <- mdense0 TyD d_Ones_4x4 0%Q ;;
  x_C <- mnew 4 4 ;;
  x_answer <- mdense0 TyD [[2; 1; 0; 0]; [3; 9; 2; 0]; [2; 10; 22; 3]; [0; 6; 21; 25]]%Q 0%Q ;;
  x_C_1 <- lil_assign x_C x_mat ;;
  x_C_2 <- t_opt_mxm TyD noacc TyD (mkSr qplus qtimes TyD) (MComp (Other x_NotLower)) MERGE x_C_1
    (OMat (Other x_mat)) (OTrn (TheOutput (fun x => x))) ;;
  x_q <- meq x_C_2 x_answer ;;
  _ <- check x_q ;;
  x_C_3 <- lil_assign x_C_2 x_mat ;;
  x_C_4 <- t_opt_mxm TyD noacc TyD (mkSr qplus qtimes TyD) (MComp (Other x_NotLower)) MERGE x_C_3
    (OMat (Other x_mat)) (OTrn (Other x_mat)) ;;
  x_q_1 <- meq x_C_4 x_answer ;;
  _ <- check x_q_1 ;;
  x_answer2 <- mdense0 TyD [[2; 0; 0; 0]; [3; 9; 0; 0]; [2; 10; 22; 0]; [0; 6; 21; 25]]%Q 0%Q ;;
  x_C_5 <- lil_assign x_C_4 x_mat ;;
  x_C_6 <- t_opt_mxm TyD noacc TyD (mkSr qplus qtimes TyD) (MComp (Other x_NotLower)) REPLACE x_C_5
    (OMat (Other x_mat)) (OTrn (TheOutput (fun x => x))) ;;
  x_q_2 <- meq x_C_6 x_answer2 ;;
  _ <- check x_q_2 ;;
  Ok tt) = Ok tt.
Proof. vm_compute. reflexivity. Qed.

(** test_mxm_ABT.cpp:2106-2127 *)
Example test_mxm_CompMask_NoAccum_ABT_Replace_ABdup :
 (x_mat <- mdense0 TyD d_Symmetric_4x4 0%Q ;;
  x_result <- mdense0 TyD d_Ones_4x4 0%Q ;;
  x_answer <- mdense0 TyD [[2; 0; 0; 0]; [3; 9; 0; 0]; [2; 10; 22; 0]; [0; 6; 21; 25]]%Q 0%Q ;;
  x_M <- mdense0 TyD d_NotLower_4x4 0%Q ;;
  x_result_1 <- t_mxm TyD noacc (mkSr qplus qtimes TyD) (MComp x_M) REPLACE x_result (Mat x_mat)
    (Trn x_mat) ;;
  x_q <- meq x_result_1 x_answer ;;
  _ <- check x_q ;;
  Ok tt) = Ok tt.
Proof. vm_compute. reflexivity. Qed.

(** test_mxm_ABT.cpp:2106-2127, optimized_sequential platform *)
Example test_mxm_CompMask_NoAccum_ABT_Replace_ABdup_opt :
 (x_mat <- mdense0 TyD d_Symmetric_4x4 0%Q ;;
  x_result <- mdense0 TyD d_Ones_4x4 0%Q ;;
  x_answer <- mdense0 TyD [[2; 0; 0; 0]; [3; 9; 0; 0]; [2; 10; 22; 0]; [0; 6; 21; 25]]%Q 0%Q ;;
  x_M <- mdense0 TyD d_NotLower_4x4 0%Q ;;
  x_result_1 <- t_opt_mxm TyD noacc TyD (mkSr qplus qtimes TyD) (MComp (Other x_M)) REPLACE x_result
    (OMat (Other x_mat)) (OTrn (Other x_mat)) ;;
  x_q <- meq x_result_1 x_answer ;;
  _ <- check x_q ;;
  Ok tt) = Ok tt.
Proof. vm_compute. reflexivity. Qed.

(** test_mxm_ABT.cpp:2134-2248 *)
Example test_mxm_CompMask_Accum_ABT :
 (x_A <- mdense0 TyD d_A_sparse_3x3 0%Q ;;
  x_Identity <- mdense0 TyD d_Identity_3x3 0%Q ;;
  x_Empty <- mnew 3 3 ;;
  x_Ones <- mdense0 TyD d_Ones_3x3 0%Q ;;
  x_C <- mnew 3 3 ;;
  x_MLower <- mdense0 TyD d_Lower_3x3 0%Q ;;
  x_MNotLower <- mdense0 TyD d_NotLower_3x3 0%Q ;;
  x_AFilled <- mdense0 TyD [[12; 7; 1]; [1; (-5); 1]; [7; 1; 9]]%Q 0%Q ;;
  x_NotA <- mdense0 TyD [[0; 0; 1]; [1; 0; 1]; [0; 1; 0]]%Q 0%Q ;;
  x_C_1 <- lil_assign x_C x_Ones ;;
  x_C_2 <- t_mxm TyD (acc TyD qplus) (mkSr qplus qtimes TyD) (MComp x_Ones) MERGE x_C_1 (Mat x_A)
    (Trn x_Identity) ;;
  x_q <- meq x_C_2 x_Ones ;;
  _ <- check x_q ;;
  x_C_3 <- lil_assign x_C_2 x_Ones ;;
  x_C_4 <- t_mxm TyD (acc TyD qplus) (mkSr qplus qtimes TyD) (MComp x_NotA) MERGE x_C_3 (Mat x_A)
    (Trn x_Identity) ;;
  x_t <- mdense0 TyD [[13; 8; 1]; [1; (-4); 1]; [8; 1; 10]]%Q 0%Q ;;
  x_q_1 <- meq x_C_4 x_t ;;
  _ <- check x_q_1 ;;
  x_C_5 <- lil_assign x_C_4 x_Ones ;;
  x_C_6 <- t_mxm TyD (acc TyD qplus) (mkSr qplus qtimes TyD) (MComp x_MNotLower) MERGE x_C_5 (Mat
    x_Ones) (Trn x_Identity) ;;
  x_t_1 <- mdense0 TyD [[2; 1; 1]; [2; 2; 1]; [2; 2; 2]]%Q 0%Q ;;
  x_q_2 <- meq x_C_6 x_t_1 ;;
  _ <- check x_q_2 ;;
  x_C_7 <- lil_assign x_C_6 x_Ones ;;
  x_C_8 <- t_mxm TyD (acc TyD qplus) (mkSr qplus qtimes TyD) (MComp x_MLower) MERGE x_C_7 (Mat
    x_Ones) (Trn x_Identity) ;;
  x_t_2 <- mdense0 TyD [[1; 2; 2]; [1; 1; 2]; [1; 1; 1]]%Q 0%Q ;;
  x_q_3 <- meq x_C_8 x_t_2 ;;
  _ <- check x_q_3 ;;
  x_C_9 <- lil_assign x_C_8 x_Ones ;;
  x_C_10 <- t_mxm TyD (acc TyD qplus) (mkSr qplus qtimes TyD) (MComp x_Ones) REPLACE x_C_9 (Mat x_A)
    (Trn x_Identity) ;;
  x_q_4 <- meq x_C_10 x_Empty ;;
  _ <- check x_q_4 ;;
  x_C_11 <- lil_assign x_C_10 x_Ones ;;
  x_C_12 <- t_mxm TyD (acc TyD qplus) (mkSr qplus qtimes TyD) (MComp x_Empty) REPLACE x_C_11 (Mat
    x_A) (Trn x_Identity) ;;
  x_t_3 <- mdense0 TyD [[13; 8; 1]; [1; (-4); 1]; [8; 1; 10]]%Q 0%Q ;;
  x_q_5 <- meq x_C_12 x_t_3 ;;
  _ <- check x_q_5 ;;
  x_C_13 <- lil_assign x_C_12 x_Ones ;;
  x_C_14 <- t_mxm TyD (acc TyD qplus) (mkSr qplus qtimes TyD) (MComp x_MNotLower) REPLACE x_C_13
    (Mat x_Ones) (Trn x_Identity) ;;
  x_t_4 <- mdense0 TyD [[2; 0; 0]; [2; 2; 0]; [2; 2; 2]]%Q 0%Q ;;
  x_q_6 <- meq x_C_14 x_t_4 ;;
  _ <- check x_q_6 ;;
  x_C_15 <- lil_assign x_C_14 x_Ones ;;
  x_C_16 <- t_mxm TyD (acc TyD qplus) (mkSr qplus qtimes TyD) (MComp x_MLower) REPLACE x_C_15 (Mat
    x_Ones) (Trn x_Identity) ;;
  x_t_5 <- mdense0 TyD [[0; 2; 2]; [0; 0; 2]; [0; 0; 0]]%Q 0%Q ;;
  x_q_7 <- meq x_C_16 x_t_5 ;;
  _ <- check x_q_7 ;;
  Ok tt) = Ok tt.
Proof. vm_compute. reflexivity. Qed.

(** test_mxm_ABT.cpp:2134-2248, optimized_sequential platform *)
Example test_mxm_CompMask_Accum_ABT_opt :
 (x_A <- mdense0 TyD d_A_sparse_3x3 0%Q ;;
  x_Identity <- mdense0 TyD d_Identity_3x3 0%Q ;;
  x_Empty <- mnew 3 3 ;;
  x_Ones <- mdense0 TyD d_Ones_3x3 0%Q ;;
  x_C <- mnew 3 3 ;;
  x_MLower <- mdense0 TyD d_Lower_3x3 0%Q ;;
  x_MNotLower <- mdense0 TyD d_NotLower_3x3 0%Q ;;
  x_AFilled <- mdense0 TyD [[12; 7; 1]; [1; (-5); 1]; [7; 1; 9]]%Q 0%Q ;;
  x_NotA <- mdense0 TyD [[0; 0; 1]; [1; 0; 1]; [0; 1; 0]]%Q 0%Q ;;
  x_C_1 <- lil_assign x_C x_Ones ;;
  x_C_2 <- t_opt_mxm TyD (acc TyD qplus) TyD (mkSr qplus qtimes TyD) (MComp (Other x_Ones)) MERGE
    x_C_1 (OMat (Other x_A)) (OTrn (Other x_Identity)) ;;
  x_q <- meq x_C_2 x_Ones ;;
  _ <- check x_q ;;
  x_C_3 <- lil_assign x_C_2 x_Ones ;;
  x_C_4 <- t_opt_mxm TyD (acc TyD qplus) TyD (mkSr qplus qtimes TyD) (MComp (Other x_NotA)) MERGE
    x_C_3 (OMat (Other x_A)) (OTrn (Other x_Identity)) ;;
  x_t <- mdense0 TyD [[13; 8; 1]; [1; (-4); 1]; [8; 1; 10]]%Q 0%Q ;;
  x_q_1 <- meq x_C_4 x_t ;;
  _ <- check x_q_1 ;;
  x_C_5 <- lil_assign x_C_4 x_Ones ;;
  x_C_6 <- t_opt_mxm TyD (acc TyD qplus) TyD (mkSr qplus qtimes TyD) (MComp (Other x_MNotLower))
    MERGE x_C_5 (OMat (Other x_Ones)) (OTrn (Other x_Identity)) ;;
  x_t_1 <- mdense0 TyD [[2; 1; 1]; [2; 2; 1]; [2; 2; 2]]%Q 0%Q ;;
  x_q_2 <- meq x_C_6 x_t_1 ;;
  _ <- check x_q_2 ;;
  x_C_7 <- lil_assign x_C_6 x_Ones ;;
  x_C_8 <- t_opt_mxm TyD (acc TyD qplus) TyD (mkSr qplus qtimes TyD) (MComp (Other x_MLower)) MERGE
    x_C_7 (OMat (Other x_Ones)) (OTrn (Other x_Identity)) ;;
  x_t_2 <- mdense0 TyD [[1; 2; 2]; [1; 1; 2]; [1; 1; 1]]%Q 0%Q ;;
  x_q_3 <- meq x_C_8 x_t_2 ;;
  _ <- check x_q_3 ;;
  x_C_9 <- lil_assign x_C_8 x_Ones ;;
  x_C_10 <- t_opt_mxm TyD (acc TyD qplus) TyD (mkSr qplus qtimes TyD) (MComp (Other x_Ones)) REPLACE
    x_C_9 (OMat (Other x_A)) (OTrn (Other x_Identity)) ;;
  x_q_4 <- meq x_C_10 x_Empty ;;
  _ <- check x_q_4 ;;
  x_C_11 <- lil_assign x_C_10 x_Ones ;;
  x_C_12 <- t_opt_mxm TyD (acc TyD qplus) TyD (mkSr qplus qtimes TyD) (MComp (Other x_Empty))
    REPLACE x_C_11 (OMat (Other x_A)) (OTrn (Other x_Identity)) ;;
  x_t_3 <- mdense0 TyD [[13; 8; 1]; [1; (-4); 1]; [8; 1; 10]]%Q 0%Q ;;
  x_q_5 <- meq x_C_12 x_t_3 ;;
  _ <- check x_q_5 ;;
  x_C_13 <- lil_assign x_C_12 x_Ones ;;
  x_C_14 <- t_opt_mxm TyD (acc TyD qplus) TyD (mkSr qplus qtimes TyD) (MComp (Other x_MNotLower))
    REPLACE x_C_13 (OMat (Other x_Ones)) (OTrn (Other x_Identity)) ;;
  x_t_4 <- mdense0 TyD [[2; 0; 0]; [2; 2; 0]; [2; 2; 2]]%Q 0%Q ;;
  x_q_6 <- meq x_C_14 x_t_4 ;;
  _ <- check x_q_6 ;;
  x_C_15 <- lil_assign x_C_14 x_Ones ;;
  x_C_16 <- t_opt_mxm TyD (acc TyD qplus) TyD (mkSr qplus qtimes TyD) (MComp (Other x_MLower))
    REPLACE x_C_15 (OMat (Other x_Ones)) (OTrn (Other x_Identity)) ;;
  x_t_5 <- mdense0 TyD [[0; 2; 2]; [0; 0; 2]; [0; 0; 0]]%Q 0%Q ;;
  x_q_7 <- meq x_C_16 x_t_5 ;;
  _ <- check x_q_7 ;;
  Ok tt) = Ok tt.
Proof. vm_compute. reflexivity. Qed.

(** test_mxm_ABT.cpp:2251-2298 *)
Example test_mxm_CompMask_Accum_ABTM_empty :
 (x_Empty <- mnew 3 3 ;;
  x_Ones <- mdense0 TyD d_Ones_3x3 0%Q ;;
  x_C <- mnew 3 3 ;;
  x_MNotLower <- mdense0 TyB d_NotLowerBool_3x3 0%Q ;;
  x_C_1 <- lil_assign x_C x_Ones ;;
  x_C_2 <- t_mxm TyD (acc TyD qplus) (mkSr qplus qtimes TyD) (MComp x_MNotLower) MERGE x_C_1 (Mat
    x_Empty) (Trn x_Ones) ;;
  x_q <- meq x_C_2 x_Ones ;;
  _ <- check x_q ;;
  x_C_3 <- lil_assign x_C_2 x_Ones ;;
  x_C_4 <- t_mxm TyD (acc TyD qplus) (mkSr qplus qtimes TyD) (MComp x_MNotLower) MERGE x_C_3 (Mat
    x_Ones) (Trn x_Empty) ;;
  x_q_1 <- meq x_C_4 x_Ones ;;
  _ <- check x_q_1 ;;
  x_C_5 <- lil_assign x_C_4 x_Ones ;;
  x_C_6 <- t_mxm TyD (acc TyD qplus) (mkSr qplus qtimes TyD) (MComp x_Ones) MERGE x_C_5 (Mat x_Ones)
    (Trn x_Ones) ;;
  x_q_2 <- meq x_C_6 x_Ones ;;
  _ <- check x_q_2 ;;
  x_C_7 <- lil_assign x_C_6 x_Ones ;;
  x_C_8 <- t_mxm TyD (acc TyD qplus) (mkSr qplus qtimes TyD) (MComp x_MNotLower) REPLACE x_C_7 (Mat
    x_Empty) (Trn x_Ones) ;;
  x_t <- mdense0 TyD d_Lower_3x3 0%Q ;;
  x_q_3 <- meq x_C_8 x_t ;;
  _ <- check x_q_3 ;;
  x_C_9 <- lil_assign x_C_8 x_Ones ;;
  x_C_10 <- t_mxm TyD (acc TyD qplus) (mkSr qplus qtimes TyD) (MComp x_MNotLower) REPLACE x_C_9 (Mat
    x_Ones) (Trn x_Empty) ;;
  x_t_1 <- mdense0 TyD d_Lower_3x3 0%Q ;;
  x_q_4 <- meq x_C_10 x_t_1 ;;
  _ <- check x_q_4 ;;
  x_C_11 <- lil_assign x_C_10 x_Ones ;;
  x_C_12 <- t_mxm TyD (acc TyD qplus) (mkSr qplus qtimes TyD) (MComp x_Ones) REPLACE x_C_11 (Mat
    x_Ones) (Trn x_Empty) ;;
  x_q_5 <- meq x_C_12 x_Empty ;;
  _ <- check x_q_5 ;;
  Ok tt) = Ok tt.
Proof. vm_compute. reflexivity. Qed.

(** test_mxm_ABT.cpp:2251-2298, optimized_sequential platform *)
Example test_mxm_CompMask_Accum_ABTM_empty_opt :
 (x_Empty <- mnew 3 3 ;;
  x_Ones <- mdense0 TyD d_Ones_3x3 0%Q ;;
  x_C <- mnew 3 3 ;;
  x_MNotLower <- mdense0 TyB d_NotLowerBool_3x3 0%Q ;;
  x_C_1 <- lil_assign x_C x_Ones ;;
  x_C_2 <- t_opt_mxm TyD (acc TyD qplus) TyD (mkSr qplus qtimes TyD) (MComp (Other x_MNotLower))
    MERGE x_C_1 (OMat (Other x_Empty)) (OTrn (Other x_Ones)) ;;
  x_q <- meq x_C_2 x_Ones ;;
  _ <- check x_q ;;
  x_C_3 <- lil_assign x_C_2 x_Ones ;;
  x_C_4 <- t_opt_mxm TyD (acc TyD qplus) TyD (mkSr qplus qtimes TyD) (MComp (Other x_MNotLower))
    MERGE x_C_3 (OMat (Other x_Ones)) (OTrn (Other x_Empty)) ;;
  x_q_1 <- meq x_C_4 x_Ones ;;
  _ <- check x_q_1 ;;
  x_C_5 <- lil_assign x_C_4 x_Ones ;;
  x_C_6 <- t_opt_mxm TyD (acc TyD qplus) TyD (mkSr qplus qtimes TyD) (MComp (Other x_Ones)) MERGE
    x_C_5 (OMat (Other x_Ones)) (OTrn (Other x_Ones)) ;;
  x_q_2 <- meq x_C_6 x_Ones ;;
  _ <- check x_q_2 ;;
  x_C_7 <- lil_assign x_C_6 x_Ones ;;
  x_C_8 <- t_opt_mxm TyD (acc TyD qplus) TyD (mkSr qplus qtimes TyD) (MComp (Other x_MNotLower))
    REPLACE x_C_7 (OMat (Other x_Empty)) (OTrn (Other x_Ones)) ;;
  x_t <- mdense0 TyD d_Lower_3x3 0%Q ;;
  x_q_3 <- meq x_C_8 x_t ;;
  _ <- check x_q_3 ;;
  x_C_9 <- lil_assign x_C_8 x_Ones ;;
  x_C_10 <- t_opt_mxm TyD (acc TyD qplus) TyD (mkSr qplus qtimes TyD) (MComp (Other x_MNotLower))
    REPLACE x_C_9 (OMat (Other x_Ones)) (OTrn (Other x_Empty)) ;;
  x_t_1 <- mdense0 TyD d_Lower_3x3 0%Q ;;
  x_q_4 <- meq x_C_10 x_t_1 ;;
  _ <- check x_q_4 ;;
  x_C_11 <- lil_assign x_C_10 x_Ones ;;
  x_C_12 <- t_opt_mxm TyD (acc TyD qplus) TyD (mkSr qplus qtimes TyD) (MComp (Other x_Ones)) REPLACE
    x_C_11 (OMat (Other x_Ones)) (OTrn (Other x_Empty)) ;;
  x_q_5 <- meq x_C_12 x_Empty ;;
  _ <- check x_q_5 ;;
  Ok tt) = Ok tt.
Proof. vm_compute. reflexivity. Qed.

(** test_mxm_ABT.cpp:2301-2343 *)
Example test_mxm_CompMask_Accum_ABT_emptyRowA_emptyColB :
 (x_A <- mdense0 TyD [[8; 1; 6]; [0; 0; 0]; [4; 9; 2]]%Q 0%Q ;;
  x_B <- mdense0 TyD [[0; 1; 0]; [0; 0; 0]; [0; 1; 1]; [1; 1; 1]]%Q 0%Q ;;
  x_MNotLower <- mdense0 TyD d_NotLower_3x4 0%Q ;;
  x_Ones <- mdense0 TyD d_Ones_3x4 0%Q ;;
  x_C <- mnew 3 4 ;;
  x_answer <- mdense0 TyD [[2; 0; 0; 0]; [1; 1; 0; 0]; [10; 1; 12; 0]]%Q 0%Q ;;
  x_C_1 <- lil_assign x_C x_Ones ;;
  x_C_2 <- t_mxm TyD (acc TyD qplus) (mkSr qplus qtimes TyD) (MComp x_MNotLower) REPLACE x_C_1 (Mat
    x_A) (Trn x_B) ;;
  x_q <- meq x_C_2 x_answer ;;
  _ <- check x_q ;;
  x_answer2 <- mdense0 TyD [[2; 1; 1; 1]; [1; 1; 1; 1]; [10; 1; 12; 1]]%Q 0%Q ;;
  x_C_3 <- lil_assign x_C_2 x_Ones ;;
  x_C_4 <- t_mxm TyD (acc TyD qplus) (mkSr qplus qtimes TyD) (MComp x_MNotLower) MERGE x_C_3 (Mat
    x_A) (Trn x_B) ;;
  x_q_1 <- meq x_C_4 x_answer2 ;;
  _ <- check x_q_1 ;;
  Ok tt) = Ok tt.
Proof. vm_compute. reflexivity. Qed.

(** test_mxm_ABT.cpp:2301-2343, optimized_sequential platform *)
Example test_mxm_CompMask_Accum_ABT_emptyRowA_emptyColB_opt :
 (x_A <- mdense0 TyD [[8; 1; 6]; [0; 0; 0]; [4; 9; 2]]%Q 0%Q ;;
  x_B <- mdense0 TyD [[0; 1; 0]; [0; 0; 0]; [0; 1; 1]; [1; 1; 1]]%Q 0%Q ;;
  x_MNotLower <- mdense0 TyD d_NotLower_3x4 0%Q ;;
  x_Ones <- mdense0 TyD d_Ones_3x4 0%Q ;;
  x_C <- mnew 3 4 ;;
  x_answer <- mdense0 TyD [[2; 0; 0; 0]; [1; 1; 0; 0]; [10; 1; 12; 0]]%Q 0%Q ;;
  x_C_1 <- lil_assign x_C x_Ones ;;
  x_C_2 <- t_opt_mxm TyD (acc TyD qplus) TyD (mkSr qplus qtimes TyD) (MComp (Other x_MNotLower))
    REPLACE x_C_1 (OMat (Other x_A)) (OTrn (Other x_B)) ;;
  x_q <- meq x_C_2 x_answer ;;
  _ <- check x_q ;;
  x_answer2 <- mdense0 TyD [[2; 1; 1; 1]; [1; 1; 1; 1]; [10; 1; 12; 1]]%Q 0%Q ;;
  x_C_3 <- lil_assign x_C_2 x_Ones ;;
  x_C_4 <- t_opt_mxm TyD (acc TyD qplus) TyD (mkSr qplus qtimes TyD) (MComp (Other x_MNotLower))
    MERGE x_C_3 (OMat (Other x_A)) (OTrn (Other x_B)) ;;
  x_q_1 <- meq x_C_4 x_answer2 ;;
  _ <- check x_q_1 ;;
  Ok tt) = Ok tt.
Proof. vm_compute. reflexivity. Qed.

(** test_mxm_ABT.cpp:2346-2388 *)
Example test_mxm_CompMask_Accum_ABT_emptyColA_emptyRowB :
 (x_A <- mdense0 TyD [[8; 0; 6]; [1; 0; 9]; [4; 0; 2]]%Q 0%Q ;;
  x_B <- mdense0 TyD [[0; 1; 0]; [1; 0; 0]; [0; 1; 0]; [1; 1; 0]]%Q 0%Q ;;
  x_NotLower <- mdense0 TyD d_NotLower_3x4 0%Q ;;
  x_Ones <- mdense0 TyD d_Ones_3x4 0%Q ;;
  x_C <- mnew 3 4 ;;
  x_answer <- mdense0 TyD [[1; 0; 0; 0]; [1; 2; 0; 0]; [1; 5; 1; 0]]%Q 0%Q ;;
  x_C_1 <- lil_assign x_C x_Ones ;;
  x_C_2 <- t_mxm TyD (acc TyD qplus) (mkSr qplus qtimes TyD) (MComp x_NotLower) REPLACE x_C_1 (Mat
    x_A) (Trn x_B) ;;
  x_q <- meq x_C_2 x_answer ;;
  _ <- check x_q ;;
  x_answer2 <- mdense0 TyD [[1; 1; 1; 1]; [1; 2; 1; 1]; [1; 5; 1; 1]]%Q 0%Q ;;
  x_C_3 <- lil_assign x_C_2 x_Ones ;;
  x_C_4 <- t_mxm TyD (acc TyD qplus) (mkSr qplus qtimes TyD) (MComp x_NotLower) MERGE x_C_3 (Mat
    x_A) (Trn x_B) ;;
  x_q_1 <- meq x_C_4 x_answer2 ;;
  _ <- check x_q_1 ;;
  Ok tt) = Ok tt.
Proof. vm_compute. reflexivity. Qed.

(** test_mxm_ABT.cpp:2346-2388, optimized_sequential platform *)
Example test_mxm_CompMask_Accum_ABT_emptyColA_emptyRowB_opt :
 (x_A <- mdense0 TyD [[8; 0; 6]; [1; 0; 9]; [4; 0; 2]]%Q 0%Q ;;
  x_B <- mdense0 TyD [[0; 1; 0]; [1; 0; 0]; [0; 1; 0]; [1; 1; 0]]%Q 0%Q ;;
  x_NotLower <- mdense0 TyD d_NotLower_3x4 0%Q ;;
  x_Ones <- mdense0 TyD d_Ones_3x4 0%Q ;;
  x_C <- mnew 3 4 ;;
  x_answer <- mdense0 TyD [[1; 0; 0; 0]; [1; 2; 0; 0]; [1; 5; 1; 0]]%Q 0%Q ;;
  x_C_1 <- lil_assign x_C x_Ones ;;
  x_C_2 <- t_opt_mxm TyD (acc TyD qplus) TyD (mkSr qplus qtimes TyD) (MComp (Other x_NotLower))
    REPLACE x_C_1 (OMat (Other x_A)) (OTrn (Other x_B)) ;;
  x_q <- meq x_C_2 x_answer ;;
  _ <- check x_q ;;
  x_answer2 <- mdense0 TyD [[1; 1; 1; 1]; [1; 2; 1; 1]; [1; 5; 1; 1]]%Q 0%Q ;;
  x_C_3 <- lil_assign x_C_2 x_Ones ;;
  x_C_4 <- t_opt_mxm TyD (acc TyD qplus) TyD (mkSr qplus qtimes TyD) (MComp (Other x_NotLower))
    MERGE x_C_3 (OMat (Other x_A)) (OTrn (Other x_B)) ;;
  x_q_1 <- meq x_C_4 x_answer2 ;;
  _ <- check x_q_1 ;;
  Ok tt) = Ok tt.
Proof. vm_compute. reflexivity. Qed.

(** test_mxm_ABT.cpp:2391-2429 *)
Example test_mxm_CompMask_Accum_ABT_ABdup :
 (x_mat <- mdense0 TyD d_Symmetric_4x4 0%Q ;;
  x_NotLower <- mdense0 TyD d_NotLower_4x4 0%Q ;;
  x_Ones <- mdense0 TyD d_Ones_4x4 0%Q ;;
  x_C <- mnew 4 4 ;;
  x_answer <- mdense0 TyD [[3; 1; 1; 1]; [4; 10; 1; 1]; [3; 11; 23; 1]; [1; 7; 22; 26]]%Q 0%Q ;;
  x_C_1 <- lil_assign x_C x_Ones ;;
  x_C_2 <- t_mxm TyD (acc TyD qplus) (mkSr qplus qtimes TyD) (MComp x_NotLower) MERGE x_C_1 (Mat
    x_mat) (Trn x_mat) ;;
  x_q <- meq x_C_2 x_answer ;;
  _ <- check x_q ;;
  x_answer2 <- mdense0 TyD [[3; 0; 0; 0]; [4; 10; 0; 0]; [3; 11; 23; 0]; [1; 7; 22; 26]]%Q 0%Q ;;
  x_C_3 <- lil_assign x_C_2 x_Ones ;;
  x_C_4 <- t_mxm TyD (acc TyD qplus) (mkSr qplus qtimes TyD) (MComp x_NotLower) REPLACE x_C_3 (Mat
    x_mat) (Trn x_mat) ;;
  x_q_1 <- meq x_C_4 x_answer2 ;;
  _ <- check x_q_1 ;;
  Ok tt) = Ok tt.
Proof. vm_compute. reflexivity. Qed.

(** test_mxm_ABT.cpp:2391-2429, optimized_sequential platform *)
Example test_mxm_CompMask_Accum_ABT_ABdup_opt :
 (x_mat <- mdense0 TyD d_Symmetric_4x4 0%Q ;;
  x_NotLower <- mdense0 TyD d_NotLower_4x4 0%Q ;;
  x_Ones <- mdense0 TyD d_Ones_4x4 0%Q ;;
  x_C <- mnew 4 4 ;;
  x_answer <- mdense0 TyD [[3; 1; 1; 1]; [4; 10; 1; 1]; [3; 11; 23; 1]; [1; 7; 22; 26]]%Q 0%Q ;;
  x_C_1 <- lil_assign x_C x_Ones ;;
  x_C_2 <- t_opt_mxm TyD (acc TyD qplus) TyD (mkSr qplus qtimes TyD) (MComp (Other x_NotLower))
    MERGE x_C_1 (OMat (Other x_mat)) (OTrn (Other x_mat)) ;;
  x_q <- meq x_C_2 x_answer ;;
  _ <- check x_q ;;
  x_answer2 <- mdense0 TyD [[3; 0; 0; 0]; [4; 10; 0; 0]; [3; 11; 23; 0]; [1; 7; 22; 26]]%Q 0%Q ;;
  x_C_3 <- lil_assign x_C_2 x_Ones ;;
  x_C_4 <- t_opt_mxm TyD (acc TyD qplus) TyD (mkSr qplus qtimes TyD) (MComp (Other x_NotLower))
    REPLACE x_C_3 (OMat (Other x_mat)) (OTrn (Other x_mat)) ;;
  x_q_1 <- meq x_C_4 x_answer2 ;;
  _ <- check x_q_1 ;;
  Ok tt) = Ok tt.
Proof. vm_compute. reflexivity. Qed.

(** test_mxm_ABT.cpp:2432-2471 *)
Example test_mxm_CompMask_Accum_ABT_ACdup :
 (x_mat <- mdense0 TyD d_Symmetric_4x4 0%Q ;;
  x_NotLower <- mdense0 TyD d_NotLower_4x4 0%Q ;;
  x_Ones <- mdense0 TyD d_Ones_4x4 0%Q ;;
  x_C <- mnew 4 4 ;;
  x_answer <- mdense0 TyD [[3; 1; 0; 0]; [4; 11; 2; 0]; [2; 12; 25; 3]; [0; 6; 24; 29]]%Q 0%Q ;;
  x_C_1 <- lil_assign x_C x_mat ;;
  x_C_2 <- t_mxm TyD (acc TyD qplus) (mkSr qplus qtimes TyD) (MComp x_NotLower) MERGE x_C_1 (Mat
    x_C_1) (Trn x_mat) ;;
  x_q <- meq x_C_2 x_answer ;;
  _ <- check x_q ;;
  x_answer2 <- mdense0 TyD [[3; 0; 0; 0]; [4; 11; 0; 0]; [2; 12; 25; 0]; [0; 6; 24; 29]]%Q 0%Q ;;
  x_C_3 <- lil_assign x_C_2 x_mat ;;
  x_C_4 <- t_mxm TyD (acc TyD qplus) (mkSr qplus qtimes TyD) (MComp x_NotLower) REPLACE x_C_3 (Mat
    x_C_3) (Trn x_mat) ;;
  x_q_1 <- meq x_C_4 x_answer2 ;;
  _ <- check x_q_1 ;;
  Ok tt) = Ok tt.
Proof. vm_compute. reflexivity. Qed.

(** test_mxm_ABT.cpp:2432-2471, optimized_sequential platform *)
Example test_mxm_CompMask_Accum_ABT_ACdup_opt :
 (x_mat <- mdense0 TyD d_Symmetric_4x4 0%Q ;;
  x_NotLower <- mdense0 TyD d_NotLower_4x4 0%Q ;;
  x_Ones <- mdense0 TyD d_Ones_4x4 0%Q ;;
  x_C <- mnew 4 4 ;;
  x_answer <- mdense0 TyD [[3; 1; 0; 0]; [4; 11; 2; 0]; [2; 12; 25; 3]; [0; 6; 24; 29]]%Q 0%Q ;;
  x_C_1 <- lil_assign x_C x_mat ;;
  x_C_2 <- t_opt_mxm TyD (acc TyD qplus) TyD (mkSr qplus qtimes TyD) (MComp (Other x_NotLower))
    MERGE x_C_1 (OMat (TheOutput (fun x => x))) (OTrn (Other x_mat)) ;;
  x_q <- meq x_C_2 x_answer ;;
  _ <- check x_q ;;
  x_answer2 <- mdense0 TyD [[3; 0; 0; 0]; [4; 11; 0; 0]; [2; 12; 25; 0]; [0; 6; 24; 29]]%Q 0%Q ;;
  x_C_3 <- lil_assign x_C_2 x_mat ;;
  x_C_4 <- t_opt_mxm TyD (acc TyD qplus) TyD (mkSr qplus qtimes TyD) (MComp (Other x_NotLower))
    REPLACE x_C_3 (OMat (TheOutput (fun x => x))) (OTrn (Other x_mat)) ;;
  x_q_1 <- meq x_C_4 x_answer2 ;;
  _ <- check x_q_1 ;;
  Ok tt) = Ok tt.
Proof. vm_compute. reflexivity. Qed.

(** test_mxm_ABT.cpp:2474-2521 *)
Example test_mxm_CompMask_Accum_ABT_BCdup :
 (x_mat <- mdense0 TyD d_Symmetric_4x4 0%Q ;;
  x_NotLower <- mdense0 TyD d_NotLower_4x4 0%Q ;;
  x_Ones <- mdense0 TyD d_Ones_4x4 0%Q ;;
  x_C <- mnew 4 4 ;;
  x_answer <- mdense0 TyD [[3; 1; 0; 0]; [4; 11; 2; 0]; [2; 12; 25; 3]; [0; 6; 24; 29]]%Q 0%Q ;;
  x_C_1 <- lil_assign x_C x_mat ;;
  x_C_2 <- t_mxm TyD (acc TyD qplus) (mkSr qplus qtimes TyD) (MComp x_NotLower) MERGE x_C_1 (Mat
    x_mat) (Trn x_C_1) ;;
  x_q <- meq x_C_2 x_answer ;;
  _ <- check x_q ;;
  x_C_3 <- lil_assign x_C_2 x_mat ;;
  x_C_4 <- t_mxm TyD (acc TyD qplus) (mkSr qplus qtimes TyD) (MComp x_NotLower) MERGE x_C_3 (Mat
    x_mat) (Trn x_mat) ;;
  x_q_1 <- meq x_C_4 x_answer ;;
  _ <- check x_q_1 ;;
  x_answer2 <- mdense0 TyD [[3; 0; 0; 0]; [4; 11; 0; 0]; [2; 12; 25; 0]; [0; 6; 24; 29]]%Q 0%Q ;;
  x_C_5 <- lil_assign x_C_4 x_mat ;;
  x_C_6 <- t_mxm TyD (acc TyD qplus) (mkSr qplus qtimes TyD) (MComp x_NotLower) REPLACE x_C_5 (Mat
    x_mat) (Trn x_C_5) ;;
  x_q_2 <- meq x_C_6 x_answer2 ;;
  _ <- check x_q_2 ;;
  Ok tt) = Ok tt.
Proof. vm_compute. reflexivity. Qed.

(** test_mxm_ABT.cpp:2474-2521, optimized_sequential platform *)
Example test_mxm_CompMask_Accum_ABT_BCdup_opt :
 (x_mat <- mdense0 TyD d_Symmetric_4x4 0%Q ;;
  x_NotLower <- mdense0 TyD d_NotLower_4x4 0%Q ;;
  x_Ones <- mdense0 TyD d_Ones_4x4 0%Q ;;
  x_C <- mnew 4 4 ;;
  x_answer <- mdense0 TyD [[3; 1; 0; 0]; [4; 11; 2; 0]; [2; 12; 25; 3]; [0; 6; 24; 29]]%Q 0%Q ;;
  x_C_1 <- lil_assign x_C x_mat ;;
  x_C_2 <- t_opt_mxm TyD (acc TyD qplus) TyD (mkSr qplus qtimes TyD) (MComp (Other x_NotLower))
    MERGE x_C_1 (OMat (Other x_mat)) (OTrn (TheOutput (fun x => x))) ;;
  x_q <- meq x_C_2 x_answer ;;
  _ <- check x_q ;;
  x_C_3 <- lil_assign x_C_2 x_mat ;;
  x_C_4 <- t_opt_mxm TyD (acc TyD qplus) TyD (mkSr qplus qtimes TyD) (MComp (Other x_NotLower))
    MERGE x_C_3 (OMat (Other x_mat)) (OTrn (Other x_mat)) ;;
  x_q_1 <- meq x_C_4 x_answer ;;
  _ <- check x_q_1 ;;
  x_answer2 <- mdense0 TyD [[3; 0; 0; 0]; [4; 11; 0; 0]; [2; 12; 25; 0]; [0; 6; 24; 29]]%Q 0%Q ;;
  x_C_5 <- lil_assign x_C_4 x_mat ;;
  x_C_6 <- t_opt_mxm TyD (acc TyD qplus) TyD (mkSr qplus qtimes TyD) (MComp (Other x_NotLower))
    REPLACE x_C_5 (OMat (Other x_mat)) (OTrn (TheOutput (fun x => x))) ;;
  x_q_2 <- meq x_C_6 x_answer2 ;;
  _ <- check x_q_2 ;;
  Ok tt) = Ok tt.
Proof. vm_compute. reflexivity. Qed.

(** test_mxm_ABT.cpp:2524-2561 *)
Example test_mxm_CompMask_Accum_ABT_MCdup :
 (x_mat <- mdense0 TyD d_Symmetric_4x4 0%Q ;;
  x_NotLower <- mdense0 TyD d_NotLower_4x4 0%Q ;;
  x_C <- mnew 4 4 ;;
  x_answer <- mdense0 TyD [[2; 1; 1; 1]; [3; 9; 1; 1]; [2; 10; 22; 1]; [0; 6; 21; 25]]%Q 0%Q ;;
  x_C_1 <- lil_assign x_C x_NotLower ;;
  x_C_2 <- t_mxm TyD (acc TyD qplus) (mkSr qplus qtimes TyD) (MComp x_C_1) MERGE x_C_1 (Mat x_mat)
    (Trn x_mat) ;;
  x_q <- meq x_C_2 x_answer ;;
  _ <- check x_q ;;
  x_answer2 <- mdense0 TyD [[2; 0; 0; 0]; [3; 9; 0; 0]; [2; 10; 22; 0]; [0; 6; 21; 25]]%Q 0%Q ;;
  x_C_3 <- lil_assign x_C_2 x_NotLower ;;
  x_C_4 <- t_mxm TyD (acc TyD qplus) (mkSr qplus qtimes TyD) (MComp x_C_3) REPLACE x_C_3 (Mat x_mat)
    (Trn x_mat) ;;
  x_q_1 <- meq x_C_4 x_answer2 ;;
  _ <- check x_q_1 ;;
  Ok tt) = Ok tt.
Proof. vm_compute. reflexivity. Qed.

(** test_mxm_ABT.cpp:2524-2561, optimized_sequential platform *)
Example test_mxm_CompMask_Accum_ABT_MCdup_opt :
 (x_mat <- mdense0 TyD d_Symmetric_4x4 0%Q ;;
  x_NotLower <- mdense0 TyD d_NotLower_4x4 0%Q ;;
  x_C <- mnew 4 4 ;;
  x_answer <- mdense0 TyD [[2; 1; 1; 1]; [3; 9; 1; 1]; [2; 10; 22; 1]; [0; 6; 21; 25]]%Q 0%Q ;;
  x_C_1 <- lil_assign x_C x_NotLower ;;
  x_C_2 <- t_opt_mxm TyD (acc TyD qplus) TyD (mkSr qplus qtimes TyD) (MComp (TheOutput (fun x =>
    x))) MERGE x_C_1 (OMat (Other x_mat)) (OTrn (Other x_mat)) ;;
  x_q <- meq x_C_2 x_answer ;;
  _ <- check x_q ;;
  x_answer2 <- mdense0 TyD [[2; 0; 0; 0]; [3; 9; 0; 0]; [2; 10; 22; 0]; [0; 6; 21; 25]]%Q 0%Q ;;
  x_C_3 <- lil_assign x_C_2 x_NotLower ;;
  x_C_4 <- t_opt_mxm TyD (acc TyD qplus) TyD (mkSr qplus qtimes TyD) (MComp (TheOutput (fun x =>
    x))) REPLACE x_C_3 (OMat (Other x_mat)) (OTrn (Other x_mat)) ;;
  x_q_1 <- meq x_C_4 x_answer2 ;;
  _ <- check x_q_1 ;;
  Ok tt) = Ok tt.
Proof. vm_compute. reflexivity. Qed.

(** test_mxm_ABT.cpp:2564-2585 *)
Example test_mxm_CompMask_Accum_ABT_Replace_Cones_Mnlower :
 (x_A <- mdense0 TyD d_A_dense_3x3 0%Q ;;
  x_B <- mdense0 TyD d_BT_dense_3x4 0%Q ;;
  x_M <- mdense0 TyD d_NotLower_3x4 0%Q ;;
  _ <- check (Qeq_bool (inject_Z (nvals x_M)) 6%Q) ;;
  x_result <- mdense0 TyD d_Ones_3x4 0%Q ;;
  x_answer <- mdense0 TyD [[114; 0; 0; 0]; [74; 97; 0; 0]; [119; 157; 112; 0]]%Q 0%Q ;;
  x_result_1 <- t_mxm TyD (acc TyD qsecond) (mkSr qplus qtimes TyD) (MComp x_M) REPLACE x_result
    (Mat x_A) (Trn x_B) ;;
  _ <- check (Qeq_bool (inject_Z (nvals x_result_1)) 6%Q) ;;
  x_q <- meq x_result_1 x_answer ;;
  _ <- check x_q ;;
  Ok tt) = Ok tt.
Proof. vm_compute. reflexivity. Qed.

(** test_mxm_ABT.cpp:2564-2585, optimized_sequential platform *)
Example test_mxm_CompMask_Accum_ABT_Replace_Cones_Mnlower_opt :
 (x_A <- mdense0 TyD d_A_dense_3x3 0%Q ;;
  x_B <- mdense0 TyD d_BT_dense_3x4 0%Q ;;
  x_M <- mdense0 TyD d_NotLower_3x4 0%Q ;;
  _ <- check (Qeq_bool (inject_Z (nvals x_M)) 6%Q) ;;
  x_result <- mdense0 TyD d_Ones_3x4 0%Q ;;
  x_answer <- mdense0 TyD [[114; 0; 0; 0]; [74; 97; 0; 0]; [119; 157; 112; 0]]%Q 0%Q ;;
  x_result_1 <- t_opt_mxm TyD (acc TyD qsecond) TyD (mkSr qplus qtimes TyD) (MComp (Other x_M))
    REPLACE x_result (OMat (Other x_A)) (OTrn (Other x_B)) ;;
  _ <- check (Qeq_bool (inject_Z (nvals x_result_1)) 6%Q) ;;
  x_q <- meq x_result_1 x_answer ;;
  _ <- check x_q ;;
  Ok tt) = Ok tt.
Proof. vm_compute. reflexivity. Qed.

(** test_mxm_ABT.cpp:2588-2611 *)
Example test_mxm_CompMask_Accum_ABT_Replace_Mstored_zero :
 (x_A <- mdense0 TyD d_A_dense_3x3 0%Q ;;
  x_B <- mdense0 TyD d_BT_dense_3x4 0%Q ;;
  x_M <- mdense0 TyD d_NotLower_3x4 0%Q ;;
  x_M_1 <- lil_setElement x_M 0 0 (cast TyD 0%Q) ;;
  _ <- check (Qeq_bool (inject_Z (nvals x_M_1)) 7%Q) ;;
  x_result <- mdense0 TyD d_Ones_3x4 0%Q ;;
  x_answer <- mdense0 TyD [[114; 0; 0; 0]; [74; 97; 0; 0]; [119; 157; 112; 0]]%Q 0%Q ;;
  x_result_1 <- t_mxm TyD (acc TyD qsecond) (mkSr qplus qtimes TyD) (MComp x_M_1) REPLACE x_result
    (Mat x_A) (Trn x_B) ;;
  _ <- check (Qeq_bool (inject_Z (nvals x_result_1)) 6%Q) ;;
  x_q <- meq x_result_1 x_answer ;;
  _ <- check x_q ;;
  Ok tt) = Ok tt.
Proof. vm_compute. reflexivity. Qed.

(** test_mxm_ABT.cpp:2588-2611, optimized_sequential platform *)
Example test_mxm_CompMask_Accum_ABT_Replace_Mstored_zero_opt :
 (x_A <- mdense0 TyD d_A_dense_3x3 0%Q ;;
  x_B <- mdense0 TyD d_BT_dense_3x4 0%Q ;;
  x_M <- mdense0 TyD d_NotLower_3x4 0%Q ;;
  x_M_1 <- lil_setElement x_M 0 0 (cast TyD 0%Q) ;;
  _ <- check (Qeq_bool (inject_Z (nvals x_M_1)) 7%Q) ;;
  x_result <- mdense0 TyD d_Ones_3x4 0%Q ;;
  x_answer <- mdense0 TyD [[114; 0; 0; 0]; [74; 97; 0; 0]; [119; 157; 112; 0]]%Q 0%Q ;;
  x_result_1 <- t_opt_mxm TyD (acc TyD qsecond) TyD (mkSr qplus qtimes TyD) (MComp (Other x_M_1))
    REPLACE x_result (OMat (Other x_A)) (OTrn (Other x_B)) ;;
  _ <- check (Qeq_bool (inject_Z (nvals x_result_1)) 6%Q) ;;
  x_q <- meq x_result_1 x_answer ;;
  _ <- check x_q ;;
  Ok tt) = Ok tt.
Proof. vm_compute. reflexivity. Qed.

(** test_mxm_ABT.cpp:2614-2634 *)
Example test_mxm_CompMask_Accum_ABT_Merge :
 (x_A <- mdense0 TyD d_A_dense_3x3 0%Q ;;
  x_B <- mdense0 TyD d_BT_dense_3x4 0%Q ;;
  x_M <- mdense0 TyD d_NotLower_3x4 0%Q ;;
  _ <- check (Qeq_bool (inject_Z (nvals x_M)) 6%Q) ;;
  x_result <- mdense0 TyD d_Ones_3x4 0%Q ;;
  x_answer <- mdense0 TyD [[114; 1; 1; 1]; [74; 97; 1; 1]; [119; 157; 112; 1]]%Q 0%Q ;;
  x_result_1 <- t_mxm TyD (acc TyD qsecond) (mkSr qplus qtimes TyD) (MComp x_M) MERGE x_result (Mat
    x_A) (Trn x_B) ;;
  _ <- check (Qeq_bool (inject_Z (nvals x_result_1)) 12%Q) ;;
  x_q <- meq x_result_1 x_answer ;;
  _ <- check x_q ;;
  Ok tt) = Ok tt.
Proof. vm_compute. reflexivity. Qed.

(** test_mxm_ABT.cpp:2614-2634, optimized_sequential platform *)
Example test_mxm_CompMask_Accum_ABT_Merge_opt :
 (x_A <- mdense0 TyD d_A_dense_3x3 0%Q ;;
  x_B <- mdense0 TyD d_BT_dense_3x4 0%Q ;;
  x_M <- mdense0 TyD d_NotLower_3x4 0%Q ;;
  _ <- check (Qeq_bool (inject_Z (nvals x_M)) 6%Q) ;;
  x_result <- mdense0 TyD d_Ones_3x4 0%Q ;;
  x_answer <- mdense0 TyD [[114; 1; 1; 1]; [74; 97; 1; 1]; [119; 157; 112; 1]]%Q 0%Q ;;
  x_result_1 <- t_opt_mxm TyD (acc TyD qsecond) TyD (mkSr qplus qtimes TyD) (MComp (Other x_M))
    MERGE x_result (OMat (Other x_A)) (OTrn (Other x_B)) ;;
  _ <- check (Qeq_bool (inject_Z (nvals x_result_1)) 12%Q) ;;
  x_q <- meq x_result_1 x_answer ;;
  _ <- check x_q ;;
  Ok tt) = Ok tt.
Proof. vm_compute. reflexivity. Qed.

(** test_mxm_ABT.cpp:2637-2658 *)
Example test_mxm_CompMask_Accum_ABT_Merge_Mstored_zero :
 (x_A <- mdense0 TyD d_A_dense_3x3 0%Q ;;
  x_B <- mdense0 TyD d_BT_dense_3x4 0%Q ;;
  x_M <- mdense0 TyD d_NotLower_3x4 0%Q ;;
  x_M_1 <- lil_setElement x_M 0 0 (cast TyD 0%Q) ;;
  _ <- check (Qeq_bool (inject_Z (nvals x_M_1)) 7%Q) ;;
  x_result <- mdense0 TyD d_Ones_3x4 0%Q ;;
  x_answer <- mdense0 TyD [[114; 1; 1; 1]; [74; 97; 1; 1]; [119; 157; 112; 1]]%Q 0%Q ;;
  x_result_1 <- t_mxm TyD (acc TyD qsecond) (mkSr qplus qtimes TyD) (MComp x_M_1) MERGE x_result
    (Mat x_A) (Trn x_B) ;;
  _ <- check (Qeq_bool (inject_Z (nvals x_result_1)) 12%Q) ;;
  x_q <- meq x_result_1 x_answer ;;
  _ <- check x_q ;;
  Ok tt) = Ok tt.
Proof. vm_compute. reflexivity. Qed.

(** test_mxm_ABT.cpp:2637-2658, optimized_sequential platform *)
Example test_mxm_CompMask_Accum_ABT_Merge_Mstored_zero_opt :
 (x_A <- mdense0 TyD d_A_dense_3x3 0%Q ;;
  x_B <- mdense0 TyD d_BT_dense_3x4 0%Q ;;
  x_M <- mdense0 TyD d_NotLower_3x4 0%Q ;;
  x_M_1 <- lil_setElement x_M 0 0 (cast TyD 0%Q) ;;
  _ <- check (Qeq_bool (inject_Z (nvals x_M_1)) 7%Q) ;;
  x_result <- mdense0 TyD d_Ones_3x4 0%Q ;;
  x_answer <- mdense0 TyD [[114; 1; 1; 1]; [74; 97; 1; 1]; [119; 157; 112; 1]]%Q 0%Q ;;
  x_result_1 <- t_opt_mxm TyD (acc TyD qsecond) TyD (mkSr qplus qtimes TyD) (MComp (Other x_M_1))
    MERGE x_result (OMat (Other x_A)) (OTrn (Other x_B)) ;;
  _ <- check (Qeq_bool (inject_Z (nvals x_result_1)) 12%Q) ;;
  x_q <- meq x_result_1 x_answer ;;
  _ <- check x_q ;;
  Ok tt) = Ok tt.
Proof. vm_compute. reflexivity. Qed.

(** test_mxm_ABT.cpp:2661-2682 *)
Example test_mxm_CompMask_Accum_ABT_Merge_ABdup :
 (x_mat <- mdense0 TyD d_Symmetric_4x4 0%Q ;;
  x_result <- mdense0 TyD d_Ones_4x4 0%Q ;;
  x_answer <- mdense0 TyD [[2; 1; 1; 1]; [3; 9; 1; 1]; [2; 10; 22; 1]; [0; 6; 21; 25]]%Q 0%Q ;;
  x_M <- mdense0 TyD d_NotLower_4x4 0%Q ;;
  x_result_1 <- t_mxm TyD noacc (mkSr qplus qtimes TyD) (MComp x_M) MERGE x_result (Mat x_mat) (Trn
    x_mat) ;;
  x_q <- meq x_result_1 x_answer ;;
  _ <- check x_q ;;
  Ok tt) = Ok tt.
Proof. vm_compute. reflexivity. Qed.

(** test_mxm_ABT.cpp:2661-2682, optimized_sequential platform *)
Example test_mxm_CompMask_Accum_ABT_Merge_ABdup_opt :
 (x_mat <- mdense0 TyD d_Symmetric_4x4 0%Q ;;
  x_result <- mdense0 TyD d_Ones_4x4 0%Q ;;
  x_answer <- mdense0 TyD [[2; 1; 1; 1]; [3; 9; 1; 1]; [2; 10; 22; 1]; [0; 6; 21; 25]]%Q 0%Q ;;
  x_M <- mdense0 TyD d_NotLower_4x4 0%Q ;;
  x_result_1 <- t_opt_mxm TyD noacc TyD (mkSr qplus qtimes TyD) (MComp (Other x_M)) MERGE x_result
    (OMat (Other x_mat)) (OTrn (Other x_mat)) ;;
  x_q <- meq x_result_1 x_answer ;;
  _ <- check x_q ;;
  Ok tt) = Ok tt.
Proof. vm_compute. reflexivity. Qed.

(** test_mxm_ABT.cpp:2693-2775 *)
Example test_mxm_StructMask_NoAccum_ABT :
 (x_A <- mdense0 TyD d_A_sparse_3x3 0%Q ;;
  x_Identity <- mdense0 TyD d_Identity_3x3 0%Q ;;
  x_Empty <- mnew 3 3 ;;
  x_Ones <- mdense0 TyD d_Ones_3x3 0%Q ;;
  x_C <- mnew 3 3 ;;
  x_MLower <- mdense0 TyD d_Lower_3x3 0%Q ;;
  x_MNotLower <- mdense0 TyD d_NotLower_3x3 0%Q ;;
  x_AFilled <- mdense0 TyD [[12; 7; 1]; [1; (-5); 1]; [7; 1; 9]]%Q 0%Q ;;
  x_C_1 <- lil_assign x_C x_Ones ;;
  x_Ones_1 <- lil_setElement x_Ones 0 0 (cast TyD 0%Q) ;;
  x_C_2 <- t_mxm TyD noacc (mkSr qplus qtimes TyD) (MStruct x_Ones_1) MERGE x_C_1 (Mat x_A) (Trn
    x_Identity) ;;
  x_q <- meq x_C_2 x_A ;;
  _ <- check x_q ;;
  x_Ones_2 <- lil_setElement x_Ones_1 0 0 (cast TyD 1%Q) ;;
  x_C_3 <- lil_assign x_C_2 x_Ones_2 ;;
  x_A_1 <- lil_setElement x_A 0 2 (cast TyD 0%Q) ;;
  x_AFilled_1 <- lil_setElement x_AFilled 0 2 (cast TyD 0%Q) ;;
  x_C_4 <- t_mxm TyD noacc (mkSr qplus qtimes TyD) (MStruct x_A_1) MERGE x_C_3 (Mat x_A_1) (Trn
    x_Identity) ;;
  x_q_1 <- meq x_C_4 x_AFilled_1 ;;
  _ <- check x_q_1 ;;
  x_C_5 <- lil_assign x_C_4 x_Ones_2 ;;
  x_MLower_1 <- lil_setElement x_MLower 2 0 (cast TyD 0%Q) ;;
  x_C_6 <- t_mxm TyD noacc (mkSr qplus qtimes TyD) (MStruct x_MLower_1) MERGE x_C_5 (Mat x_Ones_2)
    (Trn x_Identity) ;;
  x_q_2 <- meq x_C_6 x_Ones_2 ;;
  _ <- check x_q_2 ;;
  x_C_7 <- lil_assign x_C_6 x_Ones_2 ;;
  x_MNotLower_1 <- lil_setElement x_MNotLower 0 2 (cast TyD 0%Q) ;;
  x_C_8 <- t_mxm TyD noacc (mkSr qplus qtimes TyD) (MStruct x_MNotLower_1) MERGE x_C_7 (Mat
    x_Ones_2) (Trn x_Identity) ;;
  x_q_3 <- meq x_C_8 x_Ones_2 ;;
  _ <- check x_q_3 ;;
  x_C_9 <- lil_assign x_C_8 x_Ones_2 ;;
  x_C_10 <- t_mxm TyD noacc (mkSr qplus qtimes TyD) (MStruct x_Empty) REPLACE x_C_9 (Mat x_A_1) (Trn
    x_Identity) ;;
  x_q_4 <- meq x_C_10 x_Empty ;;
  _ <- check x_q_4 ;;
  x_C_11 <- lil_assign x_C_10 x_Ones_2 ;;
  x_Ones_3 <- lil_setElement x_Ones_2 0 0 (cast TyD 0%Q) ;;
  x_C_12 <- t_mxm TyD noacc (mkSr qplus qtimes TyD) (MStruct x_Ones_3) REPLACE x_C_11 (Mat x_A_1)
    (Trn x_Identity) ;;
  x_q_5 <- meq x_C_12 x_A_1 ;;
  _ <- check x_q_5 ;;
  x_Ones_4 <- lil_setElement x_Ones_3 0 0 (cast TyD 1%Q) ;;
  x_C_13 <- lil_assign x_C_12 x_Ones_4 ;;
  x_C_14 <- t_mxm TyD noacc (mkSr qplus qtimes TyD) (MStruct x_MLower_1) REPLACE x_C_13 (Mat
    x_Ones_4) (Trn x_Identity) ;;
  x_MLower_2 <- lil_setElement x_MLower_1 2 0 (cast TyD 1%Q) ;;
  x_q_6 <- meq x_C_14 x_MLower_2 ;;
  _ <- check x_q_6 ;;
  x_C_15 <- lil_assign x_C_14 x_Ones_4 ;;
  x_C_16 <- t_mxm TyD noacc (mkSr qplus qtimes TyD) (MStruct x_MNotLower_1) REPLACE x_C_15 (Mat
    x_Ones_4) (Trn x_Identity) ;;
  x_MNotLower_2 <- lil_setElement x_MNotLower_1 0 2 (cast TyD 1%Q) ;;
  x_q_7 <- meq x_C_16 x_MNotLower_2 ;;
  _ <- check x_q_7 ;;
  Ok tt) = Ok tt.
Proof. vm_compute. reflexivity. Qed.

(** test_mxm_ABT.cpp:2693-2775, optimized_sequential platform *)
Example test_mxm_StructMask_NoAccum_ABT_opt :
 (x_A <- mdense0 TyD d_A_sparse_3x3 0%Q ;;
  x_Identity <- mdense0 TyD d_Identity_3x3 0%Q ;;
  x_Empty <- mnew 3 3 ;;
  x_Ones <- mdense0 TyD d_Ones_3x3 0%Q ;;
  x_C <- mnew 3 3 ;;
  x_MLower <- mdense0 TyD d_Lower_3x3 0%Q ;;
  x_MNotLower <- mdense0 TyD d_NotLower_3x3 0%Q ;;
  x_AFilled <- mdense0 TyD [[12; 7; 1]; [1; (-5); 1]; [7; 1; 9]]%Q 0%Q ;;
  x_C_1 <- lil_assign x_C x_Ones ;;
  x_Ones_1 <- lil_setElement x_Ones 0 0 (cast TyD 0%Q) ;;
  x_C_2 <- t_opt_mxm TyD noacc TyD (mkSr qplus qtimes TyD) (MStruct (Other x_Ones_1)) MERGE x_C_1
    (OMat (Other x_A)) (OTrn (Other x_Identity)) ;;
  x_q <- meq x_C_2 x_A ;;
  _ <- check x_q ;;
  x_Ones_2 <- lil_setElement x_Ones_1 0 0 (cast TyD 1%Q) ;;
  x_C_3 <- lil_assign x_C_2 x_Ones_2 ;;
  x_A_1 <- lil_setElement x_A 0 2 (cast TyD 0%Q) ;;
  x_AFilled_1 <- lil_setElement x_AFilled 0 2 (cast TyD 0%Q) ;;
  x_C_4 <- t_opt_mxm TyD noacc TyD (mkSr qplus qtimes TyD) (MStruct (Other x_A_1)) MERGE x_C_3 (OMat
    (Other x_A_1)) (OTrn (Other x_Identity)) ;;
  x_q_1 <- meq x_C_4 x_AFilled_1 ;;
  _ <- check x_q_1 ;;
  x_C_5 <- lil_assign x_C_4 x_Ones_2 ;;
  x_MLower_1 <- lil_setElement x_MLower 2 0 (cast TyD 0%Q) ;;
  x_C_6 <- t_opt_mxm TyD noacc TyD (mkSr qplus qtimes TyD) (MStruct (Other x_MLower_1)) MERGE x_C_5
    (OMat (Other x_Ones_2)) (OTrn (Other x_Identity)) ;;
  x_q_2 <- meq x_C_6 x_Ones_2 ;;
  _ <- check x_q_2 ;;
  x_C_7 <- lil_assign x_C_6 x_Ones_2 ;;
  x_MNotLower_1 <- lil_setElement x_MNotLower 0 2 (cast TyD 0%Q) ;;
  x_C_8 <- t_opt_mxm TyD noacc TyD (mkSr qplus qtimes TyD) (MStruct (Other x_MNotLower_1)) MERGE
    x_C_7 (OMat (Other x_Ones_2)) (OTrn (Other x_Identity)) ;;
  x_q_3 <- meq x_C_8 x_Ones_2 ;;
  _ <- check x_q_3 ;;
  x_C_9 <- lil_assign x_C_8 x_Ones_2 ;;
  x_C_10 <- t_opt_mxm TyD noacc TyD (mkSr qplus qtimes TyD) (MStruct (Other x_Empty)) REPLACE x_C_9
    (OMat (Other x_A_1)) (OTrn (Other x_Identity)) ;;
  x_q_4 <- meq x_C_10 x_Empty ;;
  _ <- check x_q_4 ;;
  x_C_11 <- lil_assign x_C_10 x_Ones_2 ;;
  x_Ones_3 <- lil_setElement x_Ones_2 0 0 (cast TyD 0%Q) ;;
  x_C_12 <- t_opt_mxm TyD noacc TyD (mkSr qplus qtimes TyD) (MStruct (Other x_Ones_3)) REPLACE
    x_C_11 (OMat (Other x_A_1)) (OTrn (Other x_Identity)) ;;
  x_q_5 <- meq x_C_12 x_A_1 ;;
  _ <- check x_q_5 ;;
  x_Ones_4 <- lil_setElement x_Ones_3 0 0 (cast TyD 1%Q) ;;
  x_C_13 <- lil_assign x_C_12 x_Ones_4 ;;
  x_C_14 <- t_opt_mxm TyD noacc TyD (mkSr qplus qtimes TyD) (MStruct (Other x_MLower_1)) REPLACE
    x_C_13 (OMat (Other x_Ones_4)) (OTrn (Other x_Identity)) ;;
  x_MLower_2 <- lil_setElement x_MLower_1 2 0 (cast TyD 1%Q) ;;
  x_q_6 <- meq x_C_14 x_MLower_2 ;;
  _ <- check x_q_6 ;;
  x_C_15 <- lil_assign x_C_14 x_Ones_4 ;;
  x_C_16 <- t_opt_mxm TyD noacc TyD (mkSr qplus qtimes TyD) (MStruct (Other x_MNotLower_1)) REPLACE
    x_C_15 (OMat (Other x_Ones_4)) (OTrn (Other x_Identity)) ;;
  x_MNotLower_2 <- lil_setElement x_MNotLower_1 0 2 (cast TyD 1%Q) ;;
  x_q_7 <- meq x_C_16 x_MNotLower_2 ;;
  _ <- check x_q_7 ;;
  Ok tt) = Ok tt.
Proof. vm_compute. reflexivity. Qed.

(** test_mxm_ABT.cpp:2778-2814 *)
Example test_mxm_StructMask_NoAccum_ABTM_empty :
 (x_Empty <- mnew 3 3 ;;
  x_Ones <- mdense0 TyD d_Ones_3x3 0%Q ;;
  x_C <- mnew 3 3 ;;
  x_M <- mdense0 TyB d_LowerBool_3x3 0%Q ;;
  x_M_1 <- lil_setElement x_M 2 0 (cast TyB 0%Q) ;;
  x_mUpper <- mdense0 TyD d_NotLower_3x3 0%Q ;;
  x_C_1 <- lil_assign x_C x_Ones ;;
  x_C_2 <- t_mxm TyD noacc (mkSr qplus qtimes TyD) (MStruct x_M_1) MERGE x_C_1 (Mat x_Empty) (Trn
    x_Ones) ;;
  x_q <- meq x_C_2 x_mUpper ;;
  _ <- check x_q ;;
  x_C_3 <- lil_assign x_C_2 x_Ones ;;
  x_C_4 <- t_mxm TyD noacc (mkSr qplus qtimes TyD) (MStruct x_M_1) MERGE x_C_3 (Mat x_Ones) (Trn
    x_Empty) ;;
  x_q_1 <- meq x_C_4 x_mUpper ;;
  _ <- check x_q_1 ;;
  x_C_5 <- lil_assign x_C_4 x_Ones ;;
  x_C_6 <- t_mxm TyD noacc (mkSr qplus qtimes TyD) (MStruct x_M_1) REPLACE x_C_5 (Mat x_Empty) (Trn
    x_Ones) ;;
  x_q_2 <- meq x_C_6 x_Empty ;;
  _ <- check x_q_2 ;;
  x_C_7 <- lil_assign x_C_6 x_Ones ;;
  x_C_8 <- t_mxm TyD noacc (mkSr qplus qtimes TyD) (MStruct x_M_1) REPLACE x_C_7 (Mat x_Ones) (Trn
    x_Empty) ;;
  x_q_3 <- meq x_C_8 x_Empty ;;
  _ <- check x_q_3 ;;
  Ok tt) = Ok tt.
Proof. vm_compute. reflexivity. Qed.

(** test_mxm_ABT.cpp:2778-2814, optimized_sequential platform *)
Example test_mxm_StructMask_NoAccum_ABTM_empty_opt :
 (x_Empty <- mnew 3 3 ;;
  x_Ones <- mdense0 TyD d_Ones_3x3 0%Q ;;
  x_C <- mnew 3 3 ;;
  x_M <- mdense0 TyB d_LowerBool_3x3 0%Q ;;
  x_M_1 <- lil_setElement x_M 2 0 (cast TyB 0%Q) ;;
  x_mUpper <- mdense0 TyD d_NotLower_3x3 0%Q ;;
  x_C_1 <- lil_assign x_C x_Ones ;;
  x_C_2 <- t_opt_mxm TyD noacc TyD (mkSr qplus qtimes TyD) (MStruct (Other x_M_1)) MERGE x_C_1 (OMat
    (Other x_Empty)) (OTrn (Other x_Ones)) ;;
  x_q <- meq x_C_2 x_mUpper ;;
  _ <- check x_q ;;
  x_C_3 <- lil_assign x_C_2 x_Ones ;;
  x_C_4 <- t_opt_mxm TyD noacc TyD (mkSr qplus qtimes TyD) (MStruct (Other x_M_1)) MERGE x_C_3 (OMat
    (Other x_Ones)) (OTrn (Other x_Empty)) ;;
  x_q_1 <- meq x_C_4 x_mUpper ;;
  _ <- check x_q_1 ;;
  x_C_5 <- lil_assign x_C_4 x_Ones ;;
  x_C_6 <- t_opt_mxm TyD noacc TyD (mkSr qplus qtimes TyD) (MStruct (Other x_M_1)) REPLACE x_C_5
    (OMat (Other x_Empty)) (OTrn (Other x_Ones)) ;;
  x_q_2 <- meq x_C_6 x_Empty ;;
  _ <- check x_q_2 ;;
  x_C_7 <- lil_assign x_C_6 x_Ones ;;
  x_C_8 <- t_opt_mxm TyD noacc TyD (mkSr qplus qtimes TyD) (MStruct (Other x_M_1)) REPLACE x_C_7
    (OMat (Other x_Ones)) (OTrn (Other x_Empty)) ;;
  x_q_3 <- meq x_C_8 x_Empty ;;
  _ <- check x_q_3 ;;
  Ok tt) = Ok tt.
Proof. vm_compute. reflexivity. Qed.

(** test_mxm_ABT.cpp:2817-2833 *)
Example test_mxm_StructMask_NoAccum_ABT_Merge_full_mask :
 (x_A <- mdense0 TyD d_A_dense_3x3 0%Q ;;
  x_B <- mdense0 TyD d_BT_dense_3x4 0%Q ;;
  x_result <- mnew 3 4 ;;
  x_answer <- mdense0 TyD d_Answer_dense 0%Q ;;
  x_mask <- mdense0 TyD d_Ones_3x4 0%Q ;;
  x_mask_1 <- lil_setElement x_mask 0 0 (cast TyD 0%Q) ;;
  x_result_1 <- t_mxm TyD noacc (mkSr qplus qtimes TyD) (MStruct x_mask_1) MERGE x_result (Mat x_A)
    (Trn x_B) ;;
  x_q <- meq x_result_1 x_answer ;;
  _ <- check x_q ;;
  Ok tt) = Ok tt.
Proof. vm_compute. reflexivity. Qed.

(** test_mxm_ABT.cpp:2817-2833, optimized_sequential platform *)
Example test_mxm_StructMask_NoAccum_ABT_Merge_full_mask_opt :
 (x_A <- mdense0 TyD d_A_dense_3x3 0%Q ;;
  x_B <- mdense0 TyD d_BT_dense_3x4 0%Q ;;
  x_result <- mnew 3 4 ;;
  x_answer <- mdense0 TyD d_Answer_dense 0%Q ;;
  x_mask <- mdense0 TyD d_Ones_3x4 0%Q ;;
  x_mask_1 <- lil_setElement x_mask 0 0 (cast TyD 0%Q) ;;
  x_result_1 <- t_opt_mxm TyD noacc TyD (mkSr qplus qtimes TyD) (MStruct (Other x_mask_1)) MERGE
    x_result (OMat (Other x_A)) (OTrn (Other x_B)) ;;
  x_q <- meq x_result_1 x_answer ;;
  _ <- check x_q ;;
  Ok tt) = Ok tt.
Proof. vm_compute. reflexivity. Qed.

(** test_mxm_ABT.cpp:2837-2853 *)
Example test_mxm_StructMask_NoAccum_ABT_mask_not_full :
 (x_A <- mdense0 TyD d_A_dense_3x3 0%Q ;;
  x_B <- mdense0 TyD d_BT_dense_3x4 0%Q ;;
  x_answer <- mdense0 TyD d_Answer_dense 0%Q ;;
  x_result <- mnew 3 4 ;;
  x_mask <- mdense0 TyD d_Answer_dense 0%Q ;;
  x_mask_1 <- lil_setElement x_mask 0 0 (cast TyD 0%Q) ;;
  x_result_1 <- t_mxm TyD noacc (mkSr qplus qtimes TyD) (MStruct x_mask_1) MERGE x_result (Mat x_A)
    (Trn x_B) ;;
  x_q <- meq x_result_1 x_answer ;;
  _ <- check x_q ;;
  Ok tt) = Ok tt.
Proof. vm_compute. reflexivity. Qed.

(** test_mxm_ABT.cpp:2837-2853, optimized_sequential platform *)
Example test_mxm_StructMask_NoAccum_ABT_mask_not_full_opt :
 (x_A <- mdense0 TyD d_A_dense_3x3 0%Q ;;
  x_B <- mdense0 TyD d_BT_dense_3x4 0%Q ;;
  x_answer <- mdense0 TyD d_Answer_dense 0%Q ;;
  x_result <- mnew 3 4 ;;
  x_mask <- mdense0 TyD d_Answer_dense 0%Q ;;
  x_mask_1 <- lil_setElement x_mask 0 0 (cast TyD 0%Q) ;;
  x_result_1 <- t_opt_mxm TyD noacc TyD (mkSr qplus qtimes TyD) (MStruct (Other x_mask_1)) MERGE
    x_result (OMat (Other x_A)) (OTrn (Other x_B)) ;;
  x_q <- meq x_result_1 x_answer ;;
  _ <- check x_q ;;
  Ok tt) = Ok tt.
Proof. vm_compute. reflexivity. Qed.

(** test_mxm_ABT.cpp:2856-2899 *)
Example test_mxm_StructMask_NoAccum_ABT_emptyRowA_emptyColB :
 (x_A <- mdense0 TyD [[8; 1; 6]; [0; 0; 0]; [4; 9; 2]]%Q 0%Q ;;
  x_B <- mdense0 TyD [[0; 1; 0]; [0; 0; 0]; [0; 1; 1]; [1; 1; 1]]%Q 0%Q ;;
  x_Lower <- mdense0 TyD d_Lower_3x4 0%Q ;;
  x_Lower_1 <- lil_setElement x_Lower 2 0 (cast TyD 0%Q) ;;
  x_Ones <- mdense0 TyD d_Ones_3x4 0%Q ;;
  x_C <- mnew 3 4 ;;
  x_answer <- mdense0 TyD [[1; 0; 0; 0]; [0; 0; 0; 0]; [9; 0; 11; 0]]%Q 0%Q ;;
  x_C_1 <- lil_assign x_C x_Ones ;;
  x_C_2 <- t_mxm TyD noacc (mkSr qplus qtimes TyD) (MStruct x_Lower_1) REPLACE x_C_1 (Mat x_A) (Trn
    x_B) ;;
  x_q <- meq x_C_2 x_answer ;;
  _ <- check x_q ;;
  x_answer2 <- mdense0 TyD [[1; 1; 1; 1]; [0; 0; 1; 1]; [9; 0; 11; 1]]%Q 0%Q ;;
  x_C_3 <- lil_assign x_C_2 x_Ones ;;
  x_C_4 <- t_mxm TyD noacc (mkSr qplus qtimes TyD) (MStruct x_Lower_1) MERGE x_C_3 (Mat x_A) (Trn
    x_B) ;;
  x_q_1 <- meq x_C_4 x_answer2 ;;
  _ <- check x_q_1 ;;
  Ok tt) = Ok tt.
Proof. vm_compute. reflexivity. Qed.

(** test_mxm_ABT.cpp:2856-2899, optimized_sequential platform *)
Example test_mxm_StructMask_NoAccum_ABT_emptyRowA_emptyColB_opt :
 (x_A <- mdense0 TyD [[8; 1; 6]; [0; 0; 0]; [4; 9; 2]]%Q 0%Q ;;
  x_B <- mdense0 TyD [[0; 1; 0]; [0; 0; 0]; [0; 1; 1]; [1; 1; 1]]%Q 0%Q ;;
  x_Lower <- mdense0 TyD d_Lower_3x4 0%Q ;;
  x_Lower_1 <- lil_setElement x_Lower 2 0 (cast TyD 0%Q) ;;
  x_Ones <- mdense0 TyD d_Ones_3x4 0%Q ;;
  x_C <- mnew 3 4 ;;
  x_answer <- mdense0 TyD [[1; 0; 0; 0]; [0; 0; 0; 0]; [9; 0; 11; 0]]%Q 0%Q ;;
  x_C_1 <- lil_assign x_C x_Ones ;;
  x_C_2 <- t_opt_mxm TyD noacc TyD (mkSr qplus qtimes TyD) (MStruct (Other x_Lower_1)) REPLACE x_C_1
    (OMat (Other x_A)) (OTrn (Other x_B)) ;;
  x_q <- meq x_C_2 x_answer ;;
  _ <- check x_q ;;
  x_answer2 <- mdense0 TyD [[1; 1; 1; 1]; [0; 0; 1; 1]; [9; 0; 11; 1]]%Q 0%Q ;;
  x_C_3 <- lil_assign x_C_2 x_Ones ;;
  x_C_4 <- t_opt_mxm TyD noacc TyD (mkSr qplus qtimes TyD) (MStruct (Other x_Lower_1)) MERGE x_C_3
    (OMat (Other x_A)) (OTrn (Other x_B)) ;;
  x_q_1 <- meq x_C_4 x_answer2 ;;
  _ <- check x_q_1 ;;
  Ok tt) = Ok tt.
Proof. vm_compute. reflexivity. Qed.

(** test_mxm_ABT.cpp:2902-2945 *)
Example test_mxm_StructMask_NoAccum_ABT_emptyColA_emptyRowB :
 (x_A <- mdense0 TyD [[8; 0; 6]; [1; 0; 9]; [4; 0; 2]]%Q 0%Q ;;
  x_B <- mdense0 TyD [[0; 1; 0]; [1; 0; 0]; [0; 1; 0]; [1; 1; 0]]%Q 0%Q ;;
  x_Lower <- mdense0 TyD d_Lower_3x4 0%Q ;;
  x_Lower_1 <- lil_setElement x_Lower 2 1 (cast TyD 0%Q) ;;
  x_Ones <- mdense0 TyD d_Ones_3x4 0%Q ;;
  x_C <- mnew 3 4 ;;
  x_answer <- mdense0 TyD [[0; 0; 0; 0]; [0; 1; 0; 0]; [0; 4; 0; 0]]%Q 0%Q ;;
  x_C_1 <- lil_assign x_C x_Ones ;;
  x_C_2 <- t_mxm TyD noacc (mkSr qplus qtimes TyD) (MStruct x_Lower_1) REPLACE x_C_1 (Mat x_A) (Trn
    x_B) ;;
  x_q <- meq x_C_2 x_answer ;;
  _ <- check x_q ;;
  x_answer2 <- mdense0 TyD [[0; 1; 1; 1]; [0; 1; 1; 1]; [0; 4; 0; 1]]%Q 0%Q ;;
  x_C_3 <- lil_assign x_C_2 x_Ones ;;
  x_C_4 <- t_mxm TyD noacc (mkSr qplus qtimes TyD) (MStruct x_Lower_1) MERGE x_C_3 (Mat x_A) (Trn
    x_B) ;;
  x_q_1 <- meq x_C_4 x_answer2 ;;
  _ <- check x_q_1 ;;
  Ok tt) = Ok tt.
Proof. vm_compute. reflexivity. Qed.

(** test_mxm_ABT.cpp:2902-2945, optimized_sequential platform *)
Example test_mxm_StructMask_NoAccum_ABT_emptyColA_emptyRowB_opt :
 (x_A <- mdense0 TyD [[8; 0; 6]; [1; 0; 9]; [4; 0; 2]]%Q 0%Q ;;
  x_B <- mdense0 TyD [[0; 1; 0]; [1; 0; 0]; [0; 1; 0]; [1; 1; 0]]%Q 0%Q ;;
  x_Lower <- mdense0 TyD d_Lower_3x4 0%Q ;;
  x_Lower_1 <- lil_setElement x_Lower 2 1 (cast TyD 0%Q) ;;
  x_Ones <- mdense0 TyD d_Ones_3x4 0%Q ;;
  x_C <- mnew 3 4 ;;
  x_answer <- mdense0 TyD [[0; 0; 0; 0]; [0; 1; 0; 0]; [0; 4; 0; 0]]%Q 0%Q ;;
  x_C_1 <- lil_assign x_C x_Ones ;;
  x_C_2 <- t_opt_mxm TyD noacc TyD (mkSr qplus qtimes TyD) (MStruct (Other x_Lower_1)) REPLACE x_C_1
    (OMat (Other x_A)) (OTrn (Other x_B)) ;;
  x_q <- meq x_C_2 x_answer ;;
  _ <- check x_q ;;
  x_answer2 <- mdense0 TyD [[0; 1; 1; 1]; [0; 1; 1; 1]; [0; 4; 0; 1]]%Q 0%Q ;;
  x_C_3 <- lil_assign x_C_2 x_Ones ;;
  x_C_4 <- t_opt_mxm TyD noacc TyD (mkSr qplus qtimes TyD) (MStruct (Other x_Lower_1)) MERGE x_C_3
    (OMat (Other x_A)) (OTrn (Other x_B)) ;;
  x_q_1 <- meq x_C_4 x_answer2 ;;
  _ <- check x_q_1 ;;
  Ok tt) = Ok tt.
Proof. vm_compute. reflexivity. Qed.

(** test_mxm_ABT.cpp:2948-2991 *)
Example test_mxm_StructMask_NoAccum_ABT_emptyRowM :
 (x_A <- mdense0 TyD [[8; 1; 6]; [0; 0; 0]; [4; 9; 2]]%Q 0%Q ;;
  x_B <- mdense0 TyD [[0; 1; 0]; [0; 0; 0]; [0; 1; 1]]%Q 0%Q ;;
  x_NotLower <- mdense0 TyD d_NotLower_3x3 0%Q ;;
  x_NotLower_1 <- lil_setElement x_NotLower 0 2 (cast TyD 0%Q) ;;
  x_Ones <- mdense0 TyD d_Ones_3x3 0%Q ;;
  x_C <- mnew 3 3 ;;
  x_answer <- mdense0 TyD [[0; 0; 7]; [0; 0; 0]; [0; 0; 0]]%Q 0%Q ;;
  x_C_1 <- lil_assign x_C x_Ones ;;
  x_C_2 <- t_mxm TyD noacc (mkSr qplus qtimes TyD) (MStruct x_NotLower_1) REPLACE x_C_1 (Mat x_A)
    (Trn x_B) ;;
  x_q <- meq x_C_2 x_answer ;;
  _ <- check x_q ;;
  x_answer2 <- mdense0 TyD [[1; 0; 7]; [1; 1; 0]; [1; 1; 1]]%Q 0%Q ;;
  x_C_3 <- lil_assign x_C_2 x_Ones ;;
  x_C_4 <- t_mxm TyD noacc (mkSr qplus qtimes TyD) (MStruct x_NotLower_1) MERGE x_C_3 (Mat x_A) (Trn
    x_B) ;;
  x_q_1 <- meq x_C_4 x_answer2 ;;
  _ <- check x_q_1 ;;
  Ok tt) = Ok tt.
Proof. vm_compute. reflexivity. Qed.

(** test_mxm_ABT.cpp:2948-2991, optimized_sequential platform *)
Example test_mxm_StructMask_NoAccum_ABT_emptyRowM_opt :
 (x_A <- mdense0 TyD [[8; 1; 6]; [0; 0; 0]; [4; 9; 2]]%Q 0%Q ;;
  x_B <- mdense0 TyD [[0; 1; 0]; [0; 0; 0]; [0; 1; 1]]%Q 0%Q ;;
  x_NotLower <- mdense0 TyD d_NotLower_3x3 0%Q ;;
  x_NotLower_1 <- lil_setElement x_NotLower 0 2 (cast TyD 0%Q) ;;
  x_Ones <- mdense0 TyD d_Ones_3x3 0%Q ;;
  x_C <- mnew 3 3 ;;
  x_answer <- mdense0 TyD [[0; 0; 7]; [0; 0; 0]; [0; 0; 0]]%Q 0%Q ;;
  x_C_1 <- lil_assign x_C x_Ones ;;
  x_C_2 <- t_opt_mxm TyD noacc TyD (mkSr qplus qtimes TyD) (MStruct (Other x_NotLower_1)) REPLACE
    x_C_1 (OMat (Other x_A)) (OTrn (Other x_B)) ;;
  x_q <- meq x_C_2 x_answer ;;
  _ <- check x_q ;;
  x_answer2 <- mdense0 TyD [[1; 0; 7]; [1; 1; 0]; [1; 1; 1]]%Q 0%Q ;;
  x_C_3 <- lil_assign x_C_2 x_Ones ;;
  x_C_4 <- t_opt_mxm TyD noacc TyD (mkSr qplus qtimes TyD) (MStruct (Other x_NotLower_1)) MERGE
    x_C_3 (OMat (Other x_A)) (OTrn (Other x_B)) ;;
  x_q_1 <- meq x_C_4 x_answer2 ;;
  _ <- check x_q_1 ;;
  Ok tt) = Ok tt.
Proof. vm_compute. reflexivity. Qed.

(** test_mxm_ABT.cpp:2994-3033 *)
Example test_mxm_StructMask_NoAccum_ABT_ABdup :
 (x_mat <- mdense0 TyD d_Symmetric_4x4 0%Q ;;
  x_Lower <- mdense0 TyD d_Lower_4x4 0%Q ;;
  x_Lower_1 <- lil_setElement x_Lower 2 0 (cast TyD 0%Q) ;;
  x_Ones <- mdense0 TyD d_Ones_4x4 0%Q ;;
  x_C <- mnew 4 4 ;;
  x_answer <- mdense0 TyD [[2; 1; 1; 1]; [3; 9; 1; 1]; [2; 10; 22; 1]; [0; 6; 21; 25]]%Q 0%Q ;;
  x_C_1 <- lil_assign x_C x_Ones ;;
  x_C_2 <- t_mxm TyD noacc (mkSr qplus qtimes TyD) (MStruct x_Lower_1) MERGE x_C_1 (Mat x_mat) (Trn
    x_mat) ;;
  x_q <- meq x_C_2 x_answer ;;
  _ <- check x_q ;;
  x_answer2 <- mdense0 TyD [[2; 0; 0; 0]; [3; 9; 0; 0]; [2; 10; 22; 0]; [0; 6; 21; 25]]%Q 0%Q ;;
  x_C_3 <- lil_assign x_C_2 x_Ones ;;
  x_C_4 <- t_mxm TyD noacc (mkSr qplus qtimes TyD) (MStruct x_Lower_1) REPLACE x_C_3 (Mat x_mat)
    (Trn x_mat) ;;
  x_q_1 <- meq x_C_4 x_answer2 ;;
  _ <- check x_q_1 ;;
  Ok tt) = Ok tt.
Proof. vm_compute. reflexivity. Qed.

(** test_mxm_ABT.cpp:2994-3033, optimized_sequential platform *)
Example test_mxm_StructMask_NoAccum_ABT_ABdup_opt :
 (x_mat <- mdense0 TyD d_Symmetric_4x4 0%Q ;;
  x_Lower <- mdense0 TyD d_Lower_4x4 0%Q ;;
  x_Lower_1 <- lil_setElement x_Lower 2 0 (cast TyD 0%Q) ;;
  x_Ones <- mdense0 TyD d_Ones_4x4 0%Q ;;
  x_C <- mnew 4 4 ;;
  x_answer <- mdense0 TyD [[2; 1; 1; 1]; [3; 9; 1; 1]; [2; 10; 22; 1]; [0; 6; 21; 25]]%Q 0%Q ;;
  x_C_1 <- lil_assign x_C x_Ones ;;
  x_C_2 <- t_opt_mxm TyD noacc TyD (mkSr qplus qtimes TyD) (MStruct (Other x_Lower_1)) MERGE x_C_1
    (OMat (Other x_mat)) (OTrn (Other x_mat)) ;;
  x_q <- meq x_C_2 x_answer ;;
  _ <- check x_q ;;
  x_answer2 <- mdense0 TyD [[2; 0; 0; 0]; [3; 9; 0; 0]; [2; 10; 22; 0]; [0; 6; 21; 25]]%Q 0%Q ;;
  x_C_3 <- lil_assign x_C_2 x_Ones ;;
  x_C_4 <- t_opt_mxm TyD noacc TyD (mkSr qplus qtimes TyD) (MStruct (Other x_Lower_1)) REPLACE x_C_3
    (OMat (Other x_mat)) (OTrn (Other x_mat)) ;;
  x_q_1 <- meq x_C_4 x_answer2 ;;
  _ <- check x_q_1 ;;
  Ok tt) = Ok tt.
Proof. vm_compute. reflexivity. Qed.

(** test_mxm_ABT.cpp:3036-3075 *)
Example test_mxm_StructMask_NoAccum_ABT_ACdup :
 (x_mat <- mdense0 TyD d_Symmetric_4x4 0%Q ;;
  x_Lower <- mdense0 TyD d_Lower_4x4 0%Q ;;
  x_Lower_1 <- lil_setElement x_Lower 2 0 (cast TyD 0%Q) ;;
  x_Ones <- mdense0 TyD d_Ones_4x4 0%Q ;;
  x_C <- mnew 4 4 ;;
  x_answer <- mdense0 TyD [[2; 1; 0; 0]; [3; 9; 2; 0]; [2; 10; 22; 3]; [0; 6; 21; 25]]%Q 0%Q ;;
  x_C_1 <- lil_assign x_C x_mat ;;
  x_C_2 <- t_mxm TyD noacc (mkSr qplus qtimes TyD) (MStruct x_Lower_1) MERGE x_C_1 (Mat x_C_1) (Trn
    x_mat) ;;
  x_q <- meq x_C_2 x_answer ;;
  _ <- check x_q ;;
  x_answer2 <- mdense0 TyD [[2; 0; 0; 0]; [3; 9; 0; 0]; [2; 10; 22; 0]; [0; 6; 21; 25]]%Q 0%Q ;;
  x_C_3 <- lil_assign x_C_2 x_mat ;;
  x_C_4 <- t_mxm TyD noacc (mkSr qplus qtimes TyD) (MStruct x_Lower_1) REPLACE x_C_3 (Mat x_C_3)
    (Trn x_mat) ;;
  x_q_1 <- meq x_C_4 x_answer2 ;;
  _ <- check x_q_1 ;;
  Ok tt) = Ok tt.
Proof. vm_compute. reflexivity. Qed.

(** test_mxm_ABT.cpp:3036-3075, optimized_sequential platform *)
Example test_mxm_StructMask_NoAccum_ABT_ACdup_opt :
 (x_mat <- mdense0 TyD d_Symmetric_4x4 0%Q ;;
  x_Lower <- mdense0 TyD d_Lower_4x4 0%Q ;;
  x_Lower_1 <- lil_setElement x_Lower 2 0 (cast TyD 0%Q) ;;
  x_Ones <- mdense0 TyD d_Ones_4x4 0%Q ;;
  x_C <- mnew 4 4 ;;
  x_answer <- mdense0 TyD [[2; 1; 0; 0]; [3; 9; 2; 0]; [2; 10; 22; 3]; [0; 6; 21; 25]]%Q 0%Q ;;
  x_C_1 <- lil_assign x_C x_mat ;;
  x_C_2 <- t_opt_mxm TyD noacc TyD (mkSr qplus qtimes TyD) (MStruct (Other x_Lower_1)) MERGE x_C_1
    (OMat (TheOutput (fun x => x))) (OTrn (Other x_mat)) ;;
  x_q <- meq x_C_2 x_answer ;;
  _ <- check x_q ;;
  x_answer2 <- mdense0 TyD [[2; 0; 0; 0]; [3; 9; 0; 0]; [2; 10; 22; 0]; [0; 6; 21; 25]]%Q 0%Q ;;
  x_C_3 <- lil_assign x_C_2 x_mat ;;
  x_C_4 <- t_opt_mxm TyD noacc TyD (mkSr qplus qtimes TyD) (MStruct (Other x_Lower_1)) REPLACE x_C_3
    (OMat (TheOutput (fun x => x))) (OTrn (Other x_mat)) ;;
  x_q_1 <- meq x_C_4 x_answer2 ;;
  _ <- check x_q_1 ;;
  Ok tt) = Ok tt.
Proof. vm_compute. reflexivity. Qed.

(** test_mxm_ABT.cpp:3078-3126 *)
Example test_mxm_StructMask_NoAccum_ABT_BCdup :
 (x_mat <- mdense0 TyD d_Symmetric_4x4 0%Q ;;
  x_Lower <- mdense0 TyD d_Lower_4x4 0%Q ;;
  x_Lower_1 <- lil_setElement x_Lower 2 0 (cast TyD 0%Q) ;;
  x_Ones <- mdense0 TyD d_Ones_4x4 0%Q ;;
  x_C <- mnew 4 4 ;;
  x_answer <- mdense0 TyD [[2; 1; 0; 0]; [3; 9; 2; 0]; [2; 10; 22; 3]; [0; 6; 21; 25]]%Q 0%Q ;;
  x_C_1 <- lil_assign x_C x_mat ;;
  x_C_2 <- t_mxm TyD noacc (mkSr qplus qtimes TyD) (MStruct x_Lower_1) MERGE x_C_1 (Mat x_mat) (Trn
    x_C_1) ;;
  x_q <- meq x_C_2 x_answer ;;
  _ <- check x_q ;;
  x_C_3 <- lil_assign x_C_2 x_mat ;;
  x_C_4 <- t_mxm TyD noacc (mkSr qplus qtimes TyD) (MStruct x_Lower_1) MERGE x_C_3 (Mat x_mat) (Trn
    x_mat) ;;
  x_q_1 <- meq x_C_4 x_answer ;;
  _ <- check x_q_1 ;;
  x_answer2 <- mdense0 TyD [[2; 0; 0; 0]; [3; 9; 0; 0]; [2; 10; 22; 0]; [0; 6; 21; 25]]%Q 0%Q ;;
  x_C_5 <- lil_assign x_C_4 x_mat ;;
  x_C_6 <- t_mxm TyD noacc (mkSr qplus qtimes TyD) (MStruct x_Lower_1) REPLACE x_C_5 (Mat x_mat)
    (Trn x_C_5) ;;
  x_q_2 <- meq x_C_6 x_answer2 ;;
  _ <- check x_q_2 ;;
  Ok tt) = Ok tt.
Proof. vm_compute. reflexivity. Qed.

(** test_mxm_ABT.cpp:3078-3126, optimized_sequential platform *)
Example test_mxm_StructMask_NoAccum_ABT_BCdup_opt :
 (x_mat <- mdense0 TyD d_Symmetric_4x4 0%Q ;;
  x_Lower <- mdense0 TyD d_Lower_4x4 0%Q ;;
  x_Lower_1 <- lil_setElement x_Lower 2 0 (cast TyD 0%Q) ;;
  x_Ones <- mdense0 TyD d_Ones_4x4 0%Q ;;
  x_C <- mnew 4 4 ;;
  x_answer <- mdense0 TyD [[2; 1; 0; 0]; [3; 9; 2; 0]; [2; 10; 22; 3]; [0; 6; 21; 25]]%Q 0%Q ;;
  x_C_1 <- lil_assign x_C x_mat ;;
  x_C_2 <- t_opt_mxm TyD noacc TyD (mkSr qplus qtimes TyD) (MStruct (Other x_Lower_1)) MERGE x_C_1
    (OMat (Other x_mat)) (OTrn (TheOutput (fun x => x))) ;;
  x_q <- meq x_C_2 x_answer ;;
  _ <- check x_q ;;
  x_C_3 <- lil_assign x_C_2 x_mat ;;
  x_C_4 <- t_opt_mxm TyD noacc TyD (mkSr qplus qtimes TyD) (MStruct (Other x_Lower_1)) MERGE x_C_3
    (OMat (Other x_mat)) (OTrn (Other x_mat)) ;;
  x_q_1 <- meq x_C_4 x_answer ;;
  _ <- check x_q_1 ;;
  x_answer2 <- mdense0 TyD [[2; 0; 0; 0]; [3; 9; 0; 0]; [2; 10; 22; 0]; [0; 6; 21; 25]]%Q 0%Q ;;
  x_C_5 <- lil_assign x_C_4 x_mat ;;
  x_C_6 <- t_opt_mxm TyD noacc TyD (mkSr qplus qtimes TyD) (MStruct (Other x_Lower_1)) REPLACE x_C_5
    (OMat (Other x_mat)) (OTrn (TheOutput (fun x => x))) ;;
  x_q_2 <- meq x_C_6 x_answer2 ;;
  _ <- check x_q_2 ;;
  Ok tt) = Ok tt.
Proof. vm_compute. reflexivity. Qed.

(** test_mxm_ABT.cpp:3129-3167 *)
Example test_mxm_StructMask_NoAccum_ABT_MCdup :
 (x_mat <- mdense0 TyD d_Symmetric_4x4 0%Q ;;
  x_Lower <- mdense0 TyD d_Lower_4x4 0%Q ;;
  x_Lower_1 <- lil_setElement x_Lower 2 0 (cast TyD 0%Q) ;;
  x_C <- mnew 4 4 ;;
  x_answer <- mdense0 TyD [[2; 0; 0; 0]; [3; 9; 0; 0]; [2; 10; 22; 0]; [0; 6; 21; 25]]%Q 0%Q ;;
  x_C_1 <- lil_assign x_C x_Lower_1 ;;
  x_C_2 <- t_mxm TyD noacc (mkSr qplus qtimes TyD) (MStruct x_C_1) MERGE x_C_1 (Mat x_mat) (Trn
    x_mat) ;;
  x_q <- meq x_C_2 x_answer ;;
  _ <- check x_q ;;
  x_answer2 <- mdense0 TyD [[2; 0; 0; 0]; [3; 9; 0; 0]; [2; 10; 22; 0]; [0; 6; 21; 25]]%Q 0%Q ;;
  x_C_3 <- lil_assign x_C_2 x_Lower_1 ;;
  x_C_4 <- t_mxm TyD noacc (mkSr qplus qtimes TyD) (MStruct x_C_3) REPLACE x_C_3 (Mat x_mat) (Trn
    x_mat) ;;
  x_q_1 <- meq x_C_4 x_answer2 ;;
  _ <- check x_q_1 ;;
  Ok tt) = Ok tt.
Proof. vm_compute. reflexivity. Qed.

(** test_mxm_ABT.cpp:3129-3167, optimized_sequential platform *)
Example test_mxm_StructMask_NoAccum_ABT_MCdup_opt :
 (x_mat <- mdense0 TyD d_Symmetric_4x4 0%Q ;;
  x_Lower <- mdense0 TyD d_Lower_4x4 0%Q ;;
  x_Lower_1 <- lil_setElement x_Lower 2 0 (cast TyD 0%Q) ;;
  x_C <- mnew 4 4 ;;
  x_answer <- mdense0 TyD [[2; 0; 0; 0]; [3; 9; 0; 0]; [2; 10; 22; 0]; [0; 6; 21; 25]]%Q 0%Q ;;
  x_C_1 <- lil_assign x_C x_Lower_1 ;;
  x_C_2 <- t_opt_mxm TyD noacc TyD (mkSr qplus qtimes TyD) (MStruct (TheOutput (fun x => x))) MERGE
    x_C_1 (OMat (Other x_mat)) (OTrn (Other x_mat)) ;;
  x_q <- meq x_C_2 x_answer ;;
  _ <- check x_q ;;
  x_answer2 <- mdense0 TyD [[2; 0; 0; 0]; [3; 9; 0; 0]; [2; 10; 22; 0]; [0; 6; 21; 25]]%Q 0%Q ;;
  x_C_3 <- lil_assign x_C_2 x_Lower_1 ;;
  x_C_4 <- t_opt_mxm TyD noacc TyD (mkSr qplus qtimes TyD) (MStruct (TheOutput (fun x => x)))
    REPLACE x_C_3 (OMat (Other x_mat)) (OTrn (Other x_mat)) ;;
  x_q_1 <- meq x_C_4 x_answer2 ;;
  _ <- check x_q_1 ;;
  Ok tt) = Ok tt.
Proof. vm_compute. reflexivity. Qed.

(** test_mxm_ABT.cpp:3174-3273 *)
Example test_mxm_StructMask_Accum_ABT :
 (x_A <- mdense0 TyD d_A_sparse_3x3 0%Q ;;
  x_Identity <- mdense0 TyD d_Identity_3x3 0%Q ;;
  x_Empty <- mnew 3 3 ;;
  x_Ones <- mdense0 TyD d_Ones_3x3 0%Q ;;
  x_C <- mnew 3 3 ;;
  x_MLower <- mdense0 TyD d_Lower_3x3 0%Q ;;
  x_MLower_1 <- lil_setElement x_MLower 2 0 (cast TyD 0%Q) ;;
  x_MNotLower <- mdense0 TyD d_NotLower_3x3 0%Q ;;
  x_MNotLower_1 <- lil_setElement x_MNotLower 0 1 (cast TyD 0%Q) ;;
  x_AFilled <- mdense0 TyD [[12; 7; 1]; [1; (-5); 1]; [7; 1; 9]]%Q 0%Q ;;
  x_C_1 <- lil_assign x_C x_Ones ;;
  x_A_1 <- lil_setElement x_A 0 2 (cast TyD 0%Q) ;;
  x_C_2 <- t_mxm TyD (acc TyD qplus) (mkSr qplus qtimes TyD) (MStruct x_A_1) MERGE x_C_1 (Mat x_A_1)
    (Trn x_Identity) ;;
  x_t <- mdense0 TyD [[13; 8; 1]; [1; (-4); 1]; [8; 1; 10]]%Q 0%Q ;;
  x_q <- meq x_C_2 x_t ;;
  _ <- check x_q ;;
  x_C_3 <- lil_assign x_C_2 x_Ones ;;
  x_C_4 <- t_mxm TyD (acc TyD qplus) (mkSr qplus qtimes TyD) (MStruct x_MLower_1) MERGE x_C_3 (Mat
    x_Ones) (Trn x_Identity) ;;
  x_t_1 <- mdense0 TyD [[2; 1; 1]; [2; 2; 1]; [2; 2; 2]]%Q 0%Q ;;
  x_q_1 <- meq x_C_4 x_t_1 ;;
  _ <- check x_q_1 ;;
  x_C_5 <- lil_assign x_C_4 x_Ones ;;
  x_C_6 <- t_mxm TyD (acc TyD qplus) (mkSr qplus qtimes TyD) (MStruct x_MNotLower_1) MERGE x_C_5
    (Mat x_Ones) (Trn x_Identity) ;;
  x_t_2 <- mdense0 TyD [[1; 2; 2]; [1; 1; 2]; [1; 1; 1]]%Q 0%Q ;;
  x_q_2 <- meq x_C_6 x_t_2 ;;
  _ <- check x_q_2 ;;
  x_C_7 <- lil_assign x_C_6 x_Ones ;;
  x_Ones_1 <- lil_setElement x_Ones 0 0 (cast TyD 0%Q) ;;
  x_C_8 <- t_mxm TyD (acc TyD qplus) (mkSr qplus qtimes TyD) (MStruct x_Ones_1) REPLACE x_C_7 (Mat
    x_A_1) (Trn x_Identity) ;;
  x_Ones_2 <- lil_setElement x_Ones_1 0 0 (cast TyD 1%Q) ;;
  x_t_3 <- mdense0 TyD [[13; 8; 1]; [1; (-4); 1]; [8; 1; 10]]%Q 0%Q ;;
  x_q_3 <- meq x_C_8 x_t_3 ;;
  _ <- check x_q_3 ;;
  x_C_9 <- lil_assign x_C_8 x_Ones_2 ;;
  x_C_10 <- t_mxm TyD (acc TyD qplus) (mkSr qplus qtimes TyD) (MStruct x_MLower_1) REPLACE x_C_9
    (Mat x_Ones_2) (Trn x_Identity) ;;
  x_t_4 <- mdense0 TyD [[2; 0; 0]; [2; 2; 0]; [2; 2; 2]]%Q 0%Q ;;
  x_q_4 <- meq x_C_10 x_t_4 ;;
  _ <- check x_q_4 ;;
  x_C_11 <- lil_assign x_C_10 x_Ones_2 ;;
  x_C_12 <- t_mxm TyD (acc TyD qplus) (mkSr qplus qtimes TyD) (MStruct x_MNotLower_1) REPLACE x_C_11
    (Mat x_Ones_2) (Trn x_Identity) ;;
  x_t_5 <- mdense0 TyD [[0; 2; 2]; [0; 0; 2]; [0; 0; 0]]%Q 0%Q ;;
  x_q_5 <- meq x_C_12 x_t_5 ;;
  _ <- check x_q_5 ;;
  Ok tt) = Ok tt.
Proof. vm_compute. reflexivity. Qed.

(** test_mxm_ABT.cpp:3174-3273, optimized_sequential platform *)
Example test_mxm_StructMask_Accum_ABT_opt :
 (x_A <- mdense0 TyD d_A_sparse_3x3 0%Q ;;
  x_Identity <- mdense0 TyD d_Identity_3x3 0%Q ;;
  x_Empty <- mnew 3 3 ;;
  x_Ones <- mdense0 TyD d_Ones_3x3 0%Q ;;
  x_C <- mnew 3 3 ;;
  x_MLower <- mdense0 TyD d_Lower_3x3 0%Q ;;
  x_MLower_1 <- lil_setElement x_MLower 2 0 (cast TyD 0%Q) ;;
  x_MNotLower <- mdense0 TyD d_NotLower_3x3 0%Q ;;
  x_MNotLower_1 <- lil_setElement x_MNotLower 0 1 (cast TyD 0%Q) ;;
  x_AFilled <- mdense0 TyD [[12; 7; 1]; [1; (-5); 1]; [7; 1; 9]]%Q 0%Q ;;
  x_C_1 <- lil_assign x_C x_Ones ;;
  x_A_1 <- lil_setElement x_A 0 2 (cast TyD 0%Q) ;;
  x_C_2 <- t_opt_mxm TyD (acc TyD qplus) TyD (mkSr qplus qtimes TyD) (MStruct (Other x_A_1)) MERGE
    x_C_1 (OMat (Other x_A_1)) (OTrn (Other x_Identity)) ;;
  x_t <- mdense0 TyD [[13; 8; 1]; [1; (-4); 1]; [8; 1; 10]]%Q 0%Q ;;
  x_q <- meq x_C_2 x_t ;;
  _ <- check x_q ;;
  x_C_3 <- lil_assign x_C_2 x_Ones ;;
  x_C_4 <- t_opt_mxm TyD (acc TyD qplus) TyD (mkSr qplus qtimes TyD) (MStruct (Other x_MLower_1))
    MERGE x_C_3 (OMat (Other x_Ones)) (OTrn (Other x_Identity)) ;;
  x_t_1 <- mdense0 TyD [[2; 1; 1]; [2; 2; 1]; [2; 2; 2]]%Q 0%Q ;;
  x_q_1 <- meq x_C_4 x_t_1 ;;
  _ <- check x_q_1 ;;
  x_C_5 <- lil_assign x_C_4 x_Ones ;;
  x_C_6 <- t_opt_mxm TyD (acc TyD qplus) TyD (mkSr qplus qtimes TyD) (MStruct (Other x_MNotLower_1))
    MERGE x_C_5 (OMat (Other x_Ones)) (OTrn (Other x_Identity)) ;;
  x_t_2 <- mdense0 TyD [[1; 2; 2]; [1; 1; 2]; [1; 1; 1]]%Q 0%Q ;;
  x_q_2 <- meq x_C_6 x_t_2 ;;
  _ <- check x_q_2 ;;
  x_C_7 <- lil_assign x_C_6 x_Ones ;;
  x_Ones_1 <- lil_setElement x_Ones 0 0 (cast TyD 0%Q) ;;
  x_C_8 <- t_opt_mxm TyD (acc TyD qplus) TyD (mkSr qplus qtimes TyD) (MStruct (Other x_Ones_1))
    REPLACE x_C_7 (OMat (Other x_A_1)) (OTrn (Other x_Identity)) ;;
  x_Ones_2 <- lil_setElement x_Ones_1 0 0 (cast TyD 1%Q) ;;
  x_t_3 <- mdense0 TyD [[13; 8; 1]; [1; (-4); 1]; [8; 1; 10]]%Q 0%Q ;;
  x_q_3 <- meq x_C_8 x_t_3 ;;
  _ <- check x_q_3 ;;
  x_C_9 <- lil_assign x_C_8 x_Ones_2 ;;
  x_C_10 <- t_opt_mxm TyD (acc TyD qplus) TyD (mkSr qplus qtimes TyD) (MStruct (Other x_MLower_1))
    REPLACE x_C_9 (OMat (Other x_Ones_2)) (OTrn (Other x_Identity)) ;;
  x_t_4 <- mdense0 TyD [[2; 0; 0]; [2; 2; 0]; [2; 2; 2]]%Q 0%Q ;;
  x_q_4 <- meq x_C_10 x_t_4 ;;
  _ <- check x_q_4 ;;
  x_C_11 <- lil_assign x_C_10 x_Ones_2 ;;
  x_C_12 <- t_opt_mxm TyD (acc TyD qplus) TyD (mkSr qplus qtimes TyD) (MStruct (Other
    x_MNotLower_1)) REPLACE x_C_11 (OMat (Other x_Ones_2)) (OTrn (Other x_Identity)) ;;
  x_t_5 <- mdense0 TyD [[0; 2; 2]; [0; 0; 2]; [0; 0; 0]]%Q 0%Q ;;
  x_q_5 <- meq x_C_12 x_t_5 ;;
  _ <- check x_q_5 ;;
  Ok tt) = Ok tt.
Proof. vm_compute. reflexivity. Qed.

(** test_mxm_ABT.cpp:3276-3324 *)
Example test_mxm_StructMask_Accum_ABTMempty :
 (x_Empty <- mnew 3 3 ;;
  x_Ones <- mdense0 TyD d_Ones_3x3 0%Q ;;
  x_C <- mnew 3 3 ;;
  x_M <- mdense0 TyB d_LowerBool_3x3 0%Q ;;
  x_M_1 <- lil_setElement x_M 2 0 (cast TyB 0%Q) ;;
  x_C_1 <- lil_assign x_C x_Ones ;;
  x_C_2 <- t_mxm TyD (acc TyD qplus) (mkSr qplus qtimes TyD) (MStruct x_M_1) MERGE x_C_1 (Mat
    x_Empty) (Trn x_Ones) ;;
  x_q <- meq x_C_2 x_Ones ;;
  _ <- check x_q ;;
  x_C_3 <- lil_assign x_C_2 x_Ones ;;
  x_C_4 <- t_mxm TyD (acc TyD qplus) (mkSr qplus qtimes TyD) (MStruct x_M_1) MERGE x_C_3 (Mat
    x_Ones) (Trn x_Empty) ;;
  x_q_1 <- meq x_C_4 x_Ones ;;
  _ <- check x_q_1 ;;
  x_C_5 <- lil_assign x_C_4 x_Ones ;;
  x_C_6 <- t_mxm TyD (acc TyD qplus) (mkSr qplus qtimes TyD) (MStruct x_Empty) MERGE x_C_5 (Mat
    x_Ones) (Trn x_Ones) ;;
  x_q_2 <- meq x_C_6 x_Ones ;;
  _ <- check x_q_2 ;;
  x_C_7 <- lil_assign x_C_6 x_Ones ;;
  x_C_8 <- t_mxm TyD (acc TyD qplus) (mkSr qplus qtimes TyD) (MStruct x_M_1) REPLACE x_C_7 (Mat
    x_Empty) (Trn x_Ones) ;;
  x_t <- mdense0 TyD d_Lower_3x3 0%Q ;;
  x_q_3 <- meq x_C_8 x_t ;;
  _ <- check x_q_3 ;;
  x_C_9 <- lil_assign x_C_8 x_Ones ;;
  x_C_10 <- t_mxm TyD (acc TyD qplus) (mkSr qplus qtimes TyD) (MStruct x_M_1) REPLACE x_C_9 (Mat
    x_Ones) (Trn x_Empty) ;;
  x_t_1 <- mdense0 TyD d_Lower_3x3 0%Q ;;
  x_q_4 <- meq x_C_10 x_t_1 ;;
  _ <- check x_q_4 ;;
  x_C_11 <- lil_assign x_C_10 x_Ones ;;
  x_C_12 <- t_mxm TyD (acc TyD qplus) (mkSr qplus qtimes TyD) (MStruct x_Empty) REPLACE x_C_11 (Mat
    x_Ones) (Trn x_Empty) ;;
  x_q_5 <- meq x_C_12 x_Empty ;;
  _ <- check x_q_5 ;;
  Ok tt) = Ok tt.
Proof. vm_compute. reflexivity. Qed.

(** test_mxm_ABT.cpp:3276-3324, optimized_sequential platform *)
Example test_mxm_StructMask_Accum_ABTMempty_opt :
 (x_Empty <- mnew 3 3 ;;
  x_Ones <- mdense0 TyD d_Ones_3x3 0%Q ;;
  x_C <- mnew 3 3 ;;
  x_M <- mdense0 TyB d_LowerBool_3x3 0%Q ;;
  x_M_1 <- lil_setElement x_M 2 0 (cast TyB 0%Q) ;;
  x_C_1 <- lil_assign x_C x_Ones ;;
  x_C_2 <- t_opt_mxm TyD (acc TyD qplus) TyD (mkSr qplus qtimes TyD) (MStruct (Other x_M_1)) MERGE
    x_C_1 (OMat (Other x_Empty)) (OTrn (Other x_Ones)) ;;
  x_q <- meq x_C_2 x_Ones ;;
  _ <- check x_q ;;
  x_C_3 <- lil_assign x_C_2 x_Ones ;;
  x_C_4 <- t_opt_mxm TyD (acc TyD qplus) TyD (mkSr qplus qtimes TyD) (MStruct (Other x_M_1)) MERGE
    x_C_3 (OMat (Other x_Ones)) (OTrn (Other x_Empty)) ;;
  x_q_1 <- meq x_C_4 x_Ones ;;
  _ <- check x_q_1 ;;
  x_C_5 <- lil_assign x_C_4 x_Ones ;;
  x_C_6 <- t_opt_mxm TyD (acc TyD qplus) TyD (mkSr qplus qtimes TyD) (MStruct (Other x_Empty)) MERGE
    x_C_5 (OMat (Other x_Ones)) (OTrn (Other x_Ones)) ;;
  x_q_2 <- meq x_C_6 x_Ones ;;
  _ <- check x_q_2 ;;
  x_C_7 <- lil_assign x_C_6 x_Ones ;;
  x_C_8 <- t_opt_mxm TyD (acc TyD qplus) TyD (mkSr qplus qtimes TyD) (MStruct (Other x_M_1)) REPLACE
    x_C_7 (OMat (Other x_Empty)) (OTrn (Other x_Ones)) ;;
  x_t <- mdense0 TyD d_Lower_3x3 0%Q ;;
  x_q_3 <- meq x_C_8 x_t ;;
  _ <- check x_q_3 ;;
  x_C_9 <- lil_assign x_C_8 x_Ones ;;
  x_C_10 <- t_opt_mxm TyD (acc TyD qplus) TyD (mkSr qplus qtimes TyD) (MStruct (Other x_M_1))
    REPLACE x_C_9 (OMat (Other x_Ones)) (OTrn (Other x_Empty)) ;;
  x_t_1 <- mdense0 TyD d_Lower_3x3 0%Q ;;
  x_q_4 <- meq x_C_10 x_t_1 ;;
  _ <- check x_q_4 ;;
  x_C_11 <- lil_assign x_C_10 x_Ones ;;
  x_C_12 <- t_opt_mxm TyD (acc TyD qplus) TyD (mkSr qplus qtimes TyD) (MStruct (Other x_Empty))
    REPLACE x_C_11 (OMat (Other x_Ones)) (OTrn (Other x_Empty)) ;;
  x_q_5 <- meq x_C_12 x_Empty ;;
  _ <- check x_q_5 ;;
  Ok tt) = Ok tt.
Proof. vm_compute. reflexivity. Qed.

(** test_mxm_ABT.cpp:3327-3370 *)
Example test_mxm_StructMask_Accum_ABT_emptyRowA_emptyColB :
 (x_A <- mdense0 TyD [[8; 1; 6]; [0; 0; 0]; [4; 9; 2]]%Q 0%Q ;;
  x_B <- mdense0 TyD [[0; 1; 0]; [0; 0; 0]; [0; 1; 1]; [1; 1; 1]]%Q 0%Q ;;
  x_Lower <- mdense0 TyD d_Lower_3x4 0%Q ;;
  x_Lower_1 <- lil_setElement x_Lower 2 0 (cast TyD 0%Q) ;;
  x_Ones <- mdense0 TyD d_Ones_3x4 0%Q ;;
  x_C <- mnew 3 4 ;;
  x_answer <- mdense0 TyD [[2; 0; 0; 0]; [1; 1; 0; 0]; [10; 1; 12; 0]]%Q 0%Q ;;
  x_C_1 <- lil_assign x_C x_Ones ;;
  x_C_2 <- t_mxm TyD (acc TyD qplus) (mkSr qplus qtimes TyD) (MStruct x_Lower_1) REPLACE x_C_1 (Mat
    x_A) (Trn x_B) ;;
  x_q <- meq x_C_2 x_answer ;;
  _ <- check x_q ;;
  x_answer2 <- mdense0 TyD [[2; 1; 1; 1]; [1; 1; 1; 1]; [10; 1; 12; 1]]%Q 0%Q ;;
  x_C_3 <- lil_assign x_C_2 x_Ones ;;
  x_C_4 <- t_mxm TyD (acc TyD qplus) (mkSr qplus qtimes TyD) (MStruct x_Lower_1) MERGE x_C_3 (Mat
    x_A) (Trn x_B) ;;
  x_q_1 <- meq x_C_4 x_answer2 ;;
  _ <- check x_q_1 ;;
  Ok tt) = Ok tt.
Proof. vm_compute. reflexivity. Qed.

(** test_mxm_ABT.cpp:3327-3370, optimized_sequential platform *)
Example test_mxm_StructMask_Accum_ABT_emptyRowA_emptyColB_opt :
 (x_A <- mdense0 TyD [[8; 1; 6]; [0; 0; 0]; [4; 9; 2]]%Q 0%Q ;;
  x_B <- mdense0 TyD [[0; 1; 0]; [0; 0; 0]; [0; 1; 1]; [1; 1; 1]]%Q 0%Q ;;
  x_Lower <- mdense0 TyD d_Lower_3x4 0%Q ;;
  x_Lower_1 <- lil_setElement x_Lower 2 0 (cast TyD 0%Q) ;;
  x_Ones <- mdense0 TyD d_Ones_3x4 0%Q ;;
  x_C <- mnew 3 4 ;;
  x_answer <- mdense0 TyD [[2; 0; 0; 0]; [1; 1; 0; 0]; [10; 1; 12; 0]]%Q 0%Q ;;
  x_C_1 <- lil_assign x_C x_Ones ;;
  x_C_2 <- t_opt_mxm TyD (acc TyD qplus) TyD (mkSr qplus qtimes TyD) (MStruct (Other x_Lower_1))
    REPLACE x_C_1 (OMat (Other x_A)) (OTrn (Other x_B)) ;;
  x_q <- meq x_C_2 x_answer ;;
  _ <- check x_q ;;
  x_answer2 <- mdense0 TyD [[2; 1; 1; 1]; [1; 1; 1; 1]; [10; 1; 12; 1]]%Q 0%Q ;;
  x_C_3 <- lil_assign x_C_2 x_Ones ;;
  x_C_4 <- t_opt_mxm TyD (acc TyD qplus) TyD (mkSr qplus qtimes TyD) (MStruct (Other x_Lower_1))
    MERGE x_C_3 (OMat (Other x_A)) (OTrn (Other x_B)) ;;
  x_q_1 <- meq x_C_4 x_answer2 ;;
  _ <- check x_q_1 ;;
  Ok tt) = Ok tt.
Proof. vm_compute. reflexivity. Qed.

(** test_mxm_ABT.cpp:3373-3417 *)
Example test_mxm_StructMask_Accum_ABT_emptyColA_emptyRowB :
 (x_A <- mdense0 TyD [[8; 0; 6]; [1; 0; 9]; [4; 0; 2]]%Q 0%Q ;;
  x_B <- mdense0 TyD [[0; 1; 0]; [1; 0; 0]; [0; 1; 0]; [1; 1; 0]]%Q 0%Q ;;
  x_Lower <- mdense0 TyD d_Lower_3x4 0%Q ;;
  x_Lower_1 <- lil_setElement x_Lower 2 0 (cast TyD 0%Q) ;;
  x_Ones <- mdense0 TyD d_Ones_3x4 0%Q ;;
  x_C <- mnew 3 4 ;;
  x_answer <- mdense0 TyD [[1; 0; 0; 0]; [1; 2; 0; 0]; [1; 5; 1; 0]]%Q 0%Q ;;
  x_C_1 <- lil_assign x_C x_Ones ;;
  x_C_2 <- t_mxm TyD (acc TyD qplus) (mkSr qplus qtimes TyD) (MStruct x_Lower_1) REPLACE x_C_1 (Mat
    x_A) (Trn x_B) ;;
  x_q <- meq x_C_2 x_answer ;;
  _ <- check x_q ;;
  x_answer2 <- mdense0 TyD [[1; 1; 1; 1]; [1; 2; 1; 1]; [1; 5; 1; 1]]%Q 0%Q ;;
  x_C_3 <- lil_assign x_C_2 x_Ones ;;
  x_C_4 <- t_mxm TyD (acc TyD qplus) (mkSr qplus qtimes TyD) (MStruct x_Lower_1) MERGE x_C_3 (Mat
    x_A) (Trn x_B) ;;
  x_q_1 <- meq x_C_4 x_answer2 ;;
  _ <- check x_q_1 ;;
  Ok tt) = Ok tt.
Proof. vm_compute. reflexivity. Qed.

(** test_mxm_ABT.cpp:3373-3417, optimized_sequential platform *)
Example test_mxm_StructMask_Accum_ABT_emptyColA_emptyRowB_opt :
 (x_A <- mdense0 TyD [[8; 0; 6]; [1; 0; 9]; [4; 0; 2]]%Q 0%Q ;;
  x_B <- mdense0 TyD [[0; 1; 0]; [1; 0; 0]; [0; 1; 0]; [1; 1; 0]]%Q 0%Q ;;
  x_Lower <- mdense0 TyD d_Lower_3x4 0%Q ;;
  x_Lower_1 <- lil_setElement x_Lower 2 0 (cast TyD 0%Q) ;;
  x_Ones <- mdense0 TyD d_Ones_3x4 0%Q ;;
  x_C <- mnew 3 4 ;;
  x_answer <- mdense0 TyD [[1; 0; 0; 0]; [1; 2; 0; 0]; [1; 5; 1; 0]]%Q 0%Q ;;
  x_C_1 <- lil_assign x_C x_Ones ;;
  x_C_2 <- t_opt_mxm TyD (acc TyD qplus) TyD (mkSr qplus qtimes TyD) (MStruct (Other x_Lower_1))
    REPLACE x_C_1 (OMat (Other x_A)) (OTrn (Other x_B)) ;;
  x_q <- meq x_C_2 x_answer ;;
  _ <- check x_q ;;
  x_answer2 <- mdense0 TyD [[1; 1; 1; 1]; [1; 2; 1; 1]; [1; 5; 1; 1]]%Q 0%Q ;;
  x_C_3 <- lil_assign x_C_2 x_Ones ;;
  x_C_4 <- t_opt_mxm TyD (acc TyD qplus) TyD (mkSr qplus qtimes TyD) (MStruct (Other x_Lower_1))
    MERGE x_C_3 (OMat (Other x_A)) (OTrn (Other x_B)) ;;
  x_q_1 <- meq x_C_4 x_answer2 ;;
  _ <- check x_q_1 ;;
  Ok tt) = Ok tt.
Proof. vm_compute. reflexivity. Qed.

(** test_mxm_ABT.cpp:3420-3463 *)
Example test_mxm_StructMask_Accum_ABT_emptyRowM :
 (x_A <- mdense0 TyD [[8; 1; 6]; [0; 0; 0]; [4; 9; 2]]%Q 0%Q ;;
  x_B <- mdense0 TyD [[0; 1; 0]; [0; 0; 0]; [0; 1; 1]]%Q 0%Q ;;
  x_NotLower <- mdense0 TyD d_NotLower_3x3 0%Q ;;
  x_NotLower_1 <- lil_setElement x_NotLower 0 2 (cast TyD 0%Q) ;;
  x_Ones <- mdense0 TyD d_Ones_3x3 0%Q ;;
  x_C <- mnew 3 3 ;;
  x_answer <- mdense0 TyD [[0; 1; 8]; [0; 0; 1]; [0; 0; 0]]%Q 0%Q ;;
  x_C_1 <- lil_assign x_C x_Ones ;;
  x_C_2 <- t_mxm TyD (acc TyD qplus) (mkSr qplus qtimes TyD) (MStruct x_NotLower_1) REPLACE x_C_1
    (Mat x_A) (Trn x_B) ;;
  x_q <- meq x_C_2 x_answer ;;
  _ <- check x_q ;;
  x_answer2 <- mdense0 TyD [[1; 1; 8]; [1; 1; 1]; [1; 1; 1]]%Q 0%Q ;;
  x_C_3 <- lil_assign x_C_2 x_Ones ;;
  x_C_4 <- t_mxm TyD (acc TyD qplus) (mkSr qplus qtimes TyD) (MStruct x_NotLower_1) MERGE x_C_3 (Mat
    x_A) (Trn x_B) ;;
  x_q_1 <- meq x_C_4 x_answer2 ;;
  _ <- check x_q_1 ;;
  Ok tt) = Ok tt.
Proof. vm_compute. reflexivity. Qed.

(** test_mxm_ABT.cpp:3420-3463, optimized_sequential platform *)
Example test_mxm_StructMask_Accum_ABT_emptyRowM_opt :
 (x_A <- mdense0 TyD [[8; 1; 6]; [0; 0; 0]; [4; 9; 2]]%Q 0%Q ;;
  x_B <- mdense0 TyD [[0; 1; 0]; [0; 0; 0]; [0; 1; 1]]%Q 0%Q ;;
  x_NotLower <- mdense0 TyD d_NotLower_3x3 0%Q ;;
  x_NotLower_1 <- lil_setElement x_NotLower 0 2 (cast TyD 0%Q) ;;
  x_Ones <- mdense0 TyD d_Ones_3x3 0%Q ;;
  x_C <- mnew 3 3 ;;
  x_answer <- mdense0 TyD [[0; 1; 8]; [0; 0; 1]; [0; 0; 0]]%Q 0%Q ;;
  x_C_1 <- lil_assign x_C x_Ones ;;
  x_C_2 <- t_opt_mxm TyD (acc TyD qplus) TyD (mkSr qplus qtimes TyD) (MStruct (Other x_NotLower_1))
    REPLACE x_C_1 (OMat (Other x_A)) (OTrn (Other x_B)) ;;
  x_q <- meq x_C_2 x_answer ;;
  _ <- check x_q ;;
  x_answer2 <- mdense0 TyD [[1; 1; 8]; [1; 1; 1]; [1; 1; 1]]%Q 0%Q ;;
  x_C_3 <- lil_assign x_C_2 x_Ones ;;
  x_C_4 <- t_opt_mxm TyD (acc TyD qplus) TyD (mkSr qplus qtimes TyD) (MStruct (Other x_NotLower_1))
    MERGE x_C_3 (OMat (Other x_A)) (OTrn (Other x_B)) ;;
  x_q_1 <- meq x_C_4 x_answer2 ;;
  _ <- check x_q_1 ;;
  Ok tt) = Ok tt.
Proof. vm_compute. reflexivity. Qed.

(** test_mxm_ABT.cpp:3466-3505 *)
Example test_mxm_StructMask_Accum_ABT_ABdup :
 (x_mat <- mdense0 TyD d_Symmetric_4x4 0%Q ;;
  x_Lower <- mdense0 TyD d_Lower_4x4 0%Q ;;
  x_Lower_1 <- lil_setElement x_Lower 2 0 (cast TyD 0%Q) ;;
  x_Ones <- mdense0 TyD d_Ones_4x4 0%Q ;;
  x_C <- mnew 4 4 ;;
  x_answer <- mdense0 TyD [[3; 1; 1; 1]; [4; 10; 1; 1]; [3; 11; 23; 1]; [1; 7; 22; 26]]%Q 0%Q ;;
  x_C_1 <- lil_assign x_C x_Ones ;;
  x_C_2 <- t_mxm TyD (acc TyD qplus) (mkSr qplus qtimes TyD) (MStruct x_Lower_1) MERGE x_C_1 (Mat
    x_mat) (Trn x_mat) ;;
  x_q <- meq x_C_2 x_answer ;;
  _ <- check x_q ;;
  x_answer2 <- mdense0 TyD [[3; 0; 0; 0]; [4; 10; 0; 0]; [3; 11; 23; 0]; [1; 7; 22; 26]]%Q 0%Q ;;
  x_C_3 <- lil_assign x_C_2 x_Ones ;;
  x_C_4 <- t_mxm TyD (acc TyD qplus) (mkSr qplus qtimes TyD) (MStruct x_Lower_1) REPLACE x_C_3 (Mat
    x_mat) (Trn x_mat) ;;
  x_q_1 <- meq x_C_4 x_answer2 ;;
  _ <- check x_q_1 ;;
  Ok tt) = Ok tt.
Proof. vm_compute. reflexivity. Qed.

(** test_mxm_ABT.cpp:3466-3505, optimized_sequential platform *)
Example test_mxm_StructMask_Accum_ABT_ABdup_opt :
 (x_mat <- mdense0 TyD d_Symmetric_4x4 0%Q ;;
  x_Lower <- mdense0 TyD d_Lower_4x4 0%Q ;;
  x_Lower_1 <- lil_setElement x_Lower 2 0 (cast TyD 0%Q) ;;
  x_Ones <- mdense0 TyD d_Ones_4x4 0%Q ;;
  x_C <- mnew 4 4 ;;
  x_answer <- mdense0 TyD [[3; 1; 1; 1]; [4; 10; 1; 1]; [3; 11; 23; 1]; [1; 7; 22; 26]]%Q 0%Q ;;
  x_C_1 <- lil_assign x_C x_Ones ;;
  x_C_2 <- t_opt_mxm TyD (acc TyD qplus) TyD (mkSr qplus qtimes TyD) (MStruct (Other x_Lower_1))
    MERGE x_C_1 (OMat (Other x_mat)) (OTrn (Other x_mat)) ;;
  x_q <- meq x_C_2 x_answer ;;
  _ <- check x_q ;;
  x_answer2 <- mdense0 TyD [[3; 0; 0; 0]; [4; 10; 0; 0]; [3; 11; 23; 0]; [1; 7; 22; 26]]%Q 0%Q ;;
  x_C_3 <- lil_assign x_C_2 x_Ones ;;
  x_C_4 <- t_opt_mxm TyD (acc TyD qplus) TyD (mkSr qplus qtimes TyD) (MStruct (Other x_Lower_1))
    REPLACE x_C_3 (OMat (Other x_mat)) (OTrn (Other x_mat)) ;;
  x_q_1 <- meq x_C_4 x_answer2 ;;
  _ <- check x_q_1 ;;
  Ok tt) = Ok tt.
Proof. vm_compute. reflexivity. Qed.

(** test_mxm_ABT.cpp:3508-3548 *)
Example test_mxm_StructMask_Accum_ABT_ACdup :
 (x_mat <- mdense0 TyD d_Symmetric_4x4 0%Q ;;
  x_Lower <- mdense0 TyD d_Lower_4x4 0%Q ;;
  x_Lower_1 <- lil_setElement x_Lower 2 0 (cast TyD 0%Q) ;;
  x_Ones <- mdense0 TyD d_Ones_4x4 0%Q ;;
  x_C <- mnew 4 4 ;;
  x_answer <- mdense0 TyD [[3; 1; 0; 0]; [4; 11; 2; 0]; [2; 12; 25; 3]; [0; 6; 24; 29]]%Q 0%Q ;;
  x_C_1 <- lil_assign x_C x_mat ;;
  x_C_2 <- t_mxm TyD (acc TyD qplus) (mkSr qplus qtimes TyD) (MStruct x_Lower_1) MERGE x_C_1 (Mat
    x_C_1) (Trn x_mat) ;;
  x_q <- meq x_C_2 x_answer ;;
  _ <- check x_q ;;
  x_answer2 <- mdense0 TyD [[3; 0; 0; 0]; [4; 11; 0; 0]; [2; 12; 25; 0]; [0; 6; 24; 29]]%Q 0%Q ;;
  x_C_3 <- lil_assign x_C_2 x_mat ;;
  x_C_4 <- t_mxm TyD (acc TyD qplus) (mkSr qplus qtimes TyD) (MStruct x_Lower_1) REPLACE x_C_3 (Mat
    x_C_3) (Trn x_mat) ;;
  x_q_1 <- meq x_C_4 x_answer2 ;;
  _ <- check x_q_1 ;;
  Ok tt) = Ok tt.
Proof. vm_compute. reflexivity. Qed.

(** test_mxm_ABT.cpp:3508-3548, optimized_sequential platform *)
Example test_mxm_StructMask_Accum_ABT_ACdup_opt :
 (x_mat <- mdense0 TyD d_Symmetric_4x4 0%Q ;;
  x_Lower <- mdense0 TyD d_Lower_4x4 0%Q ;;
  x_Lower_1 <- lil_setElement x_Lower 2 0 (cast TyD 0%Q) ;;
  x_Ones <- mdense0 TyD d_Ones_4x4 0%Q ;;
  x_C <- mnew 4 4 ;;
  x_answer <- mdense0 TyD [[3; 1; 0; 0]; [4; 11; 2; 0]; [2; 12; 25; 3]; [0; 6; 24; 29]]%Q 0%Q ;;
  x_C_1 <- lil_assign x_C x_mat ;;
  x_C_2 <- t_opt_mxm TyD (acc TyD qplus) TyD (mkSr qplus qtimes TyD) (MStruct (Other x_Lower_1))
    MERGE x_C_1 (OMat (TheOutput (fun x => x))) (OTrn (Other x_mat)) ;;
  x_q <- meq x_C_2 x_answer ;;
  _ <- check x_q ;;
  x_answer2 <- mdense0 TyD [[3; 0; 0; 0]; [4; 11; 0; 0]; [2; 12; 25; 0]; [0; 6; 24; 29]]%Q 0%Q ;;
  x_C_3 <- lil_assign x_C_2 x_mat ;;
  x_C_4 <- t_opt_mxm TyD (acc TyD qplus) TyD (mkSr qplus qtimes TyD) (MStruct (Other x_Lower_1))
    REPLACE x_C_3 (OMat (TheOutput (fun x => x))) (OTrn (Other x_mat)) ;;
  x_q_1 <- meq x_C_4 x_answer2 ;;
  _ <- check x_q_1 ;;
  Ok tt) = Ok tt.
Proof. vm_compute. reflexivity. Qed.

(** test_mxm_ABT.cpp:3551-3599 *)
Example test_mxm_StructMask_Accum_ABT_BCdup :
 (x_mat <- mdense0 TyD d_Symmetric_4x4 0%Q ;;
  x_Lower <- mdense0 TyD d_Lower_4x4 0%Q ;;
  x_Lower_1 <- lil_setElement x_Lower 2 0 (cast TyD 0%Q) ;;
  x_Ones <- mdense0 TyD d_Ones_4x4 0%Q ;;
  x_C <- mnew 4 4 ;;
  x_answer <- mdense0 TyD [[3; 1; 0; 0]; [4; 11; 2; 0]; [2; 12; 25; 3]; [0; 6; 24; 29]]%Q 0%Q ;;
  x_C_1 <- lil_assign x_C x_mat ;;
  x_C_2 <- t_mxm TyD (acc TyD qplus) (mkSr qplus qtimes TyD) (MStruct x_Lower_1) MERGE x_C_1 (Mat
    x_mat) (Trn x_C_1) ;;
  x_q <- meq x_C_2 x_answer ;;
  _ <- check x_q ;;
  x_C_3 <- lil_assign x_C_2 x_mat ;;
  x_C_4 <- t_mxm TyD (acc TyD qplus) (mkSr qplus qtimes TyD) (MStruct x_Lower_1) MERGE x_C_3 (Mat
    x_mat) (Trn x_mat) ;;
  x_q_1 <- meq x_C_4 x_answer ;;
  _ <- check x_q_1 ;;
  x_answer2 <- mdense0 TyD [[3; 0; 0; 0]; [4; 11; 0; 0]; [2; 12; 25; 0]; [0; 6; 24; 29]]%Q 0%Q ;;
  x_C_5 <- lil_assign x_C_4 x_mat ;;
  x_C_6 <- t_mxm TyD (acc TyD qplus) (mkSr qplus qtimes TyD) (MStruct x_Lower_1) REPLACE x_C_5 (Mat
    x_mat) (Trn x_C_5) ;;
  x_q_2 <- meq x_C_6 x_answer2 ;;
  _ <- check x_q_2 ;;
  Ok tt) = Ok tt.
Proof. vm_compute. reflexivity. Qed.

(** test_mxm_ABT.cpp:3551-3599, optimized_sequential platform *)
Example test_mxm_StructMask_Accum_ABT_BCdup_opt :
 (x_mat <- mdense0 TyD d_Symmetric_4x4 0%Q ;;
  x_Lower <- mdense0 TyD d_Lower_4x4 0%Q ;;
  x_Lower_1 <- lil_setElement x_Lower 2 0 (cast TyD 0%Q) ;;
  x_Ones <- mdense0 TyD d_Ones_4x4 0%Q ;;
  x_C <- mnew 4 4 ;;
  x_answer <- mdense0 TyD [[3; 1; 0; 0]; [4; 11; 2; 0]; [2; 12; 25; 3]; [0; 6; 24; 29]]%Q 0%Q ;;
  x_C_1 <- lil_assign x_C x_mat ;;
  x_C_2 <- t_opt_mxm TyD (acc TyD qplus) TyD (mkSr qplus qtimes TyD) (MStruct (Other x_Lower_1))
    MERGE x_C_1 (OMat (Other x_mat)) (OTrn (TheOutput (fun x => x))) ;;
  x_q <- meq x_C_2 x_answer ;;
  _ <- check x_q ;;
  x_C_3 <- lil_assign x_C_2 x_mat ;;
  x_C_4 <- t_opt_mxm TyD (acc TyD qplus) TyD (mkSr qplus qtimes TyD) (MStruct (Other x_Lower_1))
    MERGE x_C_3 (OMat (Other x_mat)) (OTrn (Other x_mat)) ;;
  x_q_1 <- meq x_C_4 x_answer ;;
  _ <- check x_q_1 ;;
  x_answer2 <- mdense0 TyD [[3; 0; 0; 0]; [4; 11; 0; 0]; [2; 12; 25; 0]; [0; 6; 24; 29]]%Q 0%Q ;;
  x_C_5 <- lil_assign x_C_4 x_mat ;;
  x_C_6 <- t_opt_mxm TyD (acc TyD qplus) TyD (mkSr qplus qtimes TyD) (MStruct (Other x_Lower_1))
    REPLACE x_C_5 (OMat (Other x_mat)) (OTrn (TheOutput (fun x => x))) ;;
  x_q_2 <- meq x_C_6 x_answer2 ;;
  _ <- check x_q_2 ;;
  Ok tt) = Ok tt.
Proof. vm_compute. reflexivity. Qed.

(** test_mxm_ABT.cpp:3602-3640 *)
Example test_mxm_StructMask_Accum_ABT_MCdup :
 (x_mat <- mdense0 TyD d_Symmetric_4x4 0%Q ;;
  x_Lower <- mdense0 TyD d_Lower_4x4 0%Q ;;
  x_Lower_1 <- lil_setElement x_Lower 2 0 (cast TyD 0%Q) ;;
  x_C <- mnew 4 4 ;;
  x_answer <- mdense0 TyD [[3; 0; 0; 0]; [4; 10; 0; 0]; [2; 11; 23; 0]; [1; 7; 22; 26]]%Q 0%Q ;;
  x_C_1 <- lil_assign x_C x_Lower_1 ;;
  x_C_2 <- t_mxm TyD (acc TyD qplus) (mkSr qplus qtimes TyD) (MStruct x_C_1) MERGE x_C_1 (Mat x_mat)
    (Trn x_mat) ;;
  x_q <- meq x_C_2 x_answer ;;
  _ <- check x_q ;;
  x_answer2 <- mdense0 TyD [[3; 0; 0; 0]; [4; 10; 0; 0]; [2; 11; 23; 0]; [1; 7; 22; 26]]%Q 0%Q ;;
  x_C_3 <- lil_assign x_C_2 x_Lower_1 ;;
  x_C_4 <- t_mxm TyD (acc TyD qplus) (mkSr qplus qtimes TyD) (MStruct x_C_3) REPLACE x_C_3 (Mat
    x_mat) (Trn x_mat) ;;
  x_q_1 <- meq x_C_4 x_answer2 ;;
  _ <- check x_q_1 ;;
  Ok tt) = Ok tt.
Proof. vm_compute. reflexivity. Qed.

(** test_mxm_ABT.cpp:3602-3640, optimized_sequential platform *)
Example test_mxm_StructMask_Accum_ABT_MCdup_opt :
 (x_mat <- mdense0 TyD d_Symmetric_4x4 0%Q ;;
  x_Lower <- mdense0 TyD d_Lower_4x4 0%Q ;;
  x_Lower_1 <- lil_setElement x_Lower 2 0 (cast TyD 0%Q) ;;
  x_C <- mnew 4 4 ;;
  x_answer <- mdense0 TyD [[3; 0; 0; 0]; [4; 10; 0; 0]; [2; 11; 23; 0]; [1; 7; 22; 26]]%Q 0%Q ;;
  x_C_1 <- lil_assign x_C x_Lower_1 ;;
  x_C_2 <- t_opt_mxm TyD (acc TyD qplus) TyD (mkSr qplus qtimes TyD) (MStruct (TheOutput (fun x =>
    x))) MERGE x_C_1 (OMat (Other x_mat)) (OTrn (Other x_mat)) ;;
  x_q <- meq x_C_2 x_answer ;;
  _ <- check x_q ;;
  x_answer2 <- mdense0 TyD [[3; 0; 0; 0]; [4; 10; 0; 0]; [2; 11; 23; 0]; [1; 7; 22; 26]]%Q 0%Q ;;
  x_C_3 <- lil_assign x_C_2 x_Lower_1 ;;
  x_C_4 <- t_opt_mxm TyD (acc TyD qplus) TyD (mkSr qplus qtimes TyD) (MStruct (TheOutput (fun x =>
    x))) REPLACE x_C_3 (OMat (Other x_mat)) (OTrn (Other x_mat)) ;;
  x_q_1 <- meq x_C_4 x_answer2 ;;
  _ <- check x_q_1 ;;
  Ok tt) = Ok tt.
Proof. vm_compute. reflexivity. Qed.

(** test_mxm_ABT.cpp:3643-3666 *)
Example test_mxm_StructMask_Accum_ABT_Replace_lower_mask_result_ones :
 (x_A <- mdense0 TyD d_A_dense_3x3 0%Q ;;
  x_B <- mdense0 TyD d_BT_dense_3x4 0%Q ;;
  x_M <- mdense0 TyD d_LowerMask_3x4 0%Q ;;
  x_M_1 <- lil_setElement x_M 2 0 (cast TyD 0%Q) ;;
  _ <- check (Qeq_bool (inject_Z (nvals x_M_1)) 6%Q) ;;
  x_result <- mdense0 TyD d_Ones_3x4 0%Q ;;
  x_answer <- mdense0 TyD [[114; 0; 0; 0]; [74; 97; 0; 0]; [119; 157; 112; 0]]%Q 0%Q ;;
  x_result_1 <- t_mxm TyD (acc TyD qsecond) (mkSr qplus qtimes TyD) (MStruct x_M_1) REPLACE x_result
    (Mat x_A) (Trn x_B) ;;
  _ <- check (Qeq_bool (inject_Z (nvals x_result_1)) 6%Q) ;;
  x_q <- meq x_result_1 x_answer ;;
  _ <- check x_q ;;
  Ok tt) = Ok tt.
Proof. vm_compute. reflexivity. Qed.

(** test_mxm_ABT.cpp:3643-3666, optimized_sequential platform *)
Example test_mxm_StructMask_Accum_ABT_Replace_lower_mask_result_ones_opt :
 (x_A <- mdense0 TyD d_A_dense_3x3 0%Q ;;
  x_B <- mdense0 TyD d_BT_dense_3x4 0%Q ;;
  x_M <- mdense0 TyD d_LowerMask_3x4 0%Q ;;
  x_M_1 <- lil_setElement x_M 2 0 (cast TyD 0%Q) ;;
  _ <- check (Qeq_bool (inject_Z (nvals x_M_1)) 6%Q) ;;
  x_result <- mdense0 TyD d_Ones_3x4 0%Q ;;
  x_answer <- mdense0 TyD [[114; 0; 0; 0]; [74; 97; 0; 0]; [119; 157; 112; 0]]%Q 0%Q ;;
  x_result_1 <- t_opt_mxm TyD (acc TyD qsecond) TyD (mkSr qplus qtimes TyD) (MStruct (Other x_M_1))
    REPLACE x_result (OMat (Other x_A)) (OTrn (Other x_B)) ;;
  _ <- check (Qeq_bool (inject_Z (nvals x_result_1)) 6%Q) ;;
  x_q <- meq x_result_1 x_answer ;;
  _ <- check x_q ;;
  Ok tt) = Ok tt.
Proof. vm_compute. reflexivity. Qed.

(** test_mxm_ABT.cpp:3669-3692 *)
Example test_mxm_StructMask_Accum_ABT_Replace_bool_masked_result_ones :
 (x_A <- mdense0 TyD d_A_dense_3x3 0%Q ;;
  x_B <- mdense0 TyD d_BT_dense_3x4 0%Q ;;
  x_M <- mdense0 TyB d_LowerBool_3x4 0%Q ;;
  x_M_1 <- lil_setElement x_M 2 0 (cast TyB 0%Q) ;;
  _ <- check (Qeq_bool (inject_Z (nvals x_M_1)) 6%Q) ;;
  x_result <- mdense0 TyD d_Ones_3x4 0%Q ;;
  x_answer <- mdense0 TyD [[114; 0; 0; 0]; [74; 97; 0; 0]; [119; 157; 112; 0]]%Q 0%Q ;;
  x_result_1 <- t_mxm TyD (acc TyD qsecond) (mkSr qplus qtimes TyD) (MStruct x_M_1) REPLACE x_result
    (Mat x_A) (Trn x_B) ;;
  _ <- check (Qeq_bool (inject_Z (nvals x_result_1)) 6%Q) ;;
  x_q <- meq x_result_1 x_answer ;;
  _ <- check x_q ;;
  Ok tt) = Ok tt.
Proof. vm_compute. reflexivity. Qed.

(** test_mxm_ABT.cpp:3669-3692, optimized_sequential platform *)
Example test_mxm_StructMask_Accum_ABT_Replace_bool_masked_result_ones_opt :
 (x_A <- mdense0 TyD d_A_dense_3x3 0%Q ;;
  x_B <- mdense0 TyD d_BT_dense_3x4 0%Q ;;
  x_M <- mdense0 TyB d_LowerBool_3x4 0%Q ;;
  x_M_1 <- lil_setElement x_M 2 0 (cast TyB 0%Q) ;;
  _ <- check (Qeq_bool (inject_Z (nvals x_M_1)) 6%Q) ;;
  x_result <- mdense0 TyD d_Ones_3x4 0%Q ;;
  x_answer <- mdense0 TyD [[114; 0; 0; 0]; [74; 97; 0; 0]; [119; 157; 112; 0]]%Q 0%Q ;;
  x_result_1 <- t_opt_mxm TyD (acc TyD qsecond) TyD (mkSr qplus qtimes TyD) (MStruct (Other x_M_1))
    REPLACE x_result (OMat (Other x_A)) (OTrn (Other x_B)) ;;
  _ <- check (Qeq_bool (inject_Z (nvals x_result_1)) 6%Q) ;;
  x_q <- meq x_result_1 x_answer ;;
  _ <- check x_q ;;
  Ok tt) = Ok tt.
Proof. vm_compute. reflexivity. Qed.

(** test_mxm_ABT.cpp:3695-3720 *)
Example test_mxm_StructMask_Accum_ABT_Merge_Cones_Mlower :
 (x_A <- mdense0 TyD d_A_dense_3x3 0%Q ;;
  x_B <- mdense0 TyD d_BT_dense_3x4 0%Q ;;
  x_M <- mdense0 TyD [[1; 0; 0; 0]; [1; 1; 0; 0]; [1; 1; 1; 0]]%Q 0%Q ;;
  x_M_1 <- lil_setElement x_M 2 0 (cast TyD 0%Q) ;;
  _ <- check (Qeq_bool (inject_Z (nvals x_M_1)) 6%Q) ;;
  x_result <- mdense0 TyD d_Ones_3x4 0%Q ;;
  x_answer <- mdense0 TyD [[114; 1; 1; 1]; [74; 97; 1; 1]; [119; 157; 112; 1]]%Q 0%Q ;;
  x_result_1 <- t_mxm TyD (acc TyD qsecond) (mkSr qplus qtimes TyD) (MStruct x_M_1) MERGE x_result
    (Mat x_A) (Trn x_B) ;;
  _ <- check (Qeq_bool (inject_Z (nvals x_result_1)) 12%Q) ;;
  x_q <- meq x_result_1 x_answer ;;
  _ <- check x_q ;;
  Ok tt) = Ok tt.
Proof. vm_compute. reflexivity. Qed.

(** test_mxm_ABT.cpp:3695-3720, optimized_sequential platform *)
Example test_mxm_StructMask_Accum_ABT_Merge_Cones_Mlower_opt :
 (x_A <- mdense0 TyD d_A_dense_3x3 0%Q ;;
  x_B <- mdense0 TyD d_BT_dense_3x4 0%Q ;;
  x_M <- mdense0 TyD [[1; 0; 0; 0]; [1; 1; 0; 0]; [1; 1; 1; 0]]%Q 0%Q ;;
  x_M_1 <- lil_setElement x_M 2 0 (cast TyD 0%Q) ;;
  _ <- check (Qeq_bool (inject_Z (nvals x_M_1)) 6%Q) ;;
  x_result <- mdense0 TyD d_Ones_3x4 0%Q ;;
  x_answer <- mdense0 TyD [[114; 1; 1; 1]; [74; 97; 1; 1]; [119; 157; 112; 1]]%Q 0%Q ;;
  x_result_1 <- t_opt_mxm TyD (acc TyD qsecond) TyD (mkSr qplus qtimes TyD) (MStruct (Other x_M_1))
    MERGE x_result (OMat (Other x_A)) (OTrn (Other x_B)) ;;
  _ <- check (Qeq_bool (inject_Z (nvals x_result_1)) 12%Q) ;;
  x_q <- meq x_result_1 x_answer ;;
  _ <- check x_q ;;
  Ok tt) = Ok tt.
Proof. vm_compute. reflexivity. Qed.

(** test_mxm_ABT.cpp:3727-3820 *)
Example test_mxm_CompStructMask_NoAccum_ABT :
 (x_A <- mdense0 TyD d_A_sparse_3x3 0%Q ;;
  x_Identity <- mdense0 TyD d_Identity_3x3 0%Q ;;
  x_Empty <- mnew 3 3 ;;
  x_Ones <- mdense0 TyD d_Ones_3x3 0%Q ;;
  x_C <- mnew 3 3 ;;
  x_MLower <- mdense0 TyD d_Lower_3x3 0%Q ;;
  x_MLower_1 <- lil_setElement x_MLower 2 0 (cast TyD 0%Q) ;;
  x_MNotLower <- mdense0 TyD d_NotLower_3x3 0%Q ;;
  x_MNotLower_1 <- lil_setElement x_MNotLower 0 2 (cast TyD 0%Q) ;;
  x_NotA <- mdense0 TyD [[0; 0; 1]; [1; 0; 1]; [0; 1; 0]]%Q 0%Q ;;
  x_NotA_1 <- lil_setElement x_NotA 1 0 (cast TyD 0%Q) ;;
  x_AFilled <- mdense0 TyD [[12; 7; 1]; [1; (-5); 1]; [7; 1; 9]]%Q 0%Q ;;
  x_C_1 <- lil_assign x_C x_Ones ;;
  x_Ones_1 <- lil_setElement x_Ones 0 0 (cast TyD 0%Q) ;;
  x_C_2 <- t_mxm TyD noacc (mkSr qplus qtimes TyD) (MSComp x_Ones_1) MERGE x_C_1 (Mat x_A) (Trn
    x_Identity) ;;
  x_Ones_2 <- lil_setElement x_Ones_1 0 0 (cast TyD 1%Q) ;;
  x_q <- meq x_C_2 x_Ones_2 ;;
  _ <- check x_q ;;
  x_C_3 <- lil_assign x_C_2 x_Ones_2 ;;
  x_C_4 <- t_mxm TyD noacc (mkSr qplus qtimes TyD) (MSComp x_Empty) MERGE x_C_3 (Mat x_A) (Trn
    x_Identity) ;;
  x_q_1 <- meq x_C_4 x_A ;;
  _ <- check x_q_1 ;;
  x_C_5 <- lil_assign x_C_4 x_Ones_2 ;;
  x_C_6 <- t_mxm TyD noacc (mkSr qplus qtimes TyD) (MSComp x_NotA_1) MERGE x_C_5 (Mat x_A) (Trn
    x_Identity) ;;
  x_q_2 <- meq x_C_6 x_AFilled ;;
  _ <- check x_q_2 ;;
  x_C_7 <- lil_assign x_C_6 x_Ones_2 ;;
  x_C_8 <- t_mxm TyD noacc (mkSr qplus qtimes TyD) (MSComp x_MNotLower_1) MERGE x_C_7 (Mat x_Ones_2)
    (Trn x_Identity) ;;
  x_q_3 <- meq x_C_8 x_Ones_2 ;;
  _ <- check x_q_3 ;;
  x_C_9 <- lil_assign x_C_8 x_Ones_2 ;;
  x_C_10 <- t_mxm TyD noacc (mkSr qplus qtimes TyD) (MSComp x_MLower_1) MERGE x_C_9 (Mat x_Ones_2)
    (Trn x_Identity) ;;
  x_q_4 <- meq x_C_10 x_Ones_2 ;;
  _ <- check x_q_4 ;;
  x_C_11 <- lil_assign x_C_10 x_Ones_2 ;;
  x_Ones_3 <- lil_setElement x_Ones_2 0 0 (cast TyD 0%Q) ;;
  x_C_12 <- t_mxm TyD noacc (mkSr qplus qtimes TyD) (MSComp x_Ones_3) REPLACE x_C_11 (Mat x_A) (Trn
    x_Identity) ;;
  x_q_5 <- meq x_C_12 x_Empty ;;
  _ <- check x_q_5 ;;
  x_Ones_4 <- lil_setElement x_Ones_3 0 0 (cast TyD 1%Q) ;;
  x_C_13 <- lil_assign x_C_12 x_Ones_4 ;;
  x_C_14 <- t_mxm TyD noacc (mkSr qplus qtimes TyD) (MSComp x_Empty) REPLACE x_C_13 (Mat x_A) (Trn
    x_Identity) ;;
  x_q_6 <- meq x_C_14 x_A ;;
  _ <- check x_q_6 ;;
  x_C_15 <- lil_assign x_C_14 x_Ones_4 ;;
  x_C_16 <- t_mxm TyD noacc (mkSr qplus qtimes TyD) (MSComp x_MNotLower_1) REPLACE x_C_15 (Mat
    x_Ones_4) (Trn x_Identity) ;;
  x_MLower_2 <- lil_setElement x_MLower_1 2 0 (cast TyD 1%Q) ;;
  x_q_7 <- meq x_C_16 x_MLower_2 ;;
  _ <- check x_q_7 ;;
  x_C_17 <- lil_assign x_C_16 x_Ones_4 ;;
  x_C_18 <- t_mxm TyD noacc (mkSr qplus qtimes TyD) (MSComp x_MLower_2) REPLACE x_C_17 (Mat
    x_Ones_4) (Trn x_Identity) ;;
  x_MNotLower_2 <- lil_setElement x_MNotLower_1 0 2 (cast TyD 1%Q) ;;
  x_q_8 <- meq x_C_18 x_MNotLower_2 ;;
  _ <- check x_q_8 ;;
  Ok tt) = Ok tt.
Proof. vm_compute. reflexivity. Qed.

(** test_mxm_ABT.cpp:3727-3820, optimized_sequential platform *)
Example test_mxm_CompStructMask_NoAccum_ABT_opt :
 (x_A <- mdense0 TyD d_A_sparse_3x3 0%Q ;;
  x_Identity <- mdense0 TyD d_Identity_3x3 0%Q ;;
  x_Empty <- mnew 3 3 ;;
  x_Ones <- mdense0 TyD d_Ones_3x3 0%Q ;;
  x_C <- mnew 3 3 ;;
  x_MLower <- mdense0 TyD d_Lower_3x3 0%Q ;;
  x_MLower_1 <- lil_setElement x_MLower 2 0 (cast TyD 0%Q) ;;
  x_MNotLower <- mdense0 TyD d_NotLower_3x3 0%Q ;;
  x_MNotLower_1 <- lil_setElement x_MNotLower 0 2 (cast TyD 0%Q) ;;
  x_NotA <- mdense0 TyD [[0; 0; 1]; [1; 0; 1]; [0; 1; 0]]%Q 0%Q ;;
  x_NotA_1 <- lil_setElement x_NotA 1 0 (cast TyD 0%Q) ;;
  x_AFilled <- mdense0 TyD [[12; 7; 1]; [1; (-5); 1]; [7; 1; 9]]%Q 0%Q ;;
  x_C_1 <- lil_assign x_C x_Ones ;;
  x_Ones_1 <- lil_setElement x_Ones 0 0 (cast TyD 0%Q) ;;
  x_C_2 <- t_opt_mxm TyD noacc TyD (mkSr qplus qtimes TyD) (MSComp (Other x_Ones_1)) MERGE x_C_1
    (OMat (Other x_A)) (OTrn (Other x_Identity)) ;;
  x_Ones_2 <- lil_setElement x_Ones_1 0 0 (cast TyD 1%Q) ;;
  x_q <- meq x_C_2 x_Ones_2 ;;
  _ <- check x_q ;;
  x_C_3 <- lil_assign x_C_2 x_Ones_2 ;;
  x_C_4 <- t_opt_mxm TyD noacc TyD (mkSr qplus qtimes TyD) (MSComp (Other x_Empty)) MERGE x_C_3
    (OMat (Other x_A)) (OTrn (Other x_Identity)) ;;
  x_q_1 <- meq x_C_4 x_A ;;
  _ <- check x_q_1 ;;
  x_C_5 <- lil_assign x_C_4 x_Ones_2 ;;
  x_C_6 <- t_opt_mxm TyD noacc TyD (mkSr qplus qtimes TyD) (MSComp (Other x_NotA_1)) MERGE x_C_5
    (OMat (Other x_A)) (OTrn (Other x_Identity)) ;;
  x_q_2 <- meq x_C_6 x_AFilled ;;
  _ <- check x_q_2 ;;
  x_C_7 <- lil_assign x_C_6 x_Ones_2 ;;
  x_C_8 <- t_opt_mxm TyD noacc TyD (mkSr qplus qtimes TyD) (MSComp (Other x_MNotLower_1)) MERGE
    x_C_7 (OMat (Other x_Ones_2)) (OTrn (Other x_Identity)) ;;
  x_q_3 <- meq x_C_8 x_Ones_2 ;;
  _ <- check x_q_3 ;;
  x_C_9 <- lil_assign x_C_8 x_Ones_2 ;;
  x_C_10 <- t_opt_mxm TyD noacc TyD (mkSr qplus qtimes TyD) (MSComp (Other x_MLower_1)) MERGE x_C_9
    (OMat (Other x_Ones_2)) (OTrn (Other x_Identity)) ;;
  x_q_4 <- meq x_C_10 x_Ones_2 ;;
  _ <- check x_q_4 ;;
  x_C_11 <- lil_assign x_C_10 x_Ones_2 ;;
  x_Ones_3 <- lil_setElement x_Ones_2 0 0 (cast TyD 0%Q) ;;
  x_C_12 <- t_opt_mxm TyD noacc TyD (mkSr qplus qtimes TyD) (MSComp (Other x_Ones_3)) REPLACE x_C_11
    (OMat (Other x_A)) (OTrn (Other x_Identity)) ;;
  x_q_5 <- meq x_C_12 x_Empty ;;
  _ <- check x_q_5 ;;
  x_Ones_4 <- lil_setElement x_Ones_3 0 0 (cast TyD 1%Q) ;;
  x_C_13 <- lil_assign x_C_12 x_Ones_4 ;;
  x_C_14 <- t_opt_mxm TyD noacc TyD (mkSr qplus qtimes TyD) (MSComp (Other x_Empty)) REPLACE x_C_13
    (OMat (Other x_A)) (OTrn (Other x_Identity)) ;;
  x_q_6 <- meq x_C_14 x_A ;;
  _ <- check x_q_6 ;;
  x_C_15 <- lil_assign x_C_14 x_Ones_4 ;;
  x_C_16 <- t_opt_mxm TyD noacc TyD (mkSr qplus qtimes TyD) (MSComp (Other x_MNotLower_1)) REPLACE
    x_C_15 (OMat (Other x_Ones_4)) (OTrn (Other x_Identity)) ;;
  x_MLower_2 <- lil_setElement x_MLower_1 2 0 (cast TyD 1%Q) ;;
  x_q_7 <- meq x_C_16 x_MLower_2 ;;
  _ <- check x_q_7 ;;
  x_C_17 <- lil_assign x_C_16 x_Ones_4 ;;
  x_C_18 <- t_opt_mxm TyD noacc TyD (mkSr qplus qtimes TyD) (MSComp (Other x_MLower_2)) REPLACE
    x_C_17 (OMat (Other x_Ones_4)) (OTrn (Other x_Identity)) ;;
  x_MNotLower_2 <- lil_setElement x_MNotLower_1 0 2 (cast TyD 1%Q) ;;
  x_q_8 <- meq x_C_18 x_MNotLower_2 ;;
  _ <- check x_q_8 ;;
  Ok tt) = Ok tt.
Proof. vm_compute. reflexivity. Qed.

(** test_mxm_ABT.cpp:3823-3888 *)
Example test_mxm_CompStructMask_NoAccum_ABT_empty :
 (x_Empty <- mnew 3 3 ;;
  x_Ones <- mdense0 TyD d_Ones_3x3 0%Q ;;
  x_Identity <- mdense0 TyD d_Identity_3x3 0%Q ;;
  x_C <- mnew 3 3 ;;
  x_M <- mdense0 TyB d_LowerBool_3x3 0%Q ;;
  x_M_1 <- lil_setElement x_M 2 0 (cast TyB 0%Q) ;;
  x_mUpper <- mdense0 TyD d_NotLower_3x3 0%Q ;;
  x_mUpper_1 <- lil_setElement x_mUpper 0 2 (cast TyD 0%Q) ;;
  x_C_1 <- lil_assign x_C x_Ones ;;
  x_C_2 <- t_mxm TyD noacc (mkSr qplus qtimes TyD) (MSComp x_mUpper_1) MERGE x_C_1 (Mat x_Empty)
    (Trn x_Ones) ;;
  x_mUpper_2 <- lil_setElement x_mUpper_1 0 2 (cast TyD 1%Q) ;;
  x_q <- meq x_C_2 x_mUpper_2 ;;
  _ <- check x_q ;;
  x_C_3 <- lil_assign x_C_2 x_Ones ;;
  x_mUpper_3 <- lil_setElement x_mUpper_2 0 2 (cast TyD 0%Q) ;;
  x_C_4 <- t_mxm TyD noacc (mkSr qplus qtimes TyD) (MSComp x_mUpper_3) MERGE x_C_3 (Mat x_Ones) (Trn
    x_Empty) ;;
  x_mUpper_4 <- lil_setElement x_mUpper_3 0 2 (cast TyD 1%Q) ;;
  x_q_1 <- meq x_C_4 x_mUpper_4 ;;
  _ <- check x_q_1 ;;
  x_C_5 <- lil_assign x_C_4 x_Ones ;;
  x_C_6 <- t_mxm TyD noacc (mkSr qplus qtimes TyD) (MSComp x_Ones) MERGE x_C_5 (Mat x_Ones) (Trn
    x_Empty) ;;
  x_q_2 <- meq x_C_6 x_Ones ;;
  _ <- check x_q_2 ;;
  x_C_7 <- lil_assign x_C_6 x_Empty ;;
  x_C_8 <- t_mxm TyD noacc (mkSr qplus qtimes TyD) (MSComp x_Empty) MERGE x_C_7 (Mat x_Ones) (Trn
    x_Identity) ;;
  x_q_3 <- meq x_C_8 x_Ones ;;
  _ <- check x_q_3 ;;
  x_C_9 <- lil_assign x_C_8 x_Ones ;;
  x_C_10 <- t_mxm TyD noacc (mkSr qplus qtimes TyD) (MSComp x_mUpper_4) REPLACE x_C_9 (Mat x_Empty)
    (Trn x_Ones) ;;
  x_q_4 <- meq x_C_10 x_Empty ;;
  _ <- check x_q_4 ;;
  x_C_11 <- lil_assign x_C_10 x_Ones ;;
  x_C_12 <- t_mxm TyD noacc (mkSr qplus qtimes TyD) (MSComp x_mUpper_4) REPLACE x_C_11 (Mat x_Ones)
    (Trn x_Empty) ;;
  x_q_5 <- meq x_C_12 x_Empty ;;
  _ <- check x_q_5 ;;
  x_C_13 <- lil_assign x_C_12 x_Ones ;;
  x_C_14 <- t_mxm TyD noacc (mkSr qplus qtimes TyD) (MSComp x_Ones) REPLACE x_C_13 (Mat x_Ones) (Trn
    x_Empty) ;;
  x_q_6 <- meq x_C_14 x_Empty ;;
  _ <- check x_q_6 ;;
  x_C_15 <- lil_assign x_C_14 x_Empty ;;
  x_C_16 <- t_mxm TyD noacc (mkSr qplus qtimes TyD) (MSComp x_Empty) REPLACE x_C_15 (Mat x_Ones)
    (Trn x_Identity) ;;
  x_q_7 <- meq x_C_16 x_Ones ;;
  _ <- check x_q_7 ;;
  Ok tt) = Ok tt.
Proof. vm_compute. reflexivity. Qed.

(** test_mxm_ABT.cpp:3823-3888, optimized_sequential platform *)
Example test_mxm_CompStructMask_NoAccum_ABT_empty_opt :
 (x_Empty <- mnew 3 3 ;;
  x_Ones <- mdense0 TyD d_Ones_3x3 0%Q ;;
  x_Identity <- mdense0 TyD d_Identity_3x3 0%Q ;;
  x_C <- mnew 3 3 ;;
  x_M <- mdense0 TyB d_LowerBool_3x3 0%Q ;;
  x_M_1 <- lil_setElement x_M 2 0 (cast TyB 0%Q) ;;
  x_mUpper <- mdense0 TyD d_NotLower_3x3 0%Q ;;
  x_mUpper_1 <- lil_setElement x_mUpper 0 2 (cast TyD 0%Q) ;;
  x_C_1 <- lil_assign x_C x_Ones ;;
  x_C_2 <- t_opt_mxm TyD noacc TyD (mkSr qplus qtimes TyD) (MSComp (Other x_mUpper_1)) MERGE x_C_1
    (OMat (Other x_Empty)) (OTrn (Other x_Ones)) ;;
  x_mUpper_2 <- lil_setElement x_mUpper_1 0 2 (cast TyD 1%Q) ;;
  x_q <- meq x_C_2 x_mUpper_2 ;;
  _ <- check x_q ;;
  x_C_3 <- lil_assign x_C_2 x_Ones ;;
  x_mUpper_3 <- lil_setElement x_mUpper_2 0 2 (cast TyD 0%Q) ;;
  x_C_4 <- t_opt_mxm TyD noacc TyD (mkSr qplus qtimes TyD) (MSComp (Other x_mUpper_3)) MERGE x_C_3
    (OMat (Other x_Ones)) (OTrn (Other x_Empty)) ;;
  x_mUpper_4 <- lil_setElement x_mUpper_3 0 2 (cast TyD 1%Q) ;;
  x_q_1 <- meq x_C_4 x_mUpper_4 ;;
  _ <- check x_q_1 ;;
  x_C_5 <- lil_assign x_C_4 x_Ones ;;
  x_C_6 <- t_opt_mxm TyD noacc TyD (mkSr qplus qtimes TyD) (MSComp (Other x_Ones)) MERGE x_C_5 (OMat
    (Other x_Ones)) (OTrn (Other x_Empty)) ;;
  x_q_2 <- meq x_C_6 x_Ones ;;
  _ <- check x_q_2 ;;
  x_C_7 <- lil_assign x_C_6 x_Empty ;;
  x_C_8 <- t_opt_mxm TyD noacc TyD (mkSr qplus qtimes TyD) (MSComp (Other x_Empty)) MERGE x_C_7
    (OMat (Other x_Ones)) (OTrn (Other x_Identity)) ;;
  x_q_3 <- meq x_C_8 x_Ones ;;
  _ <- check x_q_3 ;;
  x_C_9 <- lil_assign x_C_8 x_Ones ;;
  x_C_10 <- t_opt_mxm TyD noacc TyD (mkSr qplus qtimes TyD) (MSComp (Other x_mUpper_4)) REPLACE
    x_C_9 (OMat (Other x_Empty)) (OTrn (Other x_Ones)) ;;
  x_q_4 <- meq x_C_10 x_Empty ;;
  _ <- check x_q_4 ;;
  x_C_11 <- lil_assign x_C_10 x_Ones ;;
  x_C_12 <- t_opt_mxm TyD noacc TyD (mkSr qplus qtimes TyD) (MSComp (Other x_mUpper_4)) REPLACE
    x_C_11 (OMat (Other x_Ones)) (OTrn (Other x_Empty)) ;;
  x_q_5 <- meq x_C_12 x_Empty ;;
  _ <- check x_q_5 ;;
  x_C_13 <- lil_assign x_C_12 x_Ones ;;
  x_C_14 <- t_opt_mxm TyD noacc TyD (mkSr qplus qtimes TyD) (MSComp (Other x_Ones)) REPLACE x_C_13
    (OMat (Other x_Ones)) (OTrn (Other x_Empty)) ;;
  x_q_6 <- meq x_C_14 x_Empty ;;
  _ <- check x_q_6 ;;
  x_C_15 <- lil_assign x_C_14 x_Empty ;;
  x_C_16 <- t_opt_mxm TyD noacc TyD (mkSr qplus qtimes TyD) (MSComp (Other x_Empty)) REPLACE x_C_15
    (OMat (Other x_Ones)) (OTrn (Other x_Identity)) ;;
  x_q_7 <- meq x_C_16 x_Ones ;;
  _ <- check x_q_7 ;;
  Ok tt) = Ok tt.
Proof. vm_compute. reflexivity. Qed.

(** test_mxm_ABT.cpp:3891-3934 *)
Example test_mxm_CompStructMask_NoAccum_ABT_emptyRowA_emptyColB :
 (x_A <- mdense0 TyD [[8; 1; 6]; [0; 0; 0]; [4; 9; 2]]%Q 0%Q ;;
  x_B <- mdense0 TyD [[0; 1; 0]; [0; 0; 0]; [0; 1; 1]; [1; 1; 1]]%Q 0%Q ;;
  x_NotLower <- mdense0 TyD d_NotLower_3x4 0%Q ;;
  x_NotLower_1 <- lil_setElement x_NotLower 0 2 (cast TyD 0%Q) ;;
  x_Ones <- mdense0 TyD d_Ones_3x4 0%Q ;;
  x_C <- mnew 3 4 ;;
  x_answer <- mdense0 TyD [[1; 0; 0; 0]; [0; 0; 0; 0]; [9; 0; 11; 0]]%Q 0%Q ;;
  x_C_1 <- lil_assign x_C x_Ones ;;
  x_C_2 <- t_mxm TyD noacc (mkSr qplus qtimes TyD) (MSComp x_NotLower_1) REPLACE x_C_1 (Mat x_A)
    (Trn x_B) ;;
  x_q <- meq x_C_2 x_answer ;;
  _ <- check x_q ;;
  x_answer2 <- mdense0 TyD [[1; 1; 1; 1]; [0; 0; 1; 1]; [9; 0; 11; 1]]%Q 0%Q ;;
  x_C_3 <- lil_assign x_C_2 x_Ones ;;
  x_C_4 <- t_mxm TyD noacc (mkSr qplus qtimes TyD) (MSComp x_NotLower_1) MERGE x_C_3 (Mat x_A) (Trn
    x_B) ;;
  x_q_1 <- meq x_C_4 x_answer2 ;;
  _ <- check x_q_1 ;;
  Ok tt) = Ok tt.
Proof. vm_compute. reflexivity. Qed.

(** test_mxm_ABT.cpp:3891-3934, optimized_sequential platform *)
Example test_mxm_CompStructMask_NoAccum_ABT_emptyRowA_emptyColB_opt :
 (x_A <- mdense0 TyD [[8; 1; 6]; [0; 0; 0]; [4; 9; 2]]%Q 0%Q ;;
  x_B <- mdense0 TyD [[0; 1; 0]; [0; 0; 0]; [0; 1; 1]; [1; 1; 1]]%Q 0%Q ;;
  x_NotLower <- mdense0 TyD d_NotLower_3x4 0%Q ;;
  x_NotLower_1 <- lil_setElement x_NotLower 0 2 (cast TyD 0%Q) ;;
  x_Ones <- mdense0 TyD d_Ones_3x4 0%Q ;;
  x_C <- mnew 3 4 ;;
  x_answer <- mdense0 TyD [[1; 0; 0; 0]; [0; 0; 0; 0]; [9; 0; 11; 0]]%Q 0%Q ;;
  x_C_1 <- lil_assign x_C x_Ones ;;
  x_C_2 <- t_opt_mxm TyD noacc TyD (mkSr qplus qtimes TyD) (MSComp (Other x_NotLower_1)) REPLACE
    x_C_1 (OMat (Other x_A)) (OTrn (Other x_B)) ;;
  x_q <- meq x_C_2 x_answer ;;
  _ <- check x_q ;;
  x_answer2 <- mdense0 TyD [[1; 1; 1; 1]; [0; 0; 1; 1]; [9; 0; 11; 1]]%Q 0%Q ;;
  x_C_3 <- lil_assign x_C_2 x_Ones ;;
  x_C_4 <- t_opt_mxm TyD noacc TyD (mkSr qplus qtimes TyD) (MSComp (Other x_NotLower_1)) MERGE x_C_3
    (OMat (Other x_A)) (OTrn (Other x_B)) ;;
  x_q_1 <- meq x_C_4 x_answer2 ;;
  _ <- check x_q_1 ;;
  Ok tt) = Ok tt.
Proof. vm_compute. reflexivity. Qed.

(** test_mxm_ABT.cpp:3937-3980 *)
Example test_mxm_CompStructMask_NoAccum_ABT_emptyColA_emptyRowB :
 (x_A <- mdense0 TyD [[8; 0; 6]; [1; 0; 9]; [4; 0; 2]]%Q 0%Q ;;
  x_B <- mdense0 TyD [[0; 1; 0]; [1; 0; 0]; [0; 1; 0]; [1; 1; 0]]%Q 0%Q ;;
  x_NotLower <- mdense0 TyD d_NotLower_3x4 0%Q ;;
  x_NotLower_1 <- lil_setElement x_NotLower 0 2 (cast TyD 0%Q) ;;
  x_Ones <- mdense0 TyD d_Ones_3x4 0%Q ;;
  x_C <- mnew 3 4 ;;
  x_answer <- mdense0 TyD [[0; 0; 0; 0]; [0; 1; 0; 0]; [0; 4; 0; 0]]%Q 0%Q ;;
  x_C_1 <- lil_assign x_C x_Ones ;;
  x_C_2 <- t_mxm TyD noacc (mkSr qplus qtimes TyD) (MSComp x_NotLower_1) REPLACE x_C_1 (Mat x_A)
    (Trn x_B) ;;
  x_q <- meq x_C_2 x_answer ;;
  _ <- check x_q ;;
  x_answer2 <- mdense0 TyD [[0; 1; 1; 1]; [0; 1; 1; 1]; [0; 4; 0; 1]]%Q 0%Q ;;
  x_C_3 <- lil_assign x_C_2 x_Ones ;;
  x_C_4 <- t_mxm TyD noacc (mkSr qplus qtimes TyD) (MSComp x_NotLower_1) MERGE x_C_3 (Mat x_A) (Trn
    x_B) ;;
  x_q_1 <- meq x_C_4 x_answer2 ;;
  _ <- check x_q_1 ;;
  Ok tt) = Ok tt.
Proof. vm_compute. reflexivity. Qed.

(** test_mxm_ABT.cpp:3937-3980, optimized_sequential platform *)
Example test_mxm_CompStructMask_NoAccum_ABT_emptyColA_emptyRowB_opt :
 (x_A <- mdense0 TyD [[8; 0; 6]; [1; 0; 9]; [4; 0; 2]]%Q 0%Q ;;
  x_B <- mdense0 TyD [[0; 1; 0]; [1; 0; 0]; [0; 1; 0]; [1; 1; 0]]%Q 0%Q ;;
  x_NotLower <- mdense0 TyD d_NotLower_3x4 0%Q ;;
  x_NotLower_1 <- lil_setElement x_NotLower 0 2 (cast TyD 0%Q) ;;
  x_Ones <- mdense0 TyD d_Ones_3x4 0%Q ;;
  x_C <- mnew 3 4 ;;
  x_answer <- mdense0 TyD [[0; 0; 0; 0]; [0; 1; 0; 0]; [0; 4; 0; 0]]%Q 0%Q ;;
  x_C_1 <- lil_assign x_C x_Ones ;;
  x_C_2 <- t_opt_mxm TyD noacc TyD (mkSr qplus qtimes TyD) (MSComp (Other x_NotLower_1)) REPLACE
    x_C_1 (OMat (Other x_A)) (OTrn (Other x_B)) ;;
  x_q <- meq x_C_2 x_answer ;;
  _ <- check x_q ;;
  x_answer2 <- mdense0 TyD [[0; 1; 1; 1]; [0; 1; 1; 1]; [0; 4; 0; 1]]%Q 0%Q ;;
  x_C_3 <- lil_assign x_C_2 x_Ones ;;
  x_C_4 <- t_opt_mxm TyD noacc TyD (mkSr qplus qtimes TyD) (MSComp (Other x_NotLower_1)) MERGE x_C_3
    (OMat (Other x_A)) (OTrn (Other x_B)) ;;
  x_q_1 <- meq x_C_4 x_answer2 ;;
  _ <- check x_q_1 ;;
  Ok tt) = Ok tt.
Proof. vm_compute. reflexivity. Qed.

(** test_mxm_ABT.cpp:3983-4025 *)
Example test_mxm_CompStructMask_NoAccum_ABT_emptyRowM :
 (x_A <- mdense0 TyD [[8; 1; 6]; [0; 0; 0]; [4; 9; 2]]%Q 0%Q ;;
  x_B <- mdense0 TyD [[0; 1; 0]; [0; 0; 0]; [0; 1; 1]]%Q 0%Q ;;
  x_Lower <- mdense0 TyD d_Lower_3x3 0%Q ;;
  x_Lower_1 <- lil_setElement x_Lower 2 0 (cast TyD 0%Q) ;;
  x_Ones <- mdense0 TyD d_Ones_3x3 0%Q ;;
  x_C <- mnew 3 3 ;;
  x_answer <- mdense0 TyD [[0; 0; 7]; [0; 0; 0]; [0; 0; 0]]%Q 0%Q ;;
  x_C_1 <- lil_assign x_C x_Ones ;;
  x_C_2 <- t_mxm TyD noacc (mkSr qplus qtimes TyD) (MSComp x_Lower_1) REPLACE x_C_1 (Mat x_A) (Trn
    x_B) ;;
  x_q <- meq x_C_2 x_answer ;;
  _ <- check x_q ;;
  x_answer2 <- mdense0 TyD [[1; 0; 7]; [1; 1; 0]; [1; 1; 1]]%Q 0%Q ;;
  x_C_3 <- lil_assign x_C_2 x_Ones ;;
  x_C_4 <- t_mxm TyD noacc (mkSr qplus qtimes TyD) (MSComp x_Lower_1) MERGE x_C_3 (Mat x_A) (Trn
    x_B) ;;
  x_q_1 <- meq x_C_4 x_answer2 ;;
  _ <- check x_q_1 ;;
  Ok tt) = Ok tt.
Proof. vm_compute. reflexivity. Qed.

(** test_mxm_ABT.cpp:3983-4025, optimized_sequential platform *)
Example test_mxm_CompStructMask_NoAccum_ABT_emptyRowM_opt :
 (x_A <- mdense0 TyD [[8; 1; 6]; [0; 0; 0]; [4; 9; 2]]%Q 0%Q ;;
  x_B <- mdense0 TyD [[0; 1; 0]; [0; 0; 0]; [0; 1; 1]]%Q 0%Q ;;
  x_Lower <- mdense0 TyD d_Lower_3x3 0%Q ;;
  x_Lower_1 <- lil_setElement x_Lower 2 0 (cast TyD 0%Q) ;;
  x_Ones <- mdense0 TyD d_Ones_3x3 0%Q ;;
  x_C <- mnew 3 3 ;;
  x_answer <- mdense0 TyD [[0; 0; 7]; [0; 0; 0]; [0; 0; 0]]%Q 0%Q ;;
  x_C_1 <- lil_assign x_C x_Ones ;;
  x_C_2 <- t_opt_mxm TyD noacc TyD (mkSr qplus qtimes TyD) (MSComp (Other x_Lower_1)) REPLACE x_C_1
    (OMat (Other x_A)) (OTrn (Other x_B)) ;;
  x_q <- meq x_C_2 x_answer ;;
  _ <- check x_q ;;
  x_answer2 <- mdense0 TyD [[1; 0; 7]; [1; 1; 0]; [1; 1; 1]]%Q 0%Q ;;
  x_C_3 <- lil_assign x_C_2 x_Ones ;;
  x_C_4 <- t_opt_mxm TyD noacc TyD (mkSr qplus qtimes TyD) (MSComp (Other x_Lower_1)) MERGE x_C_3
    (OMat (Other x_A)) (OTrn (Other x_B)) ;;
  x_q_1 <- meq x_C_4 x_answer2 ;;
  _ <- check x_q_1 ;;
  Ok tt) = Ok tt.
Proof. vm_compute. reflexivity. Qed.

(** test_mxm_ABT.cpp:4028-4067 *)
Example test_mxm_CompStructMask_NoAccum_ABT_ABdup :
 (x_mat <- mdense0 TyD d_Symmetric_4x4 0%Q ;;
  x_NotLower <- mdense0 TyD d_NotLower_4x4 0%Q ;;
  x_NotLower_1 <- lil_setElement x_NotLower 0 1 (cast TyD 0%Q) ;;
  x_Ones <- mdense0 TyD d_Ones_4x4 0%Q ;;
  x_C <- mnew 4 4 ;;
  x_answer <- mdense0 TyD [[2; 1; 1; 1]; [3; 9; 1; 1]; [2; 10; 22; 1]; [0; 6; 21; 25]]%Q 0%Q ;;
  x_C_1 <- lil_assign x_C x_Ones ;;
  x_C_2 <- t_mxm TyD noacc (mkSr qplus qtimes TyD) (MSComp x_NotLower_1) MERGE x_C_1 (Mat x_mat)
    (Trn x_mat) ;;
  x_q <- meq x_C_2 x_answer ;;
  _ <- check x_q ;;
  x_answer2 <- mdense0 TyD [[2; 0; 0; 0]; [3; 9; 0; 0]; [2; 10; 22; 0]; [0; 6; 21; 25]]%Q 0%Q ;;
  x_C_3 <- lil_assign x_C_2 x_Ones ;;
  x_C_4 <- t_mxm TyD noacc (mkSr qplus qtimes TyD) (MSComp x_NotLower_1) REPLACE x_C_3 (Mat x_mat)
    (Trn x_mat) ;;
  x_q_1 <- meq x_C_4 x_answer2 ;;
  _ <- check x_q_1 ;;
  Ok tt) = Ok tt.
Proof. vm_compute. reflexivity. Qed.

(** test_mxm_ABT.cpp:4028-4067, optimized_sequential platform *)
Example test_mxm_CompStructMask_NoAccum_ABT_ABdup_opt :
 (x_mat <- mdense0 TyD d_Symmetric_4x4 0%Q ;;
  x_NotLower <- mdense0 TyD d_NotLower_4x4 0%Q ;;
  x_NotLower_1 <- lil_setElement x_NotLower 0 1 (cast TyD 0%Q) ;;
  x_Ones <- mdense0 TyD d_Ones_4x4 0%Q ;;
  x_C <- mnew 4 4 ;;
  x_answer <- mdense0 TyD [[2; 1; 1; 1]; [3; 9; 1; 1]; [2; 10; 22; 1]; [0; 6; 21; 25]]%Q 0%Q ;;
  x_C_1 <- lil_assign x_C x_Ones ;;
  x_C_2 <- t_opt_mxm TyD noacc TyD (mkSr qplus qtimes TyD) (MSComp (Other x_NotLower_1)) MERGE x_C_1
    (OMat (Other x_mat)) (OTrn (Other x_mat)) ;;
  x_q <- meq x_C_2 x_answer ;;
  _ <- check x_q ;;
  x_answer2 <- mdense0 TyD [[2; 0; 0; 0]; [3; 9; 0; 0]; [2; 10; 22; 0]; [0; 6; 21; 25]]%Q 0%Q ;;
  x_C_3 <- lil_assign x_C_2 x_Ones ;;
  x_C_4 <- t_opt_mxm TyD noacc TyD (mkSr qplus qtimes TyD) (MSComp (Other x_NotLower_1)) REPLACE
    x_C_3 (OMat (Other x_mat)) (OTrn (Other x_mat)) ;;
  x_q_1 <- meq x_C_4 x_answer2 ;;
  _ <- check x_q_1 ;;
  Ok tt) = Ok tt.
Proof. vm_compute. reflexivity. Qed.

(** test_mxm_ABT.cpp:4070-4109 *)
Example test_mxm_CompStructMask_NoAccum_ABT_ACdup :
 (x_mat <- mdense0 TyD d_Symmetric_4x4 0%Q ;;
  x_NotLower <- mdense0 TyD d_NotLower_4x4 0%Q ;;
  x_NotLower_1 <- lil_setElement x_NotLower 0 1 (cast TyD 0%Q) ;;
  x_Ones <- mdense0 TyD d_Ones_4x4 0%Q ;;
  x_C <- mnew 4 4 ;;
  x_answer <- mdense0 TyD [[2; 1; 0; 0]; [3; 9; 2; 0]; [2; 10; 22; 3]; [0; 6; 21; 25]]%Q 0%Q ;;
  x_C_1 <- lil_assign x_C x_mat ;;
  x_C_2 <- t_mxm TyD noacc (mkSr qplus qtimes TyD) (MSComp x_NotLower_1) MERGE x_C_1 (Mat x_C_1)
    (Trn x_mat) ;;
  x_q <- meq x_C_2 x_answer ;;
  _ <- check x_q ;;
  x_answer2 <- mdense0 TyD [[2; 0; 0; 0]; [3; 9; 0; 0]; [2; 10; 22; 0]; [0; 6; 21; 25]]%Q 0%Q ;;
  x_C_3 <- lil_assign x_C_2 x_mat ;;
  x_C_4 <- t_mxm TyD noacc (mkSr qplus qtimes TyD) (MSComp x_NotLower_1) REPLACE x_C_3 (Mat x_C_3)
    (Trn x_mat) ;;
  x_q_1 <- meq x_C_4 x_answer2 ;;
  _ <- check x_q_1 ;;
  Ok tt) = Ok tt.
Proof. vm_compute. reflexivity. Qed.

(** test_mxm_ABT.cpp:4070-4109, optimized_sequential platform *)
Example test_mxm_CompStructMask_NoAccum_ABT_ACdup_opt :
 (x_mat <- mdense0 TyD d_Symmetric_4x4 0%Q ;;
  x_NotLower <- mdense0 TyD d_NotLower_4x4 0%Q ;;
  x_NotLower_1 <- lil_setElement x_NotLower 0 1 (cast TyD 0%Q) ;;
  x_Ones <- mdense0 TyD d_Ones_4x4 0%Q ;;
  x_C <- mnew 4 4 ;;
  x_answer <- mdense0 TyD [[2; 1; 0; 0]; [3; 9; 2; 0]; [2; 10; 22; 3]; [0; 6; 21; 25]]%Q 0%Q ;;
  x_C_1 <- lil_assign x_C x_mat ;;
  x_C_2 <- t_opt_mxm TyD noacc TyD (mkSr qplus qtimes TyD) (MSComp (Other x_NotLower_1)) MERGE x_C_1
    (OMat (TheOutput (fun x => x))) (OTrn (Other x_mat)) ;;
  x_q <- meq x_C_2 x_answer ;;
  _ <- check x_q ;;
  x_answer2 <- mdense0 TyD [[2; 0; 0; 0]; [3; 9; 0; 0]; [2; 10; 22; 0]; [0; 6; 21; 25]]%Q 0%Q ;;
  x_C_3 <- lil_assign x_C_2 x_mat ;;
  x_C_4 <- t_opt_mxm TyD noacc TyD (mkSr qplus qtimes TyD) (MSComp (Other x_NotLower_1)) REPLACE
    x_C_3 (OMat (TheOutput (fun x => x))) (OTrn (Other x_mat)) ;;
  x_q_1 <- meq x_C_4 x_answer2 ;;
  _ <- check x_q_1 ;;
  Ok tt) = Ok tt.
Proof. vm_compute. reflexivity. Qed.

(** test_mxm_ABT.cpp:4112-4160 *)
Example test_mxm_CompStructMask_NoAccum_ABT_BCdup :
 (x_mat <- mdense0 TyD d_Symmetric_4x4 0%Q ;;
  x_NotLower <- mdense0 TyD d_NotLower_4x4 0%Q ;;
  x_NotLower_1 <- lil_setElement x_NotLower 0 1 (cast TyD 0%Q) ;;
  x_Ones <- mdense0 TyD d_Ones_4x4 0%Q ;;
  x_C <- mnew 4 4 ;;
  x_answer <- mdense0 TyD [[2; 1; 0; 0]; [3; 9; 2; 0]; [2; 10; 22; 3]; [0; 6; 21; 25]]%Q 0%Q ;;
  x_C_1 <- lil_assign x_C x_mat ;;
  x_C_2 <- t_mxm TyD noacc (mkSr qplus qtimes TyD) (MSComp x_NotLower_1) MERGE x_C_1 (Mat x_mat)
    (Trn x_C_1) ;;
  x_q <- meq x_C_2 x_answer ;;
  _ <- check x_q ;;
  x_C_3 <- lil_assign x_C_2 x_mat ;;
  x_C_4 <- t_mxm TyD noacc (mkSr qplus qtimes TyD) (MSComp x_NotLower_1) MERGE x_C_3 (Mat x_mat)
    (Trn x_mat) ;;
  x_q_1 <- meq x_C_4 x_answer ;;
  _ <- check x_q_1 ;;
  x_answer2 <- mdense0 TyD [[2; 0; 0; 0]; [3; 9; 0; 0]; [2; 10; 22; 0]; [0; 6; 21; 25]]%Q 0%Q ;;
  x_C_5 <- lil_assign x_C_4 x_mat ;;
  x_C_6 <- t_mxm TyD noacc (mkSr qplus qtimes TyD) (MSComp x_NotLower_1) REPLACE x_C_5 (Mat x_mat)
    (Trn x_C_5) ;;
  x_q_2 <- meq x_C_6 x_answer2 ;;
  _ <- check x_q_2 ;;
  Ok tt) = Ok tt.
Proof. vm_compute. reflexivity. Qed.

(** test_mxm_ABT.cpp:4112-4160, optimized_sequential platform *)
Example test_mxm_CompStructMask_NoAccum_ABT_BCdup_opt :
 (x_mat <- mdense0 TyD d_Symmetric_4x4 0%Q ;;
  x_NotLower <- mdense0 TyD d_NotLower_4x4 0%Q ;;
  x_NotLower_1 <- lil_setElement x_NotLower 0 1 (cast TyD 0%Q) ;;
  x_Ones <- mdense0 TyD d_Ones_4x4 0%Q ;;
  x_C <- mnew 4 4 ;;
  x_answer <- mdense0 TyD [[2; 1; 0; 0]; [3; 9; 2; 0]; [2; 10; 22; 3]; [0; 6; 21; 25]]%Q 0%Q ;;
  x_C_1 <- lil_assign x_C x_mat ;;
  x_C_2 <- t_opt_mxm TyD noacc TyD (mkSr qplus qtimes TyD) (MSComp (Other x_NotLower_1)) MERGE x_C_1
    (OMat (Other x_mat)) (OTrn (TheOutput (fun x => x))) ;;
  x_q <- meq x_C_2 x_answer ;;
  _ <- check x_q ;;
  x_C_3 <- lil_assign x_C_2 x_mat ;;
  x_C_4 <- t_opt_mxm TyD noacc TyD (mkSr qplus qtimes TyD) (MSComp (Other x_NotLower_1)) MERGE x_C_3
    (OMat (Other x_mat)) (OTrn (Other x_mat)) ;;
  x_q_1 <- meq x_C_4 x_answer ;;
  _ <- check x_q_1 ;;
  x_answer2 <- mdense0 TyD [[2; 0; 0; 0]; [3; 9; 0; 0]; [2; 10; 22; 0]; [0; 6; 21; 25]]%Q 0%Q ;;
  x_C_5 <- lil_assign x_C_4 x_mat ;;
  x_C_6 <- t_opt_mxm TyD noacc TyD (mkSr qplus qtimes TyD) (MSComp (Other x_NotLower_1)) REPLACE
    x_C_5 (OMat (Other x_mat)) (OTrn (TheOutput (fun x => x))) ;;
  x_q_2 <- meq x_C_6 x_answer2 ;;
  _ <- check x_q_2 ;;
  Ok tt) = Ok tt.
Proof. vm_compute. reflexivity. Qed.

(** test_mxm_ABT.cpp:4163-4185 *)
Example test_mxm_CompStructMask_NoAccum_ABT_Replace_ABdup :
 (x_mat <- mdense0 TyD d_Symmetric_4x4 0%Q ;;
  x_result <- mdense0 TyD d_Ones_4x4 0%Q ;;
  x_answer <- mdense0 TyD [[2; 0; 0; 0]; [3; 9; 0; 0]; [2; 10; 22; 0]; [0; 6; 21; 25]]%Q 0%Q ;;
  x_M <- mdense0 TyD d_NotLower_4x4 0%Q ;;
  x_M_1 <- lil_setElement x_M 0 1 (cast TyD 0%Q) ;;
  x_result_1 <- t_mxm TyD noacc (mkSr qplus qtimes TyD) (MSComp x_M_1) REPLACE x_result (Mat x_mat)
    (Trn x_mat) ;;
  x_q <- meq x_result_1 x_answer ;;
  _ <- check x_q ;;
  Ok tt) = Ok tt.
Proof. vm_compute. reflexivity. Qed.

(** test_mxm_ABT.cpp:4163-4185, optimized_sequential platform *)
Example test_mxm_CompStructMask_NoAccum_ABT_Replace_ABdup_opt :
 (x_mat <- mdense0 TyD d_Symmetric_4x4 0%Q ;;
  x_result <- mdense0 TyD d_Ones_4x4 0%Q ;;
  x_answer <- mdense0 TyD [[2; 0; 0; 0]; [3; 9; 0; 0]; [2; 10; 22; 0]; [0; 6; 21; 25]]%Q 0%Q ;;
  x_M <- mdense0 TyD d_NotLower_4x4 0%Q ;;
  x_M_1 <- lil_setElement x_M 0 1 (cast TyD 0%Q) ;;
  x_result_1 <- t_opt_mxm TyD noacc TyD (mkSr qplus qtimes TyD) (MSComp (Other x_M_1)) REPLACE
    x_result (OMat (Other x_mat)) (OTrn (Other x_mat)) ;;
  x_q <- meq x_result_1 x_answer ;;
  _ <- check x_q ;;
  Ok tt) = Ok tt.
Proof. vm_compute. reflexivity. Qed.

(** test_mxm_ABT.cpp:4192-4313 *)
Example test_mxm_CompStructMask_Accum_ABT :
 (x_A <- mdense0 TyD d_A_sparse_3x3 0%Q ;;
  x_Identity <- mdense0 TyD d_Identity_3x3 0%Q ;;
  x_Empty <- mnew 3 3 ;;
  x_Ones <- mdense0 TyD d_Ones_3x3 0%Q ;;
  x_C <- mnew 3 3 ;;
  x_MLower <- mdense0 TyD d_Lower_3x3 0%Q ;;
  x_MLower_1 <- lil_setElement x_MLower 2 0 (cast TyD 0%Q) ;;
  x_MNotLower <- mdense0 TyD d_NotLower_3x3 0%Q ;;
  x_MNotLower_1 <- lil_setElement x_MNotLower 0 2 (cast TyD 0%Q) ;;
  x_AFilled <- mdense0 TyD [[12; 7; 1]; [1; (-5); 1]; [7; 1; 9]]%Q 0%Q ;;
  x_NotA <- mdense0 TyD [[0; 0; 1]; [1; 0; 1]; [0; 1; 0]]%Q 0%Q ;;
  x_NotA_1 <- lil_setElement x_NotA 1 0 (cast TyD 0%Q) ;;
  x_C_1 <- lil_assign x_C x_Ones ;;
  x_Ones_1 <- lil_setElement x_Ones 0 0 (cast TyD 0%Q) ;;
  x_C_2 <- t_mxm TyD (acc TyD qplus) (mkSr qplus qtimes TyD) (MSComp x_Ones_1) MERGE x_C_1 (Mat x_A)
    (Trn x_Identity) ;;
  x_Ones_2 <- lil_setElement x_Ones_1 0 0 (cast TyD 1%Q) ;;
  x_q <- meq x_C_2 x_Ones_2 ;;
  _ <- check x_q ;;
  x_C_3 <- lil_assign x_C_2 x_Ones_2 ;;
  x_C_4 <- t_mxm TyD (acc TyD qplus) (mkSr qplus qtimes TyD) (MSComp x_NotA_1) MERGE x_C_3 (Mat x_A)
    (Trn x_Identity) ;;
  x_t <- mdense0 TyD [[13; 8; 1]; [1; (-4); 1]; [8; 1; 10]]%Q 0%Q ;;
  x_q_1 <- meq x_C_4 x_t ;;
  _ <- check x_q_1 ;;
  x_C_5 <- lil_assign x_C_4 x_Ones_2 ;;
  x_C_6 <- t_mxm TyD (acc TyD qplus) (mkSr qplus qtimes TyD) (MSComp x_MNotLower_1) MERGE x_C_5 (Mat
    x_Ones_2) (Trn x_Identity) ;;
  x_t_1 <- mdense0 TyD [[2; 1; 1]; [2; 2; 1]; [2; 2; 2]]%Q 0%Q ;;
  x_q_2 <- meq x_C_6 x_t_1 ;;
  _ <- check x_q_2 ;;
  x_C_7 <- lil_assign x_C_6 x_Ones_2 ;;
  x_C_8 <- t_mxm TyD (acc TyD qplus) (mkSr qplus qtimes TyD) (MSComp x_MLower_1) MERGE x_C_7 (Mat
    x_Ones_2) (Trn x_Identity) ;;
  x_t_2 <- mdense0 TyD [[1; 2; 2]; [1; 1; 2]; [1; 1; 1]]%Q 0%Q ;;
  x_q_3 <- meq x_C_8 x_t_2 ;;
  _ <- check x_q_3 ;;
  x_C_9 <- lil_assign x_C_8 x_Ones_2 ;;
  x_Ones_3 <- lil_setElement x_Ones_2 0 0 (cast TyD 0%Q) ;;
  x_C_10 <- t_mxm TyD (acc TyD qplus) (mkSr qplus qtimes TyD) (MSComp x_Ones_3) REPLACE x_C_9 (Mat
    x_A) (Trn x_Identity) ;;
  x_Ones_4 <- lil_setElement x_Ones_3 0 0 (cast TyD 1%Q) ;;
  x_q_4 <- meq x_C_10 x_Empty ;;
  _ <- check x_q_4 ;;
  x_C_11 <- lil_assign x_C_10 x_Ones_4 ;;
  x_C_12 <- t_mxm TyD (acc TyD qplus) (mkSr qplus qtimes TyD) (MSComp x_Empty) REPLACE x_C_11 (Mat
    x_A) (Trn x_Identity) ;;
  x_t_3 <- mdense0 TyD [[13; 8; 1]; [1; (-4); 1]; [8; 1; 10]]%Q 0%Q ;;
  x_q_5 <- meq x_C_12 x_t_3 ;;
  _ <- check x_q_5 ;;
  x_C_13 <- lil_assign x_C_12 x_Ones_4 ;;
  x_C_14 <- t_mxm TyD (acc TyD qplus) (mkSr qplus qtimes TyD) (MSComp x_MNotLower_1) REPLACE x_C_13
    (Mat x_Ones_4) (Trn x_Identity) ;;
  x_t_4 <- mdense0 TyD [[2; 0; 0]; [2; 2; 0]; [2; 2; 2]]%Q 0%Q ;;
  x_q_6 <- meq x_C_14 x_t_4 ;;
  _ <- check x_q_6 ;;
  x_C_15 <- lil_assign x_C_14 x_Ones_4 ;;
  x_C_16 <- t_mxm TyD (acc TyD qplus) (mkSr qplus qtimes TyD) (MSComp x_MLower_1) REPLACE x_C_15
    (Mat x_Ones_4) (Trn x_Identity) ;;
  x_t_5 <- mdense0 TyD [[0; 2; 2]; [0; 0; 2]; [0; 0; 0]]%Q 0%Q ;;
  x_q_7 <- meq x_C_16 x_t_5 ;;
  _ <- check x_q_7 ;;
  Ok tt) = Ok tt.
Proof. vm_compute. reflexivity. Qed.

(** test_mxm_ABT.cpp:4192-4313, optimized_sequential platform *)
Example test_mxm_CompStructMask_Accum_ABT_opt :
 (x_A <- mdense0 TyD d_A_sparse_3x3 0%Q ;;
  x_Identity <- mdense0 TyD d_Identity_3x3 0%Q ;;
  x_Empty <- mnew 3 3 ;;
  x_Ones <- mdense0 TyD d_Ones_3x3 0%Q ;;
  x_C <- mnew 3 3 ;;
  x_MLower <- mdense0 TyD d_Lower_3x3 0%Q ;;
  x_MLower_1 <- lil_setElement x_MLower 2 0 (cast TyD 0%Q) ;;
  x_MNotLower <- mdense0 TyD d_NotLower_3x3 0%Q ;;
  x_MNotLower_1 <- lil_setElement x_MNotLower 0 2 (cast TyD 0%Q) ;;
  x_AFilled <- mdense0 TyD [[12; 7; 1]; [1; (-5); 1]; [7; 1; 9]]%Q 0%Q ;;
  x_NotA <- mdense0 TyD [[0; 0; 1]; [1; 0; 1]; [0; 1; 0]]%Q 0%Q ;;
  x_NotA_1 <- lil_setElement x_NotA 1 0 (cast TyD 0%Q) ;;
  x_C_1 <- lil_assign x_C x_Ones ;;
  x_Ones_1 <- lil_setElement x_Ones 0 0 (cast TyD 0%Q) ;;
  x_C_2 <- t_opt_mxm TyD (acc TyD qplus) TyD (mkSr qplus qtimes TyD) (MSComp (Other x_Ones_1)) MERGE
    x_C_1 (OMat (Other x_A)) (OTrn (Other x_Identity)) ;;
  x_Ones_2 <- lil_setElement x_Ones_1 0 0 (cast TyD 1%Q) ;;
  x_q <- meq x_C_2 x_Ones_2 ;;
  _ <- check x_q ;;
  x_C_3 <- lil_assign x_C_2 x_Ones_2 ;;
  x_C_4 <- t_opt_mxm TyD (acc TyD qplus) TyD (mkSr qplus qtimes TyD) (MSComp (Other x_NotA_1)) MERGE
    x_C_3 (OMat (Other x_A)) (OTrn (Other x_Identity)) ;;
  x_t <- mdense0 TyD [[13; 8; 1]; [1; (-4); 1]; [8; 1; 10]]%Q 0%Q ;;
  x_q_1 <- meq x_C_4 x_t ;;
  _ <- check x_q_1 ;;
  x_C_5 <- lil_assign x_C_4 x_Ones_2 ;;
  x_C_6 <- t_opt_mxm TyD (acc TyD qplus) TyD (mkSr qplus qtimes TyD) (MSComp (Other x_MNotLower_1))
    MERGE x_C_5 (OMat (Other x_Ones_2)) (OTrn (Other x_Identity)) ;;
  x_t_1 <- mdense0 TyD [[2; 1; 1]; [2; 2; 1]; [2; 2; 2]]%Q 0%Q ;;
  x_q_2 <- meq x_C_6 x_t_1 ;;
  _ <- check x_q_2 ;;
  x_C_7 <- lil_assign x_C_6 x_Ones_2 ;;
  x_C_8 <- t_opt_mxm TyD (acc TyD qplus) TyD (mkSr qplus qtimes TyD) (MSComp (Other x_MLower_1))
    MERGE x_C_7 (OMat (Other x_Ones_2)) (OTrn (Other x_Identity)) ;;
  x_t_2 <- mdense0 TyD [[1; 2; 2]; [1; 1; 2]; [1; 1; 1]]%Q 0%Q ;;
  x_q_3 <- meq x_C_8 x_t_2 ;;
  _ <- check x_q_3 ;;
  x_C_9 <- lil_assign x_C_8 x_Ones_2 ;;
  x_Ones_3 <- lil_setElement x_Ones_2 0 0 (cast TyD 0%Q) ;;
  x_C_10 <- t_opt_mxm TyD (acc TyD qplus) TyD (mkSr qplus qtimes TyD) (MSComp (Other x_Ones_3))
    REPLACE x_C_9 (OMat (Other x_A)) (OTrn (Other x_Identity)) ;;
  x_Ones_4 <- lil_setElement x_Ones_3 0 0 (cast TyD 1%Q) ;;
  x_q_4 <- meq x_C_10 x_Empty ;;
  _ <- check x_q_4 ;;
  x_C_11 <- lil_assign x_C_10 x_Ones_4 ;;
  x_C_12 <- t_opt_mxm TyD (acc TyD qplus) TyD (mkSr qplus qtimes TyD) (MSComp (Other x_Empty))
    REPLACE x_C_11 (OMat (Other x_A)) (OTrn (Other x_Identity)) ;;
  x_t_3 <- mdense0 TyD [[13; 8; 1]; [1; (-4); 1]; [8; 1; 10]]%Q 0%Q ;;
  x_q_5 <- meq x_C_12 x_t_3 ;;
  _ <- check x_q_5 ;;
  x_C_13 <- lil_assign x_C_12 x_Ones_4 ;;
  x_C_14 <- t_opt_mxm TyD (acc TyD qplus) TyD (mkSr qplus qtimes TyD) (MSComp (Other x_MNotLower_1))
    REPLACE x_C_13 (OMat (Other x_Ones_4)) (OTrn (Other x_Identity)) ;;
  x_t_4 <- mdense0 TyD [[2; 0; 0]; [2; 2; 0]; [2; 2; 2]]%Q 0%Q ;;
  x_q_6 <- meq x_C_14 x_t_4 ;;
  _ <- check x_q_6 ;;
  x_C_15 <- lil_assign x_C_14 x_Ones_4 ;;
  x_C_16 <- t_opt_mxm TyD (acc TyD qplus) TyD (mkSr qplus qtimes TyD) (MSComp (Other x_MLower_1))
    REPLACE x_C_15 (OMat (Other x_Ones_4)) (OTrn (Other x_Identity)) ;;
  x_t_5 <- mdense0 TyD [[0; 2; 2]; [0; 0; 2]; [0; 0; 0]]%Q 0%Q ;;
  x_q_7 <- meq x_C_16 x_t_5 ;;
  _ <- check x_q_7 ;;
  Ok tt) = Ok tt.
Proof. vm_compute. reflexivity. Qed.

(** test_mxm_ABT.cpp:4316-4367 *)
Example test_mxm_CompStructMask_Accum_ABTM_empty :
 (x_Empty <- mnew 3 3 ;;
  x_Ones <- mdense0 TyD d_Ones_3x3 0%Q ;;
  x_C <- mnew 3 3 ;;
  x_MNotLower <- mdense0 TyB d_NotLowerBool_3x3 0%Q ;;
  x_MNotLower_1 <- lil_setElement x_MNotLower 0 2 (cast TyB 0%Q) ;;
  x_C_1 <- lil_assign x_C x_Ones ;;
  x_C_2 <- t_mxm TyD (acc TyD qplus) (mkSr qplus qtimes TyD) (MSComp x_MNotLower_1) MERGE x_C_1 (Mat
    x_Empty) (Trn x_Ones) ;;
  x_q <- meq x_C_2 x_Ones ;;
  _ <- check x_q ;;
  x_C_3 <- lil_assign x_C_2 x_Ones ;;
  x_C_4 <- t_mxm TyD (acc TyD qplus) (mkSr qplus qtimes TyD) (MSComp x_MNotLower_1) MERGE x_C_3 (Mat
    x_Ones) (Trn x_Empty) ;;
  x_q_1 <- meq x_C_4 x_Ones ;;
  _ <- check x_q_1 ;;
  x_C_5 <- lil_assign x_C_4 x_Ones ;;
  x_Ones_1 <- lil_setElement x_Ones 0 2 (cast TyD 0%Q) ;;
  x_C_6 <- t_mxm TyD (acc TyD qplus) (mkSr qplus qtimes TyD) (MSComp x_Ones_1) MERGE x_C_5 (Mat
    x_Ones_1) (Trn x_Ones_1) ;;
  x_Ones_2 <- lil_setElement x_Ones_1 0 2 (cast TyD 1%Q) ;;
  x_q_2 <- meq x_C_6 x_Ones_2 ;;
  _ <- check x_q_2 ;;
  x_C_7 <- lil_assign x_C_6 x_Ones_2 ;;
  x_C_8 <- t_mxm TyD (acc TyD qplus) (mkSr qplus qtimes TyD) (MSComp x_MNotLower_1) REPLACE x_C_7
    (Mat x_Empty) (Trn x_Ones_2) ;;
  x_t <- mdense0 TyD d_Lower_3x3 0%Q ;;
  x_q_3 <- meq x_C_8 x_t ;;
  _ <- check x_q_3 ;;
  x_C_9 <- lil_assign x_C_8 x_Ones_2 ;;
  x_C_10 <- t_mxm TyD (acc TyD qplus) (mkSr qplus qtimes TyD) (MSComp x_MNotLower_1) REPLACE x_C_9
    (Mat x_Ones_2) (Trn x_Empty) ;;
  x_t_1 <- mdense0 TyD d_Lower_3x3 0%Q ;;
  x_q_4 <- meq x_C_10 x_t_1 ;;
  _ <- check x_q_4 ;;
  x_C_11 <- lil_assign x_C_10 x_Ones_2 ;;
  x_Ones_3 <- lil_setElement x_Ones_2 0 2 (cast TyD 0%Q) ;;
  x_C_12 <- t_mxm TyD (acc TyD qplus) (mkSr qplus qtimes TyD) (MSComp x_Ones_3) REPLACE x_C_11 (Mat
    x_Ones_3) (Trn x_Empty) ;;
  x_q_5 <- meq x_C_12 x_Empty ;;
  _ <- check x_q_5 ;;
  Ok tt) = Ok tt.
Proof. vm_compute. reflexivity. Qed.

(** test_mxm_ABT.cpp:4316-4367, optimized_sequential platform *)
Example test_mxm_CompStructMask_Accum_ABTM_empty_opt :
 (x_Empty <- mnew 3 3 ;;
  x_Ones <- mdense0 TyD d_Ones_3x3 0%Q ;;
  x_C <- mnew 3 3 ;;
  x_MNotLower <- mdense0 TyB d_NotLowerBool_3x3 0%Q ;;
  x_MNotLower_1 <- lil_setElement x_MNotLower 0 2 (cast TyB 0%Q) ;;
  x_C_1 <- lil_assign x_C x_Ones ;;
  x_C_2 <- t_opt_mxm TyD (acc TyD qplus) TyD (mkSr qplus qtimes TyD) (MSComp (Other x_MNotLower_1))
    MERGE x_C_1 (OMat (Other x_Empty)) (OTrn (Other x_Ones)) ;;
  x_q <- meq x_C_2 x_Ones ;;
  _ <- check x_q ;;
  x_C_3 <- lil_assign x_C_2 x_Ones ;;
  x_C_4 <- t_opt_mxm TyD (acc TyD qplus) TyD (mkSr qplus qtimes TyD) (MSComp (Other x_MNotLower_1))
    MERGE x_C_3 (OMat (Other x_Ones)) (OTrn (Other x_Empty)) ;;
  x_q_1 <- meq x_C_4 x_Ones ;;
  _ <- check x_q_1 ;;
  x_C_5 <- lil_assign x_C_4 x_Ones ;;
  x_Ones_1 <- lil_setElement x_Ones 0 2 (cast TyD 0%Q) ;;
  x_C_6 <- t_opt_mxm TyD (acc TyD qplus) TyD (mkSr qplus qtimes TyD) (MSComp (Other x_Ones_1)) MERGE
    x_C_5 (OMat (Other x_Ones_1)) (OTrn (Other x_Ones_1)) ;;
  x_Ones_2 <- lil_setElement x_Ones_1 0 2 (cast TyD 1%Q) ;;
  x_q_2 <- meq x_C_6 x_Ones_2 ;;
  _ <- check x_q_2 ;;
  x_C_7 <- lil_assign x_C_6 x_Ones_2 ;;
  x_C_8 <- t_opt_mxm TyD (acc TyD qplus) TyD (mkSr qplus qtimes TyD) (MSComp (Other x_MNotLower_1))
    REPLACE x_C_7 (OMat (Other x_Empty)) (OTrn (Other x_Ones_2)) ;;
  x_t <- mdense0 TyD d_Lower_3x3 0%Q ;;
  x_q_3 <- meq x_C_8 x_t ;;
  _ <- check x_q_3 ;;
  x_C_9 <- lil_assign x_C_8 x_Ones_2 ;;
  x_C_10 <- t_opt_mxm TyD (acc TyD qplus) TyD (mkSr qplus qtimes TyD) (MSComp (Other x_MNotLower_1))
    REPLACE x_C_9 (OMat (Other x_Ones_2)) (OTrn (Other x_Empty)) ;;
  x_t_1 <- mdense0 TyD d_Lower_3x3 0%Q ;;
  x_q_4 <- meq x_C_10 x_t_1 ;;
  _ <- check x_q_4 ;;
  x_C_11 <- lil_assign x_C_10 x_Ones_2 ;;
  x_Ones_3 <- lil_setElement x_Ones_2 0 2 (cast TyD 0%Q) ;;
  x_C_12 <- t_opt_mxm TyD (acc TyD qplus) TyD (mkSr qplus qtimes TyD) (MSComp (Other x_Ones_3))
    REPLACE x_C_11 (OMat (Other x_Ones_3)) (OTrn (Other x_Empty)) ;;
  x_q_5 <- meq x_C_12 x_Empty ;;
  _ <- check x_q_5 ;;
  Ok tt) = Ok tt.
Proof. vm_compute. reflexivity. Qed.

(** test_mxm_ABT.cpp:4370-4413 *)
Example test_mxm_CompStructMask_Accum_ABT_emptyRowA_emptyColB :
 (x_A <- mdense0 TyD [[8; 1; 6]; [0; 0; 0]; [4; 9; 2]]%Q 0%Q ;;
  x_B <- mdense0 TyD [[0; 1; 0]; [0; 0; 0]; [0; 1; 1]; [1; 1; 1]]%Q 0%Q ;;
  x_MNotLower <- mdense0 TyD d_NotLower_3x4 0%Q ;;
  x_MNotLower_1 <- lil_setElement x_MNotLower 0 2 (cast TyD 0%Q) ;;
  x_Ones <- mdense0 TyD d_Ones_3x4 0%Q ;;
  x_C <- mnew 3 4 ;;
  x_answer <- mdense0 TyD [[2; 0; 0; 0]; [1; 1; 0; 0]; [10; 1; 12; 0]]%Q 0%Q ;;
  x_C_1 <- lil_assign x_C x_Ones ;;
  x_C_2 <- t_mxm TyD (acc TyD qplus) (mkSr qplus qtimes TyD) (MSComp x_MNotLower_1) REPLACE x_C_1
    (Mat x_A) (Trn x_B) ;;
  x_q <- meq x_C_2 x_answer ;;
  _ <- check x_q ;;
  x_answer2 <- mdense0 TyD [[2; 1; 1; 1]; [1; 1; 1; 1]; [10; 1; 12; 1]]%Q 0%Q ;;
  x_C_3 <- lil_assign x_C_2 x_Ones ;;
  x_C_4 <- t_mxm TyD (acc TyD qplus) (mkSr qplus qtimes TyD) (MSComp x_MNotLower_1) MERGE x_C_3 (Mat
    x_A) (Trn x_B) ;;
  x_q_1 <- meq x_C_4 x_answer2 ;;
  _ <- check x_q_1 ;;
  Ok tt) = Ok tt.
Proof. vm_compute. reflexivity. Qed.

(** test_mxm_ABT.cpp:4370-4413, optimized_sequential platform *)
Example test_mxm_CompStructMask_Accum_ABT_emptyRowA_emptyColB_opt :
 (x_A <- mdense0 TyD [[8; 1; 6]; [0; 0; 0]; [4; 9; 2]]%Q 0%Q ;;
  x_B <- mdense0 TyD [[0; 1; 0]; [0; 0; 0]; [0; 1; 1]; [1; 1; 1]]%Q 0%Q ;;
  x_MNotLower <- mdense0 TyD d_NotLower_3x4 0%Q ;;
  x_MNotLower_1 <- lil_setElement x_MNotLower 0 2 (cast TyD 0%Q) ;;
  x_Ones <- mdense0 TyD d_Ones_3x4 0%Q ;;
  x_C <- mnew 3 4 ;;
  x_answer <- mdense0 TyD [[2; 0; 0; 0]; [1; 1; 0; 0]; [10; 1; 12; 0]]%Q 0%Q ;;
  x_C_1 <- lil_assign x_C x_Ones ;;
  x_C_2 <- t_opt_mxm TyD (acc TyD qplus) TyD (mkSr qplus qtimes TyD) (MSComp (Other x_MNotLower_1))
    REPLACE x_C_1 (OMat (Other x_A)) (OTrn (Other x_B)) ;;
  x_q <- meq x_C_2 x_answer ;;
  _ <- check x_q ;;
  x_answer2 <- mdense0 TyD [[2; 1; 1; 1]; [1; 1; 1; 1]; [10; 1; 12; 1]]%Q 0%Q ;;
  x_C_3 <- lil_assign x_C_2 x_Ones ;;
  x_C_4 <- t_opt_mxm TyD (acc TyD qplus) TyD (mkSr qplus qtimes TyD) (MSComp (Other x_MNotLower_1))
    MERGE x_C_3 (OMat (Other x_A)) (OTrn (Other x_B)) ;;
  x_q_1 <- meq x_C_4 x_answer2 ;;
  _ <- check x_q_1 ;;
  Ok tt) = Ok tt.
Proof. vm_compute. reflexivity. Qed.

(** test_mxm_ABT.cpp:4416-4459 *)
Example test_mxm_CompStructMask_Accum_ABT_emptyColA_emptyRowB :
 (x_A <- mdense0 TyD [[8; 0; 6]; [1; 0; 9]; [4; 0; 2]]%Q 0%Q ;;
  x_B <- mdense0 TyD [[0; 1; 0]; [1; 0; 0]; [0; 1; 0]; [1; 1; 0]]%Q 0%Q ;;
  x_NotLower <- mdense0 TyD d_NotLower_3x4 0%Q ;;
  x_NotLower_1 <- lil_setElement x_NotLower 0 2 (cast TyD 0%Q) ;;
  x_Ones <- mdense0 TyD d_Ones_3x4 0%Q ;;
  x_C <- mnew 3 4 ;;
  x_answer <- mdense0 TyD [[1; 0; 0; 0]; [1; 2; 0; 0]; [1; 5; 1; 0]]%Q 0%Q ;;
  x_C_1 <- lil_assign x_C x_Ones ;;
  x_C_2 <- t_mxm TyD (acc TyD qplus) (mkSr qplus qtimes TyD) (MSComp x_NotLower_1) REPLACE x_C_1
    (Mat x_A) (Trn x_B) ;;
  x_q <- meq x_C_2 x_answer ;;
  _ <- check x_q ;;
  x_answer2 <- mdense0 TyD [[1; 1; 1; 1]; [1; 2; 1; 1]; [1; 5; 1; 1]]%Q 0%Q ;;
  x_C_3 <- lil_assign x_C_2 x_Ones ;;
  x_C_4 <- t_mxm TyD (acc TyD qplus) (mkSr qplus qtimes TyD) (MSComp x_NotLower_1) MERGE x_C_3 (Mat
    x_A) (Trn x_B) ;;
  x_q_1 <- meq x_C_4 x_answer2 ;;
  _ <- check x_q_1 ;;
  Ok tt) = Ok tt.
Proof. vm_compute. reflexivity. Qed.

(** test_mxm_ABT.cpp:4416-4459, optimized_sequential platform *)
Example test_mxm_CompStructMask_Accum_ABT_emptyColA_emptyRowB_opt :
 (x_A <- mdense0 TyD [[8; 0; 6]; [1; 0; 9]; [4; 0; 2]]%Q 0%Q ;;
  x_B <- mdense0 TyD [[0; 1; 0]; [1; 0; 0]; [0; 1; 0]; [1; 1; 0]]%Q 0%Q ;;
  x_NotLower <- mdense0 TyD d_NotLower_3x4 0%Q ;;
  x_NotLower_1 <- lil_setElement x_NotLower 0 2 (cast TyD 0%Q) ;;
  x_Ones <- mdense0 TyD d_Ones_3x4 0%Q ;;
  x_C <- mnew 3 4 ;;
  x_answer <- mdense0 TyD [[1; 0; 0; 0]; [1; 2; 0; 0]; [1; 5; 1; 0]]%Q 0%Q ;;
  x_C_1 <- lil_assign x_C x_Ones ;;
  x_C_2 <- t_opt_mxm TyD (acc TyD qplus) TyD (mkSr qplus qtimes TyD) (MSComp (Other x_NotLower_1))
    REPLACE x_C_1 (OMat (Other x_A)) (OTrn (Other x_B)) ;;
  x_q <- meq x_C_2 x_answer ;;
  _ <- check x_q ;;
  x_answer2 <- mdense0 TyD [[1; 1; 1; 1]; [1; 2; 1; 1]; [1; 5; 1; 1]]%Q 0%Q ;;
  x_C_3 <- lil_assign x_C_2 x_Ones ;;
  x_C_4 <- t_opt_mxm TyD (acc TyD qplus) TyD (mkSr qplus qtimes TyD) (MSComp (Other x_NotLower_1))
    MERGE x_C_3 (OMat (Other x_A)) (OTrn (Other x_B)) ;;
  x_q_1 <- meq x_C_4 x_answer2 ;;
  _ <- check x_q_1 ;;
  Ok tt) = Ok tt.
Proof. vm_compute. reflexivity. Qed.

(** test_mxm_ABT.cpp:4462-4501 *)
Example test_mxm_CompStructMask_Accum_ABT_ABdup :
 (x_mat <- mdense0 TyD d_Symmetric_4x4 0%Q ;;
  x_NotLower <- mdense0 TyD d_NotLower_4x4 0%Q ;;
  x_NotLower_1 <- lil_setElement x_NotLower 0 1 (cast TyD 0%Q) ;;
  x_Ones <- mdense0 TyD d_Ones_4x4 0%Q ;;
  x_C <- mnew 4 4 ;;
  x_answer <- mdense0 TyD [[3; 1; 1; 1]; [4; 10; 1; 1]; [3; 11; 23; 1]; [1; 7; 22; 26]]%Q 0%Q ;;
  x_C_1 <- lil_assign x_C x_Ones ;;
  x_C_2 <- t_mxm TyD (acc TyD qplus) (mkSr qplus qtimes TyD) (MSComp x_NotLower_1) MERGE x_C_1 (Mat
    x_mat) (Trn x_mat) ;;
  x_q <- meq x_C_2 x_answer ;;
  _ <- check x_q ;;
  x_answer2 <- mdense0 TyD [[3; 0; 0; 0]; [4; 10; 0; 0]; [3; 11; 23; 0]; [1; 7; 22; 26]]%Q 0%Q ;;
  x_C_3 <- lil_assign x_C_2 x_Ones ;;
  x_C_4 <- t_mxm TyD (acc TyD qplus) (mkSr qplus qtimes TyD) (MSComp x_NotLower_1) REPLACE x_C_3
    (Mat x_mat) (Trn x_mat) ;;
  x_q_1 <- meq x_C_4 x_answer2 ;;
  _ <- check x_q_1 ;;
  Ok tt) = Ok tt.
Proof. vm_compute. reflexivity. Qed.

(** test_mxm_ABT.cpp:4462-4501, optimized_sequential platform *)
Example test_mxm_CompStructMask_Accum_ABT_ABdup_opt :
 (x_mat <- mdense0 TyD d_Symmetric_4x4 0%Q ;;
  x_NotLower <- mdense0 TyD d_NotLower_4x4 0%Q ;;
  x_NotLower_1 <- lil_setElement x_NotLower 0 1 (cast TyD 0%Q) ;;
  x_Ones <- mdense0 TyD d_Ones_4x4 0%Q ;;
  x_C <- mnew 4 4 ;;
  x_answer <- mdense0 TyD [[3; 1; 1; 1]; [4; 10; 1; 1]; [3; 11; 23; 1]; [1; 7; 22; 26]]%Q 0%Q ;;
  x_C_1 <- lil_assign x_C x_Ones ;;
  x_C_2 <- t_opt_mxm TyD (acc TyD qplus) TyD (mkSr qplus qtimes TyD) (MSComp (Other x_NotLower_1))
    MERGE x_C_1 (OMat (Other x_mat)) (OTrn (Other x_mat)) ;;
  x_q <- meq x_C_2 x_answer ;;
  _ <- check x_q ;;
  x_answer2 <- mdense0 TyD [[3; 0; 0; 0]; [4; 10; 0; 0]; [3; 11; 23; 0]; [1; 7; 22; 26]]%Q 0%Q ;;
  x_C_3 <- lil_assign x_C_2 x_Ones ;;
  x_C_4 <- t_opt_mxm TyD (acc TyD qplus) TyD (mkSr qplus qtimes TyD) (MSComp (Other x_NotLower_1))
    REPLACE x_C_3 (OMat (Other x_mat)) (OTrn (Other x_mat)) ;;
  x_q_1 <- meq x_C_4 x_answer2 ;;
  _ <- check x_q_1 ;;
  Ok tt) = Ok tt.
Proof. vm_compute. reflexivity. Qed.

(** test_mxm_ABT.cpp:4504-4544 *)
Example test_mxm_CompStructMask_Accum_ABT_ACdup :
 (x_mat <- mdense0 TyD d_Symmetric_4x4 0%Q ;;
  x_NotLower <- mdense0 TyD d_NotLower_4x4 0%Q ;;
  x_NotLower_1 <- lil_setElement x_NotLower 0 1 (cast TyD 0%Q) ;;
  x_Ones <- mdense0 TyD d_Ones_4x4 0%Q ;;
  x_C <- mnew 4 4 ;;
  x_answer <- mdense0 TyD [[3; 1; 0; 0]; [4; 11; 2; 0]; [2; 12; 25; 3]; [0; 6; 24; 29]]%Q 0%Q ;;
  x_C_1 <- lil_assign x_C x_mat ;;
  x_C_2 <- t_mxm TyD (acc TyD qplus) (mkSr qplus qtimes TyD) (MSComp x_NotLower_1) MERGE x_C_1 (Mat
    x_C_1) (Trn x_mat) ;;
  x_q <- meq x_C_2 x_answer ;;
  _ <- check x_q ;;
  x_answer2 <- mdense0 TyD [[3; 0; 0; 0]; [4; 11; 0; 0]; [2; 12; 25; 0]; [0; 6; 24; 29]]%Q 0%Q ;;
  x_C_3 <- lil_assign x_C_2 x_mat ;;
  x_C_4 <- t_mxm TyD (acc TyD qplus) (mkSr qplus qtimes TyD) (MSComp x_NotLower_1) REPLACE x_C_3
    (Mat x_C_3) (Trn x_mat) ;;
  x_q_1 <- meq x_C_4 x_answer2 ;;
  _ <- check x_q_1 ;;
  Ok tt) = Ok tt.
Proof. vm_compute. reflexivity. Qed.

(** test_mxm_ABT.cpp:4504-4544, optimized_sequential platform *)
Example test_mxm_CompStructMask_Accum_ABT_ACdup_opt :
 (x_mat <- mdense0 TyD d_Symmetric_4x4 0%Q ;;
  x_NotLower <- mdense0 TyD d_NotLower_4x4 0%Q ;;
  x_NotLower_1 <- lil_setElement x_NotLower 0 1 (cast TyD 0%Q) ;;
  x_Ones <- mdense0 TyD d_Ones_4x4 0%Q ;;
  x_C <- mnew 4 4 ;;
  x_answer <- mdense0 TyD [[3; 1; 0; 0]; [4; 11; 2; 0]; [2; 12; 25; 3]; [0; 6; 24; 29]]%Q 0%Q ;;
  x_C_1 <- lil_assign x_C x_mat ;;
  x_C_2 <- t_opt_mxm TyD (acc TyD qplus) TyD (mkSr qplus qtimes TyD) (MSComp (Other x_NotLower_1))
    MERGE x_C_1 (OMat (TheOutput (fun x => x))) (OTrn (Other x_mat)) ;;
  x_q <- meq x_C_2 x_answer ;;
  _ <- check x_q ;;
  x_answer2 <- mdense0 TyD [[3; 0; 0; 0]; [4; 11; 0; 0]; [2; 12; 25; 0]; [0; 6; 24; 29]]%Q 0%Q ;;
  x_C_3 <- lil_assign x_C_2 x_mat ;;
  x_C_4 <- t_opt_mxm TyD (acc TyD qplus) TyD (mkSr qplus qtimes TyD) (MSComp (Other x_NotLower_1))
    REPLACE x_C_3 (OMat (TheOutput (fun x => x))) (OTrn (Other x_mat)) ;;
  x_q_1 <- meq x_C_4 x_answer2 ;;
  _ <- check x_q_1 ;;
  Ok tt) = Ok tt.
Proof. vm_compute. reflexivity. Qed.

(** test_mxm_ABT.cpp:4547-4595 *)
Example test_mxm_CompStructMask_Accum_ABT_BCdup :
 (x_mat <- mdense0 TyD d_Symmetric_4x4 0%Q ;;
  x_NotLower <- mdense0 TyD d_NotLower_4x4 0%Q ;;
  x_NotLower_1 <- lil_setElement x_NotLower 0 1 (cast TyD 0%Q) ;;
  x_Ones <- mdense0 TyD d_Ones_4x4 0%Q ;;
  x_C <- mnew 4 4 ;;
  x_answer <- mdense0 TyD [[3; 1; 0; 0]; [4; 11; 2; 0]; [2; 12; 25; 3]; [0; 6; 24; 29]]%Q 0%Q ;;
  x_C_1 <- lil_assign x_C x_mat ;;
  x_C_2 <- t_mxm TyD (acc TyD qplus) (mkSr qplus qtimes TyD) (MSComp x_NotLower_1) MERGE x_C_1 (Mat
    x_mat) (Trn x_C_1) ;;
  x_q <- meq x_C_2 x_answer ;;
  _ <- check x_q ;;
  x_C_3 <- lil_assign x_C_2 x_mat ;;
  x_C_4 <- t_mxm TyD (acc TyD qplus) (mkSr qplus qtimes TyD) (MSComp x_NotLower_1) MERGE x_C_3 (Mat
    x_mat) (Trn x_mat) ;;
  x_q_1 <- meq x_C_4 x_answer ;;
  _ <- check x_q_1 ;;
  x_answer2 <- mdense0 TyD [[3; 0; 0; 0]; [4; 11; 0; 0]; [2; 12; 25; 0]; [0; 6; 24; 29]]%Q 0%Q ;;
  x_C_5 <- lil_assign x_C_4 x_mat ;;
  x_C_6 <- t_mxm TyD (acc TyD qplus) (mkSr qplus qtimes TyD) (MSComp x_NotLower_1) REPLACE x_C_5
    (Mat x_mat) (Trn x_C_5) ;;
  x_q_2 <- meq x_C_6 x_answer2 ;;
  _ <- check x_q_2 ;;
  Ok tt) = Ok tt.
Proof. vm_compute. reflexivity. Qed.

(** test_mxm_ABT.cpp:4547-4595, optimized_sequential platform *)
Example test_mxm_CompStructMask_Accum_ABT_BCdup_opt :
 (x_mat <- mdense0 TyD d_Symmetric_4x4 0%Q ;;
  x_NotLower <- mdense0 TyD d_NotLower_4x4 0%Q ;;
  x_NotLower_1 <- lil_setElement x_NotLower 0 1 (cast TyD 0%Q) ;;
  x_Ones <- mdense0 TyD d_Ones_4x4 0%Q ;;
  x_C <- mnew 4 4 ;;
  x_answer <- mdense0 TyD [[3; 1; 0; 0]; [4; 11; 2; 0]; [2; 12; 25; 3]; [0; 6; 24; 29]]%Q 0%Q ;;
  x_C_1 <- lil_assign x_C x_mat ;;
  x_C_2 <- t_opt_mxm TyD (acc TyD qplus) TyD (mkSr qplus qtimes TyD) (MSComp (Other x_NotLower_1))
    MERGE x_C_1 (OMat (Other x_mat)) (OTrn (TheOutput (fun x => x))) ;;
  x_q <- meq x_C_2 x_answer ;;
  _ <- check x_q ;;
  x_C_3 <- lil_assign x_C_2 x_mat ;;
  x_C_4 <- t_opt_mxm TyD (acc TyD qplus) TyD (mkSr qplus qtimes TyD) (MSComp (Other x_NotLower_1))
    MERGE x_C_3 (OMat (Other x_mat)) (OTrn (Other x_mat)) ;;
  x_q_1 <- meq x_C_4 x_answer ;;
  _ <- check x_q_1 ;;
  x_answer2 <- mdense0 TyD [[3; 0; 0; 0]; [4; 11; 0; 0]; [2; 12; 25; 0]; [0; 6; 24; 29]]%Q 0%Q ;;
  x_C_5 <- lil_assign x_C_4 x_mat ;;
  x_C_6 <- t_opt_mxm TyD (acc TyD qplus) TyD (mkSr qplus qtimes TyD) (MSComp (Other x_NotLower_1))
    REPLACE x_C_5 (OMat (Other x_mat)) (OTrn (TheOutput (fun x => x))) ;;
  x_q_2 <- meq x_C_6 x_answer2 ;;
  _ <- check x_q_2 ;;
  Ok tt) = Ok tt.
Proof. vm_compute. reflexivity. Qed.

(** test_mxm_ABT.cpp:4598-4636 *)
Example test_mxm_CompStructMask_Accum_ABT_MCdup :
 (x_mat <- mdense0 TyD d_Symmetric_4x4 0%Q ;;
  x_NotLower <- mdense0 TyD d_NotLower_4x4 0%Q ;;
  x_NotLower_1 <- lil_setElement x_NotLower 0 1 (cast TyD 0%Q) ;;
  x_C <- mnew 4 4 ;;
  x_answer <- mdense0 TyD [[2; 0; 1; 1]; [3; 9; 1; 1]; [2; 10; 22; 1]; [99; 6; 21; 25]]%Q 99%Q ;;
  x_C_1 <- lil_assign x_C x_NotLower_1 ;;
  x_C_2 <- t_mxm TyD (acc TyD qplus) (mkSr qplus qtimes TyD) (MSComp x_C_1) MERGE x_C_1 (Mat x_mat)
    (Trn x_mat) ;;
  x_q <- meq x_C_2 x_answer ;;
  _ <- check x_q ;;
  x_answer2 <- mdense0 TyD [[2; 0; 0; 0]; [3; 9; 0; 0]; [2; 10; 22; 0]; [0; 6; 21; 25]]%Q 0%Q ;;
  x_C_3 <- lil_assign x_C_2 x_NotLower_1 ;;
  x_C_4 <- t_mxm TyD (acc TyD qplus) (mkSr qplus qtimes TyD) (MSComp x_C_3) REPLACE x_C_3 (Mat
    x_mat) (Trn x_mat) ;;
  x_q_1 <- meq x_C_4 x_answer2 ;;
  _ <- check x_q_1 ;;
  Ok tt) = Ok tt.
Proof. vm_compute. reflexivity. Qed.

(** test_mxm_ABT.cpp:4598-4636, optimized_sequential platform *)
Example test_mxm_CompStructMask_Accum_ABT_MCdup_opt :
 (x_mat <- mdense0 TyD d_Symmetric_4x4 0%Q ;;
  x_NotLower <- mdense0 TyD d_NotLower_4x4 0%Q ;;
  x_NotLower_1 <- lil_setElement x_NotLower 0 1 (cast TyD 0%Q) ;;
  x_C <- mnew 4 4 ;;
  x_answer <- mdense0 TyD [[2; 0; 1; 1]; [3; 9; 1; 1]; [2; 10; 22; 1]; [99; 6; 21; 25]]%Q 99%Q ;;
  x_C_1 <- lil_assign x_C x_NotLower_1 ;;
  x_C_2 <- t_opt_mxm TyD (acc TyD qplus) TyD (mkSr qplus qtimes TyD) (MSComp (TheOutput (fun x =>
    x))) MERGE x_C_1 (OMat (Other x_mat)) (OTrn (Other x_mat)) ;;
  x_q <- meq x_C_2 x_answer ;;
  _ <- check x_q ;;
  x_answer2 <- mdense0 TyD [[2; 0; 0; 0]; [3; 9; 0; 0]; [2; 10; 22; 0]; [0; 6; 21; 25]]%Q 0%Q ;;
  x_C_3 <- lil_assign x_C_2 x_NotLower_1 ;;
  x_C_4 <- t_opt_mxm TyD (acc TyD qplus) TyD (mkSr qplus qtimes TyD) (MSComp (TheOutput (fun x =>
    x))) REPLACE x_C_3 (OMat (Other x_mat)) (OTrn (Other x_mat)) ;;
  x_q_1 <- meq x_C_4 x_answer2 ;;
  _ <- check x_q_1 ;;
  Ok tt) = Ok tt.
Proof. vm_compute. reflexivity. Qed.

(** test_mxm_ABT.cpp:4639-4661 *)
Example test_mxm_CompStructMask_Accum_ABT_Replace_Cones_Mnlower :
 (x_A <- mdense0 TyD d_A_dense_3x3 0%Q ;;
  x_B <- mdense0 TyD d_BT_dense_3x4 0%Q ;;
  x_M <- mdense0 TyD d_NotLower_3x4 0%Q ;;
  x_M_1 <- lil_setElement x_M 0 1 (cast TyD 0%Q) ;;
  _ <- check (Qeq_bool (inject_Z (nvals x_M_1)) 6%Q) ;;
  x_result <- mdense0 TyD d_Ones_3x4 0%Q ;;
  x_answer <- mdense0 TyD [[114; 0; 0; 0]; [74; 97; 0; 0]; [119; 157; 112; 0]]%Q 0%Q ;;
  x_result_1 <- t_mxm TyD (acc TyD qsecond) (mkSr qplus qtimes TyD) (MSComp x_M_1) REPLACE x_result
    (Mat x_A) (Trn x_B) ;;
  _ <- check (Qeq_bool (inject_Z (nvals x_result_1)) 6%Q) ;;
  x_q <- meq x_result_1 x_answer ;;
  _ <- check x_q ;;
  Ok tt) = Ok tt.
Proof. vm_compute. reflexivity. Qed.

(** test_mxm_ABT.cpp:4639-4661, optimized_sequential platform *)
Example test_mxm_CompStructMask_Accum_ABT_Replace_Cones_Mnlower_opt :
 (x_A <- mdense0 TyD d_A_dense_3x3 0%Q ;;
  x_B <- mdense0 TyD d_BT_dense_3x4 0%Q ;;
  x_M <- mdense0 TyD d_NotLower_3x4 0%Q ;;
  x_M_1 <- lil_setElement x_M 0 1 (cast TyD 0%Q) ;;
  _ <- check (Qeq_bool (inject_Z (nvals x_M_1)) 6%Q) ;;
  x_result <- mdense0 TyD d_Ones_3x4 0%Q ;;
  x_answer <- mdense0 TyD [[114; 0; 0; 0]; [74; 97; 0; 0]; [119; 157; 112; 0]]%Q 0%Q ;;
  x_result_1 <- t_opt_mxm TyD (acc TyD qsecond) TyD (mkSr qplus qtimes TyD) (MSComp (Other x_M_1))
    REPLACE x_result (OMat (Other x_A)) (OTrn (Other x_B)) ;;
  _ <- check (Qeq_bool (inject_Z (nvals x_result_1)) 6%Q) ;;
  x_q <- meq x_result_1 x_answer ;;
  _ <- check x_q ;;
  Ok tt) = Ok tt.
Proof. vm_compute. reflexivity. Qed.

(** test_mxm_ABT.cpp:4664-4685 *)
Example test_mxm_CompStructMask_Accum_ABT_Merge :
 (x_A <- mdense0 TyD d_A_dense_3x3 0%Q ;;
  x_B <- mdense0 TyD d_BT_dense_3x4 0%Q ;;
  x_M <- mdense0 TyD d_NotLower_3x4 0%Q ;;
  x_M_1 <- lil_setElement x_M 0 1 (cast TyD 0%Q) ;;
  _ <- check (Qeq_bool (inject_Z (nvals x_M_1)) 6%Q) ;;
  x_result <- mdense0 TyD d_Ones_3x4 0%Q ;;
  x_answer <- mdense0 TyD [[114; 1; 1; 1]; [74; 97; 1; 1]; [119; 157; 112; 1]]%Q 0%Q ;;
  x_result_1 <- t_mxm TyD (acc TyD qsecond) (mkSr qplus qtimes TyD) (MSComp x_M_1) MERGE x_result
    (Mat x_A) (Trn x_B) ;;
  _ <- check (Qeq_bool (inject_Z (nvals x_result_1)) 12%Q) ;;
  x_q <- meq x_result_1 x_answer ;;
  _ <- check x_q ;;
  Ok tt) = Ok tt.
Proof. vm_compute. reflexivity. Qed.

(** test_mxm_ABT.cpp:4664-4685, optimized_sequential platform *)
Example test_mxm_CompStructMask_Accum_ABT_Merge_opt :
 (x_A <- mdense0 TyD d_A_dense_3x3 0%Q ;;
  x_B <- mdense0 TyD d_BT_dense_3x4 0%Q ;;
  x_M <- mdense0 TyD d_NotLower_3x4 0%Q ;;
  x_M_1 <- lil_setElement x_M 0 1 (cast TyD 0%Q) ;;
  _ <- check (Qeq_bool (inject_Z (nvals x_M_1)) 6%Q) ;;
  x_result <- mdense0 TyD d_Ones_3x4 0%Q ;;
  x_answer <- mdense0 TyD [[114; 1; 1; 1]; [74; 97; 1; 1]; [119; 157; 112; 1]]%Q 0%Q ;;
  x_result_1 <- t_opt_mxm TyD (acc TyD qsecond) TyD (mkSr qplus qtimes TyD) (MSComp (Other x_M_1))
    MERGE x_result (OMat (Other x_A)) (OTrn (Other x_B)) ;;
  _ <- check (Qeq_bool (inject_Z (nvals x_result_1)) 12%Q) ;;
  x_q <- meq x_result_1 x_answer ;;
  _ <- check x_q ;;
  Ok tt) = Ok tt.
Proof. vm_compute. reflexivity. Qed.

(** test_mxm_ABT.cpp:4688-4710 *)
Example test_mxm_CompStructMask_Accum_ABT_Merge_ABdup :
 (x_mat <- mdense0 TyD d_Symmetric_4x4 0%Q ;;
  x_result <- mdense0 TyD d_Ones_4x4 0%Q ;;
  x_answer <- mdense0 TyD [[2; 1; 1; 1]; [3; 9; 1; 1]; [2; 10; 22; 1]; [0; 6; 21; 25]]%Q 0%Q ;;
  x_M <- mdense0 TyD d_NotLower_4x4 0%Q ;;
  x_M_1 <- lil_setElement x_M 0 1 (cast TyD 0%Q) ;;
  x_result_1 <- t_mxm TyD noacc (mkSr qplus qtimes TyD) (MSComp x_M_1) MERGE x_result (Mat x_mat)
    (Trn x_mat) ;;
  x_q <- meq x_result_1 x_answer ;;
  _ <- check x_q ;;
  Ok tt) = Ok tt.
Proof. vm_compute. reflexivity. Qed.

(** test_mxm_ABT.cpp:4688-4710, optimized_sequential platform *)
Example test_mxm_CompStructMask_Accum_ABT_Merge_ABdup_opt :
 (x_mat <- mdense0 TyD d_Symmetric_4x4 0%Q ;;
  x_result <- mdense0 TyD d_Ones_4x4 0%Q ;;
  x_answer <- mdense0 TyD [[2; 1; 1; 1]; [3; 9; 1; 1]; [2; 10; 22; 1]; [0; 6; 21; 25]]%Q 0%Q ;;
  x_M <- mdense0 TyD d_NotLower_4x4 0%Q ;;
  x_M_1 <- lil_setElement x_M 0 1 (cast TyD 0%Q) ;;
  x_result_1 <- t_opt_mxm TyD noacc TyD (mkSr qplus qtimes TyD) (MSComp (Other x_M_1)) MERGE
    x_result (OMat (Other x_mat)) (OTrn (Other x_mat)) ;;
  x_q <- meq x_result_1 x_answer ;;
  _ <- check x_q ;;
  Ok tt) = Ok tt.
Proof. vm_compute. reflexivity. Qed.
