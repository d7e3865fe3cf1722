(** The tests of /repo/src/test/test_mxm_ATBT.cpp, run on the model.  Generated translation. *)
From Verif Require Import TestRun.

Definition d_AT_dense_3x3 : list (list Q) :=
  [[12; 4; 7];
   [7; 5; 8];
   [3; 6; 9]]%Q.
Definition d_BT_dense_3x4 : list (list Q) :=
  [[5; 6; 4];
   [8; 7; 5];
   [1; 3; 9];
   [2; 0; 1]]%Q.
Definition d_Answer_dense : list (list Q) :=
  [[114; 160; 60; 27];
   [74; 97; 73; 14];
   [119; 157; 112; 23]]%Q.
Definition d_A_sparse_3x3 : list (list Q) :=
  [[12; 7; 0];
   [0; (-5); 0];
   [7; 0; 9]]%Q.
Definition d_AT_sparse_3x3 : list (list Q) :=
  [[12; 0; 7];
   [7; (-5); 0];
   [0; 0; 9]]%Q.
Definition d_BT_sparse_3x4 : list (list Q) :=
  [[5; 0; 4];
   [8; (-7); 0];
   [0; 3; 0];
   [(-2); 0; 1]]%Q.
Definition d_AA_answer_sparse : list (list Q) :=
  [[144; 49; 0];
   [0; 25; 0];
   [147; 49; 81]]%Q.
Definition d_Answer_sparse : list (list Q) :=
  [[60; 47; 21; (-24)];
   [0; 35; (-15); 0];
   [71; 56; 0; (-5)]]%Q.
Definition d_Symmetric_4x4 : list (list Q) :=
  [[1; 1; 0; 0];
   [1; 2; 2; 0];
   [0; 2; 3; 3];
   [0; 0; 3; 4]]%Q.
Definition d_Symmetric2_4x4 : list (list Q) :=
  [[2; 3; 2; 0];
   [3; 9; 10; 6];
   [2; 10; 22; 21];
   [0; 6; 21; 25]]%Q.
Definition d_Ones_4x4 : list (list Q) :=
  [[1; 1; 1; 1];
   [1; 1; 1; 1];
   [1; 1; 1; 1];
   [1; 1; 1; 1]]%Q.
Definition d_Ones_3x4 : list (list Q) :=
  [[1; 1; 1; 1];
   [1; 1; 1; 1];
   [1; 1; 1; 1]]%Q.
Definition d_Ones_3x3 : list (list Q) :=
  [[1; 1; 1];
   [1; 1; 1];
   [1; 1; 1]]%Q.
Definition d_Identity_3x3 : list (list Q) :=
  [[1; 0; 0];
   [0; 1; 0];
   [0; 0; 1]]%Q.
Definition d_Lower_3x3 : list (list Q) :=
  [[1; 0; 0];
   [1; 1; 0];
   [1; 1; 1]]%Q.
Definition d_Lower_3x4 : list (list Q) :=
  [[1; 0; 0; 0];
   [1; 1; 0; 0];
   [1; 1; 1; 0]]%Q.
Definition d_Lower_4x4 : list (list Q) :=
  [[1; 0; 0; 0];
   [1; 1; 0; 0];
   [1; 1; 1; 0];
   [1; 1; 1; 1]]%Q.
Definition d_NotLower_3x3 : list (list Q) :=
  [[0; 1; 1];
   [0; 0; 1];
   [0; 0; 0]]%Q.
Definition d_NotLower_3x4 : list (list Q) :=
  [[0; 1; 1; 1];
   [0; 0; 1; 1];
   [0; 0; 0; 1]]%Q.
Definition d_NotLower_4x4 : list (list Q) :=
  [[0; 1; 1; 1];
   [0; 0; 1; 1];
   [0; 0; 0; 1];
   [0; 0; 0; 0]]%Q.
Definition d_LowerMask_3x4 : list (list Q) :=
  [[1; 0; 0; 0];
   [1; (1 # 2); 0; 0];
   [1; (-1); (3 # 2); 0]]%Q.
Definition d_LowerBool_3x4 : list (list Q) :=
  [[1; 0; 0; 0];
   [1; 1; 0; 0];
   [1; 1; 1; 0]]%Q.
Definition d_LowerBool_3x3 : list (list Q) :=
  [[1; 0; 0];
   [1; 1; 0];
   [1; 1; 1]]%Q.
Definition d_NotLowerBool_3x3 : list (list Q) :=
  [[0; 1; 1];
   [0; 0; 1];
   [0; 0; 0]]%Q.

(** test_mxm_ATBT.cpp:232-248 *)
Example test_mxm_NoMask_NoAccum_ATBT_empty :
 (x_Zero <- mnew 3 3 ;;
  x_Ones <- mdense0 TyD d_Ones_3x3 0%Q ;;
  x_C <- mdense0 TyD d_Ones_3x3 0%Q ;;
  x_mD <- mdense0 TyD d_Ones_3x3 0%Q ;;
  x_C_1 <- t_mxm TyD noacc (mkSr qplus qtimes TyD) NoMask MERGE x_C (Trn x_Zero) (Trn x_Ones) ;;
  x_q <- meq x_C_1 x_Zero ;;
  _ <- check x_q ;;
  x_mD_1 <- t_mxm TyD noacc (mkSr qplus qtimes TyD) NoMask MERGE x_mD (Trn x_Ones) (Trn x_Zero) ;;
  x_q_1 <- meq x_mD_1 x_Zero ;;
  _ <- check x_q_1 ;;
  Ok tt) = Ok tt.
Proof. vm_compute. reflexivity. Qed.

(** test_mxm_ATBT.cpp:232-248, optimized_sequential platform *)
Example test_mxm_NoMask_NoAccum_ATBT_empty_opt :
 (x_Zero <- mnew 3 3 ;;
  x_Ones <- mdense0 TyD d_Ones_3x3 0%Q ;;
  x_C <- mdense0 TyD d_Ones_3x3 0%Q ;;
  x_mD <- mdense0 TyD d_Ones_3x3 0%Q ;;
  x_C_1 <- t_opt_mxm TyD noacc TyD (mkSr qplus qtimes TyD) NoMask MERGE x_C (OTrn (Other x_Zero))
    (OTrn (Other x_Ones)) ;;
  x_q <- meq x_C_1 x_Zero ;;
  _ <- check x_q ;;
  x_mD_1 <- t_opt_mxm TyD noacc TyD (mkSr qplus qtimes TyD) NoMask MERGE x_mD (OTrn (Other x_Ones))
    (OTrn (Other x_Zero)) ;;
  x_q_1 <- meq x_mD_1 x_Zero ;;
  _ <- check x_q_1 ;;
  Ok tt) = Ok tt.
Proof. vm_compute. reflexivity. Qed.

(** test_mxm_ATBT.cpp:251-266 *)
Example test_mxm_NoMask_NoAccum_ATBT_dense :
 (x_A <- mdense0 TyD d_AT_dense_3x3 0%Q ;;
  x_B <- mdense0 TyD d_BT_dense_3x4 0%Q ;;
  x_result <- mnew 3 4 ;;
  x_answer <- mdense0 TyD d_Answer_dense 0%Q ;;
  x_result_1 <- t_mxm TyD noacc (mkSr qplus qtimes TyD) NoMask MERGE x_result (Trn x_A) (Trn x_B) ;;
  x_q <- meq x_result_1 x_answer ;;
  _ <- check x_q ;;
  Ok tt) = Ok tt.
Proof. vm_compute. reflexivity. Qed.

(** test_mxm_ATBT.cpp:251-266, optimized_sequential platform *)
Example test_mxm_NoMask_NoAccum_ATBT_dense_opt :
 (x_A <- mdense0 TyD d_AT_dense_3x3 0%Q ;;
  x_B <- mdense0 TyD d_BT_dense_3x4 0%Q ;;
  x_result <- mnew 3 4 ;;
  x_answer <- mdense0 TyD d_Answer_dense 0%Q ;;
  x_result_1 <- t_opt_mxm TyD noacc TyD (mkSr qplus qtimes TyD) NoMask MERGE x_result (OTrn (Other
    x_A)) (OTrn (Other x_B)) ;;
  x_q <- meq x_result_1 x_answer ;;
  _ <- check x_q ;;
  Ok tt) = Ok tt.
Proof. vm_compute. reflexivity. Qed.

(** test_mxm_ATBT.cpp:269-295 *)
Example test_mxm_NoMask_NoAccum_ATBT_emptyRowA_emptyColB :
 (x_A <- mdense0 TyD [[8; 0; 4]; [1; 0; 9]; [6; 0; 2]]%Q 0%Q ;;
  x_B <- mdense0 TyD [[0; 1; 0]; [0; 0; 0]; [0; 1; 1]; [1; 1; 1]]%Q 0%Q ;;
  x_result <- mnew 3 4 ;;
  x_answer <- mdense0 TyD [[1; 0; 7; 15]; [0; 0; 0; 0]; [9; 0; 11; 15]]%Q 0%Q ;;
  x_result_1 <- t_mxm TyD noacc (mkSr qplus qtimes TyD) NoMask MERGE x_result (Trn x_A) (Trn x_B) ;;
  x_q <- meq x_result_1 x_answer ;;
  _ <- check x_q ;;
  Ok tt) = Ok tt.
Proof. vm_compute. reflexivity. Qed.

(** test_mxm_ATBT.cpp:269-295, optimized_sequential platform *)
Example test_mxm_NoMask_NoAccum_ATBT_emptyRowA_emptyColB_opt :
 (x_A <- mdense0 TyD [[8; 0; 4]; [1; 0; 9]; [6; 0; 2]]%Q 0%Q ;;
  x_B <- mdense0 TyD [[0; 1; 0]; [0; 0; 0]; [0; 1; 1]; [1; 1; 1]]%Q 0%Q ;;
  x_result <- mnew 3 4 ;;
  x_answer <- mdense0 TyD [[1; 0; 7; 15]; [0; 0; 0; 0]; [9; 0; 11; 15]]%Q 0%Q ;;
  x_result_1 <- t_opt_mxm TyD noacc TyD (mkSr qplus qtimes TyD) NoMask MERGE x_result (OTrn (Other
    x_A)) (OTrn (Other x_B)) ;;
  x_q <- meq x_result_1 x_answer ;;
  _ <- check x_q ;;
  Ok tt) = Ok tt.
Proof. vm_compute. reflexivity. Qed.

(** test_mxm_ATBT.cpp:298-323 *)
Example test_mxm_NoMask_NoAccum_ATBT_emptyColA_emptyRowB :
 (x_A <- mdense0 TyD [[8; 1; 4]; [0; 0; 0]; [6; 9; 2]]%Q 0%Q ;;
  x_B <- mdense0 TyD [[0; 1; 0]; [1; 0; 0]; [0; 1; 0]; [1; 1; 0]]%Q 0%Q ;;
  x_result <- mnew 3 4 ;;
  x_answer <- mdense0 TyD [[0; 8; 0; 8]; [0; 1; 0; 1]; [0; 4; 0; 4]]%Q 0%Q ;;
  x_result_1 <- t_mxm TyD noacc (mkSr qplus qtimes TyD) NoMask MERGE x_result (Trn x_A) (Trn x_B) ;;
  x_q <- meq x_result_1 x_answer ;;
  _ <- check x_q ;;
  Ok tt) = Ok tt.
Proof. vm_compute. reflexivity. Qed.

(** test_mxm_ATBT.cpp:298-323, optimized_sequential platform *)
Example test_mxm_NoMask_NoAccum_ATBT_emptyColA_emptyRowB_opt :
 (x_A <- mdense0 TyD [[8; 1; 4]; [0; 0; 0]; [6; 9; 2]]%Q 0%Q ;;
  x_B <- mdense0 TyD [[0; 1; 0]; [1; 0; 0]; [0; 1; 0]; [1; 1; 0]]%Q 0%Q ;;
  x_result <- mnew 3 4 ;;
  x_answer <- mdense0 TyD [[0; 8; 0; 8]; [0; 1; 0; 1]; [0; 4; 0; 4]]%Q 0%Q ;;
  x_result_1 <- t_opt_mxm TyD noacc TyD (mkSr qplus qtimes TyD) NoMask MERGE x_result (OTrn (Other
    x_A)) (OTrn (Other x_B)) ;;
  x_q <- meq x_result_1 x_answer ;;
  _ <- check x_q ;;
  Ok tt) = Ok tt.
Proof. vm_compute. reflexivity. Qed.

(** test_mxm_ATBT.cpp:326-339 *)
Example test_mxm_NoMask_NoAccum_ATBT_ABdup :
 (x_mat <- mdense0 TyD d_Symmetric_4x4 0%Q ;;
  x_m3 <- mnew 4 4 ;;
  x_answer <- mdense0 TyD d_Symmetric2_4x4 0%Q ;;
  x_m3_1 <- t_mxm TyD noacc (mkSr qplus qtimes TyD) NoMask MERGE x_m3 (Trn x_mat) (Trn x_mat) ;;
  x_q <- meq x_m3_1 x_answer ;;
  _ <- check x_q ;;
  Ok tt) = Ok tt.
Proof. vm_compute. reflexivity. Qed.

(** test_mxm_ATBT.cpp:326-339, optimized_sequential platform *)
Example test_mxm_NoMask_NoAccum_ATBT_ABdup_opt :
 (x_mat <- mdense0 TyD d_Symmetric_4x4 0%Q ;;
  x_m3 <- mnew 4 4 ;;
  x_answer <- mdense0 TyD d_Symmetric2_4x4 0%Q ;;
  x_m3_1 <- t_opt_mxm TyD noacc TyD (mkSr qplus qtimes TyD) NoMask MERGE x_m3 (OTrn (Other x_mat))
    (OTrn (Other x_mat)) ;;
  x_q <- meq x_m3_1 x_answer ;;
  _ <- check x_q ;;
  Ok tt) = Ok tt.
Proof. vm_compute. reflexivity. Qed.

(** test_mxm_ATBT.cpp:342-356 *)
Example test_mxm_NoMask_NoAccum_ATBT_ACdup :
 (x_C <- mdense0 TyD d_AT_sparse_3x3 0%Q ;;
  x_B <- mdense0 TyD d_AT_sparse_3x3 0%Q ;;
  x_answer <- mdense0 TyD d_AA_answer_sparse 0%Q ;;
  x_C_1 <- t_mxm TyD noacc (mkSr qplus qtimes TyD) NoMask MERGE x_C (Trn x_C) (Trn x_B) ;;
  x_q <- meq x_C_1 x_answer ;;
  _ <- check x_q ;;
  Ok tt) = Ok tt.
Proof. vm_compute. reflexivity. Qed.

(** test_mxm_ATBT.cpp:342-356, optimized_sequential platform *)
Example test_mxm_NoMask_NoAccum_ATBT_ACdup_opt :
 (x_C <- mdense0 TyD d_AT_sparse_3x3 0%Q ;;
  x_B <- mdense0 TyD d_AT_sparse_3x3 0%Q ;;
  x_answer <- mdense0 TyD d_AA_answer_sparse 0%Q ;;
  x_C_1 <- t_opt_mxm TyD noacc TyD (mkSr qplus qtimes TyD) NoMask MERGE x_C (OTrn (TheOutput (fun x
    => x))) (OTrn (Other x_B)) ;;
  x_q <- meq x_C_1 x_answer ;;
  _ <- check x_q ;;
  Ok tt) = Ok tt.
Proof. vm_compute. reflexivity. Qed.

(** test_mxm_ATBT.cpp:359-373 *)
Example test_mxm_NoMask_NoAccum_ATBT_BCdup :
 (x_A <- mdense0 TyD d_AT_sparse_3x3 0%Q ;;
  x_C <- mdense0 TyD d_AT_sparse_3x3 0%Q ;;
  x_answer <- mdense0 TyD d_AA_answer_sparse 0%Q ;;
  x_C_1 <- t_mxm TyD noacc (mkSr qplus qtimes TyD) NoMask MERGE x_C (Trn x_A) (Trn x_C) ;;
  x_q <- meq x_C_1 x_answer ;;
  _ <- check x_q ;;
  Ok tt) = Ok tt.
Proof. vm_compute. reflexivity. Qed.

(** test_mxm_ATBT.cpp:359-373, optimized_sequential platform *)
Example test_mxm_NoMask_NoAccum_ATBT_BCdup_opt :
 (x_A <- mdense0 TyD d_AT_sparse_3x3 0%Q ;;
  x_C <- mdense0 TyD d_AT_sparse_3x3 0%Q ;;
  x_answer <- mdense0 TyD d_AA_answer_sparse 0%Q ;;
  x_C_1 <- t_opt_mxm TyD noacc TyD (mkSr qplus qtimes TyD) NoMask MERGE x_C (OTrn (Other x_A)) (OTrn
    (TheOutput (fun x => x))) ;;
  x_q <- meq x_C_1 x_answer ;;
  _ <- check x_q ;;
  Ok tt) = Ok tt.
Proof. vm_compute. reflexivity. Qed.

(** test_mxm_ATBT.cpp:380-392 *)
Example test_mxm_NoMask_Accum_ATBT :
 (x_A <- mdense0 TyD d_AT_dense_3x3 0%Q ;;
  x_B <- mdense0 TyD d_BT_dense_3x4 0%Q ;;
  x_result <- mnew 3 4 ;;
  x_answer <- mdense0 TyD d_Answer_dense 0%Q ;;
  x_result_1 <- t_mxm TyD (acc TyD qsecond) (mkSr qplus qtimes TyD) NoMask MERGE x_result (Trn x_A)
    (Trn x_B) ;;
  x_q <- meq x_result_1 x_answer ;;
  _ <- check x_q ;;
  Ok tt) = Ok tt.
Proof. vm_compute. reflexivity. Qed.

(** test_mxm_ATBT.cpp:380-392, optimized_sequential platform *)
Example test_mxm_NoMask_Accum_ATBT_opt :
 (x_A <- mdense0 TyD d_AT_dense_3x3 0%Q ;;
  x_B <- mdense0 TyD d_BT_dense_3x4 0%Q ;;
  x_result <- mnew 3 4 ;;
  x_answer <- mdense0 TyD d_Answer_dense 0%Q ;;
  x_result_1 <- t_opt_mxm TyD (acc TyD qsecond) TyD (mkSr qplus qtimes TyD) NoMask MERGE x_result
    (OTrn (Other x_A)) (OTrn (Other x_B)) ;;
  x_q <- meq x_result_1 x_answer ;;
  _ <- check x_q ;;
  Ok tt) = Ok tt.
Proof. vm_compute. reflexivity. Qed.

(** test_mxm_ATBT.cpp:395-411 *)
Example test_mxm_NoMask_Accum_ATBT_empty :
 (x_Zero <- mnew 3 3 ;;
  x_Ones <- mdense0 TyD d_Ones_3x3 0%Q ;;
  x_C <- mdense0 TyD d_Ones_3x3 0%Q ;;
  x_mD <- mdense0 TyD d_Ones_3x3 0%Q ;;
  x_C_1 <- t_mxm TyD (acc TyD qplus) (mkSr qplus qtimes TyD) NoMask MERGE x_C (Trn x_Zero) (Trn
    x_Ones) ;;
  x_q <- meq x_C_1 x_Ones ;;
  _ <- check x_q ;;
  x_mD_1 <- t_mxm TyD (acc TyD qplus) (mkSr qplus qtimes TyD) NoMask MERGE x_mD (Trn x_Ones) (Trn
    x_Zero) ;;
  x_q_1 <- meq x_mD_1 x_Ones ;;
  _ <- check x_q_1 ;;
  Ok tt) = Ok tt.
Proof. vm_compute. reflexivity. Qed.

(** test_mxm_ATBT.cpp:395-411, optimized_sequential platform *)
Example test_mxm_NoMask_Accum_ATBT_empty_opt :
 (x_Zero <- mnew 3 3 ;;
  x_Ones <- mdense0 TyD d_Ones_3x3 0%Q ;;
  x_C <- mdense0 TyD d_Ones_3x3 0%Q ;;
  x_mD <- mdense0 TyD d_Ones_3x3 0%Q ;;
  x_C_1 <- t_opt_mxm TyD (acc TyD qplus) TyD (mkSr qplus qtimes TyD) NoMask MERGE x_C (OTrn (Other
    x_Zero)) (OTrn (Other x_Ones)) ;;
  x_q <- meq x_C_1 x_Ones ;;
  _ <- check x_q ;;
  x_mD_1 <- t_opt_mxm TyD (acc TyD qplus) TyD (mkSr qplus qtimes TyD) NoMask MERGE x_mD (OTrn (Other
    x_Ones)) (OTrn (Other x_Zero)) ;;
  x_q_1 <- meq x_mD_1 x_Ones ;;
  _ <- check x_q_1 ;;
  Ok tt) = Ok tt.
Proof. vm_compute. reflexivity. Qed.

(** test_mxm_ATBT.cpp:414-439 *)
Example test_mxm_NoMask_Accum_ATBT_stored_zero_result :
 (x_A <- mdense0 TyD d_Symmetric_4x4 0%Q ;;
  x_B <- mdense0 TyI [[1; (-1); 0; 0]; [(-2); 1; 0; 0]; [0; 0; 3; (-3)]; [0; 0; (-4); 3]]%Q 0%Q ;;
  x_result <- mnew 4 4 ;;
  x_answer <- mdense0 TyI [[0; (-1); 666; 666]; [(-1); 0; 6; (-8)]; [(-2); 2; 0; (-3)]; [666; 666;
    (-3); 0]]%Q 666%Q ;;
  x_result_1 <- t_mxm TyI (acc TyI (op3 TyI TyI TyI qsecond)) (mkSr (op3 TyI TyI TyI qplus) (op3 TyI
    TyI TyI qtimes) TyI) NoMask MERGE x_result (Trn x_A) (Trn x_B) ;;
  x_q <- meq x_result_1 x_answer ;;
  _ <- check x_q ;;
  _ <- check (Qeq_bool (inject_Z (nvals x_result_1)) 12%Q) ;;
  Ok tt) = Ok tt.
Proof. vm_compute. reflexivity. Qed.

(** test_mxm_ATBT.cpp:414-439, optimized_sequential platform *)
Example test_mxm_NoMask_Accum_ATBT_stored_zero_result_opt :
 (x_A <- mdense0 TyD d_Symmetric_4x4 0%Q ;;
  x_B <- mdense0 TyI [[1; (-1); 0; 0]; [(-2); 1; 0; 0]; [0; 0; 3; (-3)]; [0; 0; (-4); 3]]%Q 0%Q ;;
  x_result <- mnew 4 4 ;;
  x_answer <- mdense0 TyI [[0; (-1); 666; 666]; [(-1); 0; 6; (-8)]; [(-2); 2; 0; (-3)]; [666; 666;
    (-3); 0]]%Q 666%Q ;;
  x_result_1 <- t_opt_mxm TyI (acc TyI (op3 TyI TyI TyI qsecond)) TyD (mkSr (op3 TyI TyI TyI qplus)
    (op3 TyI TyI TyI qtimes) TyI) NoMask MERGE x_result (OTrn (Other x_A)) (OTrn (Other x_B)) ;;
  x_q <- meq x_result_1 x_answer ;;
  _ <- check x_q ;;
  _ <- check (Qeq_bool (inject_Z (nvals x_result_1)) 12%Q) ;;
  Ok tt) = Ok tt.
Proof. vm_compute. reflexivity. Qed.

(** test_mxm_ATBT.cpp:442-455 *)
Example test_mxm_NoMask_Accum_ATBT_ABdup_Cempty :
 (x_mat <- mdense0 TyD d_Symmetric_4x4 0%Q ;;
  x_result <- mnew 4 4 ;;
  x_answer <- mdense0 TyD d_Symmetric2_4x4 0%Q ;;
  x_result_1 <- t_mxm TyD (acc TyD qsecond) (mkSr qplus qtimes TyD) NoMask MERGE x_result (Trn
    x_mat) (Trn x_mat) ;;
  x_q <- meq x_result_1 x_answer ;;
  _ <- check x_q ;;
  Ok tt) = Ok tt.
Proof. vm_compute. reflexivity. Qed.

(** test_mxm_ATBT.cpp:442-455, optimized_sequential platform *)
Example test_mxm_NoMask_Accum_ATBT_ABdup_Cempty_opt :
 (x_mat <- mdense0 TyD d_Symmetric_4x4 0%Q ;;
  x_result <- mnew 4 4 ;;
  x_answer <- mdense0 TyD d_Symmetric2_4x4 0%Q ;;
  x_result_1 <- t_opt_mxm TyD (acc TyD qsecond) TyD (mkSr qplus qtimes TyD) NoMask MERGE x_result
    (OTrn (Other x_mat)) (OTrn (Other x_mat)) ;;
  x_q <- meq x_result_1 x_answer ;;
  _ <- check x_q ;;
  Ok tt) = Ok tt.
Proof. vm_compute. reflexivity. Qed.

(** test_mxm_ATBT.cpp:458-483 *)
Example test_mxm_NoMask_Accum_ATBT_emptyRowA_emptyColB :
 (x_A <- mdense0 TyD [[8; 0; 4]; [1; 0; 9]; [6; 0; 2]]%Q 0%Q ;;
  x_B <- mdense0 TyD [[0; 1; 0]; [0; 0; 0]; [0; 1; 1]; [1; 1; 1]]%Q 0%Q ;;
  x_result <- mdense0 TyD d_Ones_3x4 0%Q ;;
  x_answer <- mdense0 TyD [[2; 1; 8; 16]; [1; 1; 1; 1]; [10; 1; 12; 16]]%Q 0%Q ;;
  x_result_1 <- t_mxm TyD (acc TyD qplus) (mkSr qplus qtimes TyD) NoMask MERGE x_result (Trn x_A)
    (Trn x_B) ;;
  x_q <- meq x_result_1 x_answer ;;
  _ <- check x_q ;;
  Ok tt) = Ok tt.
Proof. vm_compute. reflexivity. Qed.

(** test_mxm_ATBT.cpp:458-483, optimized_sequential platform *)
Example test_mxm_NoMask_Accum_ATBT_emptyRowA_emptyColB_opt :
 (x_A <- mdense0 TyD [[8; 0; 4]; [1; 0; 9]; [6; 0; 2]]%Q 0%Q ;;
  x_B <- mdense0 TyD [[0; 1; 0]; [0; 0; 0]; [0; 1; 1]; [1; 1; 1]]%Q 0%Q ;;
  x_result <- mdense0 TyD d_Ones_3x4 0%Q ;;
  x_answer <- mdense0 TyD [[2; 1; 8; 16]; [1; 1; 1; 1]; [10; 1; 12; 16]]%Q 0%Q ;;
  x_result_1 <- t_opt_mxm TyD (acc TyD qplus) TyD (mkSr qplus qtimes TyD) NoMask MERGE x_result
    (OTrn (Other x_A)) (OTrn (Other x_B)) ;;
  x_q <- meq x_result_1 x_answer ;;
  _ <- check x_q ;;
  Ok tt) = Ok tt.
Proof. vm_compute. reflexivity. Qed.

(** test_mxm_ATBT.cpp:486-511 *)
Example test_mxm_NoMask_Accum_ATBT_emptyColA_emptyRowB :
 (x_A <- mdense0 TyD [[8; 1; 4]; [0; 0; 0]; [6; 9; 2]]%Q 0%Q ;;
  x_B <- mdense0 TyD [[0; 1; 0]; [1; 0; 0]; [0; 1; 0]; [1; 1; 0]]%Q 0%Q ;;
  x_result <- mdense0 TyD d_Ones_3x4 0%Q ;;
  x_answer <- mdense0 TyD [[1; 9; 1; 9]; [1; 2; 1; 2]; [1; 5; 1; 5]]%Q 0%Q ;;
  x_result_1 <- t_mxm TyD (acc TyD qplus) (mkSr qplus qtimes TyD) NoMask MERGE x_result (Trn x_A)
    (Trn x_B) ;;
  x_q <- meq x_result_1 x_answer ;;
  _ <- check x_q ;;
  Ok tt) = Ok tt.
Proof. vm_compute. reflexivity. Qed.

(** test_mxm_ATBT.cpp:486-511, optimized_sequential platform *)
Example test_mxm_NoMask_Accum_ATBT_emptyColA_emptyRowB_opt :
 (x_A <- mdense0 TyD [[8; 1; 4]; [0; 0; 0]; [6; 9; 2]]%Q 0%Q ;;
  x_B <- mdense0 TyD [[0; 1; 0]; [1; 0; 0]; [0; 1; 0]; [1; 1; 0]]%Q 0%Q ;;
  x_result <- mdense0 TyD d_Ones_3x4 0%Q ;;
  x_answer <- mdense0 TyD [[1; 9; 1; 9]; [1; 2; 1; 2]; [1; 5; 1; 5]]%Q 0%Q ;;
  x_result_1 <- t_opt_mxm TyD (acc TyD qplus) TyD (mkSr qplus qtimes TyD) NoMask MERGE x_result
    (OTrn (Other x_A)) (OTrn (Other x_B)) ;;
  x_q <- meq x_result_1 x_answer ;;
  _ <- check x_q ;;
  Ok tt) = Ok tt.
Proof. vm_compute. reflexivity. Qed.

(** test_mxm_ATBT.cpp:514-534 *)
Example test_mxm_NoMask_Accum_ATBT_ABdup :
 (x_mat <- mdense0 TyD d_AT_sparse_3x3 0%Q ;;
  x_m3 <- mdense0 TyD d_Ones_3x3 0%Q ;;
  x_answer <- mdense0 TyD [[145; 50; 1]; [1; 26; 1]; [148; 50; 82]]%Q 0%Q ;;
  x_m3_1 <- t_mxm TyD (acc TyD qplus) (mkSr qplus qtimes TyD) NoMask MERGE x_m3 (Trn x_mat) (Trn
    x_mat) ;;
  x_q <- meq x_m3_1 x_answer ;;
  _ <- check x_q ;;
  Ok tt) = Ok tt.
Proof. vm_compute. reflexivity. Qed.

(** test_mxm_ATBT.cpp:514-534, optimized_sequential platform *)
Example test_mxm_NoMask_Accum_ATBT_ABdup_opt :
 (x_mat <- mdense0 TyD d_AT_sparse_3x3 0%Q ;;
  x_m3 <- mdense0 TyD d_Ones_3x3 0%Q ;;
  x_answer <- mdense0 TyD [[145; 50; 1]; [1; 26; 1]; [148; 50; 82]]%Q 0%Q ;;
  x_m3_1 <- t_opt_mxm TyD (acc TyD qplus) TyD (mkSr qplus qtimes TyD) NoMask MERGE x_m3 (OTrn (Other
    x_mat)) (OTrn (Other x_mat)) ;;
  x_q <- meq x_m3_1 x_answer ;;
  _ <- check x_q ;;
  Ok tt) = Ok tt.
Proof. vm_compute. reflexivity. Qed.

(** test_mxm_ATBT.cpp:537-556 *)
Example test_mxm_NoMask_Accum_ATBT_ACdup :
 (x_C <- mdense0 TyD d_AT_sparse_3x3 0%Q ;;
  x_B <- mdense0 TyD d_AT_sparse_3x3 0%Q ;;
  x_answer <- mdense0 TyD [[156; 49; 7]; [7; 20; 0]; [147; 49; 90]]%Q 0%Q ;;
  x_C_1 <- t_mxm TyD (acc TyD qplus) (mkSr qplus qtimes TyD) NoMask MERGE x_C (Trn x_C) (Trn x_B) ;;
  x_q <- meq x_C_1 x_answer ;;
  _ <- check x_q ;;
  Ok tt) = Ok tt.
Proof. vm_compute. reflexivity. Qed.

(** test_mxm_ATBT.cpp:537-556, optimized_sequential platform *)
Example test_mxm_NoMask_Accum_ATBT_ACdup_opt :
 (x_C <- mdense0 TyD d_AT_sparse_3x3 0%Q ;;
  x_B <- mdense0 TyD d_AT_sparse_3x3 0%Q ;;
  x_answer <- mdense0 TyD [[156; 49; 7]; [7; 20; 0]; [147; 49; 90]]%Q 0%Q ;;
  x_C_1 <- t_opt_mxm TyD (acc TyD qplus) TyD (mkSr qplus qtimes TyD) NoMask MERGE x_C (OTrn
    (TheOutput (fun x => x))) (OTrn (Other x_B)) ;;
  x_q <- meq x_C_1 x_answer ;;
  _ <- check x_q ;;
  Ok tt) = Ok tt.
Proof. vm_compute. reflexivity. Qed.

(** test_mxm_ATBT.cpp:559-577 *)
Example test_mxm_NoMask_Accum_ATBT_BCdup :
 (x_A <- mdense0 TyD d_AT_sparse_3x3 0%Q ;;
  x_C <- mdense0 TyD d_AT_sparse_3x3 0%Q ;;
  x_answer <- mdense0 TyD [[156; 49; 7]; [7; 20; 0]; [147; 49; 90]]%Q 0%Q ;;
  x_C_1 <- t_mxm TyD (acc TyD qplus) (mkSr qplus qtimes TyD) NoMask MERGE x_C (Trn x_A) (Trn x_C) ;;
  x_q <- meq x_C_1 x_answer ;;
  _ <- check x_q ;;
  Ok tt) = Ok tt.
Proof. vm_compute. reflexivity. Qed.

(** test_mxm_ATBT.cpp:559-577, optimized_sequential platform *)
Example test_mxm_NoMask_Accum_ATBT_BCdup_opt :
 (x_A <- mdense0 TyD d_AT_sparse_3x3 0%Q ;;
  x_C <- mdense0 TyD d_AT_sparse_3x3 0%Q ;;
  x_answer <- mdense0 TyD [[156; 49; 7]; [7; 20; 0]; [147; 49; 90]]%Q 0%Q ;;
  x_C_1 <- t_opt_mxm TyD (acc TyD qplus) TyD (mkSr qplus qtimes TyD) NoMask MERGE x_C (OTrn (Other
    x_A)) (OTrn (TheOutput (fun x => x))) ;;
  x_q <- meq x_C_1 x_answer ;;
  _ <- check x_q ;;
  Ok tt) = Ok tt.
Proof. vm_compute. reflexivity. Qed.

(** test_mxm_ATBT.cpp:584-663 *)
Example test_mxm_Mask_NoAccum_ATBT :
 (x_A <- mdense0 TyD d_AT_sparse_3x3 0%Q ;;
  x_AT <- mdense0 TyD d_A_sparse_3x3 0%Q ;;
  x_Identity <- mdense0 TyD d_Identity_3x3 0%Q ;;
  x_Empty <- mnew 3 3 ;;
  x_Ones <- mdense0 TyD d_Ones_3x3 0%Q ;;
  x_C <- mnew 3 3 ;;
  x_MLower <- mdense0 TyD d_Lower_3x3 0%Q ;;
  x_MNotLower <- mdense0 TyD d_NotLower_3x3 0%Q ;;
  x_AFilled <- mdense0 TyD [[12; 7; 1]; [1; (-5); 1]; [7; 1; 9]]%Q 0%Q ;;
  x_C_1 <- lil_assign x_C x_Ones ;;
  x_C_2 <- t_mxm TyD noacc (mkSr qplus qtimes TyD) (MVal x_Empty) MERGE x_C_1 (Trn x_A) (Trn
    x_Identity) ;;
  x_q <- meq x_C_2 x_Ones ;;
  _ <- check x_q ;;
  x_C_3 <- lil_assign x_C_2 x_Ones ;;
  x_C_4 <- t_mxm TyD noacc (mkSr qplus qtimes TyD) (MVal x_Ones) MERGE x_C_3 (Trn x_A) (Trn
    x_Identity) ;;
  x_q_1 <- meq x_C_4 x_AT ;;
  _ <- check x_q_1 ;;
  x_C_5 <- lil_assign x_C_4 x_Ones ;;
  x_C_6 <- t_mxm TyD noacc (mkSr qplus qtimes TyD) (MVal x_AT) MERGE x_C_5 (Trn x_A) (Trn
    x_Identity) ;;
  x_q_2 <- meq x_C_6 x_AFilled ;;
  _ <- check x_q_2 ;;
  x_C_7 <- lil_assign x_C_6 x_Ones ;;
  x_C_8 <- t_mxm TyD noacc (mkSr qplus qtimes TyD) (MVal x_MLower) MERGE x_C_7 (Trn x_Ones) (Trn
    x_Identity) ;;
  x_q_3 <- meq x_C_8 x_Ones ;;
  _ <- check x_q_3 ;;
  x_C_9 <- lil_assign x_C_8 x_Ones ;;
  x_C_10 <- t_mxm TyD noacc (mkSr qplus qtimes TyD) (MVal x_MNotLower) MERGE x_C_9 (Trn x_Ones) (Trn
    x_Identity) ;;
  x_q_4 <- meq x_C_10 x_Ones ;;
  _ <- check x_q_4 ;;
  x_C_11 <- lil_assign x_C_10 x_Ones ;;
  x_C_12 <- t_mxm TyD noacc (mkSr qplus qtimes TyD) (MVal x_Empty) REPLACE x_C_11 (Trn x_A) (Trn
    x_Identity) ;;
  x_q_5 <- meq x_C_12 x_Empty ;;
  _ <- check x_q_5 ;;
  x_C_13 <- lil_assign x_C_12 x_Ones ;;
  x_C_14 <- t_mxm TyD noacc (mkSr qplus qtimes TyD) (MVal x_Ones) REPLACE x_C_13 (Trn x_A) (Trn
    x_Identity) ;;
  x_q_6 <- meq x_C_14 x_AT ;;
  _ <- check x_q_6 ;;
  x_C_15 <- lil_assign x_C_14 x_Ones ;;
  x_C_16 <- t_mxm TyD noacc (mkSr qplus qtimes TyD) (MVal x_MLower) REPLACE x_C_15 (Trn x_Ones) (Trn
    x_Identity) ;;
  x_q_7 <- meq x_C_16 x_MLower ;;
  _ <- check x_q_7 ;;
  x_C_17 <- lil_assign x_C_16 x_Ones ;;
  x_C_18 <- t_mxm TyD noacc (mkSr qplus qtimes TyD) (MVal x_MNotLower) REPLACE x_C_17 (Trn x_Ones)
    (Trn x_Identity) ;;
  x_q_8 <- meq x_C_18 x_MNotLower ;;
  _ <- check x_q_8 ;;
  Ok tt) = Ok tt.
Proof. vm_compute. reflexivity. Qed.

(** test_mxm_ATBT.cpp:584-663, optimized_sequential platform *)
Example test_mxm_Mask_NoAccum_ATBT_opt :
 (x_A <- mdense0 TyD d_AT_sparse_3x3 0%Q ;;
  x_AT <- mdense0 TyD d_A_sparse_3x3 0%Q ;;
  x_Identity <- mdense0 TyD d_Identity_3x3 0%Q ;;
  x_Empty <- mnew 3 3 ;;
  x_Ones <- mdense0 TyD d_Ones_3x3 0%Q ;;
  x_C <- mnew 3 3 ;;
  x_MLower <- mdense0 TyD d_Lower_3x3 0%Q ;;
  x_MNotLower <- mdense0 TyD d_NotLower_3x3 0%Q ;;
  x_AFilled <- mdense0 TyD [[12; 7; 1]; [1; (-5); 1]; [7; 1; 9]]%Q 0%Q ;;
  x_C_1 <- lil_assign x_C x_Ones ;;
  x_C_2 <- t_opt_mxm TyD noacc TyD (mkSr qplus qtimes TyD) (MVal (Other x_Empty)) MERGE x_C_1 (OTrn
    (Other x_A)) (OTrn (Other x_Identity)) ;;
  x_q <- meq x_C_2 x_Ones ;;
  _ <- check x_q ;;
  x_C_3 <- lil_assign x_C_2 x_Ones ;;
  x_C_4 <- t_opt_mxm TyD noacc TyD (mkSr qplus qtimes TyD) (MVal (Other x_Ones)) MERGE x_C_3 (OTrn
    (Other x_A)) (OTrn (Other x_Identity)) ;;
  x_q_1 <- meq x_C_4 x_AT ;;
  _ <- check x_q_1 ;;
  x_C_5 <- lil_assign x_C_4 x_Ones ;;
  x_C_6 <- t_opt_mxm TyD noacc TyD (mkSr qplus qtimes TyD) (MVal (Other x_AT)) MERGE x_C_5 (OTrn
    (Other x_A)) (OTrn (Other x_Identity)) ;;
  x_q_2 <- meq x_C_6 x_AFilled ;;
  _ <- check x_q_2 ;;
  x_C_7 <- lil_assign x_C_6 x_Ones ;;
  x_C_8 <- t_opt_mxm TyD noacc TyD (mkSr qplus qtimes TyD) (MVal (Other x_MLower)) MERGE x_C_7 (OTrn
    (Other x_Ones)) (OTrn (Other x_Identity)) ;;
  x_q_3 <- meq x_C_8 x_Ones ;;
  _ <- check x_q_3 ;;
  x_C_9 <- lil_assign x_C_8 x_Ones ;;
  x_C_10 <- t_opt_mxm TyD noacc TyD (mkSr qplus qtimes TyD) (MVal (Other x_MNotLower)) MERGE x_C_9
    (OTrn (Other x_Ones)) (OTrn (Other x_Identity)) ;;
  x_q_4 <- meq x_C_10 x_Ones ;;
  _ <- check x_q_4 ;;
  x_C_11 <- lil_assign x_C_10 x_Ones ;;
  x_C_12 <- t_opt_mxm TyD noacc TyD (mkSr qplus qtimes TyD) (MVal (Other x_Empty)) REPLACE x_C_11
    (OTrn (Other x_A)) (OTrn (Other x_Identity)) ;;
  x_q_5 <- meq x_C_12 x_Empty ;;
  _ <- check x_q_5 ;;
  x_C_13 <- lil_assign x_C_12 x_Ones ;;
  x_C_14 <- t_opt_mxm TyD noacc TyD (mkSr qplus qtimes TyD) (MVal (Other x_Ones)) REPLACE x_C_13
    (OTrn (Other x_A)) (OTrn (Other x_Identity)) ;;
  x_q_6 <- meq x_C_14 x_AT ;;
  _ <- check x_q_6 ;;
  x_C_15 <- lil_assign x_C_14 x_Ones ;;
  x_C_16 <- t_opt_mxm TyD noacc TyD (mkSr qplus qtimes TyD) (MVal (Other x_MLower)) REPLACE x_C_15
    (OTrn (Other x_Ones)) (OTrn (Other x_Identity)) ;;
  x_q_7 <- meq x_C_16 x_MLower ;;
  _ <- check x_q_7 ;;
  x_C_17 <- lil_assign x_C_16 x_Ones ;;
  x_C_18 <- t_opt_mxm TyD noacc TyD (mkSr qplus qtimes TyD) (MVal (Other x_MNotLower)) REPLACE
    x_C_17 (OTrn (Other x_Ones)) (OTrn (Other x_Identity)) ;;
  x_q_8 <- meq x_C_18 x_MNotLower ;;
  _ <- check x_q_8 ;;
  Ok tt) = Ok tt.
Proof. vm_compute. reflexivity. Qed.

(** test_mxm_ATBT.cpp:666-715 *)
Example test_mxm_Mask_NoAccum_ATBTM_empty :
 (x_Empty <- mnew 3 3 ;;
  x_Ones <- mdense0 TyD d_Ones_3x3 0%Q ;;
  x_C <- mnew 3 3 ;;
  x_M <- mdense0 TyB d_LowerBool_3x3 0%Q ;;
  x_mUpper <- mdense0 TyD d_NotLower_3x3 0%Q ;;
  x_C_1 <- lil_assign x_C x_Ones ;;
  x_C_2 <- t_mxm TyD noacc (mkSr qplus qtimes TyD) (MVal x_M) MERGE x_C_1 (Trn x_Empty) (Trn x_Ones)
    ;;
  x_q <- meq x_C_2 x_mUpper ;;
  _ <- check x_q ;;
  x_C_3 <- lil_assign x_C_2 x_Ones ;;
  x_C_4 <- t_mxm TyD noacc (mkSr qplus qtimes TyD) (MVal x_M) MERGE x_C_3 (Trn x_Ones) (Trn x_Empty)
    ;;
  x_q_1 <- meq x_C_4 x_mUpper ;;
  _ <- check x_q_1 ;;
  x_C_5 <- lil_assign x_C_4 x_Ones ;;
  x_C_6 <- t_mxm TyD noacc (mkSr qplus qtimes TyD) (MVal x_Empty) MERGE x_C_5 (Trn x_Ones) (Trn
    x_Empty) ;;
  x_q_2 <- meq x_C_6 x_Ones ;;
  _ <- check x_q_2 ;;
  x_C_7 <- lil_assign x_C_6 x_Ones ;;
  x_C_8 <- t_mxm TyD noacc (mkSr qplus qtimes TyD) (MVal x_M) REPLACE x_C_7 (Trn x_Empty) (Trn
    x_Ones) ;;
  x_q_3 <- meq x_C_8 x_Empty ;;
  _ <- check x_q_3 ;;
  x_C_9 <- lil_assign x_C_8 x_Ones ;;
  x_C_10 <- t_mxm TyD noacc (mkSr qplus qtimes TyD) (MVal x_M) REPLACE x_C_9 (Trn x_Ones) (Trn
    x_Empty) ;;
  x_q_4 <- meq x_C_10 x_Empty ;;
  _ <- check x_q_4 ;;
  x_C_11 <- lil_assign x_C_10 x_Ones ;;
  x_C_12 <- t_mxm TyD noacc (mkSr qplus qtimes TyD) (MVal x_Empty) REPLACE x_C_11 (Trn x_Ones) (Trn
    x_Empty) ;;
  x_q_5 <- meq x_C_12 x_Empty ;;
  _ <- check x_q_5 ;;
  Ok tt) = Ok tt.
Proof. vm_compute. reflexivity. Qed.

(** test_mxm_ATBT.cpp:666-715, optimized_sequential platform *)
Example test_mxm_Mask_NoAccum_ATBTM_empty_opt :
 (x_Empty <- mnew 3 3 ;;
  x_Ones <- mdense0 TyD d_Ones_3x3 0%Q ;;
  x_C <- mnew 3 3 ;;
  x_M <- mdense0 TyB d_LowerBool_3x3 0%Q ;;
  x_mUpper <- mdense0 TyD d_NotLower_3x3 0%Q ;;
  x_C_1 <- lil_assign x_C x_Ones ;;
  x_C_2 <- t_opt_mxm TyD noacc TyD (mkSr qplus qtimes TyD) (MVal (Other x_M)) MERGE x_C_1 (OTrn
    (Other x_Empty)) (OTrn (Other x_Ones)) ;;
  x_q <- meq x_C_2 x_mUpper ;;
  _ <- check x_q ;;
  x_C_3 <- lil_assign x_C_2 x_Ones ;;
  x_C_4 <- t_opt_mxm TyD noacc TyD (mkSr qplus qtimes TyD) (MVal (Other x_M)) MERGE x_C_3 (OTrn
    (Other x_Ones)) (OTrn (Other x_Empty)) ;;
  x_q_1 <- meq x_C_4 x_mUpper ;;
  _ <- check x_q_1 ;;
  x_C_5 <- lil_assign x_C_4 x_Ones ;;
  x_C_6 <- t_opt_mxm TyD noacc TyD (mkSr qplus qtimes TyD) (MVal (Other x_Empty)) MERGE x_C_5 (OTrn
    (Other x_Ones)) (OTrn (Other x_Empty)) ;;
  x_q_2 <- meq x_C_6 x_Ones ;;
  _ <- check x_q_2 ;;
  x_C_7 <- lil_assign x_C_6 x_Ones ;;
  x_C_8 <- t_opt_mxm TyD noacc TyD (mkSr qplus qtimes TyD) (MVal (Other x_M)) REPLACE x_C_7 (OTrn
    (Other x_Empty)) (OTrn (Other x_Ones)) ;;
  x_q_3 <- meq x_C_8 x_Empty ;;
  _ <- check x_q_3 ;;
  x_C_9 <- lil_assign x_C_8 x_Ones ;;
  x_C_10 <- t_opt_mxm TyD noacc TyD (mkSr qplus qtimes TyD) (MVal (Other x_M)) REPLACE x_C_9 (OTrn
    (Other x_Ones)) (OTrn (Other x_Empty)) ;;
  x_q_4 <- meq x_C_10 x_Empty ;;
  _ <- check x_q_4 ;;
  x_C_11 <- lil_assign x_C_10 x_Ones ;;
  x_C_12 <- t_opt_mxm TyD noacc TyD (mkSr qplus qtimes TyD) (MVal (Other x_Empty)) REPLACE x_C_11
    (OTrn (Other x_Ones)) (OTrn (Other x_Empty)) ;;
  x_q_5 <- meq x_C_12 x_Empty ;;
  _ <- check x_q_5 ;;
  Ok tt) = Ok tt.
Proof. vm_compute. reflexivity. Qed.

(** test_mxm_ATBT.cpp:718-733 *)
Example test_mxm_Mask_NoAccum_ATBT_Merge_full_mask :
 (x_A <- mdense0 TyD d_AT_dense_3x3 0%Q ;;
  x_B <- mdense0 TyD d_BT_dense_3x4 0%Q ;;
  x_result <- mnew 3 4 ;;
  x_answer <- mdense0 TyD d_Answer_dense 0%Q ;;
  x_mask <- mdense TyD d_Ones_3x4 ;;
  x_result_1 <- t_mxm TyD noacc (mkSr qplus qtimes TyD) (MVal x_mask) MERGE x_result (Trn x_A) (Trn
    x_B) ;;
  x_q <- meq x_result_1 x_answer ;;
  _ <- check x_q ;;
  Ok tt) = Ok tt.
Proof. vm_compute. reflexivity. Qed.

(** test_mxm_ATBT.cpp:718-733, optimized_sequential platform *)
Example test_mxm_Mask_NoAccum_ATBT_Merge_full_mask_opt :
 (x_A <- mdense0 TyD d_AT_dense_3x3 0%Q ;;
  x_B <- mdense0 TyD d_BT_dense_3x4 0%Q ;;
  x_result <- mnew 3 4 ;;
  x_answer <- mdense0 TyD d_Answer_dense 0%Q ;;
  x_mask <- mdense TyD d_Ones_3x4 ;;
  x_result_1 <- t_opt_mxm TyD noacc TyD (mkSr qplus qtimes TyD) (MVal (Other x_mask)) MERGE x_result
    (OTrn (Other x_A)) (OTrn (Other x_B)) ;;
  x_q <- meq x_result_1 x_answer ;;
  _ <- check x_q ;;
  Ok tt) = Ok tt.
Proof. vm_compute. reflexivity. Qed.

(** test_mxm_ATBT.cpp:737-752 *)
Example test_mxm_Mask_NoAccum_ATBT_mask_not_full :
 (x_A <- mdense0 TyD d_AT_dense_3x3 0%Q ;;
  x_B <- mdense0 TyD d_BT_dense_3x4 0%Q ;;
  x_answer <- mdense0 TyD d_Answer_dense 0%Q ;;
  x_result <- mnew 3 4 ;;
  x_mask <- mdense0 TyD d_Answer_dense 0%Q ;;
  x_result_1 <- t_mxm TyD noacc (mkSr qplus qtimes TyD) (MVal x_mask) MERGE x_result (Trn x_A) (Trn
    x_B) ;;
  x_q <- meq x_result_1 x_answer ;;
  _ <- check x_q ;;
  Ok tt) = Ok tt.
Proof. vm_compute. reflexivity. Qed.

(** test_mxm_ATBT.cpp:737-752, optimized_sequential platform *)
Example test_mxm_Mask_NoAccum_ATBT_mask_not_full_opt :
 (x_A <- mdense0 TyD d_AT_dense_3x3 0%Q ;;
  x_B <- mdense0 TyD d_BT_dense_3x4 0%Q ;;
  x_answer <- mdense0 TyD d_Answer_dense 0%Q ;;
  x_result <- mnew 3 4 ;;
  x_mask <- mdense0 TyD d_Answer_dense 0%Q ;;
  x_result_1 <- t_opt_mxm TyD noacc TyD (mkSr qplus qtimes TyD) (MVal (Other x_mask)) MERGE x_result
    (OTrn (Other x_A)) (OTrn (Other x_B)) ;;
  x_q <- meq x_result_1 x_answer ;;
  _ <- check x_q ;;
  Ok tt) = Ok tt.
Proof. vm_compute. reflexivity. Qed.

(** test_mxm_ATBT.cpp:755-776 *)
Example test_mxm_Mask_NoAccum_ATBT_Merge_Cones_Mlower_stored_zero :
 (x_A <- mdense0 TyD d_AT_dense_3x3 0%Q ;;
  x_B <- mdense0 TyD d_BT_dense_3x4 0%Q ;;
  x_M <- mdense0 TyD d_Lower_3x4 0%Q ;;
  x_M_1 <- lil_setElement x_M 0 1 (cast TyD 0%Q) ;;
  _ <- check (Qeq_bool (inject_Z (nvals x_M_1)) 7%Q) ;;
  x_result <- mdense0 TyD d_Ones_3x4 0%Q ;;
  x_answer <- mdense0 TyD [[114; 1; 1; 1]; [74; 97; 1; 1]; [119; 157; 112; 1]]%Q 0%Q ;;
  x_result_1 <- t_mxm TyD noacc (mkSr qplus qtimes TyD) (MVal x_M_1) MERGE x_result (Trn x_A) (Trn
    x_B) ;;
  _ <- check (Qeq_bool (inject_Z (nvals x_result_1)) 12%Q) ;;
  x_q <- meq x_result_1 x_answer ;;
  _ <- check x_q ;;
  Ok tt) = Ok tt.
Proof. vm_compute. reflexivity. Qed.

(** test_mxm_ATBT.cpp:755-776, optimized_sequential platform *)
Example test_mxm_Mask_NoAccum_ATBT_Merge_Cones_Mlower_stored_zero_opt :
 (x_A <- mdense0 TyD d_AT_dense_3x3 0%Q ;;
  x_B <- mdense0 TyD d_BT_dense_3x4 0%Q ;;
  x_M <- mdense0 TyD d_Lower_3x4 0%Q ;;
  x_M_1 <- lil_setElement x_M 0 1 (cast TyD 0%Q) ;;
  _ <- check (Qeq_bool (inject_Z (nvals x_M_1)) 7%Q) ;;
  x_result <- mdense0 TyD d_Ones_3x4 0%Q ;;
  x_answer <- mdense0 TyD [[114; 1; 1; 1]; [74; 97; 1; 1]; [119; 157; 112; 1]]%Q 0%Q ;;
  x_result_1 <- t_opt_mxm TyD noacc TyD (mkSr qplus qtimes TyD) (MVal (Other x_M_1)) MERGE x_result
    (OTrn (Other x_A)) (OTrn (Other x_B)) ;;
  _ <- check (Qeq_bool (inject_Z (nvals x_result_1)) 12%Q) ;;
  x_q <- meq x_result_1 x_answer ;;
  _ <- check x_q ;;
  Ok tt) = Ok tt.
Proof. vm_compute. reflexivity. Qed.

(** test_mxm_ATBT.cpp:779-821 *)
Example test_mxm_Mask_NoAccum_ATBT_emptyRowA_emptyColB :
 (x_A <- mdense0 TyD [[8; 0; 4]; [1; 0; 9]; [6; 0; 2]]%Q 0%Q ;;
  x_B <- mdense0 TyD [[0; 1; 0]; [0; 0; 0]; [0; 1; 1]; [1; 1; 1]]%Q 0%Q ;;
  x_Lower <- mdense0 TyD d_Lower_3x4 0%Q ;;
  x_Ones <- mdense0 TyD d_Ones_3x4 0%Q ;;
  x_C <- mnew 3 4 ;;
  x_answer <- mdense0 TyD [[1; 0; 0; 0]; [0; 0; 0; 0]; [9; 0; 11; 0]]%Q 0%Q ;;
  x_C_1 <- lil_assign x_C x_Ones ;;
  x_C_2 <- t_mxm TyD noacc (mkSr qplus qtimes TyD) (MVal x_Lower) REPLACE x_C_1 (Trn x_A) (Trn x_B)
    ;;
  x_q <- meq x_C_2 x_answer ;;
  _ <- check x_q ;;
  x_answer2 <- mdense0 TyD [[1; 1; 1; 1]; [0; 0; 1; 1]; [9; 0; 11; 1]]%Q 0%Q ;;
  x_C_3 <- lil_assign x_C_2 x_Ones ;;
  x_C_4 <- t_mxm TyD noacc (mkSr qplus qtimes TyD) (MVal x_Lower) MERGE x_C_3 (Trn x_A) (Trn x_B) ;;
  x_q_1 <- meq x_C_4 x_answer2 ;;
  _ <- check x_q_1 ;;
  Ok tt) = Ok tt.
Proof. vm_compute. reflexivity. Qed.

(** test_mxm_ATBT.cpp:779-821, optimized_sequential platform *)
Example test_mxm_Mask_NoAccum_ATBT_emptyRowA_emptyColB_opt :
 (x_A <- mdense0 TyD [[8; 0; 4]; [1; 0; 9]; [6; 0; 2]]%Q 0%Q ;;
  x_B <- mdense0 TyD [[0; 1; 0]; [0; 0; 0]; [0; 1; 1]; [1; 1; 1]]%Q 0%Q ;;
  x_Lower <- mdense0 TyD d_Lower_3x4 0%Q ;;
  x_Ones <- mdense0 TyD d_Ones_3x4 0%Q ;;
  x_C <- mnew 3 4 ;;
  x_answer <- mdense0 TyD [[1; 0; 0; 0]; [0; 0; 0; 0]; [9; 0; 11; 0]]%Q 0%Q ;;
  x_C_1 <- lil_assign x_C x_Ones ;;
  x_C_2 <- t_opt_mxm TyD noacc TyD (mkSr qplus qtimes TyD) (MVal (Other x_Lower)) REPLACE x_C_1
    (OTrn (Other x_A)) (OTrn (Other x_B)) ;;
  x_q <- meq x_C_2 x_answer ;;
  _ <- check x_q ;;
  x_answer2 <- mdense0 TyD [[1; 1; 1; 1]; [0; 0; 1; 1]; [9; 0; 11; 1]]%Q 0%Q ;;
  x_C_3 <- lil_assign x_C_2 x_Ones ;;
  x_C_4 <- t_opt_mxm TyD noacc TyD (mkSr qplus qtimes TyD) (MVal (Other x_Lower)) MERGE x_C_3 (OTrn
    (Other x_A)) (OTrn (Other x_B)) ;;
  x_q_1 <- meq x_C_4 x_answer2 ;;
  _ <- check x_q_1 ;;
  Ok tt) = Ok tt.
Proof. vm_compute. reflexivity. Qed.

(** test_mxm_ATBT.cpp:824-866 *)
Example test_mxm_Mask_NoAccum_ATBT_emptyColA_emptyRowB :
 (x_A <- mdense0 TyD [[8; 1; 4]; [0; 0; 0]; [6; 9; 2]]%Q 0%Q ;;
  x_B <- mdense0 TyD [[0; 1; 0]; [1; 0; 0]; [0; 1; 0]; [1; 1; 0]]%Q 0%Q ;;
  x_Lower <- mdense0 TyD d_Lower_3x4 0%Q ;;
  x_Ones <- mdense0 TyD d_Ones_3x4 0%Q ;;
  x_C <- mnew 3 4 ;;
  x_answer <- mdense0 TyD [[0; 0; 0; 0]; [0; 1; 0; 0]; [0; 4; 0; 0]]%Q 0%Q ;;
  x_C_1 <- lil_assign x_C x_Ones ;;
  x_C_2 <- t_mxm TyD noacc (mkSr qplus qtimes TyD) (MVal x_Lower) REPLACE x_C_1 (Trn x_A) (Trn x_B)
    ;;
  x_q <- meq x_C_2 x_answer ;;
  _ <- check x_q ;;
  x_answer2 <- mdense0 TyD [[0; 1; 1; 1]; [0; 1; 1; 1]; [0; 4; 0; 1]]%Q 0%Q ;;
  x_C_3 <- lil_assign x_C_2 x_Ones ;;
  x_C_4 <- t_mxm TyD noacc (mkSr qplus qtimes TyD) (MVal x_Lower) MERGE x_C_3 (Trn x_A) (Trn x_B) ;;
  x_q_1 <- meq x_C_4 x_answer2 ;;
  _ <- check x_q_1 ;;
  Ok tt) = Ok tt.
Proof. vm_compute. reflexivity. Qed.

(** test_mxm_ATBT.cpp:824-866, optimized_sequential platform *)
Example test_mxm_Mask_NoAccum_ATBT_emptyColA_emptyRowB_opt :
 (x_A <- mdense0 TyD [[8; 1; 4]; [0; 0; 0]; [6; 9; 2]]%Q 0%Q ;;
  x_B <- mdense0 TyD [[0; 1; 0]; [1; 0; 0]; [0; 1; 0]; [1; 1; 0]]%Q 0%Q ;;
  x_Lower <- mdense0 TyD d_Lower_3x4 0%Q ;;
  x_Ones <- mdense0 TyD d_Ones_3x4 0%Q ;;
  x_C <- mnew 3 4 ;;
  x_answer <- mdense0 TyD [[0; 0; 0; 0]; [0; 1; 0; 0]; [0; 4; 0; 0]]%Q 0%Q ;;
  x_C_1 <- lil_assign x_C x_Ones ;;
  x_C_2 <- t_opt_mxm TyD noacc TyD (mkSr qplus qtimes TyD) (MVal (Other x_Lower)) REPLACE x_C_1
    (OTrn (Other x_A)) (OTrn (Other x_B)) ;;
  x_q <- meq x_C_2 x_answer ;;
  _ <- check x_q ;;
  x_answer2 <- mdense0 TyD [[0; 1; 1; 1]; [0; 1; 1; 1]; [0; 4; 0; 1]]%Q 0%Q ;;
  x_C_3 <- lil_assign x_C_2 x_Ones ;;
  x_C_4 <- t_opt_mxm TyD noacc TyD (mkSr qplus qtimes TyD) (MVal (Other x_Lower)) MERGE x_C_3 (OTrn
    (Other x_A)) (OTrn (Other x_B)) ;;
  x_q_1 <- meq x_C_4 x_answer2 ;;
  _ <- check x_q_1 ;;
  Ok tt) = Ok tt.
Proof. vm_compute. reflexivity. Qed.

(** test_mxm_ATBT.cpp:869-910 *)
Example test_mxm_Mask_NoAccum_ATBT_emptyRowM :
 (x_A <- mdense0 TyD [[8; 0; 4]; [1; 0; 9]; [6; 0; 2]]%Q 0%Q ;;
  x_B <- mdense0 TyD [[0; 1; 0]; [0; 0; 0]; [0; 1; 1]]%Q 0%Q ;;
  x_NotLower <- mdense0 TyD d_NotLower_3x3 0%Q ;;
  x_Ones <- mdense0 TyD d_Ones_3x3 0%Q ;;
  x_C <- mnew 3 3 ;;
  x_answer <- mdense0 TyD [[0; 0; 7]; [0; 0; 0]; [0; 0; 0]]%Q 0%Q ;;
  x_C_1 <- lil_assign x_C x_Ones ;;
  x_C_2 <- t_mxm TyD noacc (mkSr qplus qtimes TyD) (MVal x_NotLower) REPLACE x_C_1 (Trn x_A) (Trn
    x_B) ;;
  x_q <- meq x_C_2 x_answer ;;
  _ <- check x_q ;;
  x_answer2 <- mdense0 TyD [[1; 0; 7]; [1; 1; 0]; [1; 1; 1]]%Q 0%Q ;;
  x_C_3 <- lil_assign x_C_2 x_Ones ;;
  x_C_4 <- t_mxm TyD noacc (mkSr qplus qtimes TyD) (MVal x_NotLower) MERGE x_C_3 (Trn x_A) (Trn x_B)
    ;;
  x_q_1 <- meq x_C_4 x_answer2 ;;
  _ <- check x_q_1 ;;
  Ok tt) = Ok tt.
Proof. vm_compute. reflexivity. Qed.

(** test_mxm_ATBT.cpp:869-910, optimized_sequential platform *)
Example test_mxm_Mask_NoAccum_ATBT_emptyRowM_opt :
 (x_A <- mdense0 TyD [[8; 0; 4]; [1; 0; 9]; [6; 0; 2]]%Q 0%Q ;;
  x_B <- mdense0 TyD [[0; 1; 0]; [0; 0; 0]; [0; 1; 1]]%Q 0%Q ;;
  x_NotLower <- mdense0 TyD d_NotLower_3x3 0%Q ;;
  x_Ones <- mdense0 TyD d_Ones_3x3 0%Q ;;
  x_C <- mnew 3 3 ;;
  x_answer <- mdense0 TyD [[0; 0; 7]; [0; 0; 0]; [0; 0; 0]]%Q 0%Q ;;
  x_C_1 <- lil_assign x_C x_Ones ;;
  x_C_2 <- t_opt_mxm TyD noacc TyD (mkSr qplus qtimes TyD) (MVal (Other x_NotLower)) REPLACE x_C_1
    (OTrn (Other x_A)) (OTrn (Other x_B)) ;;
  x_q <- meq x_C_2 x_answer ;;
  _ <- check x_q ;;
  x_answer2 <- mdense0 TyD [[1; 0; 7]; [1; 1; 0]; [1; 1; 1]]%Q 0%Q ;;
  x_C_3 <- lil_assign x_C_2 x_Ones ;;
  x_C_4 <- t_opt_mxm TyD noacc TyD (mkSr qplus qtimes TyD) (MVal (Other x_NotLower)) MERGE x_C_3
    (OTrn (Other x_A)) (OTrn (Other x_B)) ;;
  x_q_1 <- meq x_C_4 x_answer2 ;;
  _ <- check x_q_1 ;;
  Ok tt) = Ok tt.
Proof. vm_compute. reflexivity. Qed.

(** test_mxm_ATBT.cpp:913-951 *)
Example test_mxm_Mask_NoAccum_ATBT_ABdup :
 (x_mat <- mdense0 TyD d_Symmetric_4x4 0%Q ;;
  x_Lower <- mdense0 TyD d_Lower_4x4 0%Q ;;
  x_Ones <- mdense0 TyD d_Ones_4x4 0%Q ;;
  x_C <- mnew 4 4 ;;
  x_answer <- mdense0 TyD [[2; 1; 1; 1]; [3; 9; 1; 1]; [2; 10; 22; 1]; [0; 6; 21; 25]]%Q 0%Q ;;
  x_C_1 <- lil_assign x_C x_Ones ;;
  x_C_2 <- t_mxm TyD noacc (mkSr qplus qtimes TyD) (MVal x_Lower) MERGE x_C_1 (Trn x_mat) (Trn
    x_mat) ;;
  x_q <- meq x_C_2 x_answer ;;
  _ <- check x_q ;;
  x_answer2 <- mdense0 TyD [[2; 0; 0; 0]; [3; 9; 0; 0]; [2; 10; 22; 0]; [0; 6; 21; 25]]%Q 0%Q ;;
  x_C_3 <- lil_assign x_C_2 x_Ones ;;
  x_C_4 <- t_mxm TyD noacc (mkSr qplus qtimes TyD) (MVal x_Lower) REPLACE x_C_3 (Trn x_mat) (Trn
    x_mat) ;;
  x_q_1 <- meq x_C_4 x_answer2 ;;
  _ <- check x_q_1 ;;
  Ok tt) = Ok tt.
Proof. vm_compute. reflexivity. Qed.

(** test_mxm_ATBT.cpp:913-951, optimized_sequential platform *)
Example test_mxm_Mask_NoAccum_ATBT_ABdup_opt :
 (x_mat <- mdense0 TyD d_Symmetric_4x4 0%Q ;;
  x_Lower <- mdense0 TyD d_Lower_4x4 0%Q ;;
  x_Ones <- mdense0 TyD d_Ones_4x4 0%Q ;;
  x_C <- mnew 4 4 ;;
  x_answer <- mdense0 TyD [[2; 1; 1; 1]; [3; 9; 1; 1]; [2; 10; 22; 1]; [0; 6; 21; 25]]%Q 0%Q ;;
  x_C_1 <- lil_assign x_C x_Ones ;;
  x_C_2 <- t_opt_mxm TyD noacc TyD (mkSr qplus qtimes TyD) (MVal (Other x_Lower)) MERGE x_C_1 (OTrn
    (Other x_mat)) (OTrn (Other x_mat)) ;;
  x_q <- meq x_C_2 x_answer ;;
  _ <- check x_q ;;
  x_answer2 <- mdense0 TyD [[2; 0; 0; 0]; [3; 9; 0; 0]; [2; 10; 22; 0]; [0; 6; 21; 25]]%Q 0%Q ;;
  x_C_3 <- lil_assign x_C_2 x_Ones ;;
  x_C_4 <- t_opt_mxm TyD noacc TyD (mkSr qplus qtimes TyD) (MVal (Other x_Lower)) REPLACE x_C_3
    (OTrn (Other x_mat)) (OTrn (Other x_mat)) ;;
  x_q_1 <- meq x_C_4 x_answer2 ;;
  _ <- check x_q_1 ;;
  Ok tt) = Ok tt.
Proof. vm_compute. reflexivity. Qed.

(** test_mxm_ATBT.cpp:954-992 *)
Example test_mxm_Mask_NoAccum_ATBT_ACdup :
 (x_mat <- mdense0 TyD d_Symmetric_4x4 0%Q ;;
  x_Lower <- mdense0 TyD d_Lower_4x4 0%Q ;;
  x_Ones <- mdense0 TyD d_Ones_4x4 0%Q ;;
  x_C <- mnew 4 4 ;;
  x_answer <- mdense0 TyD [[2; 1; 0; 0]; [3; 9; 2; 0]; [2; 10; 22; 3]; [0; 6; 21; 25]]%Q 0%Q ;;
  x_C_1 <- lil_assign x_C x_mat ;;
  x_C_2 <- t_mxm TyD noacc (mkSr qplus qtimes TyD) (MVal x_Lower) MERGE x_C_1 (Trn x_C_1) (Trn
    x_mat) ;;
  x_q <- meq x_C_2 x_answer ;;
  _ <- check x_q ;;
  x_answer2 <- mdense0 TyD [[2; 0; 0; 0]; [3; 9; 0; 0]; [2; 10; 22; 0]; [0; 6; 21; 25]]%Q 0%Q ;;
  x_C_3 <- lil_assign x_C_2 x_mat ;;
  x_C_4 <- t_mxm TyD noacc (mkSr qplus qtimes TyD) (MVal x_Lower) REPLACE x_C_3 (Trn x_C_3) (Trn
    x_mat) ;;
  x_q_1 <- meq x_C_4 x_answer2 ;;
  _ <- check x_q_1 ;;
  Ok tt) = Ok tt.
Proof. vm_compute. reflexivity. Qed.

(** test_mxm_ATBT.cpp:954-992, optimized_sequential platform *)
Example test_mxm_Mask_NoAccum_ATBT_ACdup_opt :
 (x_mat <- mdense0 TyD d_Symmetric_4x4 0%Q ;;
  x_Lower <- mdense0 TyD d_Lower_4x4 0%Q ;;
  x_Ones <- mdense0 TyD d_Ones_4x4 0%Q ;;
  x_C <- mnew 4 4 ;;
  x_answer <- mdense0 TyD [[2; 1; 0; 0]; [3; 9; 2; 0]; [2; 10; 22; 3]; [0; 6; 21; 25]]%Q 0%Q ;;
  x_C_1 <- lil_assign x_C x_mat ;;
  x_C_2 <- t_opt_mxm TyD noacc TyD (mkSr qplus qtimes TyD) (MVal (Other x_Lower)) MERGE x_C_1 (OTrn
    (TheOutput (fun x => x))) (OTrn (Other x_mat)) ;;
  x_q <- meq x_C_2 x_answer ;;
  _ <- check x_q ;;
  x_answer2 <- mdense0 TyD [[2; 0; 0; 0]; [3; 9; 0; 0]; [2; 10; 22; 0]; [0; 6; 21; 25]]%Q 0%Q ;;
  x_C_3 <- lil_assign x_C_2 x_mat ;;
  x_C_4 <- t_opt_mxm TyD noacc TyD (mkSr qplus qtimes TyD) (MVal (Other x_Lower)) REPLACE x_C_3
    (OTrn (TheOutput (fun x => x))) (OTrn (Other x_mat)) ;;
  x_q_1 <- meq x_C_4 x_answer2 ;;
  _ <- check x_q_1 ;;
  Ok tt) = Ok tt.
Proof. vm_compute. reflexivity. Qed.

(** test_mxm_ATBT.cpp:995-1042 *)
Example test_mxm_Mask_NoAccum_ATBT_BCdup :
 (x_mat <- mdense0 TyD d_Symmetric_4x4 0%Q ;;
  x_Lower <- mdense0 TyD d_Lower_4x4 0%Q ;;
  x_Ones <- mdense0 TyD d_Ones_4x4 0%Q ;;
  x_C <- mnew 4 4 ;;
  x_answer <- mdense0 TyD [[2; 1; 0; 0]; [3; 9; 2; 0]; [2; 10; 22; 3]; [0; 6; 21; 25]]%Q 0%Q ;;
  x_C_1 <- lil_assign x_C x_mat ;;
  x_C_2 <- t_mxm TyD noacc (mkSr qplus qtimes TyD) (MVal x_Lower) MERGE x_C_1 (Trn x_mat) (Trn
    x_C_1) ;;
  x_q <- meq x_C_2 x_answer ;;
  _ <- check x_q ;;
  x_C_3 <- lil_assign x_C_2 x_mat ;;
  x_C_4 <- t_mxm TyD noacc (mkSr qplus qtimes TyD) (MVal x_Lower) MERGE x_C_3 (Trn x_mat) (Trn
    x_mat) ;;
  x_q_1 <- meq x_C_4 x_answer ;;
  _ <- check x_q_1 ;;
  x_answer2 <- mdense0 TyD [[2; 0; 0; 0]; [3; 9; 0; 0]; [2; 10; 22; 0]; [0; 6; 21; 25]]%Q 0%Q ;;
  x_C_5 <- lil_assign x_C_4 x_mat ;;
  x_C_6 <- t_mxm TyD noacc (mkSr qplus qtimes TyD) (MVal x_Lower) REPLACE x_C_5 (Trn x_mat) (Trn
    x_C_5) ;;
  x_q_2 <- meq x_C_6 x_answer2 ;;
  _ <- check x_q_2 ;;
  Ok tt) = Ok tt.
Proof. vm_compute. reflexivity. Qed.

(** test_mxm_ATBT.cpp:995-1042, optimized_sequential platform *)
Example test_mxm_Mask_NoAccum_ATBT_BCdup_opt :
 (x_mat <- mdense0 TyD d_Symmetric_4x4 0%Q ;;
  x_Lower <- mdense0 TyD d_Lower_4x4 0%Q ;;
  x_Ones <- mdense0 TyD d_Ones_4x4 0%Q ;;
  x_C <- mnew 4 4 ;;
  x_answer <- mdense0 TyD [[2; 1; 0; 0]; [3; 9; 2; 0]; [2; 10; 22; 3]; [0; 6; 21; 25]]%Q 0%Q ;;
  x_C_1 <- lil_assign x_C x_mat ;;
  x_C_2 <- t_opt_mxm TyD noacc TyD (mkSr qplus qtimes TyD) (MVal (Other x_Lower)) MERGE x_C_1 (OTrn
    (Other x_mat)) (OTrn (TheOutput (fun x => x))) ;;
  x_q <- meq x_C_2 x_answer ;;
  _ <- check x_q ;;
  x_C_3 <- lil_assign x_C_2 x_mat ;;
  x_C_4 <- t_opt_mxm TyD noacc TyD (mkSr qplus qtimes TyD) (MVal (Other x_Lower)) MERGE x_C_3 (OTrn
    (Other x_mat)) (OTrn (Other x_mat)) ;;
  x_q_1 <- meq x_C_4 x_answer ;;
  _ <- check x_q_1 ;;
  x_answer2 <- mdense0 TyD [[2; 0; 0; 0]; [3; 9; 0; 0]; [2; 10; 22; 0]; [0; 6; 21; 25]]%Q 0%Q ;;
  x_C_5 <- lil_assign x_C_4 x_mat ;;
  x_C_6 <- t_opt_mxm TyD noacc TyD (mkSr qplus qtimes TyD) (MVal (Other x_Lower)) REPLACE x_C_5
    (OTrn (Other x_mat)) (OTrn (TheOutput (fun x => x))) ;;
  x_q_2 <- meq x_C_6 x_answer2 ;;
  _ <- check x_q_2 ;;
  Ok tt) = Ok tt.
Proof. vm_compute. reflexivity. Qed.

(** test_mxm_ATBT.cpp:1045-1082 *)
Example test_mxm_Mask_NoAccum_ATBT_MCdup :
 (x_mat <- mdense0 TyD d_Symmetric_4x4 0%Q ;;
  x_Lower <- mdense0 TyD d_Lower_4x4 0%Q ;;
  x_C <- mnew 4 4 ;;
  x_answer <- mdense0 TyD [[2; 0; 0; 0]; [3; 9; 0; 0]; [2; 10; 22; 0]; [0; 6; 21; 25]]%Q 0%Q ;;
  x_C_1 <- lil_assign x_C x_Lower ;;
  x_C_2 <- t_mxm TyD noacc (mkSr qplus qtimes TyD) (MVal x_C_1) MERGE x_C_1 (Trn x_mat) (Trn x_mat)
    ;;
  x_q <- meq x_C_2 x_answer ;;
  _ <- check x_q ;;
  x_answer2 <- mdense0 TyD [[2; 0; 0; 0]; [3; 9; 0; 0]; [2; 10; 22; 0]; [0; 6; 21; 25]]%Q 0%Q ;;
  x_C_3 <- lil_assign x_C_2 x_Lower ;;
  x_C_4 <- t_mxm TyD noacc (mkSr qplus qtimes TyD) (MVal x_C_3) REPLACE x_C_3 (Trn x_mat) (Trn
    x_mat) ;;
  x_q_1 <- meq x_C_4 x_answer2 ;;
  _ <- check x_q_1 ;;
  Ok tt) = Ok tt.
Proof. vm_compute. reflexivity. Qed.

(** test_mxm_ATBT.cpp:1045-1082, optimized_sequential platform *)
Example test_mxm_Mask_NoAccum_ATBT_MCdup_opt :
 (x_mat <- mdense0 TyD d_Symmetric_4x4 0%Q ;;
  x_Lower <- mdense0 TyD d_Lower_4x4 0%Q ;;
  x_C <- mnew 4 4 ;;
  x_answer <- mdense0 TyD [[2; 0; 0; 0]; [3; 9; 0; 0]; [2; 10; 22; 0]; [0; 6; 21; 25]]%Q 0%Q ;;
  x_C_1 <- lil_assign x_C x_Lower ;;
  x_C_2 <- t_opt_mxm TyD noacc TyD (mkSr qplus qtimes TyD) (MVal (TheOutput (fun x => x))) MERGE
    x_C_1 (OTrn (Other x_mat)) (OTrn (Other x_mat)) ;;
  x_q <- meq x_C_2 x_answer ;;
  _ <- check x_q ;;
  x_answer2 <- mdense0 TyD [[2; 0; 0; 0]; [3; 9; 0; 0]; [2; 10; 22; 0]; [0; 6; 21; 25]]%Q 0%Q ;;
  x_C_3 <- lil_assign x_C_2 x_Lower ;;
  x_C_4 <- t_opt_mxm TyD noacc TyD (mkSr qplus qtimes TyD) (MVal (TheOutput (fun x => x))) REPLACE
    x_C_3 (OTrn (Other x_mat)) (OTrn (Other x_mat)) ;;
  x_q_1 <- meq x_C_4 x_answer2 ;;
  _ <- check x_q_1 ;;
  Ok tt) = Ok tt.
Proof. vm_compute. reflexivity. Qed.

(** test_mxm_ATBT.cpp:1089-1198 *)
Example test_mxm_Mask_Accum_ATBT :
 (x_A <- mdense0 TyD d_AT_sparse_3x3 0%Q ;;
  x_AT <- mdense0 TyD d_A_sparse_3x3 0%Q ;;
  x_Identity <- mdense0 TyD d_Identity_3x3 0%Q ;;
  x_Empty <- mnew 3 3 ;;
  x_Ones <- mdense0 TyD d_Ones_3x3 0%Q ;;
  x_C <- mnew 3 3 ;;
  x_MLower <- mdense0 TyD d_Lower_3x3 0%Q ;;
  x_MNotLower <- mdense0 TyD d_NotLower_3x3 0%Q ;;
  x_AFilled <- mdense0 TyD [[12; 7; 1]; [1; (-5); 1]; [7; 1; 9]]%Q 0%Q ;;
  x_C_1 <- lil_assign x_C x_Ones ;;
  x_C_2 <- t_mxm TyD (acc TyD qplus) (mkSr qplus qtimes TyD) (MVal x_Empty) MERGE x_C_1 (Trn x_A)
    (Trn x_Identity) ;;
  x_q <- meq x_C_2 x_Ones ;;
  _ <- check x_q ;;
  x_C_3 <- lil_assign x_C_2 x_Ones ;;
  x_C_4 <- t_mxm TyD (acc TyD qplus) (mkSr qplus qtimes TyD) (MVal x_AT) MERGE x_C_3 (Trn x_A) (Trn
    x_Identity) ;;
  x_t <- mdense0 TyD [[13; 8; 1]; [1; (-4); 1]; [8; 1; 10]]%Q 0%Q ;;
  x_q_1 <- meq x_C_4 x_t ;;
  _ <- check x_q_1 ;;
  x_C_5 <- lil_assign x_C_4 x_Ones ;;
  x_C_6 <- t_mxm TyD (acc TyD qplus) (mkSr qplus qtimes TyD) (MVal x_MLower) MERGE x_C_5 (Trn
    x_Ones) (Trn x_Identity) ;;
  x_t_1 <- mdense0 TyD [[2; 1; 1]; [2; 2; 1]; [2; 2; 2]]%Q 0%Q ;;
  x_q_2 <- meq x_C_6 x_t_1 ;;
  _ <- check x_q_2 ;;
  x_C_7 <- lil_assign x_C_6 x_Ones ;;
  x_C_8 <- t_mxm TyD (acc TyD qplus) (mkSr qplus qtimes TyD) (MVal x_MNotLower) MERGE x_C_7 (Trn
    x_Ones) (Trn x_Identity) ;;
  x_t_2 <- mdense0 TyD [[1; 2; 2]; [1; 1; 2]; [1; 1; 1]]%Q 0%Q ;;
  x_q_3 <- meq x_C_8 x_t_2 ;;
  _ <- check x_q_3 ;;
  x_C_9 <- lil_assign x_C_8 x_Ones ;;
  x_C_10 <- t_mxm TyD (acc TyD qplus) (mkSr qplus qtimes TyD) (MVal x_Empty) REPLACE x_C_9 (Trn x_A)
    (Trn x_Identity) ;;
  x_q_4 <- meq x_C_10 x_Empty ;;
  _ <- check x_q_4 ;;
  x_C_11 <- lil_assign x_C_10 x_Ones ;;
  x_C_12 <- t_mxm TyD (acc TyD qplus) (mkSr qplus qtimes TyD) (MVal x_Ones) REPLACE x_C_11 (Trn x_A)
    (Trn x_Identity) ;;
  x_t_3 <- mdense0 TyD [[13; 8; 1]; [1; (-4); 1]; [8; 1; 10]]%Q 0%Q ;;
  x_q_5 <- meq x_C_12 x_t_3 ;;
  _ <- check x_q_5 ;;
  x_C_13 <- lil_assign x_C_12 x_Ones ;;
  x_C_14 <- t_mxm TyD (acc TyD qplus) (mkSr qplus qtimes TyD) (MVal x_MLower) REPLACE x_C_13 (Trn
    x_Ones) (Trn x_Identity) ;;
  x_t_4 <- mdense0 TyD [[2; 0; 0]; [2; 2; 0]; [2; 2; 2]]%Q 0%Q ;;
  x_q_6 <- meq x_C_14 x_t_4 ;;
  _ <- check x_q_6 ;;
  x_C_15 <- lil_assign x_C_14 x_Ones ;;
  x_C_16 <- t_mxm TyD (acc TyD qplus) (mkSr qplus qtimes TyD) (MVal x_MNotLower) REPLACE x_C_15 (Trn
    x_Ones) (Trn x_Identity) ;;
  x_t_5 <- mdense0 TyD [[0; 2; 2]; [0; 0; 2]; [0; 0; 0]]%Q 0%Q ;;
  x_q_7 <- meq x_C_16 x_t_5 ;;
  _ <- check x_q_7 ;;
  Ok tt) = Ok tt.
Proof. vm_compute. reflexivity. Qed.

(** test_mxm_ATBT.cpp:1089-1198, optimized_sequential platform *)
Example test_mxm_Mask_Accum_ATBT_opt :
 (x_A <- mdense0 TyD d_AT_sparse_3x3 0%Q ;;
  x_AT <- mdense0 TyD d_A_sparse_3x3 0%Q ;;
  x_Identity <- mdense0 TyD d_Identity_3x3 0%Q ;;
  x_Empty <- mnew 3 3 ;;
  x_Ones <- mdense0 TyD d_Ones_3x3 0%Q ;;
  x_C <- mnew 3 3 ;;
  x_MLower <- mdense0 TyD d_Lower_3x3 0%Q ;;
  x_MNotLower <- mdense0 TyD d_NotLower_3x3 0%Q ;;
  x_AFilled <- mdense0 TyD [[12; 7; 1]; [1; (-5); 1]; [7; 1; 9]]%Q 0%Q ;;
  x_C_1 <- lil_assign x_C x_Ones ;;
  x_C_2 <- t_opt_mxm TyD (acc TyD qplus) TyD (mkSr qplus qtimes TyD) (MVal (Other x_Empty)) MERGE
    x_C_1 (OTrn (Other x_A)) (OTrn (Other x_Identity)) ;;
  x_q <- meq x_C_2 x_Ones ;;
  _ <- check x_q ;;
  x_C_3 <- lil_assign x_C_2 x_Ones ;;
  x_C_4 <- t_opt_mxm TyD (acc TyD qplus) TyD (mkSr qplus qtimes TyD) (MVal (Other x_AT)) MERGE x_C_3
    (OTrn (Other x_A)) (OTrn (Other x_Identity)) ;;
  x_t <- mdense0 TyD [[13; 8; 1]; [1; (-4); 1]; [8; 1; 10]]%Q 0%Q ;;
  x_q_1 <- meq x_C_4 x_t ;;
  _ <- check x_q_1 ;;
  x_C_5 <- lil_assign x_C_4 x_Ones ;;
  x_C_6 <- t_opt_mxm TyD (acc TyD qplus) TyD (mkSr qplus qtimes TyD) (MVal (Other x_MLower)) MERGE
    x_C_5 (OTrn (Other x_Ones)) (OTrn (Other x_Identity)) ;;
  x_t_1 <- mdense0 TyD [[2; 1; 1]; [2; 2; 1]; [2; 2; 2]]%Q 0%Q ;;
  x_q_2 <- meq x_C_6 x_t_1 ;;
  _ <- check x_q_2 ;;
  x_C_7 <- lil_assign x_C_6 x_Ones ;;
  x_C_8 <- t_opt_mxm TyD (acc TyD qplus) TyD (mkSr qplus qtimes TyD) (MVal (Other x_MNotLower))
    MERGE x_C_7 (OTrn (Other x_Ones)) (OTrn (Other x_Identity)) ;;
  x_t_2 <- mdense0 TyD [[1; 2; 2]; [1; 1; 2]; [1; 1; 1]]%Q 0%Q ;;
  x_q_3 <- meq x_C_8 x_t_2 ;;
  _ <- check x_q_3 ;;
  x_C_9 <- lil_assign x_C_8 x_Ones ;;
  x_C_10 <- t_opt_mxm TyD (acc TyD qplus) TyD (mkSr qplus qtimes TyD) (MVal (Other x_Empty)) REPLACE
    x_C_9 (OTrn (Other x_A)) (OTrn (Other x_Identity)) ;;
  x_q_4 <- meq x_C_10 x_Empty ;;
  _ <- check x_q_4 ;;
  x_C_11 <- lil_assign x_C_10 x_Ones ;;
  x_C_12 <- t_opt_mxm TyD (acc TyD qplus) TyD (mkSr qplus qtimes TyD) (MVal (Other x_Ones)) REPLACE
    x_C_11 (OTrn (Other x_A)) (OTrn (Other x_Identity)) ;;
  x_t_3 <- mdense0 TyD [[13; 8; 1]; [1; (-4); 1]; [8; 1; 10]]%Q 0%Q ;;
  x_q_5 <- meq x_C_12 x_t_3 ;;
  _ <- check x_q_5 ;;
  x_C_13 <- lil_assign x_C_12 x_Ones ;;
  x_C_14 <- t_opt_mxm TyD (acc TyD qplus) TyD (mkSr qplus qtimes TyD) (MVal (Other x_MLower))
    REPLACE x_C_13 (OTrn (Other x_Ones)) (OTrn (Other x_Identity)) ;;
  x_t_4 <- mdense0 TyD [[2; 0; 0]; [2; 2; 0]; [2; 2; 2]]%Q 0%Q ;;
  x_q_6 <- meq x_C_14 x_t_4 ;;
  _ <- check x_q_6 ;;
  x_C_15 <- lil_assign x_C_14 x_Ones ;;
  x_C_16 <- t_opt_mxm TyD (acc TyD qplus) TyD (mkSr qplus qtimes TyD) (MVal (Other x_MNotLower))
    REPLACE x_C_15 (OTrn (Other x_Ones)) (OTrn (Other x_Identity)) ;;
  x_t_5 <- mdense0 TyD [[0; 2; 2]; [0; 0; 2]; [0; 0; 0]]%Q 0%Q ;;
  x_q_7 <- meq x_C_16 x_t_5 ;;
  _ <- check x_q_7 ;;
  Ok tt) = Ok tt.
Proof. vm_compute. reflexivity. Qed.

(** test_mxm_ATBT.cpp:1201-1248 *)
Example test_mxm_Mask_Accum_ATBTMempty :
 (x_Empty <- mnew 3 3 ;;
  x_Ones <- mdense0 TyD d_Ones_3x3 0%Q ;;
  x_C <- mnew 3 3 ;;
  x_M <- mdense0 TyB d_LowerBool_3x3 0%Q ;;
  x_C_1 <- lil_assign x_C x_Ones ;;
  x_C_2 <- t_mxm TyD (acc TyD qplus) (mkSr qplus qtimes TyD) (MVal x_M) MERGE x_C_1 (Trn x_Empty)
    (Trn x_Ones) ;;
  x_q <- meq x_C_2 x_Ones ;;
  _ <- check x_q ;;
  x_C_3 <- lil_assign x_C_2 x_Ones ;;
  x_C_4 <- t_mxm TyD (acc TyD qplus) (mkSr qplus qtimes TyD) (MVal x_M) MERGE x_C_3 (Trn x_Ones)
    (Trn x_Empty) ;;
  x_q_1 <- meq x_C_4 x_Ones ;;
  _ <- check x_q_1 ;;
  x_C_5 <- lil_assign x_C_4 x_Ones ;;
  x_C_6 <- t_mxm TyD (acc TyD qplus) (mkSr qplus qtimes TyD) (MVal x_Empty) MERGE x_C_5 (Trn x_Ones)
    (Trn x_Ones) ;;
  x_q_2 <- meq x_C_6 x_Ones ;;
  _ <- check x_q_2 ;;
  x_C_7 <- lil_assign x_C_6 x_Ones ;;
  x_C_8 <- t_mxm TyD (acc TyD qplus) (mkSr qplus qtimes TyD) (MVal x_M) REPLACE x_C_7 (Trn x_Empty)
    (Trn x_Ones) ;;
  x_t <- mdense0 TyD d_Lower_3x3 0%Q ;;
  x_q_3 <- meq x_C_8 x_t ;;
  _ <- check x_q_3 ;;
  x_C_9 <- lil_assign x_C_8 x_Ones ;;
  x_C_10 <- t_mxm TyD (acc TyD qplus) (mkSr qplus qtimes TyD) (MVal x_M) REPLACE x_C_9 (Trn x_Ones)
    (Trn x_Empty) ;;
  x_t_1 <- mdense0 TyD d_Lower_3x3 0%Q ;;
  x_q_4 <- meq x_C_10 x_t_1 ;;
  _ <- check x_q_4 ;;
  x_C_11 <- lil_assign x_C_10 x_Ones ;;
  x_C_12 <- t_mxm TyD (acc TyD qplus) (mkSr qplus qtimes TyD) (MVal x_Empty) REPLACE x_C_11 (Trn
    x_Ones) (Trn x_Empty) ;;
  x_q_5 <- meq x_C_12 x_Empty ;;
  _ <- check x_q_5 ;;
  Ok tt) = Ok tt.
Proof. vm_compute. reflexivity. Qed.

(** test_mxm_ATBT.cpp:1201-1248, optimized_sequential platform *)
Example test_mxm_Mask_Accum_ATBTMempty_opt :
 (x_Empty <- mnew 3 3 ;;
  x_Ones <- mdense0 TyD d_Ones_3x3 0%Q ;;
  x_C <- mnew 3 3 ;;
  x_M <- mdense0 TyB d_LowerBool_3x3 0%Q ;;
  x_C_1 <- lil_assign x_C x_Ones ;;
  x_C_2 <- t_opt_mxm TyD (acc TyD qplus) TyD (mkSr qplus qtimes TyD) (MVal (Other x_M)) MERGE x_C_1
    (OTrn (Other x_Empty)) (OTrn (Other x_Ones)) ;;
  x_q <- meq x_C_2 x_Ones ;;
  _ <- check x_q ;;
  x_C_3 <- lil_assign x_C_2 x_Ones ;;
  x_C_4 <- t_opt_mxm TyD (acc TyD qplus) TyD (mkSr qplus qtimes TyD) (MVal (Other x_M)) MERGE x_C_3
    (OTrn (Other x_Ones)) (OTrn (Other x_Empty)) ;;
  x_q_1 <- meq x_C_4 x_Ones ;;
  _ <- check x_q_1 ;;
  x_C_5 <- lil_assign x_C_4 x_Ones ;;
  x_C_6 <- t_opt_mxm TyD (acc TyD qplus) TyD (mkSr qplus qtimes TyD) (MVal (Other x_Empty)) MERGE
    x_C_5 (OTrn (Other x_Ones)) (OTrn (Other x_Ones)) ;;
  x_q_2 <- meq x_C_6 x_Ones ;;
  _ <- check x_q_2 ;;
  x_C_7 <- lil_assign x_C_6 x_Ones ;;
  x_C_8 <- t_opt_mxm TyD (acc TyD qplus) TyD (mkSr qplus qtimes TyD) (MVal (Other x_M)) REPLACE
    x_C_7 (OTrn (Other x_Empty)) (OTrn (Other x_Ones)) ;;
  x_t <- mdense0 TyD d_Lower_3x3 0%Q ;;
  x_q_3 <- meq x_C_8 x_t ;;
  _ <- check x_q_3 ;;
  x_C_9 <- lil_assign x_C_8 x_Ones ;;
  x_C_10 <- t_opt_mxm TyD (acc TyD qplus) TyD (mkSr qplus qtimes TyD) (MVal (Other x_M)) REPLACE
    x_C_9 (OTrn (Other x_Ones)) (OTrn (Other x_Empty)) ;;
  x_t_1 <- mdense0 TyD d_Lower_3x3 0%Q ;;
  x_q_4 <- meq x_C_10 x_t_1 ;;
  _ <- check x_q_4 ;;
  x_C_11 <- lil_assign x_C_10 x_Ones ;;
  x_C_12 <- t_opt_mxm TyD (acc TyD qplus) TyD (mkSr qplus qtimes TyD) (MVal (Other x_Empty)) REPLACE
    x_C_11 (OTrn (Other x_Ones)) (OTrn (Other x_Empty)) ;;
  x_q_5 <- meq x_C_12 x_Empty ;;
  _ <- check x_q_5 ;;
  Ok tt) = Ok tt.
Proof. vm_compute. reflexivity. Qed.

(** test_mxm_ATBT.cpp:1251-1293 *)
Example test_mxm_Mask_Accum_ATBT_emptyRowA_emptyColB :
 (x_A <- mdense0 TyD [[8; 0; 4]; [1; 0; 9]; [6; 0; 2]]%Q 0%Q ;;
  x_B <- mdense0 TyD [[0; 1; 0]; [0; 0; 0]; [0; 1; 1]; [1; 1; 1]]%Q 0%Q ;;
  x_Lower <- mdense0 TyD d_Lower_3x4 0%Q ;;
  x_Ones <- mdense0 TyD d_Ones_3x4 0%Q ;;
  x_C <- mnew 3 4 ;;
  x_answer <- mdense0 TyD [[2; 0; 0; 0]; [1; 1; 0; 0]; [10; 1; 12; 0]]%Q 0%Q ;;
  x_C_1 <- lil_assign x_C x_Ones ;;
  x_C_2 <- t_mxm TyD (acc TyD qplus) (mkSr qplus qtimes TyD) (MVal x_Lower) REPLACE x_C_1 (Trn x_A)
    (Trn x_B) ;;
  x_q <- meq x_C_2 x_answer ;;
  _ <- check x_q ;;
  x_answer2 <- mdense0 TyD [[2; 1; 1; 1]; [1; 1; 1; 1]; [10; 1; 12; 1]]%Q 0%Q ;;
  x_C_3 <- lil_assign x_C_2 x_Ones ;;
  x_C_4 <- t_mxm TyD (acc TyD qplus) (mkSr qplus qtimes TyD) (MVal x_Lower) MERGE x_C_3 (Trn x_A)
    (Trn x_B) ;;
  x_q_1 <- meq x_C_4 x_answer2 ;;
  _ <- check x_q_1 ;;
  Ok tt) = Ok tt.
Proof. vm_compute. reflexivity. Qed.

(** test_mxm_ATBT.cpp:1251-1293, optimized_sequential platform *)
Example test_mxm_Mask_Accum_ATBT_emptyRowA_emptyColB_opt :
 (x_A <- mdense0 TyD [[8; 0; 4]; [1; 0; 9]; [6; 0; 2]]%Q 0%Q ;;
  x_B <- mdense0 TyD [[0; 1; 0]; [0; 0; 0]; [0; 1; 1]; [1; 1; 1]]%Q 0%Q ;;
  x_Lower <- mdense0 TyD d_Lower_3x4 0%Q ;;
  x_Ones <- mdense0 TyD d_Ones_3x4 0%Q ;;
  x_C <- mnew 3 4 ;;
  x_answer <- mdense0 TyD [[2; 0; 0; 0]; [1; 1; 0; 0]; [10; 1; 12; 0]]%Q 0%Q ;;
  x_C_1 <- lil_assign x_C x_Ones ;;
  x_C_2 <- t_opt_mxm TyD (acc TyD qplus) TyD (mkSr qplus qtimes TyD) (MVal (Other x_Lower)) REPLACE
    x_C_1 (OTrn (Other x_A)) (OTrn (Other x_B)) ;;
  x_q <- meq x_C_2 x_answer ;;
  _ <- check x_q ;;
  x_answer2 <- mdense0 TyD [[2; 1; 1; 1]; [1; 1; 1; 1]; [10; 1; 12; 1]]%Q 0%Q ;;
  x_C_3 <- lil_assign x_C_2 x_Ones ;;
  x_C_4 <- t_opt_mxm TyD (acc TyD qplus) TyD (mkSr qplus qtimes TyD) (MVal (Other x_Lower)) MERGE
    x_C_3 (OTrn (Other x_A)) (OTrn (Other x_B)) ;;
  x_q_1 <- meq x_C_4 x_answer2 ;;
  _ <- check x_q_1 ;;
  Ok tt) = Ok tt.
Proof. vm_compute. reflexivity. Qed.

(** test_mxm_ATBT.cpp:1296-1339 *)
Example test_mxm_Mask_Accum_ATBT_emptyColA_emptyRowB :
 (x_A <- mdense0 TyD [[8; 1; 4]; [0; 0; 0]; [6; 9; 2]]%Q 0%Q ;;
  x_B <- mdense0 TyD [[0; 1; 0]; [1; 0; 0]; [0; 1; 0]; [1; 1; 0]]%Q 0%Q ;;
  x_Lower <- mdense0 TyD d_Lower_3x4 0%Q ;;
  x_Ones <- mdense0 TyD d_Ones_3x4 0%Q ;;
  x_C <- mnew 3 4 ;;
  x_answer <- mdense0 TyD [[1; 0; 0; 0]; [1; 2; 0; 0]; [1; 5; 1; 0]]%Q 0%Q ;;
  x_C_1 <- lil_assign x_C x_Ones ;;
  x_C_2 <- t_mxm TyD (acc TyD qplus) (mkSr qplus qtimes TyD) (MVal x_Lower) REPLACE x_C_1 (Trn x_A)
    (Trn x_B) ;;
  x_q <- meq x_C_2 x_answer ;;
  _ <- check x_q ;;
  x_answer2 <- mdense0 TyD [[1; 1; 1; 1]; [1; 2; 1; 1]; [1; 5; 1; 1]]%Q 0%Q ;;
  x_C_3 <- lil_assign x_C_2 x_Ones ;;
  x_C_4 <- t_mxm TyD (acc TyD qplus) (mkSr qplus qtimes TyD) (MVal x_Lower) MERGE x_C_3 (Trn x_A)
    (Trn x_B) ;;
  x_q_1 <- meq x_C_4 x_answer2 ;;
  _ <- check x_q_1 ;;
  Ok tt) = Ok tt.
Proof. vm_compute. reflexivity. Qed.

(** test_mxm_ATBT.cpp:1296-1339, optimized_sequential platform *)
Example test_mxm_Mask_Accum_ATBT_emptyColA_emptyRowB_opt :
 (x_A <- mdense0 TyD [[8; 1; 4]; [0; 0; 0]; [6; 9; 2]]%Q 0%Q ;;
  x_B <- mdense0 TyD [[0; 1; 0]; [1; 0; 0]; [0; 1; 0]; [1; 1; 0]]%Q 0%Q ;;
  x_Lower <- mdense0 TyD d_Lower_3x4 0%Q ;;
  x_Ones <- mdense0 TyD d_Ones_3x4 0%Q ;;
  x_C <- mnew 3 4 ;;
  x_answer <- mdense0 TyD [[1; 0; 0; 0]; [1; 2; 0; 0]; [1; 5; 1; 0]]%Q 0%Q ;;
  x_C_1 <- lil_assign x_C x_Ones ;;
  x_C_2 <- t_opt_mxm TyD (acc TyD qplus) TyD (mkSr qplus qtimes TyD) (MVal (Other x_Lower)) REPLACE
    x_C_1 (OTrn (Other x_A)) (OTrn (Other x_B)) ;;
  x_q <- meq x_C_2 x_answer ;;
  _ <- check x_q ;;
  x_answer2 <- mdense0 TyD [[1; 1; 1; 1]; [1; 2; 1; 1]; [1; 5; 1; 1]]%Q 0%Q ;;
  x_C_3 <- lil_assign x_C_2 x_Ones ;;
  x_C_4 <- t_opt_mxm TyD (acc TyD qplus) TyD (mkSr qplus qtimes TyD) (MVal (Other x_Lower)) MERGE
    x_C_3 (OTrn (Other x_A)) (OTrn (Other x_B)) ;;
  x_q_1 <- meq x_C_4 x_answer2 ;;
  _ <- check x_q_1 ;;
  Ok tt) = Ok tt.
Proof. vm_compute. reflexivity. Qed.

(** test_mxm_ATBT.cpp:1342-1384 *)
Example test_mxm_Mask_Accum_ATBT_emptyRowM :
 (x_A <- mdense0 TyD [[8; 0; 4]; [1; 0; 9]; [6; 0; 2]]%Q 0%Q ;;
  x_B <- mdense0 TyD [[0; 1; 0]; [0; 0; 0]; [0; 1; 1]]%Q 0%Q ;;
  x_NotLower <- mdense0 TyD d_NotLower_3x3 0%Q ;;
  x_Ones <- mdense0 TyD d_Ones_3x3 0%Q ;;
  x_C <- mnew 3 3 ;;
  x_answer <- mdense0 TyD [[0; 1; 8]; [0; 0; 1]; [0; 0; 0]]%Q 0%Q ;;
  x_C_1 <- lil_assign x_C x_Ones ;;
  x_C_2 <- t_mxm TyD (acc TyD qplus) (mkSr qplus qtimes TyD) (MVal x_NotLower) REPLACE x_C_1 (Trn
    x_A) (Trn x_B) ;;
  x_q <- meq x_C_2 x_answer ;;
  _ <- check x_q ;;
  x_answer2 <- mdense0 TyD [[1; 1; 8]; [1; 1; 1]; [1; 1; 1]]%Q 0%Q ;;
  x_C_3 <- lil_assign x_C_2 x_Ones ;;
  x_C_4 <- t_mxm TyD (acc TyD qplus) (mkSr qplus qtimes TyD) (MVal x_NotLower) MERGE x_C_3 (Trn x_A)
    (Trn x_B) ;;
  x_q_1 <- meq x_C_4 x_answer2 ;;
  _ <- check x_q_1 ;;
  Ok tt) = Ok tt.
Proof. vm_compute. reflexivity. Qed.

(** test_mxm_ATBT.cpp:1342-1384, optimized_sequential platform *)
Example test_mxm_Mask_Accum_ATBT_emptyRowM_opt :
 (x_A <- mdense0 TyD [[8; 0; 4]; [1; 0; 9]; [6; 0; 2]]%Q 0%Q ;;
  x_B <- mdense0 TyD [[0; 1; 0]; [0; 0; 0]; [0; 1; 1]]%Q 0%Q ;;
  x_NotLower <- mdense0 TyD d_NotLower_3x3 0%Q ;;
  x_Ones <- mdense0 TyD d_Ones_3x3 0%Q ;;
  x_C <- mnew 3 3 ;;
  x_answer <- mdense0 TyD [[0; 1; 8]; [0; 0; 1]; [0; 0; 0]]%Q 0%Q ;;
  x_C_1 <- lil_assign x_C x_Ones ;;
  x_C_2 <- t_opt_mxm TyD (acc TyD qplus) TyD (mkSr qplus qtimes TyD) (MVal (Other x_NotLower))
    REPLACE x_C_1 (OTrn (Other x_A)) (OTrn (Other x_B)) ;;
  x_q <- meq x_C_2 x_answer ;;
  _ <- check x_q ;;
  x_answer2 <- mdense0 TyD [[1; 1; 8]; [1; 1; 1]; [1; 1; 1]]%Q 0%Q ;;
  x_C_3 <- lil_assign x_C_2 x_Ones ;;
  x_C_4 <- t_opt_mxm TyD (acc TyD qplus) TyD (mkSr qplus qtimes TyD) (MVal (Other x_NotLower)) MERGE
    x_C_3 (OTrn (Other x_A)) (OTrn (Other x_B)) ;;
  x_q_1 <- meq x_C_4 x_answer2 ;;
  _ <- check x_q_1 ;;
  Ok tt) = Ok tt.
Proof. vm_compute. reflexivity. Qed.

(** test_mxm_ATBT.cpp:1387-1425 *)
Example test_mxm_Mask_Accum_ATBT_ABdup :
 (x_mat <- mdense0 TyD d_Symmetric_4x4 0%Q ;;
  x_Lower <- mdense0 TyD d_Lower_4x4 0%Q ;;
  x_Ones <- mdense0 TyD d_Ones_4x4 0%Q ;;
  x_C <- mnew 4 4 ;;
  x_answer <- mdense0 TyD [[3; 1; 1; 1]; [4; 10; 1; 1]; [3; 11; 23; 1]; [1; 7; 22; 26]]%Q 0%Q ;;
  x_C_1 <- lil_assign x_C x_Ones ;;
  x_C_2 <- t_mxm TyD (acc TyD qplus) (mkSr qplus qtimes TyD) (MVal x_Lower) MERGE x_C_1 (Trn x_mat)
    (Trn x_mat) ;;
  x_q <- meq x_C_2 x_answer ;;
  _ <- check x_q ;;
  x_answer2 <- mdense0 TyD [[3; 0; 0; 0]; [4; 10; 0; 0]; [3; 11; 23; 0]; [1; 7; 22; 26]]%Q 0%Q ;;
  x_C_3 <- lil_assign x_C_2 x_Ones ;;
  x_C_4 <- t_mxm TyD (acc TyD qplus) (mkSr qplus qtimes TyD) (MVal x_Lower) REPLACE x_C_3 (Trn
    x_mat) (Trn x_mat) ;;
  x_q_1 <- meq x_C_4 x_answer2 ;;
  _ <- check x_q_1 ;;
  Ok tt) = Ok tt.
Proof. vm_compute. reflexivity. Qed.

(** test_mxm_ATBT.cpp:1387-1425, optimized_sequential platform *)
Example test_mxm_Mask_Accum_ATBT_ABdup_opt :
 (x_mat <- mdense0 TyD d_Symmetric_4x4 0%Q ;;
  x_Lower <- mdense0 TyD d_Lower_4x4 0%Q ;;
  x_Ones <- mdense0 TyD d_Ones_4x4 0%Q ;;
  x_C <- mnew 4 4 ;;
  x_answer <- mdense0 TyD [[3; 1; 1; 1]; [4; 10; 1; 1]; [3; 11; 23; 1]; [1; 7; 22; 26]]%Q 0%Q ;;
  x_C_1 <- lil_assign x_C x_Ones ;;
  x_C_2 <- t_opt_mxm TyD (acc TyD qplus) TyD (mkSr qplus qtimes TyD) (MVal (Other x_Lower)) MERGE
    x_C_1 (OTrn (Other x_mat)) (OTrn (Other x_mat)) ;;
  x_q <- meq x_C_2 x_answer ;;
  _ <- check x_q ;;
  x_answer2 <- mdense0 TyD [[3; 0; 0; 0]; [4; 10; 0; 0]; [3; 11; 23; 0]; [1; 7; 22; 26]]%Q 0%Q ;;
  x_C_3 <- lil_assign x_C_2 x_Ones ;;
  x_C_4 <- t_opt_mxm TyD (acc TyD qplus) TyD (mkSr qplus qtimes TyD) (MVal (Other x_Lower)) REPLACE
    x_C_3 (OTrn (Other x_mat)) (OTrn (Other x_mat)) ;;
  x_q_1 <- meq x_C_4 x_answer2 ;;
  _ <- check x_q_1 ;;
  Ok tt) = Ok tt.
Proof. vm_compute. reflexivity. Qed.

(** test_mxm_ATBT.cpp:1428-1467 *)
Example test_mxm_Mask_Accum_ATBT_ACdup :
 (x_mat <- mdense0 TyD d_Symmetric_4x4 0%Q ;;
  x_Lower <- mdense0 TyD d_Lower_4x4 0%Q ;;
  x_Ones <- mdense0 TyD d_Ones_4x4 0%Q ;;
  x_C <- mnew 4 4 ;;
  x_answer <- mdense0 TyD [[3; 1; 0; 0]; [4; 11; 2; 0]; [2; 12; 25; 3]; [0; 6; 24; 29]]%Q 0%Q ;;
  x_C_1 <- lil_assign x_C x_mat ;;
  x_C_2 <- t_mxm TyD (acc TyD qplus) (mkSr qplus qtimes TyD) (MVal x_Lower) MERGE x_C_1 (Trn x_C_1)
    (Trn x_mat) ;;
  x_q <- meq x_C_2 x_answer ;;
  _ <- check x_q ;;
  x_answer2 <- mdense0 TyD [[3; 0; 0; 0]; [4; 11; 0; 0]; [2; 12; 25; 0]; [0; 6; 24; 29]]%Q 0%Q ;;
  x_C_3 <- lil_assign x_C_2 x_mat ;;
  x_C_4 <- t_mxm TyD (acc TyD qplus) (mkSr qplus qtimes TyD) (MVal x_Lower) REPLACE x_C_3 (Trn
    x_C_3) (Trn x_mat) ;;
  x_q_1 <- meq x_C_4 x_answer2 ;;
  _ <- check x_q_1 ;;
  Ok tt) = Ok tt.
Proof. vm_compute. reflexivity. Qed.

(** test_mxm_ATBT.cpp:1428-1467, optimized_sequential platform *)
Example test_mxm_Mask_Accum_ATBT_ACdup_opt :
 (x_mat <- mdense0 TyD d_Symmetric_4x4 0%Q ;;
  x_Lower <- mdense0 TyD d_Lower_4x4 0%Q ;;
  x_Ones <- mdense0 TyD d_Ones_4x4 0%Q ;;
  x_C <- mnew 4 4 ;;
  x_answer <- mdense0 TyD [[3; 1; 0; 0]; [4; 11; 2; 0]; [2; 12; 25; 3]; [0; 6; 24; 29]]%Q 0%Q ;;
  x_C_1 <- lil_assign x_C x_mat ;;
  x_C_2 <- t_opt_mxm TyD (acc TyD qplus) TyD (mkSr qplus qtimes TyD) (MVal (Other x_Lower)) MERGE
    x_C_1 (OTrn (TheOutput (fun x => x))) (OTrn (Other x_mat)) ;;
  x_q <- meq x_C_2 x_answer ;;
  _ <- check x_q ;;
  x_answer2 <- mdense0 TyD [[3; 0; 0; 0]; [4; 11; 0; 0]; [2; 12; 25; 0]; [0; 6; 24; 29]]%Q 0%Q ;;
  x_C_3 <- lil_assign x_C_2 x_mat ;;
  x_C_4 <- t_opt_mxm TyD (acc TyD qplus) TyD (mkSr qplus qtimes TyD) (MVal (Other x_Lower)) REPLACE
    x_C_3 (OTrn (TheOutput (fun x => x))) (OTrn (Other x_mat)) ;;
  x_q_1 <- meq x_C_4 x_answer2 ;;
  _ <- check x_q_1 ;;
  Ok tt) = Ok tt.
Proof. vm_compute. reflexivity. Qed.

(** test_mxm_ATBT.cpp:1470-1517 *)
Example test_mxm_Mask_Accum_ATBT_BCdup :
 (x_mat <- mdense0 TyD d_Symmetric_4x4 0%Q ;;
  x_Lower <- mdense0 TyD d_Lower_4x4 0%Q ;;
  x_Ones <- mdense0 TyD d_Ones_4x4 0%Q ;;
  x_C <- mnew 4 4 ;;
  x_answer <- mdense0 TyD [[3; 1; 0; 0]; [4; 11; 2; 0]; [2; 12; 25; 3]; [0; 6; 24; 29]]%Q 0%Q ;;
  x_C_1 <- lil_assign x_C x_mat ;;
  x_C_2 <- t_mxm TyD (acc TyD qplus) (mkSr qplus qtimes TyD) (MVal x_Lower) MERGE x_C_1 (Trn x_mat)
    (Trn x_C_1) ;;
  x_q <- meq x_C_2 x_answer ;;
  _ <- check x_q ;;
  x_C_3 <- lil_assign x_C_2 x_mat ;;
  x_C_4 <- t_mxm TyD (acc TyD qplus) (mkSr qplus qtimes TyD) (MVal x_Lower) MERGE x_C_3 (Trn x_mat)
    (Trn x_mat) ;;
  x_q_1 <- meq x_C_4 x_answer ;;
  _ <- check x_q_1 ;;
  x_answer2 <- mdense0 TyD [[3; 0; 0; 0]; [4; 11; 0; 0]; [2; 12; 25; 0]; [0; 6; 24; 29]]%Q 0%Q ;;
  x_C_5 <- lil_assign x_C_4 x_mat ;;
  x_C_6 <- t_mxm TyD (acc TyD qplus) (mkSr qplus qtimes TyD) (MVal x_Lower) REPLACE x_C_5 (Trn
    x_mat) (Trn x_C_5) ;;
  x_q_2 <- meq x_C_6 x_answer2 ;;
  _ <- check x_q_2 ;;
  Ok tt) = Ok tt.
Proof. vm_compute. reflexivity. Qed.

(** test_mxm_ATBT.cpp:1470-1517, optimized_sequential platform *)
Example test_mxm_Mask_Accum_ATBT_BCdup_opt :
 (x_mat <- mdense0 TyD d_Symmetric_4x4 0%Q ;;
  x_Lower <- mdense0 TyD d_Lower_4x4 0%Q ;;
  x_Ones <- mdense0 TyD d_Ones_4x4 0%Q ;;
  x_C <- mnew 4 4 ;;
  x_answer <- mdense0 TyD [[3; 1; 0; 0]; [4; 11; 2; 0]; [2; 12; 25; 3]; [0; 6; 24; 29]]%Q 0%Q ;;
  x_C_1 <- lil_assign x_C x_mat ;;
  x_C_2 <- t_opt_mxm TyD (acc TyD qplus) TyD (mkSr qplus qtimes TyD) (MVal (Other x_Lower)) MERGE
    x_C_1 (OTrn (Other x_mat)) (OTrn (TheOutput (fun x => x))) ;;
  x_q <- meq x_C_2 x_answer ;;
  _ <- check x_q ;;
  x_C_3 <- lil_assign x_C_2 x_mat ;;
  x_C_4 <- t_opt_mxm TyD (acc TyD qplus) TyD (mkSr qplus qtimes TyD) (MVal (Other x_Lower)) MERGE
    x_C_3 (OTrn (Other x_mat)) (OTrn (Other x_mat)) ;;
  x_q_1 <- meq x_C_4 x_answer ;;
  _ <- check x_q_1 ;;
  x_answer2 <- mdense0 TyD [[3; 0; 0; 0]; [4; 11; 0; 0]; [2; 12; 25; 0]; [0; 6; 24; 29]]%Q 0%Q ;;
  x_C_5 <- lil_assign x_C_4 x_mat ;;
  x_C_6 <- t_opt_mxm TyD (acc TyD qplus) TyD (mkSr qplus qtimes TyD) (MVal (Other x_Lower)) REPLACE
    x_C_5 (OTrn (Other x_mat)) (OTrn (TheOutput (fun x => x))) ;;
  x_q_2 <- meq x_C_6 x_answer2 ;;
  _ <- check x_q_2 ;;
  Ok tt) = Ok tt.
Proof. vm_compute. reflexivity. Qed.

(** test_mxm_ATBT.cpp:1520-1557 *)
Example test_mxm_Mask_Accum_ATBT_MCdup :
 (x_mat <- mdense0 TyD d_Symmetric_4x4 0%Q ;;
  x_Lower <- mdense0 TyD d_Lower_4x4 0%Q ;;
  x_C <- mnew 4 4 ;;
  x_answer <- mdense0 TyD [[3; 0; 0; 0]; [4; 10; 0; 0]; [3; 11; 23; 0]; [1; 7; 22; 26]]%Q 0%Q ;;
  x_C_1 <- lil_assign x_C x_Lower ;;
  x_C_2 <- t_mxm TyD (acc TyD qplus) (mkSr qplus qtimes TyD) (MVal x_C_1) MERGE x_C_1 (Trn x_mat)
    (Trn x_mat) ;;
  x_q <- meq x_C_2 x_answer ;;
  _ <- check x_q ;;
  x_answer2 <- mdense0 TyD [[3; 0; 0; 0]; [4; 10; 0; 0]; [3; 11; 23; 0]; [1; 7; 22; 26]]%Q 0%Q ;;
  x_C_3 <- lil_assign x_C_2 x_Lower ;;
  x_C_4 <- t_mxm TyD (acc TyD qplus) (mkSr qplus qtimes TyD) (MVal x_C_3) REPLACE x_C_3 (Trn x_mat)
    (Trn x_mat) ;;
  x_q_1 <- meq x_C_4 x_answer2 ;;
  _ <- check x_q_1 ;;
  Ok tt) = Ok tt.
Proof. vm_compute. reflexivity. Qed.

(** test_mxm_ATBT.cpp:1520-1557, optimized_sequential platform *)
Example test_mxm_Mask_Accum_ATBT_MCdup_opt :
 (x_mat <- mdense0 TyD d_Symmetric_4x4 0%Q ;;
  x_Lower <- mdense0 TyD d_Lower_4x4 0%Q ;;
  x_C <- mnew 4 4 ;;
  x_answer <- mdense0 TyD [[3; 0; 0; 0]; [4; 10; 0; 0]; [3; 11; 23; 0]; [1; 7; 22; 26]]%Q 0%Q ;;
  x_C_1 <- lil_assign x_C x_Lower ;;
  x_C_2 <- t_opt_mxm TyD (acc TyD qplus) TyD (mkSr qplus qtimes TyD) (MVal (TheOutput (fun x => x)))
    MERGE x_C_1 (OTrn (Other x_mat)) (OTrn (Other x_mat)) ;;
  x_q <- meq x_C_2 x_answer ;;
  _ <- check x_q ;;
  x_answer2 <- mdense0 TyD [[3; 0; 0; 0]; [4; 10; 0; 0]; [3; 11; 23; 0]; [1; 7; 22; 26]]%Q 0%Q ;;
  x_C_3 <- lil_assign x_C_2 x_Lower ;;
  x_C_4 <- t_opt_mxm TyD (acc TyD qplus) TyD (mkSr qplus qtimes TyD) (MVal (TheOutput (fun x => x)))
    REPLACE x_C_3 (OTrn (Other x_mat)) (OTrn (Other x_mat)) ;;
  x_q_1 <- meq x_C_4 x_answer2 ;;
  _ <- check x_q_1 ;;
  Ok tt) = Ok tt.
Proof. vm_compute. reflexivity. Qed.

(** test_mxm_ATBT.cpp:1560-1582 *)
Example test_mxm_Mask_Accum_ATBT_Replace_lower_mask_result_ones :
 (x_A <- mdense0 TyD d_AT_dense_3x3 0%Q ;;
  x_B <- mdense0 TyD d_BT_dense_3x4 0%Q ;;
  x_M <- mdense0 TyD d_LowerMask_3x4 0%Q ;;
  _ <- check (Qeq_bool (inject_Z (nvals x_M)) 6%Q) ;;
  x_result <- mdense0 TyD d_Ones_3x4 0%Q ;;
  x_answer <- mdense0 TyD [[114; 0; 0; 0]; [74; 97; 0; 0]; [119; 157; 112; 0]]%Q 0%Q ;;
  x_result_1 <- t_mxm TyD (acc TyD qsecond) (mkSr qplus qtimes TyD) (MVal x_M) REPLACE x_result (Trn
    x_A) (Trn x_B) ;;
  _ <- check (Qeq_bool (inject_Z (nvals x_result_1)) 6%Q) ;;
  x_q <- meq x_result_1 x_answer ;;
  _ <- check x_q ;;
  Ok tt) = Ok tt.
Proof. vm_compute. reflexivity. Qed.

(** test_mxm_ATBT.cpp:1560-1582, optimized_sequential platform *)
Example test_mxm_Mask_Accum_ATBT_Replace_lower_mask_result_ones_opt :
 (x_A <- mdense0 TyD d_AT_dense_3x3 0%Q ;;
  x_B <- mdense0 TyD d_BT_dense_3x4 0%Q ;;
  x_M <- mdense0 TyD d_LowerMask_3x4 0%Q ;;
  _ <- check (Qeq_bool (inject_Z (nvals x_M)) 6%Q) ;;
  x_result <- mdense0 TyD d_Ones_3x4 0%Q ;;
  x_answer <- mdense0 TyD [[114; 0; 0; 0]; [74; 97; 0; 0]; [119; 157; 112; 0]]%Q 0%Q ;;
  x_result_1 <- t_opt_mxm TyD (acc TyD qsecond) TyD (mkSr qplus qtimes TyD) (MVal (Other x_M))
    REPLACE x_result (OTrn (Other x_A)) (OTrn (Other x_B)) ;;
  _ <- check (Qeq_bool (inject_Z (nvals x_result_1)) 6%Q) ;;
  x_q <- meq x_result_1 x_answer ;;
  _ <- check x_q ;;
  Ok tt) = Ok tt.
Proof. vm_compute. reflexivity. Qed.

(** test_mxm_ATBT.cpp:1585-1607 *)
Example test_mxm_Mask_Accum_ATBT_Replace_bool_masked_result_ones :
 (x_A <- mdense0 TyD d_AT_dense_3x3 0%Q ;;
  x_B <- mdense0 TyD d_BT_dense_3x4 0%Q ;;
  x_M <- mdense0 TyB d_LowerBool_3x4 0%Q ;;
  _ <- check (Qeq_bool (inject_Z (nvals x_M)) 6%Q) ;;
  x_result <- mdense0 TyD d_Ones_3x4 0%Q ;;
  x_answer <- mdense0 TyD [[114; 0; 0; 0]; [74; 97; 0; 0]; [119; 157; 112; 0]]%Q 0%Q ;;
  x_result_1 <- t_mxm TyD (acc TyD qsecond) (mkSr qplus qtimes TyD) (MVal x_M) REPLACE x_result (Trn
    x_A) (Trn x_B) ;;
  _ <- check (Qeq_bool (inject_Z (nvals x_result_1)) 6%Q) ;;
  x_q <- meq x_result_1 x_answer ;;
  _ <- check x_q ;;
  Ok tt) = Ok tt.
Proof. vm_compute. reflexivity. Qed.

(** test_mxm_ATBT.cpp:1585-1607, optimized_sequential platform *)
Example test_mxm_Mask_Accum_ATBT_Replace_bool_masked_result_ones_opt :
 (x_A <- mdense0 TyD d_AT_dense_3x3 0%Q ;;
  x_B <- mdense0 TyD d_BT_dense_3x4 0%Q ;;
  x_M <- mdense0 TyB d_LowerBool_3x4 0%Q ;;
  _ <- check (Qeq_bool (inject_Z (nvals x_M)) 6%Q) ;;
  x_result <- mdense0 TyD d_Ones_3x4 0%Q ;;
  x_answer <- mdense0 TyD [[114; 0; 0; 0]; [74; 97; 0; 0]; [119; 157; 112; 0]]%Q 0%Q ;;
  x_result_1 <- t_opt_mxm TyD (acc TyD qsecond) TyD (mkSr qplus qtimes TyD) (MVal (Other x_M))
    REPLACE x_result (OTrn (Other x_A)) (OTrn (Other x_B)) ;;
  _ <- check (Qeq_bool (inject_Z (nvals x_result_1)) 6%Q) ;;
  x_q <- meq x_result_1 x_answer ;;
  _ <- check x_q ;;
  Ok tt) = Ok tt.
Proof. vm_compute. reflexivity. Qed.

(** test_mxm_ATBT.cpp:1610-1632 *)
Example test_mxm_Mask_Accum_ATBT_Replace_mask_stored_zero_result_ones :
 (x_A <- mdense0 TyD d_AT_dense_3x3 0%Q ;;
  x_B <- mdense0 TyD d_BT_dense_3x4 0%Q ;;
  x_M <- mdense0 TyD d_Lower_3x4 0%Q ;;
  x_M_1 <- lil_setElement x_M 0 1 (cast TyD 0%Q) ;;
  _ <- check (Qeq_bool (inject_Z (nvals x_M_1)) 7%Q) ;;
  x_result <- mdense0 TyD d_Ones_3x4 0%Q ;;
  x_answer <- mdense0 TyD [[114; 0; 0; 0]; [74; 97; 0; 0]; [119; 157; 112; 0]]%Q 0%Q ;;
  x_result_1 <- t_mxm TyD (acc TyD qsecond) (mkSr qplus qtimes TyD) (MVal x_M_1) REPLACE x_result
    (Trn x_A) (Trn x_B) ;;
  _ <- check (Qeq_bool (inject_Z (nvals x_result_1)) 6%Q) ;;
  x_q <- meq x_result_1 x_answer ;;
  _ <- check x_q ;;
  Ok tt) = Ok tt.
Proof. vm_compute. reflexivity. Qed.

(** test_mxm_ATBT.cpp:1610-1632, optimized_sequential platform *)
Example test_mxm_Mask_Accum_ATBT_Replace_mask_stored_zero_result_ones_opt :
 (x_A <- mdense0 TyD d_AT_dense_3x3 0%Q ;;
  x_B <- mdense0 TyD d_BT_dense_3x4 0%Q ;;
  x_M <- mdense0 TyD d_Lower_3x4 0%Q ;;
  x_M_1 <- lil_setElement x_M 0 1 (cast TyD 0%Q) ;;
  _ <- check (Qeq_bool (inject_Z (nvals x_M_1)) 7%Q) ;;
  x_result <- mdense0 TyD d_Ones_3x4 0%Q ;;
  x_answer <- mdense0 TyD [[114; 0; 0; 0]; [74; 97; 0; 0]; [119; 157; 112; 0]]%Q 0%Q ;;
  x_result_1 <- t_opt_mxm TyD (acc TyD qsecond) TyD (mkSr qplus qtimes TyD) (MVal (Other x_M_1))
    REPLACE x_result (OTrn (Other x_A)) (OTrn (Other x_B)) ;;
  _ <- check (Qeq_bool (inject_Z (nvals x_result_1)) 6%Q) ;;
  x_q <- meq x_result_1 x_answer ;;
  _ <- check x_q ;;
  Ok tt) = Ok tt.
Proof. vm_compute. reflexivity. Qed.

(** test_mxm_ATBT.cpp:1635-1659 *)
Example test_mxm_Mask_Accum_ATBT_Merge_Cones_Mlower :
 (x_A <- mdense0 TyD d_AT_dense_3x3 0%Q ;;
  x_B <- mdense0 TyD d_BT_dense_3x4 0%Q ;;
  x_M <- mdense0 TyD [[1; 0; 0; 0]; [1; 1; 0; 0]; [1; 1; 1; 0]]%Q 0%Q ;;
  _ <- check (Qeq_bool (inject_Z (nvals x_M)) 6%Q) ;;
  x_result <- mdense0 TyD d_Ones_3x4 0%Q ;;
  x_answer <- mdense0 TyD [[114; 1; 1; 1]; [74; 97; 1; 1]; [119; 157; 112; 1]]%Q 0%Q ;;
  x_result_1 <- t_mxm TyD (acc TyD qsecond) (mkSr qplus qtimes TyD) (MVal x_M) MERGE x_result (Trn
    x_A) (Trn x_B) ;;
  _ <- check (Qeq_bool (inject_Z (nvals x_result_1)) 12%Q) ;;
  x_q <- meq x_result_1 x_answer ;;
  _ <- check x_q ;;
  Ok tt) = Ok tt.
Proof. vm_compute. reflexivity. Qed.

(** test_mxm_ATBT.cpp:1635-1659, optimized_sequential platform *)
Example test_mxm_Mask_Accum_ATBT_Merge_Cones_Mlower_opt :
 (x_A <- mdense0 TyD d_AT_dense_3x3 0%Q ;;
  x_B <- mdense0 TyD d_BT_dense_3x4 0%Q ;;
  x_M <- mdense0 TyD [[1; 0; 0; 0]; [1; 1; 0; 0]; [1; 1; 1; 0]]%Q 0%Q ;;
  _ <- check (Qeq_bool (inject_Z (nvals x_M)) 6%Q) ;;
  x_result <- mdense0 TyD d_Ones_3x4 0%Q ;;
  x_answer <- mdense0 TyD [[114; 1; 1; 1]; [74; 97; 1; 1]; [119; 157; 112; 1]]%Q 0%Q ;;
  x_result_1 <- t_opt_mxm TyD (acc TyD qsecond) TyD (mkSr qplus qtimes TyD) (MVal (Other x_M)) MERGE
    x_result (OTrn (Other x_A)) (OTrn (Other x_B)) ;;
  _ <- check (Qeq_bool (inject_Z (nvals x_result_1)) 12%Q) ;;
  x_q <- meq x_result_1 x_answer ;;
  _ <- check x_q ;;
  Ok tt) = Ok tt.
Proof. vm_compute. reflexivity. Qed.

(** test_mxm_ATBT.cpp:1666-1750 *)
Example test_mxm_CompMask_NoAccum_ATBT :
 (x_A <- mdense0 TyD d_AT_sparse_3x3 0%Q ;;
  x_AT <- mdense0 TyD d_A_sparse_3x3 0%Q ;;
  x_Identity <- mdense0 TyD d_Identity_3x3 0%Q ;;
  x_Empty <- mnew 3 3 ;;
  x_Ones <- mdense0 TyD d_Ones_3x3 0%Q ;;
  x_C <- mnew 3 3 ;;
  x_MLower <- mdense0 TyD d_Lower_3x3 0%Q ;;
  x_MNotLower <- mdense0 TyD d_NotLower_3x3 0%Q ;;
  x_NotA <- mdense0 TyD [[0; 0; 1]; [1; 0; 1]; [0; 1; 0]]%Q 0%Q ;;
  x_AFilled <- mdense0 TyD [[12; 7; 1]; [1; (-5); 1]; [7; 1; 9]]%Q 0%Q ;;
  x_C_1 <- lil_assign x_C x_Ones ;;
  x_C_2 <- t_mxm TyD noacc (mkSr qplus qtimes TyD) (MComp x_Ones) MERGE x_C_1 (Trn x_A) (Trn
    x_Identity) ;;
  x_q <- meq x_C_2 x_Ones ;;
  _ <- check x_q ;;
  x_C_3 <- lil_assign x_C_2 x_Ones ;;
  x_C_4 <- t_mxm TyD noacc (mkSr qplus qtimes TyD) (MComp x_Empty) MERGE x_C_3 (Trn x_A) (Trn
    x_Identity) ;;
  x_q_1 <- meq x_C_4 x_AT ;;
  _ <- check x_q_1 ;;
  x_C_5 <- lil_assign x_C_4 x_Ones ;;
  x_C_6 <- t_mxm TyD noacc (mkSr qplus qtimes TyD) (MComp x_NotA) MERGE x_C_5 (Trn x_A) (Trn
    x_Identity) ;;
  x_q_2 <- meq x_C_6 x_AFilled ;;
  _ <- check x_q_2 ;;
  x_C_7 <- lil_assign x_C_6 x_Ones ;;
  x_C_8 <- t_mxm TyD noacc (mkSr qplus qtimes TyD) (MComp x_MNotLower) MERGE x_C_7 (Trn x_Ones) (Trn
    x_Identity) ;;
  x_q_3 <- meq x_C_8 x_Ones ;;
  _ <- check x_q_3 ;;
  x_C_9 <- lil_assign x_C_8 x_Ones ;;
  x_C_10 <- t_mxm TyD noacc (mkSr qplus qtimes TyD) (MComp x_MLower) MERGE x_C_9 (Trn x_Ones) (Trn
    x_Identity) ;;
  x_q_4 <- meq x_C_10 x_Ones ;;
  _ <- check x_q_4 ;;
  x_C_11 <- lil_assign x_C_10 x_Ones ;;
  x_C_12 <- t_mxm TyD noacc (mkSr qplus qtimes TyD) (MComp x_Ones) REPLACE x_C_11 (Trn x_A) (Trn
    x_Identity) ;;
  x_q_5 <- meq x_C_12 x_Empty ;;
  _ <- check x_q_5 ;;
  x_C_13 <- lil_assign x_C_12 x_Ones ;;
  x_C_14 <- t_mxm TyD noacc (mkSr qplus qtimes TyD) (MComp x_Empty) REPLACE x_C_13 (Trn x_A) (Trn
    x_Identity) ;;
  x_q_6 <- meq x_C_14 x_AT ;;
  _ <- check x_q_6 ;;
  x_C_15 <- lil_assign x_C_14 x_Ones ;;
  x_C_16 <- t_mxm TyD noacc (mkSr qplus qtimes TyD) (MComp x_MNotLower) REPLACE x_C_15 (Trn x_Ones)
    (Trn x_Identity) ;;
  x_q_7 <- meq x_C_16 x_MLower ;;
  _ <- check x_q_7 ;;
  x_C_17 <- lil_assign x_C_16 x_Ones ;;
  x_C_18 <- t_mxm TyD noacc (mkSr qplus qtimes TyD) (MComp x_MLower) REPLACE x_C_17 (Trn x_Ones)
    (Trn x_Identity) ;;
  x_q_8 <- meq x_C_18 x_MNotLower ;;
  _ <- check x_q_8 ;;
  Ok tt) = Ok tt.
Proof. vm_compute. reflexivity. Qed.

(** test_mxm_ATBT.cpp:1666-1750, optimized_sequential platform *)
Example test_mxm_CompMask_NoAccum_ATBT_opt :
 (x_A <- mdense0 TyD d_AT_sparse_3x3 0%Q ;;
  x_AT <- mdense0 TyD d_A_sparse_3x3 0%Q ;;
  x_Identity <- mdense0 TyD d_Identity_3x3 0%Q ;;
  x_Empty <- mnew 3 3 ;;
  x_Ones <- mdense0 TyD d_Ones_3x3 0%Q ;;
  x_C <- mnew 3 3 ;;
  x_MLower <- mdense0 TyD d_Lower_3x3 0%Q ;;
  x_MNotLower <- mdense0 TyD d_NotLower_3x3 0%Q ;;
  x_NotA <- mdense0 TyD [[0; 0; 1]; [1; 0; 1]; [0; 1; 0]]%Q 0%Q ;;
  x_AFilled <- mdense0 TyD [[12; 7; 1]; [1; (-5); 1]; [7; 1; 9]]%Q 0%Q ;;
  x_C_1 <- lil_assign x_C x_Ones ;;
  x_C_2 <- t_opt_mxm TyD noacc TyD (mkSr qplus qtimes TyD) (MComp (Other x_Ones)) MERGE x_C_1 (OTrn
    (Other x_A)) (OTrn (Other x_Identity)) ;;
  x_q <- meq x_C_2 x_Ones ;;
  _ <- check x_q ;;
  x_C_3 <- lil_assign x_C_2 x_Ones ;;
  x_C_4 <- t_opt_mxm TyD noacc TyD (mkSr qplus qtimes TyD) (MComp (Other x_Empty)) MERGE x_C_3 (OTrn
    (Other x_A)) (OTrn (Other x_Identity)) ;;
  x_q_1 <- meq x_C_4 x_AT ;;
  _ <- check x_q_1 ;;
  x_C_5 <- lil_assign x_C_4 x_Ones ;;
  x_C_6 <- t_opt_mxm TyD noacc TyD (mkSr qplus qtimes TyD) (MComp (Other x_NotA)) MERGE x_C_5 (OTrn
    (Other x_A)) (OTrn (Other x_Identity)) ;;
  x_q_2 <- meq x_C_6 x_AFilled ;;
  _ <- check x_q_2 ;;
  x_C_7 <- lil_assign x_C_6 x_Ones ;;
  x_C_8 <- t_opt_mxm TyD noacc TyD (mkSr qplus qtimes TyD) (MComp (Other x_MNotLower)) MERGE x_C_7
    (OTrn (Other x_Ones)) (OTrn (Other x_Identity)) ;;
  x_q_3 <- meq x_C_8 x_Ones ;;
  _ <- check x_q_3 ;;
  x_C_9 <- lil_assign x_C_8 x_Ones ;;
  x_C_10 <- t_opt_mxm TyD noacc TyD (mkSr qplus qtimes TyD) (MComp (Other x_MLower)) MERGE x_C_9
    (OTrn (Other x_Ones)) (OTrn (Other x_Identity)) ;;
  x_q_4 <- meq x_C_10 x_Ones ;;
  _ <- check x_q_4 ;;
  x_C_11 <- lil_assign x_C_10 x_Ones ;;
  x_C_12 <- t_opt_mxm TyD noacc TyD (mkSr qplus qtimes TyD) (MComp (Other x_Ones)) REPLACE x_C_11
    (OTrn (Other x_A)) (OTrn (Other x_Identity)) ;;
  x_q_5 <- meq x_C_12 x_Empty ;;
  _ <- check x_q_5 ;;
  x_C_13 <- lil_assign x_C_12 x_Ones ;;
  x_C_14 <- t_opt_mxm TyD noacc TyD (mkSr qplus qtimes TyD) (MComp (Other x_Empty)) REPLACE x_C_13
    (OTrn (Other x_A)) (OTrn (Other x_Identity)) ;;
  x_q_6 <- meq x_C_14 x_AT ;;
  _ <- check x_q_6 ;;
  x_C_15 <- lil_assign x_C_14 x_Ones ;;
  x_C_16 <- t_opt_mxm TyD noacc TyD (mkSr qplus qtimes TyD) (MComp (Other x_MNotLower)) REPLACE
    x_C_15 (OTrn (Other x_Ones)) (OTrn (Other x_Identity)) ;;
  x_q_7 <- meq x_C_16 x_MLower ;;
  _ <- check x_q_7 ;;
  x_C_17 <- lil_assign x_C_16 x_Ones ;;
  x_C_18 <- t_opt_mxm TyD noacc TyD (mkSr qplus qtimes TyD) (MComp (Other x_MLower)) REPLACE x_C_17
    (OTrn (Other x_Ones)) (OTrn (Other x_Identity)) ;;
  x_q_8 <- meq x_C_18 x_MNotLower ;;
  _ <- check x_q_8 ;;
  Ok tt) = Ok tt.
Proof. vm_compute. reflexivity. Qed.

(** test_mxm_ATBT.cpp:1753-1814 *)
Example test_mxm_CompMask_NoAccum_ATBT_empty :
 (x_Empty <- mnew 3 3 ;;
  x_Ones <- mdense0 TyD d_Ones_3x3 0%Q ;;
  x_Identity <- mdense0 TyD d_Identity_3x3 0%Q ;;
  x_C <- mnew 3 3 ;;
  x_M <- mdense0 TyB d_LowerBool_3x3 0%Q ;;
  x_mUpper <- mdense0 TyD d_NotLower_3x3 0%Q ;;
  x_C_1 <- lil_assign x_C x_Ones ;;
  x_C_2 <- t_mxm TyD noacc (mkSr qplus qtimes TyD) (MComp x_mUpper) MERGE x_C_1 (Trn x_Empty) (Trn
    x_Ones) ;;
  x_q <- meq x_C_2 x_mUpper ;;
  _ <- check x_q ;;
  x_C_3 <- lil_assign x_C_2 x_Ones ;;
  x_C_4 <- t_mxm TyD noacc (mkSr qplus qtimes TyD) (MComp x_mUpper) MERGE x_C_3 (Trn x_Ones) (Trn
    x_Empty) ;;
  x_q_1 <- meq x_C_4 x_mUpper ;;
  _ <- check x_q_1 ;;
  x_C_5 <- lil_assign x_C_4 x_Ones ;;
  x_C_6 <- t_mxm TyD noacc (mkSr qplus qtimes TyD) (MComp x_Ones) MERGE x_C_5 (Trn x_Ones) (Trn
    x_Empty) ;;
  x_q_2 <- meq x_C_6 x_Ones ;;
  _ <- check x_q_2 ;;
  x_C_7 <- lil_assign x_C_6 x_Empty ;;
  x_C_8 <- t_mxm TyD noacc (mkSr qplus qtimes TyD) (MComp x_Empty) MERGE x_C_7 (Trn x_Ones) (Trn
    x_Identity) ;;
  x_q_3 <- meq x_C_8 x_Ones ;;
  _ <- check x_q_3 ;;
  x_C_9 <- lil_assign x_C_8 x_Ones ;;
  x_C_10 <- t_mxm TyD noacc (mkSr qplus qtimes TyD) (MComp x_mUpper) REPLACE x_C_9 (Trn x_Empty)
    (Trn x_Ones) ;;
  x_q_4 <- meq x_C_10 x_Empty ;;
  _ <- check x_q_4 ;;
  x_C_11 <- lil_assign x_C_10 x_Ones ;;
  x_C_12 <- t_mxm TyD noacc (mkSr qplus qtimes TyD) (MComp x_mUpper) REPLACE x_C_11 (Trn x_Ones)
    (Trn x_Empty) ;;
  x_q_5 <- meq x_C_12 x_Empty ;;
  _ <- check x_q_5 ;;
  x_C_13 <- lil_assign x_C_12 x_Ones ;;
  x_C_14 <- t_mxm TyD noacc (mkSr qplus qtimes TyD) (MComp x_Ones) REPLACE x_C_13 (Trn x_Ones) (Trn
    x_Empty) ;;
  x_q_6 <- meq x_C_14 x_Empty ;;
  _ <- check x_q_6 ;;
  x_C_15 <- lil_assign x_C_14 x_Empty ;;
  x_C_16 <- t_mxm TyD noacc (mkSr qplus qtimes TyD) (MComp x_Empty) REPLACE x_C_15 (Trn x_Ones) (Trn
    x_Identity) ;;
  x_q_7 <- meq x_C_16 x_Ones ;;
  _ <- check x_q_7 ;;
  Ok tt) = Ok tt.
Proof. vm_compute. reflexivity. Qed.

(** test_mxm_ATBT.cpp:1753-1814, optimized_sequential platform *)
Example test_mxm_CompMask_NoAccum_ATBT_empty_opt :
 (x_Empty <- mnew 3 3 ;;
  x_Ones <- mdense0 TyD d_Ones_3x3 0%Q ;;
  x_Identity <- mdense0 TyD d_Identity_3x3 0%Q ;;
  x_C <- mnew 3 3 ;;
  x_M <- mdense0 TyB d_LowerBool_3x3 0%Q ;;
  x_mUpper <- mdense0 TyD d_NotLower_3x3 0%Q ;;
  x_C_1 <- lil_assign x_C x_Ones ;;
  x_C_2 <- t_opt_mxm TyD noacc TyD (mkSr qplus qtimes TyD) (MComp (Other x_mUpper)) MERGE x_C_1
    (OTrn (Other x_Empty)) (OTrn (Other x_Ones)) ;;
  x_q <- meq x_C_2 x_mUpper ;;
  _ <- check x_q ;;
  x_C_3 <- lil_assign x_C_2 x_Ones ;;
  x_C_4 <- t_opt_mxm TyD noacc TyD (mkSr qplus qtimes TyD) (MComp (Other x_mUpper)) MERGE x_C_3
    (OTrn (Other x_Ones)) (OTrn (Other x_Empty)) ;;
  x_q_1 <- meq x_C_4 x_mUpper ;;
  _ <- check x_q_1 ;;
  x_C_5 <- lil_assign x_C_4 x_Ones ;;
  x_C_6 <- t_opt_mxm TyD noacc TyD (mkSr qplus qtimes TyD) (MComp (Other x_Ones)) MERGE x_C_5 (OTrn
    (Other x_Ones)) (OTrn (Other x_Empty)) ;;
  x_q_2 <- meq x_C_6 x_Ones ;;
  _ <- check x_q_2 ;;
  x_C_7 <- lil_assign x_C_6 x_Empty ;;
  x_C_8 <- t_opt_mxm TyD noacc TyD (mkSr qplus qtimes TyD) (MComp (Other x_Empty)) MERGE x_C_7 (OTrn
    (Other x_Ones)) (OTrn (Other x_Identity)) ;;
  x_q_3 <- meq x_C_8 x_Ones ;;
  _ <- check x_q_3 ;;
  x_C_9 <- lil_assign x_C_8 x_Ones ;;
  x_C_10 <- t_opt_mxm TyD noacc TyD (mkSr qplus qtimes TyD) (MComp (Other x_mUpper)) REPLACE x_C_9
    (OTrn (Other x_Empty)) (OTrn (Other x_Ones)) ;;
  x_q_4 <- meq x_C_10 x_Empty ;;
  _ <- check x_q_4 ;;
  x_C_11 <- lil_assign x_C_10 x_Ones ;;
  x_C_12 <- t_opt_mxm TyD noacc TyD (mkSr qplus qtimes TyD) (MComp (Other x_mUpper)) REPLACE x_C_11
    (OTrn (Other x_Ones)) (OTrn (Other x_Empty)) ;;
  x_q_5 <- meq x_C_12 x_Empty ;;
  _ <- check x_q_5 ;;
  x_C_13 <- lil_assign x_C_12 x_Ones ;;
  x_C_14 <- t_opt_mxm TyD noacc TyD (mkSr qplus qtimes TyD) (MComp (Other x_Ones)) REPLACE x_C_13
    (OTrn (Other x_Ones)) (OTrn (Other x_Empty)) ;;
  x_q_6 <- meq x_C_14 x_Empty ;;
  _ <- check x_q_6 ;;
  x_C_15 <- lil_assign x_C_14 x_Empty ;;
  x_C_16 <- t_opt_mxm TyD noacc TyD (mkSr qplus qtimes TyD) (MComp (Other x_Empty)) REPLACE x_C_15
    (OTrn (Other x_Ones)) (OTrn (Other x_Identity)) ;;
  x_q_7 <- meq x_C_16 x_Ones ;;
  _ <- check x_q_7 ;;
  Ok tt) = Ok tt.
Proof. vm_compute. reflexivity. Qed.

(** test_mxm_ATBT.cpp:1817-1838 *)
Example test_mxm_CompMask_NoAccum_ATBT_Merge_Cones_Mlower_stored_zero :
 (x_A <- mdense0 TyD d_AT_dense_3x3 0%Q ;;
  x_B <- mdense0 TyD d_BT_dense_3x4 0%Q ;;
  x_M <- mdense0 TyD d_NotLower_3x4 0%Q ;;
  x_M_1 <- lil_setElement x_M 0 0 (cast TyD 0%Q) ;;
  _ <- check (Qeq_bool (inject_Z (nvals x_M_1)) 7%Q) ;;
  x_result <- mdense0 TyD d_Ones_3x4 0%Q ;;
  x_answer <- mdense0 TyD [[114; 1; 1; 1]; [74; 97; 1; 1]; [119; 157; 112; 1]]%Q 0%Q ;;
  x_result_1 <- t_mxm TyD noacc (mkSr qplus qtimes TyD) (MComp x_M_1) MERGE x_result (Trn x_A) (Trn
    x_B) ;;
  _ <- check (Qeq_bool (inject_Z (nvals x_result_1)) 12%Q) ;;
  x_q <- meq x_result_1 x_answer ;;
  _ <- check x_q ;;
  Ok tt) = Ok tt.
Proof. vm_compute. reflexivity. Qed.

(** test_mxm_ATBT.cpp:1817-1838, optimized_sequential platform *)
Example test_mxm_CompMask_NoAccum_ATBT_Merge_Cones_Mlower_stored_zero_opt :
 (x_A <- mdense0 TyD d_AT_dense_3x3 0%Q ;;
  x_B <- mdense0 TyD d_BT_dense_3x4 0%Q ;;
  x_M <- mdense0 TyD d_NotLower_3x4 0%Q ;;
  x_M_1 <- lil_setElement x_M 0 0 (cast TyD 0%Q) ;;
  _ <- check (Qeq_bool (inject_Z (nvals x_M_1)) 7%Q) ;;
  x_result <- mdense0 TyD d_Ones_3x4 0%Q ;;
  x_answer <- mdense0 TyD [[114; 1; 1; 1]; [74; 97; 1; 1]; [119; 157; 112; 1]]%Q 0%Q ;;
  x_result_1 <- t_opt_mxm TyD noacc TyD (mkSr qplus qtimes TyD) (MComp (Other x_M_1)) MERGE x_result
    (OTrn (Other x_A)) (OTrn (Other x_B)) ;;
  _ <- check (Qeq_bool (inject_Z (nvals x_result_1)) 12%Q) ;;
  x_q <- meq x_result_1 x_answer ;;
  _ <- check x_q ;;
  Ok tt) = Ok tt.
Proof. vm_compute. reflexivity. Qed.

(** test_mxm_ATBT.cpp:1841-1883 *)
Example test_mxm_CompMask_NoAccum_ATBT_emptyRowA_emptyColB :
 (x_A <- mdense0 TyD [[8; 0; 4]; [1; 0; 9]; [6; 0; 2]]%Q 0%Q ;;
  x_B <- mdense0 TyD [[0; 1; 0]; [0; 0; 0]; [0; 1; 1]; [1; 1; 1]]%Q 0%Q ;;
  x_NotLower <- mdense0 TyD d_NotLower_3x4 0%Q ;;
  x_Ones <- mdense0 TyD d_Ones_3x4 0%Q ;;
  x_C <- mnew 3 4 ;;
  x_answer <- mdense0 TyD [[1; 0; 0; 0]; [0; 0; 0; 0]; [9; 0; 11; 0]]%Q 0%Q ;;
  x_C_1 <- lil_assign x_C x_Ones ;;
  x_C_2 <- t_mxm TyD noacc (mkSr qplus qtimes TyD) (MComp x_NotLower) REPLACE x_C_1 (Trn x_A) (Trn
    x_B) ;;
  x_q <- meq x_C_2 x_answer ;;
  _ <- check x_q ;;
  x_answer2 <- mdense0 TyD [[1; 1; 1; 1]; [0; 0; 1; 1]; [9; 0; 11; 1]]%Q 0%Q ;;
  x_C_3 <- lil_assign x_C_2 x_Ones ;;
  x_C_4 <- t_mxm TyD noacc (mkSr qplus qtimes TyD) (MComp x_NotLower) MERGE x_C_3 (Trn x_A) (Trn
    x_B) ;;
  x_q_1 <- meq x_C_4 x_answer2 ;;
  _ <- check x_q_1 ;;
  Ok tt) = Ok tt.
Proof. vm_compute. reflexivity. Qed.

(** test_mxm_ATBT.cpp:1841-1883, optimized_sequential platform *)
Example test_mxm_CompMask_NoAccum_ATBT_emptyRowA_emptyColB_opt :
 (x_A <- mdense0 TyD [[8; 0; 4]; [1; 0; 9]; [6; 0; 2]]%Q 0%Q ;;
  x_B <- mdense0 TyD [[0; 1; 0]; [0; 0; 0]; [0; 1; 1]; [1; 1; 1]]%Q 0%Q ;;
  x_NotLower <- mdense0 TyD d_NotLower_3x4 0%Q ;;
  x_Ones <- mdense0 TyD d_Ones_3x4 0%Q ;;
  x_C <- mnew 3 4 ;;
  x_answer <- mdense0 TyD [[1; 0; 0; 0]; [0; 0; 0; 0]; [9; 0; 11; 0]]%Q 0%Q ;;
  x_C_1 <- lil_assign x_C x_Ones ;;
  x_C_2 <- t_opt_mxm TyD noacc TyD (mkSr qplus qtimes TyD) (MComp (Other x_NotLower)) REPLACE x_C_1
    (OTrn (Other x_A)) (OTrn (Other x_B)) ;;
  x_q <- meq x_C_2 x_answer ;;
  _ <- check x_q ;;
  x_answer2 <- mdense0 TyD [[1; 1; 1; 1]; [0; 0; 1; 1]; [9; 0; 11; 1]]%Q 0%Q ;;
  x_C_3 <- lil_assign x_C_2 x_Ones ;;
  x_C_4 <- t_opt_mxm TyD noacc TyD (mkSr qplus qtimes TyD) (MComp (Other x_NotLower)) MERGE x_C_3
    (OTrn (Other x_A)) (OTrn (Other x_B)) ;;
  x_q_1 <- meq x_C_4 x_answer2 ;;
  _ <- check x_q_1 ;;
  Ok tt) = Ok tt.
Proof. vm_compute. reflexivity. Qed.

(** test_mxm_ATBT.cpp:1886-1928 *)
Example test_mxm_CompMask_NoAccum_ATBT_emptyColA_emptyRowB :
 (x_A <- mdense0 TyD [[8; 1; 4]; [0; 0; 0]; [6; 9; 2]]%Q 0%Q ;;
  x_B <- mdense0 TyD [[0; 1; 0]; [1; 0; 0]; [0; 1; 0]; [1; 1; 0]]%Q 0%Q ;;
  x_NotLower <- mdense0 TyD d_NotLower_3x4 0%Q ;;
  x_Ones <- mdense0 TyD d_Ones_3x4 0%Q ;;
  x_C <- mnew 3 4 ;;
  x_answer <- mdense0 TyD [[0; 0; 0; 0]; [0; 1; 0; 0]; [0; 4; 0; 0]]%Q 0%Q ;;
  x_C_1 <- lil_assign x_C x_Ones ;;
  x_C_2 <- t_mxm TyD noacc (mkSr qplus qtimes TyD) (MComp x_NotLower) REPLACE x_C_1 (Trn x_A) (Trn
    x_B) ;;
  x_q <- meq x_C_2 x_answer ;;
  _ <- check x_q ;;
  x_answer2 <- mdense0 TyD [[0; 1; 1; 1]; [0; 1; 1; 1]; [0; 4; 0; 1]]%Q 0%Q ;;
  x_C_3 <- lil_assign x_C_2 x_Ones ;;
  x_C_4 <- t_mxm TyD noacc (mkSr qplus qtimes TyD) (MComp x_NotLower) MERGE x_C_3 (Trn x_A) (Trn
    x_B) ;;
  x_q_1 <- meq x_C_4 x_answer2 ;;
  _ <- check x_q_1 ;;
  Ok tt) = Ok tt.
Proof. vm_compute. reflexivity. Qed.

(** test_mxm_ATBT.cpp:1886-1928, optimized_sequential platform *)
Example test_mxm_CompMask_NoAccum_ATBT_emptyColA_emptyRowB_opt :
 (x_A <- mdense0 TyD [[8; 1; 4]; [0; 0; 0]; [6; 9; 2]]%Q 0%Q ;;
  x_B <- mdense0 TyD [[0; 1; 0]; [1; 0; 0]; [0; 1; 0]; [1; 1; 0]]%Q 0%Q ;;
  x_NotLower <- mdense0 TyD d_NotLower_3x4 0%Q ;;
  x_Ones <- mdense0 TyD d_Ones_3x4 0%Q ;;
  x_C <- mnew 3 4 ;;
  x_answer <- mdense0 TyD [[0; 0; 0; 0]; [0; 1; 0; 0]; [0; 4; 0; 0]]%Q 0%Q ;;
  x_C_1 <- lil_assign x_C x_Ones ;;
  x_C_2 <- t_opt_mxm TyD noacc TyD (mkSr qplus qtimes TyD) (MComp (Other x_NotLower)) REPLACE x_C_1
    (OTrn (Other x_A)) (OTrn (Other x_B)) ;;
  x_q <- meq x_C_2 x_answer ;;
  _ <- check x_q ;;
  x_answer2 <- mdense0 TyD [[0; 1; 1; 1]; [0; 1; 1; 1]; [0; 4; 0; 1]]%Q 0%Q ;;
  x_C_3 <- lil_assign x_C_2 x_Ones ;;
  x_C_4 <- t_opt_mxm TyD noacc TyD (mkSr qplus qtimes TyD) (MComp (Other x_NotLower)) MERGE x_C_3
    (OTrn (Other x_A)) (OTrn (Other x_B)) ;;
  x_q_1 <- meq x_C_4 x_answer2 ;;
  _ <- check x_q_1 ;;
  Ok tt) = Ok tt.
Proof. vm_compute. reflexivity. Qed.

(** test_mxm_ATBT.cpp:1931-1972 *)
Example test_mxm_CompMask_NoAccum_ATBT_emptyRowM :
 (x_A <- mdense0 TyD [[8; 0; 4]; [1; 0; 9]; [6; 0; 2]]%Q 0%Q ;;
  x_B <- mdense0 TyD [[0; 1; 0]; [0; 0; 0]; [0; 1; 1]]%Q 0%Q ;;
  x_Lower <- mdense0 TyD d_Lower_3x3 0%Q ;;
  x_Ones <- mdense0 TyD d_Ones_3x3 0%Q ;;
  x_C <- mnew 3 3 ;;
  x_answer <- mdense0 TyD [[0; 0; 7]; [0; 0; 0]; [0; 0; 0]]%Q 0%Q ;;
  x_C_1 <- lil_assign x_C x_Ones ;;
  x_C_2 <- t_mxm TyD noacc (mkSr qplus qtimes TyD) (MComp x_Lower) REPLACE x_C_1 (Trn x_A) (Trn x_B)
    ;;
  x_q <- meq x_C_2 x_answer ;;
  _ <- check x_q ;;
  x_answer2 <- mdense0 TyD [[1; 0; 7]; [1; 1; 0]; [1; 1; 1]]%Q 0%Q ;;
  x_C_3 <- lil_assign x_C_2 x_Ones ;;
  x_C_4 <- t_mxm TyD noacc (mkSr qplus qtimes TyD) (MComp x_Lower) MERGE x_C_3 (Trn x_A) (Trn x_B)
    ;;
  x_q_1 <- meq x_C_4 x_answer2 ;;
  _ <- check x_q_1 ;;
  Ok tt) = Ok tt.
Proof. vm_compute. reflexivity. Qed.

(** test_mxm_ATBT.cpp:1931-1972, optimized_sequential platform *)
Example test_mxm_CompMask_NoAccum_ATBT_emptyRowM_opt :
 (x_A <- mdense0 TyD [[8; 0; 4]; [1; 0; 9]; [6; 0; 2]]%Q 0%Q ;;
  x_B <- mdense0 TyD [[0; 1; 0]; [0; 0; 0]; [0; 1; 1]]%Q 0%Q ;;
  x_Lower <- mdense0 TyD d_Lower_3x3 0%Q ;;
  x_Ones <- mdense0 TyD d_Ones_3x3 0%Q ;;
  x_C <- mnew 3 3 ;;
  x_answer <- mdense0 TyD [[0; 0; 7]; [0; 0; 0]; [0; 0; 0]]%Q 0%Q ;;
  x_C_1 <- lil_assign x_C x_Ones ;;
  x_C_2 <- t_opt_mxm TyD noacc TyD (mkSr qplus qtimes TyD) (MComp (Other x_Lower)) REPLACE x_C_1
    (OTrn (Other x_A)) (OTrn (Other x_B)) ;;
  x_q <- meq x_C_2 x_answer ;;
  _ <- check x_q ;;
  x_answer2 <- mdense0 TyD [[1; 0; 7]; [1; 1; 0]; [1; 1; 1]]%Q 0%Q ;;
  x_C_3 <- lil_assign x_C_2 x_Ones ;;
  x_C_4 <- t_opt_mxm TyD noacc TyD (mkSr qplus qtimes TyD) (MComp (Other x_Lower)) MERGE x_C_3 (OTrn
    (Other x_A)) (OTrn (Other x_B)) ;;
  x_q_1 <- meq x_C_4 x_answer2 ;;
  _ <- check x_q_1 ;;
  Ok tt) = Ok tt.
Proof. vm_compute. reflexivity. Qed.

(** test_mxm_ATBT.cpp:1975-2013 *)
Example test_mxm_CompMask_NoAccum_ATBT_ABdup :
 (x_mat <- mdense0 TyD d_Symmetric_4x4 0%Q ;;
  x_NotLower <- mdense0 TyD d_NotLower_4x4 0%Q ;;
  x_Ones <- mdense0 TyD d_Ones_4x4 0%Q ;;
  x_C <- mnew 4 4 ;;
  x_answer <- mdense0 TyD [[2; 1; 1; 1]; [3; 9; 1; 1]; [2; 10; 22; 1]; [0; 6; 21; 25]]%Q 0%Q ;;
  x_C_1 <- lil_assign x_C x_Ones ;;
  x_C_2 <- t_mxm TyD noacc (mkSr qplus qtimes TyD) (MComp x_NotLower) MERGE x_C_1 (Trn x_mat) (Trn
    x_mat) ;;
  x_q <- meq x_C_2 x_answer ;;
  _ <- check x_q ;;
  x_answer2 <- mdense0 TyD [[2; 0; 0; 0]; [3; 9; 0; 0]; [2; 10; 22; 0]; [0; 6; 21; 25]]%Q 0%Q ;;
  x_C_3 <- lil_assign x_C_2 x_Ones ;;
  x_C_4 <- t_mxm TyD noacc (mkSr qplus qtimes TyD) (MComp x_NotLower) REPLACE x_C_3 (Trn x_mat) (Trn
    x_mat) ;;
  x_q_1 <- meq x_C_4 x_answer2 ;;
  _ <- check x_q_1 ;;
  Ok tt) = Ok tt.
Proof. vm_compute. reflexivity. Qed.

(** test_mxm_ATBT.cpp:1975-2013, optimized_sequential platform *)
Example test_mxm_CompMask_NoAccum_ATBT_ABdup_opt :
 (x_mat <- mdense0 TyD d_Symmetric_4x4 0%Q ;;
  x_NotLower <- mdense0 TyD d_NotLower_4x4 0%Q ;;
  x_Ones <- mdense0 TyD d_Ones_4x4 0%Q ;;
  x_C <- mnew 4 4 ;;
  x_answer <- mdense0 TyD [[2; 1; 1; 1]; [3; 9; 1; 1]; [2; 10; 22; 1]; [0; 6; 21; 25]]%Q 0%Q ;;
  x_C_1 <- lil_assign x_C x_Ones ;;
  x_C_2 <- t_opt_mxm TyD noacc TyD (mkSr qplus qtimes TyD) (MComp (Other x_NotLower)) MERGE x_C_1
    (OTrn (Other x_mat)) (OTrn (Other x_mat)) ;;
  x_q <- meq x_C_2 x_answer ;;
  _ <- check x_q ;;
  x_answer2 <- mdense0 TyD [[2; 0; 0; 0]; [3; 9; 0; 0]; [2; 10; 22; 0]; [0; 6; 21; 25]]%Q 0%Q ;;
  x_C_3 <- lil_assign x_C_2 x_Ones ;;
  x_C_4 <- t_opt_mxm TyD noacc TyD (mkSr qplus qtimes TyD) (MComp (Other x_NotLower)) REPLACE x_C_3
    (OTrn (Other x_mat)) (OTrn (Other x_mat)) ;;
  x_q_1 <- meq x_C_4 x_answer2 ;;
  _ <- check x_q_1 ;;
  Ok tt) = Ok tt.
Proof. vm_compute. reflexivity. Qed.

(** test_mxm_ATBT.cpp:2016-2054 *)
Example test_mxm_CompMask_NoAccum_ATBT_ACdup :
 (x_mat <- mdense0 TyD d_Symmetric_4x4 0%Q ;;
  x_NotLower <- mdense0 TyD d_NotLower_4x4 0%Q ;;
  x_Ones <- mdense0 TyD d_Ones_4x4 0%Q ;;
  x_C <- mnew 4 4 ;;
  x_answer <- mdense0 TyD [[2; 1; 0; 0]; [3; 9; 2; 0]; [2; 10; 22; 3]; [0; 6; 21; 25]]%Q 0%Q ;;
  x_C_1 <- lil_assign x_C x_mat ;;
  x_C_2 <- t_mxm TyD noacc (mkSr qplus qtimes TyD) (MComp x_NotLower) MERGE x_C_1 (Trn x_C_1) (Trn
    x_mat) ;;
  x_q <- meq x_C_2 x_answer ;;
  _ <- check x_q ;;
  x_answer2 <- mdense0 TyD [[2; 0; 0; 0]; [3; 9; 0; 0]; [2; 10; 22; 0]; [0; 6; 21; 25]]%Q 0%Q ;;
  x_C_3 <- lil_assign x_C_2 x_mat ;;
  x_C_4 <- t_mxm TyD noacc (mkSr qplus qtimes TyD) (MComp x_NotLower) REPLACE x_C_3 (Trn x_C_3) (Trn
    x_mat) ;;
  x_q_1 <- meq x_C_4 x_answer2 ;;
  _ <- check x_q_1 ;;
  Ok tt) = Ok tt.
Proof. vm_compute. reflexivity. Qed.

(** test_mxm_ATBT.cpp:2016-2054, optimized_sequential platform *)
Example test_mxm_CompMask_NoAccum_ATBT_ACdup_opt :
 (x_mat <- mdense0 TyD d_Symmetric_4x4 0%Q ;;
  x_NotLower <- mdense0 TyD d_NotLower_4x4 0%Q ;;
  x_Ones <- mdense0 TyD d_Ones_4x4 0%Q ;;
  x_C <- mnew 4 4 ;;
  x_answer <- mdense0 TyD [[2; 1; 0; 0]; [3; 9; 2; 0]; [2; 10; 22; 3]; [0; 6; 21; 25]]%Q 0%Q ;;
  x_C_1 <- lil_assign x_C x_mat ;;
  x_C_2 <- t_opt_mxm TyD noacc TyD (mkSr qplus qtimes TyD) (MComp (Other x_NotLower)) MERGE x_C_1
    (OTrn (TheOutput (fun x => x))) (OTrn (Other x_mat)) ;;
  x_q <- meq x_C_2 x_answer ;;
  _ <- check x_q ;;
  x_answer2 <- mdense0 TyD [[2; 0; 0; 0]; [3; 9; 0; 0]; [2; 10; 22; 0]; [0; 6; 21; 25]]%Q 0%Q ;;
  x_C_3 <- lil_assign x_C_2 x_mat ;;
  x_C_4 <- t_opt_mxm TyD noacc TyD (mkSr qplus qtimes TyD) (MComp (Other x_NotLower)) REPLACE x_C_3
    (OTrn (TheOutput (fun x => x))) (OTrn (Other x_mat)) ;;
  x_q_1 <- meq x_C_4 x_answer2 ;;
  _ <- check x_q_1 ;;
  Ok tt) = Ok tt.
Proof. vm_compute. reflexivity. Qed.

(** test_mxm_ATBT.cpp:2057-2104 *)
Example test_mxm_CompMask_NoAccum_ATBT_BCdup :
 (x_mat <- mdense0 TyD d_Symmetric_4x4 0%Q ;;
  x_NotLower <- mdense0 TyD d_NotLower_4x4 0%Q ;;
  x_Ones <- mdense0 TyD d_Ones_4x4 0%Q ;;
  x_C <- mnew 4 4 ;;
  x_answer <- mdense0 TyD [[2; 1; 0; 0]; [3; 9; 2; 0]; [2; 10; 22; 3]; [0; 6; 21; 25]]%Q 0%Q ;;
  x_C_1 <- lil_assign x_C x_mat ;;
  x_C_2 <- t_mxm TyD noacc (mkSr qplus qtimes TyD) (MComp x_NotLower) MERGE x_C_1 (Trn x_mat) (Trn
    x_C_1) ;;
  x_q <- meq x_C_2 x_answer ;;
  _ <- check x_q ;;
  x_C_3 <- lil_assign x_C_2 x_mat ;;
  x_C_4 <- t_mxm TyD noacc (mkSr qplus qtimes TyD) (MComp x_NotLower) MERGE x_C_3 (Trn x_mat) (Trn
    x_mat) ;;
  x_q_1 <- meq x_C_4 x_answer ;;
  _ <- check x_q_1 ;;
  x_answer2 <- mdense0 TyD [[2; 0; 0; 0]; [3; 9; 0; 0]; [2; 10; 22; 0]; [0; 6; 21; 25]]%Q 0%Q ;;
  x_C_5 <- lil_assign x_C_4 x_mat ;;
  x_C_6 <- t_mxm TyD noacc (mkSr qplus qtimes TyD) (MComp x_NotLower) REPLACE x_C_5 (Trn x_mat) (Trn
    x_C_5) ;;
  x_q_2 <- meq x_C_6 x_answer2 ;;
  _ <- check x_q_2 ;;
  Ok tt) = Ok tt.
Proof. vm_compute. reflexivity. Qed.

(** test_mxm_ATBT.cpp:2057-2104, optimized_sequential platform *)
Example test_mxm_CompMask_NoAccum_ATBT_BCdup_opt :
 (x_mat <- mdense0 TyD d_Symmetric_4x4 0%Q ;;
  x_NotLower <- mdense0 TyD d_NotLower_4x4 0%Q ;;
  x_Ones <- mdense0 TyD d_Ones_4x4 0%Q ;;
  x_C <- mnew 4 4 ;;
  x_answer <- mdense0 TyD [[2; 1; 0; 0]; [3; 9; 2; 0]; [2; 10; 22; 3]; [0; 6; 21; 25]]%Q 0%Q ;;
  x_C_1 <- lil_assign x_C x_mat ;;
  x_C_2 <- t_opt_mxm TyD noacc TyD (mkSr qplus qtimes TyD) (MComp (Other x_NotLower)) MERGE x_C_1
    (OTrn (Other x_mat)) (OTrn (TheOutput (fun x => x))) ;;
  x_q <- meq x_C_2 x_answer ;;
  _ <- check x_q ;;
  x_C_3 <- lil_assign x_C_2 x_mat ;;
  x_C_4 <- t_opt_mxm TyD noacc TyD (mkSr qplus qtimes TyD) (MComp (Other x_NotLower)) MERGE x_C_3
    (OTrn (Other x_mat)) (OTrn (Other x_mat)) ;;
  x_q_1 <- meq x_C_4 x_answer ;;
  _ <- check x_q_1 ;;
  x_answer2 <- mdense0 TyD [[2; 0; 0; 0]; [3; 9; 0; 0]; [2; 10; 22; 0]; [0; 6; 21; 25]]%Q 0%Q ;;
  x_C_5 <- lil_assign x_C_4 x_mat ;;
  x_C_6 <- t_opt_mxm TyD noacc TyD (mkSr qplus qtimes TyD) (MComp (Other x_NotLower)) REPLACE x_C_5
    (OTrn (Other x_mat)) (OTrn (TheOutput (fun x => x))) ;;
  x_q_2 <- meq x_C_6 x_answer2 ;;
  _ <- check x_q_2 ;;
  Ok tt) = Ok tt.
Proof. vm_compute. reflexivity. Qed.

(** test_mxm_ATBT.cpp:2107-2128 *)
Example test_mxm_CompMask_NoAccum_ATBT_Replace_ABdup :
 (x_mat <- mdense0 TyD d_Symmetric_4x4 0%Q ;;
  x_result <- mdense0 TyD d_Ones_4x4 0%Q ;;
  x_answer <- mdense0 TyD [[2; 0; 0; 0]; [3; 9; 0; 0]; [2; 10; 22; 0]; [0; 6; 21; 25]]%Q 0%Q ;;
  x_M <- mdense0 TyD d_NotLower_4x4 0%Q ;;
  x_result_1 <- t_mxm TyD noacc (mkSr qplus qtimes TyD) (MComp x_M) REPLACE x_result (Trn x_mat)
    (Trn x_mat) ;;
  x_q <- meq x_result_1 x_answer ;;
  _ <- check x_q ;;
  Ok tt) = Ok tt.
Proof. vm_compute. reflexivity. Qed.

(** test_mxm_ATBT.cpp:2107-2128, optimized_sequential platform *)
Example test_mxm_CompMask_NoAccum_ATBT_Replace_ABdup_opt :
 (x_mat <- mdense0 TyD d_Symmetric_4x4 0%Q ;;
  x_result <- mdense0 TyD d_Ones_4x4 0%Q ;;
  x_answer <- mdense0 TyD [[2; 0; 0; 0]; [3; 9; 0; 0]; [2; 10; 22; 0]; [0; 6; 21; 25]]%Q 0%Q ;;
  x_M <- mdense0 TyD d_NotLower_4x4 0%Q ;;
  x_result_1 <- t_opt_mxm TyD noacc TyD (mkSr qplus qtimes TyD) (MComp (Other x_M)) REPLACE x_result
    (OTrn (Other x_mat)) (OTrn (Other x_mat)) ;;
  x_q <- meq x_result_1 x_answer ;;
  _ <- check x_q ;;
  Ok tt) = Ok tt.
Proof. vm_compute. reflexivity. Qed.

(** test_mxm_ATBT.cpp:2135-2249 *)
Example test_mxm_CompMask_Accum_ATBT :
 (x_A <- mdense0 TyD d_AT_sparse_3x3 0%Q ;;
  x_Identity <- mdense0 TyD d_Identity_3x3 0%Q ;;
  x_Empty <- mnew 3 3 ;;
  x_Ones <- mdense0 TyD d_Ones_3x3 0%Q ;;
  x_C <- mnew 3 3 ;;
  x_MLower <- mdense0 TyD d_Lower_3x3 0%Q ;;
  x_MNotLower <- mdense0 TyD d_NotLower_3x3 0%Q ;;
  x_AFilled <- mdense0 TyD [[12; 7; 1]; [1; (-5); 1]; [7; 1; 9]]%Q 0%Q ;;
  x_NotA <- mdense0 TyD [[0; 0; 1]; [1; 0; 1]; [0; 1; 0]]%Q 0%Q ;;
  x_C_1 <- lil_assign x_C x_Ones ;;
  x_C_2 <- t_mxm TyD (acc TyD qplus) (mkSr qplus qtimes TyD) (MComp x_Ones) MERGE x_C_1 (Trn x_A)
    (Trn x_Identity) ;;
  x_q <- meq x_C_2 x_Ones ;;
  _ <- check x_q ;;
  x_C_3 <- lil_assign x_C_2 x_Ones ;;
  x_C_4 <- t_mxm TyD (acc TyD qplus) (mkSr qplus qtimes TyD) (MComp x_NotA) MERGE x_C_3 (Trn x_A)
    (Trn x_Identity) ;;
  x_t <- mdense0 TyD [[13; 8; 1]; [1; (-4); 1]; [8; 1; 10]]%Q 0%Q ;;
  x_q_1 <- meq x_C_4 x_t ;;
  _ <- check x_q_1 ;;
  x_C_5 <- lil_assign x_C_4 x_Ones ;;
  x_C_6 <- t_mxm TyD (acc TyD qplus) (mkSr qplus qtimes TyD) (MComp x_MNotLower) MERGE x_C_5 (Trn
    x_Ones) (Trn x_Identity) ;;
  x_t_1 <- mdense0 TyD [[2; 1; 1]; [2; 2; 1]; [2; 2; 2]]%Q 0%Q ;;
  x_q_2 <- meq x_C_6 x_t_1 ;;
  _ <- check x_q_2 ;;
  x_C_7 <- lil_assign x_C_6 x_Ones ;;
  x_C_8 <- t_mxm TyD (acc TyD qplus) (mkSr qplus qtimes TyD) (MComp x_MLower) MERGE x_C_7 (Trn
    x_Ones) (Trn x_Identity) ;;
  x_t_2 <- mdense0 TyD [[1; 2; 2]; [1; 1; 2]; [1; 1; 1]]%Q 0%Q ;;
  x_q_3 <- meq x_C_8 x_t_2 ;;
  _ <- check x_q_3 ;;
  x_C_9 <- lil_assign x_C_8 x_Ones ;;
  x_C_10 <- t_mxm TyD (acc TyD qplus) (mkSr qplus qtimes TyD) (MComp x_Ones) REPLACE x_C_9 (Trn x_A)
    (Trn x_Identity) ;;
  x_q_4 <- meq x_C_10 x_Empty ;;
  _ <- check x_q_4 ;;
  x_C_11 <- lil_assign x_C_10 x_Ones ;;
  x_C_12 <- t_mxm TyD (acc TyD qplus) (mkSr qplus qtimes TyD) (MComp x_Empty) REPLACE x_C_11 (Trn
    x_A) (Trn x_Identity) ;;
  x_t_3 <- mdense0 TyD [[13; 8; 1]; [1; (-4); 1]; [8; 1; 10]]%Q 0%Q ;;
  x_q_5 <- meq x_C_12 x_t_3 ;;
  _ <- check x_q_5 ;;
  x_C_13 <- lil_assign x_C_12 x_Ones ;;
  x_C_14 <- t_mxm TyD (acc TyD qplus) (mkSr qplus qtimes TyD) (MComp x_MNotLower) REPLACE x_C_13
    (Trn x_Ones) (Trn x_Identity) ;;
  x_t_4 <- mdense0 TyD [[2; 0; 0]; [2; 2; 0]; [2; 2; 2]]%Q 0%Q ;;
  x_q_6 <- meq x_C_14 x_t_4 ;;
  _ <- check x_q_6 ;;
  x_C_15 <- lil_assign x_C_14 x_Ones ;;
  x_C_16 <- t_mxm TyD (acc TyD qplus) (mkSr qplus qtimes TyD) (MComp x_MLower) REPLACE x_C_15 (Trn
    x_Ones) (Trn x_Identity) ;;
  x_t_5 <- mdense0 TyD [[0; 2; 2]; [0; 0; 2]; [0; 0; 0]]%Q 0%Q ;;
  x_q_7 <- meq x_C_16 x_t_5 ;;
  _ <- check x_q_7 ;;
  Ok tt) = Ok tt.
Proof. vm_compute. reflexivity. Qed.

(** test_mxm_ATBT.cpp:2135-2249, optimized_sequential platform *)
Example test_mxm_CompMask_Accum_ATBT_opt :
 (x_A <- mdense0 TyD d_AT_sparse_3x3 0%Q ;;
  x_Identity <- mdense0 TyD d_Identity_3x3 0%Q ;;
  x_Empty <- mnew 3 3 ;;
  x_Ones <- mdense0 TyD d_Ones_3x3 0%Q ;;
  x_C <- mnew 3 3 ;;
  x_MLower <- mdense0 TyD d_Lower_3x3 0%Q ;;
  x_MNotLower <- mdense0 TyD d_NotLower_3x3 0%Q ;;
  x_AFilled <- mdense0 TyD [[12; 7; 1]; [1; (-5); 1]; [7; 1; 9]]%Q 0%Q ;;
  x_NotA <- mdense0 TyD [[0; 0; 1]; [1; 0; 1]; [0; 1; 0]]%Q 0%Q ;;
  x_C_1 <- lil_assign x_C x_Ones ;;
  x_C_2 <- t_opt_mxm TyD (acc TyD qplus) TyD (mkSr qplus qtimes TyD) (MComp (Other x_Ones)) MERGE
    x_C_1 (OTrn (Other x_A)) (OTrn (Other x_Identity)) ;;
  x_q <- meq x_C_2 x_Ones ;;
  _ <- check x_q ;;
  x_C_3 <- lil_assign x_C_2 x_Ones ;;
  x_C_4 <- t_opt_mxm TyD (acc TyD qplus) TyD (mkSr qplus qtimes TyD) (MComp (Other x_NotA)) MERGE
    x_C_3 (OTrn (Other x_A)) (OTrn (Other x_Identity)) ;;
  x_t <- mdense0 TyD [[13; 8; 1]; [1; (-4); 1]; [8; 1; 10]]%Q 0%Q ;;
  x_q_1 <- meq x_C_4 x_t ;;
  _ <- check x_q_1 ;;
  x_C_5 <- lil_assign x_C_4 x_Ones ;;
  x_C_6 <- t_opt_mxm TyD (acc TyD qplus) TyD (mkSr qplus qtimes TyD) (MComp (Other x_MNotLower))
    MERGE x_C_5 (OTrn (Other x_Ones)) (OTrn (Other x_Identity)) ;;
  x_t_1 <- mdense0 TyD [[2; 1; 1]; [2; 2; 1]; [2; 2; 2]]%Q 0%Q ;;
  x_q_2 <- meq x_C_6 x_t_1 ;;
  _ <- check x_q_2 ;;
  x_C_7 <- lil_assign x_C_6 x_Ones ;;
  x_C_8 <- t_opt_mxm TyD (acc TyD qplus) TyD (mkSr qplus qtimes TyD) (MComp (Other x_MLower)) MERGE
    x_C_7 (OTrn (Other x_Ones)) (OTrn (Other x_Identity)) ;;
  x_t_2 <- mdense0 TyD [[1; 2; 2]; [1; 1; 2]; [1; 1; 1]]%Q 0%Q ;;
  x_q_3 <- meq x_C_8 x_t_2 ;;
  _ <- check x_q_3 ;;
  x_C_9 <- lil_assign x_C_8 x_Ones ;;
  x_C_10 <- t_opt_mxm TyD (acc TyD qplus) TyD (mkSr qplus qtimes TyD) (MComp (Other x_Ones)) REPLACE
    x_C_9 (OTrn (Other x_A)) (OTrn (Other x_Identity)) ;;
  x_q_4 <- meq x_C_10 x_Empty ;;
  _ <- check x_q_4 ;;
  x_C_11 <- lil_assign x_C_10 x_Ones ;;
  x_C_12 <- t_opt_mxm TyD (acc TyD qplus) TyD (mkSr qplus qtimes TyD) (MComp (Other x_Empty))
    REPLACE x_C_11 (OTrn (Other x_A)) (OTrn (Other x_Identity)) ;;
  x_t_3 <- mdense0 TyD [[13; 8; 1]; [1; (-4); 1]; [8; 1; 10]]%Q 0%Q ;;
  x_q_5 <- meq x_C_12 x_t_3 ;;
  _ <- check x_q_5 ;;
  x_C_13 <- lil_assign x_C_12 x_Ones ;;
  x_C_14 <- t_opt_mxm TyD (acc TyD qplus) TyD (mkSr qplus qtimes TyD) (MComp (Other x_MNotLower))
    REPLACE x_C_13 (OTrn (Other x_Ones)) (OTrn (Other x_Identity)) ;;
  x_t_4 <- mdense0 TyD [[2; 0; 0]; [2; 2; 0]; [2; 2; 2]]%Q 0%Q ;;
  x_q_6 <- meq x_C_14 x_t_4 ;;
  _ <- check x_q_6 ;;
  x_C_15 <- lil_assign x_C_14 x_Ones ;;
  x_C_16 <- t_opt_mxm TyD (acc TyD qplus) TyD (mkSr qplus qtimes TyD) (MComp (Other x_MLower))
    REPLACE x_C_15 (OTrn (Other x_Ones)) (OTrn (Other x_Identity)) ;;
  x_t_5 <- mdense0 TyD [[0; 2; 2]; [0; 0; 2]; [0; 0; 0]]%Q 0%Q ;;
  x_q_7 <- meq x_C_16 x_t_5 ;;
  _ <- check x_q_7 ;;
  Ok tt) = Ok tt.
Proof. vm_compute. reflexivity. Qed.

(** test_mxm_ATBT.cpp:2252-2299 *)
Example test_mxm_CompMask_Accum_ATBTM_empty :
 (x_Empty <- mnew 3 3 ;;
  x_Ones <- mdense0 TyD d_Ones_3x3 0%Q ;;
  x_C <- mnew 3 3 ;;
  x_MNotLower <- mdense0 TyB d_NotLowerBool_3x3 0%Q ;;
  x_C_1 <- lil_assign x_C x_Ones ;;
  x_C_2 <- t_mxm TyD (acc TyD qplus) (mkSr qplus qtimes TyD) (MComp x_MNotLower) MERGE x_C_1 (Trn
    x_Empty) (Trn x_Ones) ;;
  x_q <- meq x_C_2 x_Ones ;;
  _ <- check x_q ;;
  x_C_3 <- lil_assign x_C_2 x_Ones ;;
  x_C_4 <- t_mxm TyD (acc TyD qplus) (mkSr qplus qtimes TyD) (MComp x_MNotLower) MERGE x_C_3 (Trn
    x_Ones) (Trn x_Empty) ;;
  x_q_1 <- meq x_C_4 x_Ones ;;
  _ <- check x_q_1 ;;
  x_C_5 <- lil_assign x_C_4 x_Ones ;;
  x_C_6 <- t_mxm TyD (acc TyD qplus) (mkSr qplus qtimes TyD) (MComp x_Ones) MERGE x_C_5 (Trn x_Ones)
    (Trn x_Ones) ;;
  x_q_2 <- meq x_C_6 x_Ones ;;
  _ <- check x_q_2 ;;
  x_C_7 <- lil_assign x_C_6 x_Ones ;;
  x_C_8 <- t_mxm TyD (acc TyD qplus) (mkSr qplus qtimes TyD) (MComp x_MNotLower) REPLACE x_C_7 (Trn
    x_Empty) (Trn x_Ones) ;;
  x_t <- mdense0 TyD d_Lower_3x3 0%Q ;;
  x_q_3 <- meq x_C_8 x_t ;;
  _ <- check x_q_3 ;;
  x_C_9 <- lil_assign x_C_8 x_Ones ;;
  x_C_10 <- t_mxm TyD (acc TyD qplus) (mkSr qplus qtimes TyD) (MComp x_MNotLower) REPLACE x_C_9 (Trn
    x_Ones) (Trn x_Empty) ;;
  x_t_1 <- mdense0 TyD d_Lower_3x3 0%Q ;;
  x_q_4 <- meq x_C_10 x_t_1 ;;
  _ <- check x_q_4 ;;
  x_C_11 <- lil_assign x_C_10 x_Ones ;;
  x_C_12 <- t_mxm TyD (acc TyD qplus) (mkSr qplus qtimes TyD) (MComp x_Ones) REPLACE x_C_11 (Trn
    x_Ones) (Trn x_Empty) ;;
  x_q_5 <- meq x_C_12 x_Empty ;;
  _ <- check x_q_5 ;;
  Ok tt) = Ok tt.
Proof. vm_compute. reflexivity. Qed.

(** test_mxm_ATBT.cpp:2252-2299, optimized_sequential platform *)
Example test_mxm_CompMask_Accum_ATBTM_empty_opt :
 (x_Empty <- mnew 3 3 ;;
  x_Ones <- mdense0 TyD d_Ones_3x3 0%Q ;;
  x_C <- mnew 3 3 ;;
  x_MNotLower <- mdense0 TyB d_NotLowerBool_3x3 0%Q ;;
  x_C_1 <- lil_assign x_C x_Ones ;;
  x_C_2 <- t_opt_mxm TyD (acc TyD qplus) TyD (mkSr qplus qtimes TyD) (MComp (Other x_MNotLower))
    MERGE x_C_1 (OTrn (Other x_Empty)) (OTrn (Other x_Ones)) ;;
  x_q <- meq x_C_2 x_Ones ;;
  _ <- check x_q ;;
  x_C_3 <- lil_assign x_C_2 x_Ones ;;
  x_C_4 <- t_opt_mxm TyD (acc TyD qplus) TyD (mkSr qplus qtimes TyD) (MComp (Other x_MNotLower))
    MERGE x_C_3 (OTrn (Other x_Ones)) (OTrn (Other x_Empty)) ;;
  x_q_1 <- meq x_C_4 x_Ones ;;
  _ <- check x_q_1 ;;
  x_C_5 <- lil_assign x_C_4 x_Ones ;;
  x_C_6 <- t_opt_mxm TyD (acc TyD qplus) TyD (mkSr qplus qtimes TyD) (MComp (Other x_Ones)) MERGE
    x_C_5 (OTrn (Other x_Ones)) (OTrn (Other x_Ones)) ;;
  x_q_2 <- meq x_C_6 x_Ones ;;
  _ <- check x_q_2 ;;
  x_C_7 <- lil_assign x_C_6 x_Ones ;;
  x_C_8 <- t_opt_mxm TyD (acc TyD qplus) TyD (mkSr qplus qtimes TyD) (MComp (Other x_MNotLower))
    REPLACE x_C_7 (OTrn (Other x_Empty)) (OTrn (Other x_Ones)) ;;
  x_t <- mdense0 TyD d_Lower_3x3 0%Q ;;
  x_q_3 <- meq x_C_8 x_t ;;
  _ <- check x_q_3 ;;
  x_C_9 <- lil_assign x_C_8 x_Ones ;;
  x_C_10 <- t_opt_mxm TyD (acc TyD qplus) TyD (mkSr qplus qtimes TyD) (MComp (Other x_MNotLower))
    REPLACE x_C_9 (OTrn (Other x_Ones)) (OTrn (Other x_Empty)) ;;
  x_t_1 <- mdense0 TyD d_Lower_3x3 0%Q ;;
  x_q_4 <- meq x_C_10 x_t_1 ;;
  _ <- check x_q_4 ;;
  x_C_11 <- lil_assign x_C_10 x_Ones ;;
  x_C_12 <- t_opt_mxm TyD (acc TyD qplus) TyD (mkSr qplus qtimes TyD) (MComp (Other x_Ones)) REPLACE
    x_C_11 (OTrn (Other x_Ones)) (OTrn (Other x_Empty)) ;;
  x_q_5 <- meq x_C_12 x_Empty ;;
  _ <- check x_q_5 ;;
  Ok tt) = Ok tt.
Proof. vm_compute. reflexivity. Qed.

(** test_mxm_ATBT.cpp:2302-2344 *)
Example test_mxm_CompMask_Accum_ATBT_emptyRowA_emptyColB :
 (x_A <- mdense0 TyD [[8; 0; 4]; [1; 0; 9]; [6; 0; 2]]%Q 0%Q ;;
  x_B <- mdense0 TyD [[0; 1; 0]; [0; 0; 0]; [0; 1; 1]; [1; 1; 1]]%Q 0%Q ;;
  x_MNotLower <- mdense0 TyD d_NotLower_3x4 0%Q ;;
  x_Ones <- mdense0 TyD d_Ones_3x4 0%Q ;;
  x_C <- mnew 3 4 ;;
  x_answer <- mdense0 TyD [[2; 0; 0; 0]; [1; 1; 0; 0]; [10; 1; 12; 0]]%Q 0%Q ;;
  x_C_1 <- lil_assign x_C x_Ones ;;
  x_C_2 <- t_mxm TyD (acc TyD qplus) (mkSr qplus qtimes TyD) (MComp x_MNotLower) REPLACE x_C_1 (Trn
    x_A) (Trn x_B) ;;
  x_q <- meq x_C_2 x_answer ;;
  _ <- check x_q ;;
  x_answer2 <- mdense0 TyD [[2; 1; 1; 1]; [1; 1; 1; 1]; [10; 1; 12; 1]]%Q 0%Q ;;
  x_C_3 <- lil_assign x_C_2 x_Ones ;;
  x_C_4 <- t_mxm TyD (acc TyD qplus) (mkSr qplus qtimes TyD) (MComp x_MNotLower) MERGE x_C_3 (Trn
    x_A) (Trn x_B) ;;
  x_q_1 <- meq x_C_4 x_answer2 ;;
  _ <- check x_q_1 ;;
  Ok tt) = Ok tt.
Proof. vm_compute. reflexivity. Qed.

(** test_mxm_ATBT.cpp:2302-2344, optimized_sequential platform *)
Example test_mxm_CompMask_Accum_ATBT_emptyRowA_emptyColB_opt :
 (x_A <- mdense0 TyD [[8; 0; 4]; [1; 0; 9]; [6; 0; 2]]%Q 0%Q ;;
  x_B <- mdense0 TyD [[0; 1; 0]; [0; 0; 0]; [0; 1; 1]; [1; 1; 1]]%Q 0%Q ;;
  x_MNotLower <- mdense0 TyD d_NotLower_3x4 0%Q ;;
  x_Ones <- mdense0 TyD d_Ones_3x4 0%Q ;;
  x_C <- mnew 3 4 ;;
  x_answer <- mdense0 TyD [[2; 0; 0; 0]; [1; 1; 0; 0]; [10; 1; 12; 0]]%Q 0%Q ;;
  x_C_1 <- lil_assign x_C x_Ones ;;
  x_C_2 <- t_opt_mxm TyD (acc TyD qplus) TyD (mkSr qplus qtimes TyD) (MComp (Other x_MNotLower))
    REPLACE x_C_1 (OTrn (Other x_A)) (OTrn (Other x_B)) ;;
  x_q <- meq x_C_2 x_answer ;;
  _ <- check x_q ;;
  x_answer2 <- mdense0 TyD [[2; 1; 1; 1]; [1; 1; 1; 1]; [10; 1; 12; 1]]%Q 0%Q ;;
  x_C_3 <- lil_assign x_C_2 x_Ones ;;
  x_C_4 <- t_opt_mxm TyD (acc TyD qplus) TyD (mkSr qplus qtimes TyD) (MComp (Other x_MNotLower))
    MERGE x_C_3 (OTrn (Other x_A)) (OTrn (Other x_B)) ;;
  x_q_1 <- meq x_C_4 x_answer2 ;;
  _ <- check x_q_1 ;;
  Ok tt) = Ok tt.
Proof. vm_compute. reflexivity. Qed.

(** test_mxm_ATBT.cpp:2347-2389 *)
Example test_mxm_CompMask_Accum_ATBT_emptyColA_emptyRowB :
 (x_A <- mdense0 TyD [[8; 1; 4]; [0; 0; 0]; [6; 9; 2]]%Q 0%Q ;;
  x_B <- mdense0 TyD [[0; 1; 0]; [1; 0; 0]; [0; 1; 0]; [1; 1; 0]]%Q 0%Q ;;
  x_NotLower <- mdense0 TyD d_NotLower_3x4 0%Q ;;
  x_Ones <- mdense0 TyD d_Ones_3x4 0%Q ;;
  x_C <- mnew 3 4 ;;
  x_answer <- mdense0 TyD [[1; 0; 0; 0]; [1; 2; 0; 0]; [1; 5; 1; 0]]%Q 0%Q ;;
  x_C_1 <- lil_assign x_C x_Ones ;;
  x_C_2 <- t_mxm TyD (acc TyD qplus) (mkSr qplus qtimes TyD) (MComp x_NotLower) REPLACE x_C_1 (Trn
    x_A) (Trn x_B) ;;
  x_q <- meq x_C_2 x_answer ;;
  _ <- check x_q ;;
  x_answer2 <- mdense0 TyD [[1; 1; 1; 1]; [1; 2; 1; 1]; [1; 5; 1; 1]]%Q 0%Q ;;
  x_C_3 <- lil_assign x_C_2 x_Ones ;;
  x_C_4 <- t_mxm TyD (acc TyD qplus) (mkSr qplus qtimes TyD) (MComp x_NotLower) MERGE x_C_3 (Trn
    x_A) (Trn x_B) ;;
  x_q_1 <- meq x_C_4 x_answer2 ;;
  _ <- check x_q_1 ;;
  Ok tt) = Ok tt.
Proof. vm_compute. reflexivity. Qed.

(** test_mxm_ATBT.cpp:2347-2389, optimized_sequential platform *)
Example test_mxm_CompMask_Accum_ATBT_emptyColA_emptyRowB_opt :
 (x_A <- mdense0 TyD [[8; 1; 4]; [0; 0; 0]; [6; 9; 2]]%Q 0%Q ;;
  x_B <- mdense0 TyD [[0; 1; 0]; [1; 0; 0]; [0; 1; 0]; [1; 1; 0]]%Q 0%Q ;;
  x_NotLower <- mdense0 TyD d_NotLower_3x4 0%Q ;;
  x_Ones <- mdense0 TyD d_Ones_3x4 0%Q ;;
  x_C <- mnew 3 4 ;;
  x_answer <- mdense0 TyD [[1; 0; 0; 0]; [1; 2; 0; 0]; [1; 5; 1; 0]]%Q 0%Q ;;
  x_C_1 <- lil_assign x_C x_Ones ;;
  x_C_2 <- t_opt_mxm TyD (acc TyD qplus) TyD (mkSr qplus qtimes TyD) (MComp (Other x_NotLower))
    REPLACE x_C_1 (OTrn (Other x_A)) (OTrn (Other x_B)) ;;
  x_q <- meq x_C_2 x_answer ;;
  _ <- check x_q ;;
  x_answer2 <- mdense0 TyD [[1; 1; 1; 1]; [1; 2; 1; 1]; [1; 5; 1; 1]]%Q 0%Q ;;
  x_C_3 <- lil_assign x_C_2 x_Ones ;;
  x_C_4 <- t_opt_mxm TyD (acc TyD qplus) TyD (mkSr qplus qtimes TyD) (MComp (Other x_NotLower))
    MERGE x_C_3 (OTrn (Other x_A)) (OTrn (Other x_B)) ;;
  x_q_1 <- meq x_C_4 x_answer2 ;;
  _ <- check x_q_1 ;;
  Ok tt) = Ok tt.
Proof. vm_compute. reflexivity. Qed.

(** test_mxm_ATBT.cpp:2392-2430 *)
Example test_mxm_CompMask_Accum_ATBT_ABdup :
 (x_mat <- mdense0 TyD d_Symmetric_4x4 0%Q ;;
  x_NotLower <- mdense0 TyD d_NotLower_4x4 0%Q ;;
  x_Ones <- mdense0 TyD d_Ones_4x4 0%Q ;;
  x_C <- mnew 4 4 ;;
  x_answer <- mdense0 TyD [[3; 1; 1; 1]; [4; 10; 1; 1]; [3; 11; 23; 1]; [1; 7; 22; 26]]%Q 0%Q ;;
  x_C_1 <- lil_assign x_C x_Ones ;;
  x_C_2 <- t_mxm TyD (acc TyD qplus) (mkSr qplus qtimes TyD) (MComp x_NotLower) MERGE x_C_1 (Trn
    x_mat) (Trn x_mat) ;;
  x_q <- meq x_C_2 x_answer ;;
  _ <- check x_q ;;
  x_answer2 <- mdense0 TyD [[3; 0; 0; 0]; [4; 10; 0; 0]; [3; 11; 23; 0]; [1; 7; 22; 26]]%Q 0%Q ;;
  x_C_3 <- lil_assign x_C_2 x_Ones ;;
  x_C_4 <- t_mxm TyD (acc TyD qplus) (mkSr qplus qtimes TyD) (MComp x_NotLower) REPLACE x_C_3 (Trn
    x_mat) (Trn x_mat) ;;
  x_q_1 <- meq x_C_4 x_answer2 ;;
  _ <- check x_q_1 ;;
  Ok tt) = Ok tt.
Proof. vm_compute. reflexivity. Qed.

(** test_mxm_ATBT.cpp:2392-2430, optimized_sequential platform *)
Example test_mxm_CompMask_Accum_ATBT_ABdup_opt :
 (x_mat <- mdense0 TyD d_Symmetric_4x4 0%Q ;;
  x_NotLower <- mdense0 TyD d_NotLower_4x4 0%Q ;;
  x_Ones <- mdense0 TyD d_Ones_4x4 0%Q ;;
  x_C <- mnew 4 4 ;;
  x_answer <- mdense0 TyD [[3; 1; 1; 1]; [4; 10; 1; 1]; [3; 11; 23; 1]; [1; 7; 22; 26]]%Q 0%Q ;;
  x_C_1 <- lil_assign x_C x_Ones ;;
  x_C_2 <- t_opt_mxm TyD (acc TyD qplus) TyD (mkSr qplus qtimes TyD) (MComp (Other x_NotLower))
    MERGE x_C_1 (OTrn (Other x_mat)) (OTrn (Other x_mat)) ;;
  x_q <- meq x_C_2 x_answer ;;
  _ <- check x_q ;;
  x_answer2 <- mdense0 TyD [[3; 0; 0; 0]; [4; 10; 0; 0]; [3; 11; 23; 0]; [1; 7; 22; 26]]%Q 0%Q ;;
  x_C_3 <- lil_assign x_C_2 x_Ones ;;
  x_C_4 <- t_opt_mxm TyD (acc TyD qplus) TyD (mkSr qplus qtimes TyD) (MComp (Other x_NotLower))
    REPLACE x_C_3 (OTrn (Other x_mat)) (OTrn (Other x_mat)) ;;
  x_q_1 <- meq x_C_4 x_answer2 ;;
  _ <- check x_q_1 ;;
  Ok tt) = Ok tt.
Proof. vm_compute. reflexivity. Qed.

(** test_mxm_ATBT.cpp:2433-2472 *)
Example test_mxm_CompMask_Accum_ATBT_ACdup :
 (x_mat <- mdense0 TyD d_Symmetric_4x4 0%Q ;;
  x_NotLower <- mdense0 TyD d_NotLower_4x4 0%Q ;;
  x_Ones <- mdense0 TyD d_Ones_4x4 0%Q ;;
  x_C <- mnew 4 4 ;;
  x_answer <- mdense0 TyD [[3; 1; 0; 0]; [4; 11; 2; 0]; [2; 12; 25; 3]; [0; 6; 24; 29]]%Q 0%Q ;;
  x_C_1 <- lil_assign x_C x_mat ;;
  x_C_2 <- t_mxm TyD (acc TyD qplus) (mkSr qplus qtimes TyD) (MComp x_NotLower) MERGE x_C_1 (Trn
    x_C_1) (Trn x_mat) ;;
  x_q <- meq x_C_2 x_answer ;;
  _ <- check x_q ;;
  x_answer2 <- mdense0 TyD [[3; 0; 0; 0]; [4; 11; 0; 0]; [2; 12; 25; 0]; [0; 6; 24; 29]]%Q 0%Q ;;
  x_C_3 <- lil_assign x_C_2 x_mat ;;
  x_C_4 <- t_mxm TyD (acc TyD qplus) (mkSr qplus qtimes TyD) (MComp x_NotLower) REPLACE x_C_3 (Trn
    x_C_3) (Trn x_mat) ;;
  x_q_1 <- meq x_C_4 x_answer2 ;;
  _ <- check x_q_1 ;;
  Ok tt) = Ok tt.
Proof. vm_compute. reflexivity. Qed.

(** test_mxm_ATBT.cpp:2433-2472, optimized_sequential platform *)
Example test_mxm_CompMask_Accum_ATBT_ACdup_opt :
 (x_mat <- mdense0 TyD d_Symmetric_4x4 0%Q ;;
  x_NotLower <- mdense0 TyD d_NotLower_4x4 0%Q ;;
  x_Ones <- mdense0 TyD d_Ones_4x4 0%Q ;;
  x_C <- mnew 4 4 ;;
  x_answer <- mdense0 TyD [[3; 1; 0; 0]; [4; 11; 2; 0]; [2; 12; 25; 3]; [0; 6; 24; 29]]%Q 0%Q ;;
  x_C_1 <- lil_assign x_C x_mat ;;
  x_C_2 <- t_opt_mxm TyD (acc TyD qplus) TyD (mkSr qplus qtimes TyD) (MComp (Other x_NotLower))
    MERGE x_C_1 (OTrn (TheOutput (fun x => x))) (OTrn (Other x_mat)) ;;
  x_q <- meq x_C_2 x_answer ;;
  _ <- check x_q ;;
  x_answer2 <- mdense0 TyD [[3; 0; 0; 0]; [4; 11; 0; 0]; [2; 12; 25; 0]; [0; 6; 24; 29]]%Q 0%Q ;;
  x_C_3 <- lil_assign x_C_2 x_mat ;;
  x_C_4 <- t_opt_mxm TyD (acc TyD qplus) TyD (mkSr qplus qtimes TyD) (MComp (Other x_NotLower))
    REPLACE x_C_3 (OTrn (TheOutput (fun x => x))) (OTrn (Other x_mat)) ;;
  x_q_1 <- meq x_C_4 x_answer2 ;;
  _ <- check x_q_1 ;;
  Ok tt) = Ok tt.
Proof. vm_compute. reflexivity. Qed.

(** test_mxm_ATBT.cpp:2475-2522 *)
Example test_mxm_CompMask_Accum_ATBT_BCdup :
 (x_mat <- mdense0 TyD d_Symmetric_4x4 0%Q ;;
  x_NotLower <- mdense0 TyD d_NotLower_4x4 0%Q ;;
  x_Ones <- mdense0 TyD d_Ones_4x4 0%Q ;;
  x_C <- mnew 4 4 ;;
  x_answer <- mdense0 TyD [[3; 1; 0; 0]; [4; 11; 2; 0]; [2; 12; 25; 3]; [0; 6; 24; 29]]%Q 0%Q ;;
  x_C_1 <- lil_assign x_C x_mat ;;
  x_C_2 <- t_mxm TyD (acc TyD qplus) (mkSr qplus qtimes TyD) (MComp x_NotLower) MERGE x_C_1 (Trn
    x_mat) (Trn x_C_1) ;;
  x_q <- meq x_C_2 x_answer ;;
  _ <- check x_q ;;
  x_C_3 <- lil_assign x_C_2 x_mat ;;
  x_C_4 <- t_mxm TyD (acc TyD qplus) (mkSr qplus qtimes TyD) (MComp x_NotLower) MERGE x_C_3 (Trn
    x_mat) (Trn x_mat) ;;
  x_q_1 <- meq x_C_4 x_answer ;;
  _ <- check x_q_1 ;;
  x_answer2 <- mdense0 TyD [[3; 0; 0; 0]; [4; 11; 0; 0]; [2; 12; 25; 0]; [0; 6; 24; 29]]%Q 0%Q ;;
  x_C_5 <- lil_assign x_C_4 x_mat ;;
  x_C_6 <- t_mxm TyD (acc TyD qplus) (mkSr qplus qtimes TyD) (MComp x_NotLower) REPLACE x_C_5 (Trn
    x_mat) (Trn x_C_5) ;;
  x_q_2 <- meq x_C_6 x_answer2 ;;
  _ <- check x_q_2 ;;
  Ok tt) = Ok tt.
Proof. vm_compute. reflexivity. Qed.

(** test_mxm_ATBT.cpp:2475-2522, optimized_sequential platform *)
Example test_mxm_CompMask_Accum_ATBT_BCdup_opt :
 (x_mat <- mdense0 TyD d_Symmetric_4x4 0%Q ;;
  x_NotLower <- mdense0 TyD d_NotLower_4x4 0%Q ;;
  x_Ones <- mdense0 TyD d_Ones_4x4 0%Q ;;
  x_C <- mnew 4 4 ;;
  x_answer <- mdense0 TyD [[3; 1; 0; 0]; [4; 11; 2; 0]; [2; 12; 25; 3]; [0; 6; 24; 29]]%Q 0%Q ;;
  x_C_1 <- lil_assign x_C x_mat ;;
  x_C_2 <- t_opt_mxm TyD (acc TyD qplus) TyD (mkSr qplus qtimes TyD) (MComp (Other x_NotLower))
    MERGE x_C_1 (OTrn (Other x_mat)) (OTrn (TheOutput (fun x => x))) ;;
  x_q <- meq x_C_2 x_answer ;;
  _ <- check x_q ;;
  x_C_3 <- lil_assign x_C_2 x_mat ;;
  x_C_4 <- t_opt_mxm TyD (acc TyD qplus) TyD (mkSr qplus qtimes TyD) (MComp (Other x_NotLower))
    MERGE x_C_3 (OTrn (Other x_mat)) (OTrn (Other x_mat)) ;;
  x_q_1 <- meq x_C_4 x_answer ;;
  _ <- check x_q_1 ;;
  x_answer2 <- mdense0 TyD [[3; 0; 0; 0]; [4; 11; 0; 0]; [2; 12; 25; 0]; [0; 6; 24; 29]]%Q 0%Q ;;
  x_C_5 <- lil_assign x_C_4 x_mat ;;
  x_C_6 <- t_opt_mxm TyD (acc TyD qplus) TyD (mkSr qplus qtimes TyD) (MComp (Other x_NotLower))
    REPLACE x_C_5 (OTrn (Other x_mat)) (OTrn (TheOutput (fun x => x))) ;;
  x_q_2 <- meq x_C_6 x_answer2 ;;
  _ <- check x_q_2 ;;
  Ok tt) = Ok tt.
Proof. vm_compute. reflexivity. Qed.

(** test_mxm_ATBT.cpp:2525-2562 *)
Example test_mxm_CompMask_Accum_ATBT_MCdup :
 (x_mat <- mdense0 TyD d_Symmetric_4x4 0%Q ;;
  x_NotLower <- mdense0 TyD d_NotLower_4x4 0%Q ;;
  x_C <- mnew 4 4 ;;
  x_answer <- mdense0 TyD [[2; 1; 1; 1]; [3; 9; 1; 1]; [2; 10; 22; 1]; [0; 6; 21; 25]]%Q 0%Q ;;
  x_C_1 <- lil_assign x_C x_NotLower ;;
  x_C_2 <- t_mxm TyD (acc TyD qplus) (mkSr qplus qtimes TyD) (MComp x_C_1) MERGE x_C_1 (Trn x_mat)
    (Trn x_mat) ;;
  x_q <- meq x_C_2 x_answer ;;
  _ <- check x_q ;;
  x_answer2 <- mdense0 TyD [[2; 0; 0; 0]; [3; 9; 0; 0]; [2; 10; 22; 0]; [0; 6; 21; 25]]%Q 0%Q ;;
  x_C_3 <- lil_assign x_C_2 x_NotLower ;;
  x_C_4 <- t_mxm TyD (acc TyD qplus) (mkSr qplus qtimes TyD) (MComp x_C_3) REPLACE x_C_3 (Trn x_mat)
    (Trn x_mat) ;;
  x_q_1 <- meq x_C_4 x_answer2 ;;
  _ <- check x_q_1 ;;
  Ok tt) = Ok tt.
Proof. vm_compute. reflexivity. Qed.

(** test_mxm_ATBT.cpp:2525-2562, optimized_sequential platform *)
Example test_mxm_CompMask_Accum_ATBT_MCdup_opt :
 (x_mat <- mdense0 TyD d_Symmetric_4x4 0%Q ;;
  x_NotLower <- mdense0 TyD d_NotLower_4x4 0%Q ;;
  x_C <- mnew 4 4 ;;
  x_answer <- mdense0 TyD [[2; 1; 1; 1]; [3; 9; 1; 1]; [2; 10; 22; 1]; [0; 6; 21; 25]]%Q 0%Q ;;
  x_C_1 <- lil_assign x_C x_NotLower ;;
  x_C_2 <- t_opt_mxm TyD (acc TyD qplus) TyD (mkSr qplus qtimes TyD) (MComp (TheOutput (fun x =>
    x))) MERGE x_C_1 (OTrn (Other x_mat)) (OTrn (Other x_mat)) ;;
  x_q <- meq x_C_2 x_answer ;;
  _ <- check x_q ;;
  x_answer2 <- mdense0 TyD [[2; 0; 0; 0]; [3; 9; 0; 0]; [2; 10; 22; 0]; [0; 6; 21; 25]]%Q 0%Q ;;
  x_C_3 <- lil_assign x_C_2 x_NotLower ;;
  x_C_4 <- t_opt_mxm TyD (acc TyD qplus) TyD (mkSr qplus qtimes TyD) (MComp (TheOutput (fun x =>
    x))) REPLACE x_C_3 (OTrn (Other x_mat)) (OTrn (Other x_mat)) ;;
  x_q_1 <- meq x_C_4 x_answer2 ;;
  _ <- check x_q_1 ;;
  Ok tt) = Ok tt.
Proof. vm_compute. reflexivity. Qed.

(** test_mxm_ATBT.cpp:2565-2586 *)
Example test_mxm_CompMask_Accum_ATBT_Replace_Cones_Mnlower :
 (x_A <- mdense0 TyD d_AT_dense_3x3 0%Q ;;
  x_B <- mdense0 TyD d_BT_dense_3x4 0%Q ;;
  x_M <- mdense0 TyD d_NotLower_3x4 0%Q ;;
  _ <- check (Qeq_bool (inject_Z (nvals x_M)) 6%Q) ;;
  x_result <- mdense0 TyD d_Ones_3x4 0%Q ;;
  x_answer <- mdense0 TyD [[114; 0; 0; 0]; [74; 97; 0; 0]; [119; 157; 112; 0]]%Q 0%Q ;;
  x_result_1 <- t_mxm TyD (acc TyD qsecond) (mkSr qplus qtimes TyD) (MComp x_M) REPLACE x_result
    (Trn x_A) (Trn x_B) ;;
  _ <- check (Qeq_bool (inject_Z (nvals x_result_1)) 6%Q) ;;
  x_q <- meq x_result_1 x_answer ;;
  _ <- check x_q ;;
  Ok tt) = Ok tt.
Proof. vm_compute. reflexivity. Qed.

(** test_mxm_ATBT.cpp:2565-2586, optimized_sequential platform *)
Example test_mxm_CompMask_Accum_ATBT_Replace_Cones_Mnlower_opt :
 (x_A <- mdense0 TyD d_AT_dense_3x3 0%Q ;;
  x_B <- mdense0 TyD d_BT_dense_3x4 0%Q ;;
  x_M <- mdense0 TyD d_NotLower_3x4 0%Q ;;
  _ <- check (Qeq_bool (inject_Z (nvals x_M)) 6%Q) ;;
  x_result <- mdense0 TyD d_Ones_3x4 0%Q ;;
  x_answer <- mdense0 TyD [[114; 0; 0; 0]; [74; 97; 0; 0]; [119; 157; 112; 0]]%Q 0%Q ;;
  x_result_1 <- t_opt_mxm TyD (acc TyD qsecond) TyD (mkSr qplus qtimes TyD) (MComp (Other x_M))
    REPLACE x_result (OTrn (Other x_A)) (OTrn (Other x_B)) ;;
  _ <- check (Qeq_bool (inject_Z (nvals x_result_1)) 6%Q) ;;
  x_q <- meq x_result_1 x_answer ;;
  _ <- check x_q ;;
  Ok tt) = Ok tt.
Proof. vm_compute. reflexivity. Qed.

(** test_mxm_ATBT.cpp:2589-2612 *)
Example test_mxm_CompMask_Accum_ATBT_Replace_Mstored_zero :
 (x_A <- mdense0 TyD d_AT_dense_3x3 0%Q ;;
  x_B <- mdense0 TyD d_BT_dense_3x4 0%Q ;;
  x_M <- mdense0 TyD d_NotLower_3x4 0%Q ;;
  x_M_1 <- lil_setElement x_M 0 0 (cast TyD 0%Q) ;;
  _ <- check (Qeq_bool (inject_Z (nvals x_M_1)) 7%Q) ;;
  x_result <- mdense0 TyD d_Ones_3x4 0%Q ;;
  x_answer <- mdense0 TyD [[114; 0; 0; 0]; [74; 97; 0; 0]; [119; 157; 112; 0]]%Q 0%Q ;;
  x_result_1 <- t_mxm TyD (acc TyD qsecond) (mkSr qplus qtimes TyD) (MComp x_M_1) REPLACE x_result
    (Trn x_A) (Trn x_B) ;;
  _ <- check (Qeq_bool (inject_Z (nvals x_result_1)) 6%Q) ;;
  x_q <- meq x_result_1 x_answer ;;
  _ <- check x_q ;;
  Ok tt) = Ok tt.
Proof. vm_compute. reflexivity. Qed.

(** test_mxm_ATBT.cpp:2589-2612, optimized_sequential platform *)
Example test_mxm_CompMask_Accum_ATBT_Replace_Mstored_zero_opt :
 (x_A <- mdense0 TyD d_AT_dense_3x3 0%Q ;;
  x_B <- mdense0 TyD d_BT_dense_3x4 0%Q ;;
  x_M <- mdense0 TyD d_NotLower_3x4 0%Q ;;
  x_M_1 <- lil_setElement x_M 0 0 (cast TyD 0%Q) ;;
  _ <- check (Qeq_bool (inject_Z (nvals x_M_1)) 7%Q) ;;
  x_result <- mdense0 TyD d_Ones_3x4 0%Q ;;
  x_answer <- mdense0 TyD [[114; 0; 0; 0]; [74; 97; 0; 0]; [119; 157; 112; 0]]%Q 0%Q ;;
  x_result_1 <- t_opt_mxm TyD (acc TyD qsecond) TyD (mkSr qplus qtimes TyD) (MComp (Other x_M_1))
    REPLACE x_result (OTrn (Other x_A)) (OTrn (Other x_B)) ;;
  _ <- check (Qeq_bool (inject_Z (nvals x_result_1)) 6%Q) ;;
  x_q <- meq x_result_1 x_answer ;;
  _ <- check x_q ;;
  Ok tt) = Ok tt.
Proof. vm_compute. reflexivity. Qed.

(** test_mxm_ATBT.cpp:2615-2635 *)
Example test_mxm_CompMask_Accum_ATBT_Merge :
 (x_A <- mdense0 TyD d_AT_dense_3x3 0%Q ;;
  x_B <- mdense0 TyD d_BT_dense_3x4 0%Q ;;
  x_M <- mdense0 TyD d_NotLower_3x4 0%Q ;;
  _ <- check (Qeq_bool (inject_Z (nvals x_M)) 6%Q) ;;
  x_result <- mdense0 TyD d_Ones_3x4 0%Q ;;
  x_answer <- mdense0 TyD [[114; 1; 1; 1]; [74; 97; 1; 1]; [119; 157; 112; 1]]%Q 0%Q ;;
  x_result_1 <- t_mxm TyD (acc TyD qsecond) (mkSr qplus qtimes TyD) (MComp x_M) MERGE x_result (Trn
    x_A) (Trn x_B) ;;
  _ <- check (Qeq_bool (inject_Z (nvals x_result_1)) 12%Q) ;;
  x_q <- meq x_result_1 x_answer ;;
  _ <- check x_q ;;
  Ok tt) = Ok tt.
Proof. vm_compute. reflexivity. Qed.

(** test_mxm_ATBT.cpp:2615-2635, optimized_sequential platform *)
Example test_mxm_CompMask_Accum_ATBT_Merge_opt :
 (x_A <- mdense0 TyD d_AT_dense_3x3 0%Q ;;
  x_B <- mdense0 TyD d_BT_dense_3x4 0%Q ;;
  x_M <- mdense0 TyD d_NotLower_3x4 0%Q ;;
  _ <- check (Qeq_bool (inject_Z (nvals x_M)) 6%Q) ;;
  x_result <- mdense0 TyD d_Ones_3x4 0%Q ;;
  x_answer <- mdense0 TyD [[114; 1; 1; 1]; [74; 97; 1; 1]; [119; 157; 112; 1]]%Q 0%Q ;;
  x_result_1 <- t_opt_mxm TyD (acc TyD qsecond) TyD (mkSr qplus qtimes TyD) (MComp (Other x_M))
    MERGE x_result (OTrn (Other x_A)) (OTrn (Other x_B)) ;;
  _ <- check (Qeq_bool (inject_Z (nvals x_result_1)) 12%Q) ;;
  x_q <- meq x_result_1 x_answer ;;
  _ <- check x_q ;;
  Ok tt) = Ok tt.
Proof. vm_compute. reflexivity. Qed.

(** test_mxm_ATBT.cpp:2638-2659 *)
Example test_mxm_CompMask_Accum_ATBT_Merge_Mstored_zero :
 (x_A <- mdense0 TyD d_AT_dense_3x3 0%Q ;;
  x_B <- mdense0 TyD d_BT_dense_3x4 0%Q ;;
  x_M <- mdense0 TyD d_NotLower_3x4 0%Q ;;
  x_M_1 <- lil_setElement x_M 0 0 (cast TyD 0%Q) ;;
  _ <- check (Qeq_bool (inject_Z (nvals x_M_1)) 7%Q) ;;
  x_result <- mdense0 TyD d_Ones_3x4 0%Q ;;
  x_answer <- mdense0 TyD [[114; 1; 1; 1]; [74; 97; 1; 1]; [119; 157; 112; 1]]%Q 0%Q ;;
  x_result_1 <- t_mxm TyD (acc TyD qsecond) (mkSr qplus qtimes TyD) (MComp x_M_1) MERGE x_result
    (Trn x_A) (Trn x_B) ;;
  _ <- check (Qeq_bool (inject_Z (nvals x_result_1)) 12%Q) ;;
  x_q <- meq x_result_1 x_answer ;;
  _ <- check x_q ;;
  Ok tt) = Ok tt.
Proof. vm_compute. reflexivity. Qed.

(** test_mxm_ATBT.cpp:2638-2659, optimized_sequential platform *)
Example test_mxm_CompMask_Accum_ATBT_Merge_Mstored_zero_opt :
 (x_A <- mdense0 TyD d_AT_dense_3x3 0%Q ;;
  x_B <- mdense0 TyD d_BT_dense_3x4 0%Q ;;
  x_M <- mdense0 TyD d_NotLower_3x4 0%Q ;;
  x_M_1 <- lil_setElement x_M 0 0 (cast TyD 0%Q) ;;
  _ <- check (Qeq_bool (inject_Z (nvals x_M_1)) 7%Q) ;;
  x_result <- mdense0 TyD d_Ones_3x4 0%Q ;;
  x_answer <- mdense0 TyD [[114; 1; 1; 1]; [74; 97; 1; 1]; [119; 157; 112; 1]]%Q 0%Q ;;
  x_result_1 <- t_opt_mxm TyD (acc TyD qsecond) TyD (mkSr qplus qtimes TyD) (MComp (Other x_M_1))
    MERGE x_result (OTrn (Other x_A)) (OTrn (Other x_B)) ;;
  _ <- check (Qeq_bool (inject_Z (nvals x_result_1)) 12%Q) ;;
  x_q <- meq x_result_1 x_answer ;;
  _ <- check x_q ;;
  Ok tt) = Ok tt.
Proof. vm_compute. reflexivity. Qed.

(** test_mxm_ATBT.cpp:2662-2683 *)
Example test_mxm_CompMask_Accum_ATBT_Merge_ABdup :
 (x_mat <- mdense0 TyD d_Symmetric_4x4 0%Q ;;
  x_result <- mdense0 TyD d_Ones_4x4 0%Q ;;
  x_answer <- mdense0 TyD [[2; 1; 1; 1]; [3; 9; 1; 1]; [2; 10; 22; 1]; [0; 6; 21; 25]]%Q 0%Q ;;
  x_M <- mdense0 TyD d_NotLower_4x4 0%Q ;;
  x_result_1 <- t_mxm TyD noacc (mkSr qplus qtimes TyD) (MComp x_M) MERGE x_result (Trn x_mat) (Trn
    x_mat) ;;
  x_q <- meq x_result_1 x_answer ;;
  _ <- check x_q ;;
  Ok tt) = Ok tt.
Proof. vm_compute. reflexivity. Qed.

(** test_mxm_ATBT.cpp:2662-2683, optimized_sequential platform *)
Example test_mxm_CompMask_Accum_ATBT_Merge_ABdup_opt :
 (x_mat <- mdense0 TyD d_Symmetric_4x4 0%Q ;;
  x_result <- mdense0 TyD d_Ones_4x4 0%Q ;;
  x_answer <- mdense0 TyD [[2; 1; 1; 1]; [3; 9; 1; 1]; [2; 10; 22; 1]; [0; 6; 21; 25]]%Q 0%Q ;;
  x_M <- mdense0 TyD d_NotLower_4x4 0%Q ;;
  x_result_1 <- t_opt_mxm TyD noacc TyD (mkSr qplus qtimes TyD) (MComp (Other x_M)) MERGE x_result
    (OTrn (Other x_mat)) (OTrn (Other x_mat)) ;;
  x_q <- meq x_result_1 x_answer ;;
  _ <- check x_q ;;
  Ok tt) = Ok tt.
Proof. vm_compute. reflexivity. Qed.

(** test_mxm_ATBT.cpp:2694-2777 *)
Example test_mxm_StructMask_NoAccum_ATBT :
 (x_A <- mdense0 TyD d_AT_sparse_3x3 0%Q ;;
  x_AT <- mdense0 TyD d_A_sparse_3x3 0%Q ;;
  x_Identity <- mdense0 TyD d_Identity_3x3 0%Q ;;
  x_Empty <- mnew 3 3 ;;
  x_Ones <- mdense0 TyD d_Ones_3x3 0%Q ;;
  x_C <- mnew 3 3 ;;
  x_MLower <- mdense0 TyD d_Lower_3x3 0%Q ;;
  x_MNotLower <- mdense0 TyD d_NotLower_3x3 0%Q ;;
  x_AFilled <- mdense0 TyD [[12; 7; 1]; [1; (-5); 1]; [7; 1; 9]]%Q 0%Q ;;
  x_C_1 <- lil_assign x_C x_Ones ;;
  x_Ones_1 <- lil_setElement x_Ones 0 0 (cast TyD 0%Q) ;;
  x_C_2 <- t_mxm TyD noacc (mkSr qplus qtimes TyD) (MStruct x_Ones_1) MERGE x_C_1 (Trn x_A) (Trn
    x_Identity) ;;
  x_q <- meq x_C_2 x_AT ;;
  _ <- check x_q ;;
  x_Ones_2 <- lil_setElement x_Ones_1 0 0 (cast TyD 1%Q) ;;
  x_C_3 <- lil_assign x_C_2 x_Ones_2 ;;
  x_AT_1 <- lil_setElement x_AT 0 1 (cast TyD 0%Q) ;;
  x_C_4 <- t_mxm TyD noacc (mkSr qplus qtimes TyD) (MStruct x_AT_1) MERGE x_C_3 (Trn x_A) (Trn
    x_Identity) ;;
  x_q_1 <- meq x_C_4 x_AFilled ;;
  _ <- check x_q_1 ;;
  x_AT_2 <- lil_setElement x_AT_1 0 1 (cast TyD 7%Q) ;;
  x_C_5 <- lil_assign x_C_4 x_Ones_2 ;;
  x_MLower_1 <- lil_setElement x_MLower 2 0 (cast TyD 0%Q) ;;
  x_C_6 <- t_mxm TyD noacc (mkSr qplus qtimes TyD) (MStruct x_MLower_1) MERGE x_C_5 (Trn x_Ones_2)
    (Trn x_Identity) ;;
  x_q_2 <- meq x_C_6 x_Ones_2 ;;
  _ <- check x_q_2 ;;
  x_C_7 <- lil_assign x_C_6 x_Ones_2 ;;
  x_MNotLower_1 <- lil_setElement x_MNotLower 0 2 (cast TyD 0%Q) ;;
  x_C_8 <- t_mxm TyD noacc (mkSr qplus qtimes TyD) (MStruct x_MNotLower_1) MERGE x_C_7 (Trn
    x_Ones_2) (Trn x_Identity) ;;
  x_q_3 <- meq x_C_8 x_Ones_2 ;;
  _ <- check x_q_3 ;;
  x_C_9 <- lil_assign x_C_8 x_Ones_2 ;;
  x_C_10 <- t_mxm TyD noacc (mkSr qplus qtimes TyD) (MStruct x_Empty) REPLACE x_C_9 (Trn x_A) (Trn
    x_Identity) ;;
  x_q_4 <- meq x_C_10 x_Empty ;;
  _ <- check x_q_4 ;;
  x_C_11 <- lil_assign x_C_10 x_Ones_2 ;;
  x_Ones_3 <- lil_setElement x_Ones_2 0 0 (cast TyD 0%Q) ;;
  x_C_12 <- t_mxm TyD noacc (mkSr qplus qtimes TyD) (MStruct x_Ones_3) REPLACE x_C_11 (Trn x_A) (Trn
    x_Identity) ;;
  x_q_5 <- meq x_C_12 x_AT_2 ;;
  _ <- check x_q_5 ;;
  x_Ones_4 <- lil_setElement x_Ones_3 0 0 (cast TyD 1%Q) ;;
  x_C_13 <- lil_assign x_C_12 x_Ones_4 ;;
  x_C_14 <- t_mxm TyD noacc (mkSr qplus qtimes TyD) (MStruct x_MLower_1) REPLACE x_C_13 (Trn
    x_Ones_4) (Trn x_Identity) ;;
  x_MLower_2 <- lil_setElement x_MLower_1 2 0 (cast TyD 1%Q) ;;
  x_q_6 <- meq x_C_14 x_MLower_2 ;;
  _ <- check x_q_6 ;;
  x_C_15 <- lil_assign x_C_14 x_Ones_4 ;;
  x_C_16 <- t_mxm TyD noacc (mkSr qplus qtimes TyD) (MStruct x_MNotLower_1) REPLACE x_C_15 (Trn
    x_Ones_4) (Trn x_Identity) ;;
  x_MNotLower_2 <- lil_setElement x_MNotLower_1 0 2 (cast TyD 1%Q) ;;
  x_q_7 <- meq x_C_16 x_MNotLower_2 ;;
  _ <- check x_q_7 ;;
  Ok tt) = Ok tt.
Proof. vm_compute. reflexivity. Qed.

(** test_mxm_ATBT.cpp:2694-2777, optimized_sequential platform *)
Example test_mxm_StructMask_NoAccum_ATBT_opt :
 (x_A <- mdense0 TyD d_AT_sparse_3x3 0%Q ;;
  x_AT <- mdense0 TyD d_A_sparse_3x3 0%Q ;;
  x_Identity <- mdense0 TyD d_Identity_3x3 0%Q ;;
  x_Empty <- mnew 3 3 ;;
  x_Ones <- mdense0 TyD d_Ones_3x3 0%Q ;;
  x_C <- mnew 3 3 ;;
  x_MLower <- mdense0 TyD d_Lower_3x3 0%Q ;;
  x_MNotLower <- mdense0 TyD d_NotLower_3x3 0%Q ;;
  x_AFilled <- mdense0 TyD [[12; 7; 1]; [1; (-5); 1]; [7; 1; 9]]%Q 0%Q ;;
  x_C_1 <- lil_assign x_C x_Ones ;;
  x_Ones_1 <- lil_setElement x_Ones 0 0 (cast TyD 0%Q) ;;
  x_C_2 <- t_opt_mxm TyD noacc TyD (mkSr qplus qtimes TyD) (MStruct (Other x_Ones_1)) MERGE x_C_1
    (OTrn (Other x_A)) (OTrn (Other x_Identity)) ;;
  x_q <- meq x_C_2 x_AT ;;
  _ <- check x_q ;;
  x_Ones_2 <- lil_setElement x_Ones_1 0 0 (cast TyD 1%Q) ;;
  x_C_3 <- lil_assign x_C_2 x_Ones_2 ;;
  x_AT_1 <- lil_setElement x_AT 0 1 (cast TyD 0%Q) ;;
  x_C_4 <- t_opt_mxm TyD noacc TyD (mkSr qplus qtimes TyD) (MStruct (Other x_AT_1)) MERGE x_C_3
    (OTrn (Other x_A)) (OTrn (Other x_Identity)) ;;
  x_q_1 <- meq x_C_4 x_AFilled ;;
  _ <- check x_q_1 ;;
  x_AT_2 <- lil_setElement x_AT_1 0 1 (cast TyD 7%Q) ;;
  x_C_5 <- lil_assign x_C_4 x_Ones_2 ;;
  x_MLower_1 <- lil_setElement x_MLower 2 0 (cast TyD 0%Q) ;;
  x_C_6 <- t_opt_mxm TyD noacc TyD (mkSr qplus qtimes TyD) (MStruct (Other x_MLower_1)) MERGE x_C_5
    (OTrn (Other x_Ones_2)) (OTrn (Other x_Identity)) ;;
  x_q_2 <- meq x_C_6 x_Ones_2 ;;
  _ <- check x_q_2 ;;
  x_C_7 <- lil_assign x_C_6 x_Ones_2 ;;
  x_MNotLower_1 <- lil_setElement x_MNotLower 0 2 (cast TyD 0%Q) ;;
  x_C_8 <- t_opt_mxm TyD noacc TyD (mkSr qplus qtimes TyD) (MStruct (Other x_MNotLower_1)) MERGE
    x_C_7 (OTrn (Other x_Ones_2)) (OTrn (Other x_Identity)) ;;
  x_q_3 <- meq x_C_8 x_Ones_2 ;;
  _ <- check x_q_3 ;;
  x_C_9 <- lil_assign x_C_8 x_Ones_2 ;;
  x_C_10 <- t_opt_mxm TyD noacc TyD (mkSr qplus qtimes TyD) (MStruct (Other x_Empty)) REPLACE x_C_9
    (OTrn (Other x_A)) (OTrn (Other x_Identity)) ;;
  x_q_4 <- meq x_C_10 x_Empty ;;
  _ <- check x_q_4 ;;
  x_C_11 <- lil_assign x_C_10 x_Ones_2 ;;
  x_Ones_3 <- lil_setElement x_Ones_2 0 0 (cast TyD 0%Q) ;;
  x_C_12 <- t_opt_mxm TyD noacc TyD (mkSr qplus qtimes TyD) (MStruct (Other x_Ones_3)) REPLACE
    x_C_11 (OTrn (Other x_A)) (OTrn (Other x_Identity)) ;;
  x_q_5 <- meq x_C_12 x_AT_2 ;;
  _ <- check x_q_5 ;;
  x_Ones_4 <- lil_setElement x_Ones_3 0 0 (cast TyD 1%Q) ;;
  x_C_13 <- lil_assign x_C_12 x_Ones_4 ;;
  x_C_14 <- t_opt_mxm TyD noacc TyD (mkSr qplus qtimes TyD) (MStruct (Other x_MLower_1)) REPLACE
    x_C_13 (OTrn (Other x_Ones_4)) (OTrn (Other x_Identity)) ;;
  x_MLower_2 <- lil_setElement x_MLower_1 2 0 (cast TyD 1%Q) ;;
  x_q_6 <- meq x_C_14 x_MLower_2 ;;
  _ <- check x_q_6 ;;
  x_C_15 <- lil_assign x_C_14 x_Ones_4 ;;
  x_C_16 <- t_opt_mxm TyD noacc TyD (mkSr qplus qtimes TyD) (MStruct (Other x_MNotLower_1)) REPLACE
    x_C_15 (OTrn (Other x_Ones_4)) (OTrn (Other x_Identity)) ;;
  x_MNotLower_2 <- lil_setElement x_MNotLower_1 0 2 (cast TyD 1%Q) ;;
  x_q_7 <- meq x_C_16 x_MNotLower_2 ;;
  _ <- check x_q_7 ;;
  Ok tt) = Ok tt.
Proof. vm_compute. reflexivity. Qed.

(** test_mxm_ATBT.cpp:2780-2817 *)
Example test_mxm_StructMask_NoAccum_ATBTM_empty :
 (x_Empty <- mnew 3 3 ;;
  x_Ones <- mdense0 TyD d_Ones_3x3 0%Q ;;
  x_C <- mnew 3 3 ;;
  x_M <- mdense0 TyB d_LowerBool_3x3 0%Q ;;
  x_M_1 <- lil_setElement x_M 2 0 (cast TyB 0%Q) ;;
  x_mUpper <- mdense0 TyD d_NotLower_3x3 0%Q ;;
  x_C_1 <- lil_assign x_C x_Ones ;;
  x_C_2 <- t_mxm TyD noacc (mkSr qplus qtimes TyD) (MStruct x_M_1) MERGE x_C_1 (Trn x_Empty) (Trn
    x_Ones) ;;
  x_q <- meq x_C_2 x_mUpper ;;
  _ <- check x_q ;;
  x_C_3 <- lil_assign x_C_2 x_Ones ;;
  x_C_4 <- t_mxm TyD noacc (mkSr qplus qtimes TyD) (MStruct x_M_1) MERGE x_C_3 (Trn x_Ones) (Trn
    x_Empty) ;;
  x_q_1 <- meq x_C_4 x_mUpper ;;
  _ <- check x_q_1 ;;
  x_C_5 <- lil_assign x_C_4 x_Ones ;;
  x_C_6 <- t_mxm TyD noacc (mkSr qplus qtimes TyD) (MStruct x_M_1) REPLACE x_C_5 (Trn x_Empty) (Trn
    x_Ones) ;;
  x_q_2 <- meq x_C_6 x_Empty ;;
  _ <- check x_q_2 ;;
  x_C_7 <- lil_assign x_C_6 x_Ones ;;
  x_C_8 <- t_mxm TyD noacc (mkSr qplus qtimes TyD) (MStruct x_M_1) REPLACE x_C_7 (Trn x_Ones) (Trn
    x_Empty) ;;
  x_q_3 <- meq x_C_8 x_Empty ;;
  _ <- check x_q_3 ;;
  Ok tt) = Ok tt.
Proof. vm_compute. reflexivity. Qed.

(** test_mxm_ATBT.cpp:2780-2817, optimized_sequential platform *)
Example test_mxm_StructMask_NoAccum_ATBTM_empty_opt :
 (x_Empty <- mnew 3 3 ;;
  x_Ones <- mdense0 TyD d_Ones_3x3 0%Q ;;
  x_C <- mnew 3 3 ;;
  x_M <- mdense0 TyB d_LowerBool_3x3 0%Q ;;
  x_M_1 <- lil_setElement x_M 2 0 (cast TyB 0%Q) ;;
  x_mUpper <- mdense0 TyD d_NotLower_3x3 0%Q ;;
  x_C_1 <- lil_assign x_C x_Ones ;;
  x_C_2 <- t_opt_mxm TyD noacc TyD (mkSr qplus qtimes TyD) (MStruct (Other x_M_1)) MERGE x_C_1 (OTrn
    (Other x_Empty)) (OTrn (Other x_Ones)) ;;
  x_q <- meq x_C_2 x_mUpper ;;
  _ <- check x_q ;;
  x_C_3 <- lil_assign x_C_2 x_Ones ;;
  x_C_4 <- t_opt_mxm TyD noacc TyD (mkSr qplus qtimes TyD) (MStruct (Other x_M_1)) MERGE x_C_3 (OTrn
    (Other x_Ones)) (OTrn (Other x_Empty)) ;;
  x_q_1 <- meq x_C_4 x_mUpper ;;
  _ <- check x_q_1 ;;
  x_C_5 <- lil_assign x_C_4 x_Ones ;;
  x_C_6 <- t_opt_mxm TyD noacc TyD (mkSr qplus qtimes TyD) (MStruct (Other x_M_1)) REPLACE x_C_5
    (OTrn (Other x_Empty)) (OTrn (Other x_Ones)) ;;
  x_q_2 <- meq x_C_6 x_Empty ;;
  _ <- check x_q_2 ;;
  x_C_7 <- lil_assign x_C_6 x_Ones ;;
  x_C_8 <- t_opt_mxm TyD noacc TyD (mkSr qplus qtimes TyD) (MStruct (Other x_M_1)) REPLACE x_C_7
    (OTrn (Other x_Ones)) (OTrn (Other x_Empty)) ;;
  x_q_3 <- meq x_C_8 x_Empty ;;
  _ <- check x_q_3 ;;
  Ok tt) = Ok tt.
Proof. vm_compute. reflexivity. Qed.

(** test_mxm_ATBT.cpp:2820-2836 *)
Example test_mxm_StructMask_NoAccum_ATBT_Merge_full_mask :
 (x_A <- mdense0 TyD d_AT_dense_3x3 0%Q ;;
  x_B <- mdense0 TyD d_BT_dense_3x4 0%Q ;;
  x_result <- mnew 3 4 ;;
  x_answer <- mdense0 TyD d_Answer_dense 0%Q ;;
  x_mask <- mdense TyD d_Ones_3x4 ;;
  x_mask_1 <- lil_setElement x_mask 0 0 (cast TyD 0%Q) ;;
  x_result_1 <- t_mxm TyD noacc (mkSr qplus qtimes TyD) (MStruct x_mask_1) MERGE x_result (Trn x_A)
    (Trn x_B) ;;
  x_q <- meq x_result_1 x_answer ;;
  _ <- check x_q ;;
  Ok tt) = Ok tt.
Proof. vm_compute. reflexivity. Qed.

(** test_mxm_ATBT.cpp:2820-2836, optimized_sequential platform *)
Example test_mxm_StructMask_NoAccum_ATBT_Merge_full_mask_opt :
 (x_A <- mdense0 TyD d_AT_dense_3x3 0%Q ;;
  x_B <- mdense0 TyD d_BT_dense_3x4 0%Q ;;
  x_result <- mnew 3 4 ;;
  x_answer <- mdense0 TyD d_Answer_dense 0%Q ;;
  x_mask <- mdense TyD d_Ones_3x4 ;;
  x_mask_1 <- lil_setElement x_mask 0 0 (cast TyD 0%Q) ;;
  x_result_1 <- t_opt_mxm TyD noacc TyD (mkSr qplus qtimes TyD) (MStruct (Other x_mask_1)) MERGE
    x_result (OTrn (Other x_A)) (OTrn (Other x_B)) ;;
  x_q <- meq x_result_1 x_answer ;;
  _ <- check x_q ;;
  Ok tt) = Ok tt.
Proof. vm_compute. reflexivity. Qed.

(** test_mxm_ATBT.cpp:2840-2856 *)
Example test_mxm_StructMask_NoAccum_ATBT_mask_not_full :
 (x_A <- mdense0 TyD d_AT_dense_3x3 0%Q ;;
  x_B <- mdense0 TyD d_BT_dense_3x4 0%Q ;;
  x_answer <- mdense0 TyD d_Answer_dense 0%Q ;;
  x_result <- mnew 3 4 ;;
  x_mask <- mdense0 TyD d_Answer_dense 0%Q ;;
  x_mask_1 <- lil_setElement x_mask 0 0 (cast TyD 0%Q) ;;
  x_result_1 <- t_mxm TyD noacc (mkSr qplus qtimes TyD) (MStruct x_mask_1) MERGE x_result (Trn x_A)
    (Trn x_B) ;;
  x_q <- meq x_result_1 x_answer ;;
  _ <- check x_q ;;
  Ok tt) = Ok tt.
Proof. vm_compute. reflexivity. Qed.

(** test_mxm_ATBT.cpp:2840-2856, optimized_sequential platform *)
Example test_mxm_StructMask_NoAccum_ATBT_mask_not_full_opt :
 (x_A <- mdense0 TyD d_AT_dense_3x3 0%Q ;;
  x_B <- mdense0 TyD d_BT_dense_3x4 0%Q ;;
  x_answer <- mdense0 TyD d_Answer_dense 0%Q ;;
  x_result <- mnew 3 4 ;;
  x_mask <- mdense0 TyD d_Answer_dense 0%Q ;;
  x_mask_1 <- lil_setElement x_mask 0 0 (cast TyD 0%Q) ;;
  x_result_1 <- t_opt_mxm TyD noacc TyD (mkSr qplus qtimes TyD) (MStruct (Other x_mask_1)) MERGE
    x_result (OTrn (Other x_A)) (OTrn (Other x_B)) ;;
  x_q <- meq x_result_1 x_answer ;;
  _ <- check x_q ;;
  Ok tt) = Ok tt.
Proof. vm_compute. reflexivity. Qed.

(** test_mxm_ATBT.cpp:2859-2902 *)
Example test_mxm_StructMask_NoAccum_ATBT_emptyRowA_emptyColB :
 (x_A <- mdense0 TyD [[8; 0; 4]; [1; 0; 9]; [6; 0; 2]]%Q 0%Q ;;
  x_B <- mdense0 TyD [[0; 1; 0]; [0; 0; 0]; [0; 1; 1]; [1; 1; 1]]%Q 0%Q ;;
  x_Lower <- mdense0 TyD d_Lower_3x4 0%Q ;;
  x_Lower_1 <- lil_setElement x_Lower 2 0 (cast TyD 0%Q) ;;
  x_Ones <- mdense0 TyD d_Ones_3x4 0%Q ;;
  x_C <- mnew 3 4 ;;
  x_answer <- mdense0 TyD [[1; 0; 0; 0]; [0; 0; 0; 0]; [9; 0; 11; 0]]%Q 0%Q ;;
  x_C_1 <- lil_assign x_C x_Ones ;;
  x_C_2 <- t_mxm TyD noacc (mkSr qplus qtimes TyD) (MStruct x_Lower_1) REPLACE x_C_1 (Trn x_A) (Trn
    x_B) ;;
  x_q <- meq x_C_2 x_answer ;;
  _ <- check x_q ;;
  x_answer2 <- mdense0 TyD [[1; 1; 1; 1]; [0; 0; 1; 1]; [9; 0; 11; 1]]%Q 0%Q ;;
  x_C_3 <- lil_assign x_C_2 x_Ones ;;
  x_C_4 <- t_mxm TyD noacc (mkSr qplus qtimes TyD) (MStruct x_Lower_1) MERGE x_C_3 (Trn x_A) (Trn
    x_B) ;;
  x_q_1 <- meq x_C_4 x_answer2 ;;
  _ <- check x_q_1 ;;
  Ok tt) = Ok tt.
Proof. vm_compute. reflexivity. Qed.

(** test_mxm_ATBT.cpp:2859-2902, optimized_sequential platform *)
Example test_mxm_StructMask_NoAccum_ATBT_emptyRowA_emptyColB_opt :
 (x_A <- mdense0 TyD [[8; 0; 4]; [1; 0; 9]; [6; 0; 2]]%Q 0%Q ;;
  x_B <- mdense0 TyD [[0; 1; 0]; [0; 0; 0]; [0; 1; 1]; [1; 1; 1]]%Q 0%Q ;;
  x_Lower <- mdense0 TyD d_Lower_3x4 0%Q ;;
  x_Lower_1 <- lil_setElement x_Lower 2 0 (cast TyD 0%Q) ;;
  x_Ones <- mdense0 TyD d_Ones_3x4 0%Q ;;
  x_C <- mnew 3 4 ;;
  x_answer <- mdense0 TyD [[1; 0; 0; 0]; [0; 0; 0; 0]; [9; 0; 11; 0]]%Q 0%Q ;;
  x_C_1 <- lil_assign x_C x_Ones ;;
  x_C_2 <- t_opt_mxm TyD noacc TyD (mkSr qplus qtimes TyD) (MStruct (Other x_Lower_1)) REPLACE x_C_1
    (OTrn (Other x_A)) (OTrn (Other x_B)) ;;
  x_q <- meq x_C_2 x_answer ;;
  _ <- check x_q ;;
  x_answer2 <- mdense0 TyD [[1; 1; 1; 1]; [0; 0; 1; 1]; [9; 0; 11; 1]]%Q 0%Q ;;
  x_C_3 <- lil_assign x_C_2 x_Ones ;;
  x_C_4 <- t_opt_mxm TyD noacc TyD (mkSr qplus qtimes TyD) (MStruct (Other x_Lower_1)) MERGE x_C_3
    (OTrn (Other x_A)) (OTrn (Other x_B)) ;;
  x_q_1 <- meq x_C_4 x_answer2 ;;
  _ <- check x_q_1 ;;
  Ok tt) = Ok tt.
Proof. vm_compute. reflexivity. Qed.

(** test_mxm_ATBT.cpp:2905-2948 *)
Example test_mxm_StructMask_NoAccum_ATBT_emptyColA_emptyRowB :
 (x_A <- mdense0 TyD [[8; 1; 4]; [0; 0; 0]; [6; 9; 2]]%Q 0%Q ;;
  x_B <- mdense0 TyD [[0; 1; 0]; [1; 0; 0]; [0; 1; 0]; [1; 1; 0]]%Q 0%Q ;;
  x_Lower <- mdense0 TyD d_Lower_3x4 0%Q ;;
  x_Lower_1 <- lil_setElement x_Lower 2 1 (cast TyD 0%Q) ;;
  x_Ones <- mdense0 TyD d_Ones_3x4 0%Q ;;
  x_C <- mnew 3 4 ;;
  x_answer <- mdense0 TyD [[0; 0; 0; 0]; [0; 1; 0; 0]; [0; 4; 0; 0]]%Q 0%Q ;;
  x_C_1 <- lil_assign x_C x_Ones ;;
  x_C_2 <- t_mxm TyD noacc (mkSr qplus qtimes TyD) (MStruct x_Lower_1) REPLACE x_C_1 (Trn x_A) (Trn
    x_B) ;;
  x_q <- meq x_C_2 x_answer ;;
  _ <- check x_q ;;
  x_answer2 <- mdense0 TyD [[0; 1; 1; 1]; [0; 1; 1; 1]; [0; 4; 0; 1]]%Q 0%Q ;;
  x_C_3 <- lil_assign x_C_2 x_Ones ;;
  x_C_4 <- t_mxm TyD noacc (mkSr qplus qtimes TyD) (MStruct x_Lower_1) MERGE x_C_3 (Trn x_A) (Trn
    x_B) ;;
  x_q_1 <- meq x_C_4 x_answer2 ;;
  _ <- check x_q_1 ;;
  Ok tt) = Ok tt.
Proof. vm_compute. reflexivity. Qed.

(** test_mxm_ATBT.cpp:2905-2948, optimized_sequential platform *)
Example test_mxm_StructMask_NoAccum_ATBT_emptyColA_emptyRowB_opt :
 (x_A <- mdense0 TyD [[8; 1; 4]; [0; 0; 0]; [6; 9; 2]]%Q 0%Q ;;
  x_B <- mdense0 TyD [[0; 1; 0]; [1; 0; 0]; [0; 1; 0]; [1; 1; 0]]%Q 0%Q ;;
  x_Lower <- mdense0 TyD d_Lower_3x4 0%Q ;;
  x_Lower_1 <- lil_setElement x_Lower 2 1 (cast TyD 0%Q) ;;
  x_Ones <- mdense0 TyD d_Ones_3x4 0%Q ;;
  x_C <- mnew 3 4 ;;
  x_answer <- mdense0 TyD [[0; 0; 0; 0]; [0; 1; 0; 0]; [0; 4; 0; 0]]%Q 0%Q ;;
  x_C_1 <- lil_assign x_C x_Ones ;;
  x_C_2 <- t_opt_mxm TyD noacc TyD (mkSr qplus qtimes TyD) (MStruct (Other x_Lower_1)) REPLACE x_C_1
    (OTrn (Other x_A)) (OTrn (Other x_B)) ;;
  x_q <- meq x_C_2 x_answer ;;
  _ <- check x_q ;;
  x_answer2 <- mdense0 TyD [[0; 1; 1; 1]; [0; 1; 1; 1]; [0; 4; 0; 1]]%Q 0%Q ;;
  x_C_3 <- lil_assign x_C_2 x_Ones ;;
  x_C_4 <- t_opt_mxm TyD noacc TyD (mkSr qplus qtimes TyD) (MStruct (Other x_Lower_1)) MERGE x_C_3
    (OTrn (Other x_A)) (OTrn (Other x_B)) ;;
  x_q_1 <- meq x_C_4 x_answer2 ;;
  _ <- check x_q_1 ;;
  Ok tt) = Ok tt.
Proof. vm_compute. reflexivity. Qed.

(** test_mxm_ATBT.cpp:2951-2993 *)
Example test_mxm_StructMask_NoAccum_ATBT_emptyRowM :
 (x_A <- mdense0 TyD [[8; 0; 4]; [1; 0; 9]; [6; 0; 2]]%Q 0%Q ;;
  x_B <- mdense0 TyD [[0; 1; 0]; [0; 0; 0]; [0; 1; 1]]%Q 0%Q ;;
  x_NotLower <- mdense0 TyD d_NotLower_3x3 0%Q ;;
  x_NotLower_1 <- lil_setElement x_NotLower 0 2 (cast TyD 0%Q) ;;
  x_Ones <- mdense0 TyD d_Ones_3x3 0%Q ;;
  x_C <- mnew 3 3 ;;
  x_answer <- mdense0 TyD [[0; 0; 7]; [0; 0; 0]; [0; 0; 0]]%Q 0%Q ;;
  x_C_1 <- lil_assign x_C x_Ones ;;
  x_C_2 <- t_mxm TyD noacc (mkSr qplus qtimes TyD) (MStruct x_NotLower_1) REPLACE x_C_1 (Trn x_A)
    (Trn x_B) ;;
  x_q <- meq x_C_2 x_answer ;;
  _ <- check x_q ;;
  x_answer2 <- mdense0 TyD [[1; 0; 7]; [1; 1; 0]; [1; 1; 1]]%Q 0%Q ;;
  x_C_3 <- lil_assign x_C_2 x_Ones ;;
  x_C_4 <- t_mxm TyD noacc (mkSr qplus qtimes TyD) (MStruct x_NotLower_1) MERGE x_C_3 (Trn x_A) (Trn
    x_B) ;;
  x_q_1 <- meq x_C_4 x_answer2 ;;
  _ <- check x_q_1 ;;
  Ok tt) = Ok tt.
Proof. vm_compute. reflexivity. Qed.

(** test_mxm_ATBT.cpp:2951-2993, optimized_sequential platform *)
Example test_mxm_StructMask_NoAccum_ATBT_emptyRowM_opt :
 (x_A <- mdense0 TyD [[8; 0; 4]; [1; 0; 9]; [6; 0; 2]]%Q 0%Q ;;
  x_B <- mdense0 TyD [[0; 1; 0]; [0; 0; 0]; [0; 1; 1]]%Q 0%Q ;;
  x_NotLower <- mdense0 TyD d_NotLower_3x3 0%Q ;;
  x_NotLower_1 <- lil_setElement x_NotLower 0 2 (cast TyD 0%Q) ;;
  x_Ones <- mdense0 TyD d_Ones_3x3 0%Q ;;
  x_C <- mnew 3 3 ;;
  x_answer <- mdense0 TyD [[0; 0; 7]; [0; 0; 0]; [0; 0; 0]]%Q 0%Q ;;
  x_C_1 <- lil_assign x_C x_Ones ;;
  x_C_2 <- t_opt_mxm TyD noacc TyD (mkSr qplus qtimes TyD) (MStruct (Other x_NotLower_1)) REPLACE
    x_C_1 (OTrn (Other x_A)) (OTrn (Other x_B)) ;;
  x_q <- meq x_C_2 x_answer ;;
  _ <- check x_q ;;
  x_answer2 <- mdense0 TyD [[1; 0; 7]; [1; 1; 0]; [1; 1; 1]]%Q 0%Q ;;
  x_C_3 <- lil_assign x_C_2 x_Ones ;;
  x_C_4 <- t_opt_mxm TyD noacc TyD (mkSr qplus qtimes TyD) (MStruct (Other x_NotLower_1)) MERGE
    x_C_3 (OTrn (Other x_A)) (OTrn (Other x_B)) ;;
  x_q_1 <- meq x_C_4 x_answer2 ;;
  _ <- check x_q_1 ;;
  Ok tt) = Ok tt.
Proof. vm_compute. reflexivity. Qed.

(** test_mxm_ATBT.cpp:2996-3035 *)
Example test_mxm_StructMask_NoAccum_ATBT_ABdup :
 (x_mat <- mdense0 TyD d_Symmetric_4x4 0%Q ;;
  x_Lower <- mdense0 TyD d_Lower_4x4 0%Q ;;
  x_Lower_1 <- lil_setElement x_Lower 2 0 (cast TyD 0%Q) ;;
  x_Ones <- mdense0 TyD d_Ones_4x4 0%Q ;;
  x_C <- mnew 4 4 ;;
  x_answer <- mdense0 TyD [[2; 1; 1; 1]; [3; 9; 1; 1]; [2; 10; 22; 1]; [0; 6; 21; 25]]%Q 0%Q ;;
  x_C_1 <- lil_assign x_C x_Ones ;;
  x_C_2 <- t_mxm TyD noacc (mkSr qplus qtimes TyD) (MStruct x_Lower_1) MERGE x_C_1 (Trn x_mat) (Trn
    x_mat) ;;
  x_q <- meq x_C_2 x_answer ;;
  _ <- check x_q ;;
  x_answer2 <- mdense0 TyD [[2; 0; 0; 0]; [3; 9; 0; 0]; [2; 10; 22; 0]; [0; 6; 21; 25]]%Q 0%Q ;;
  x_C_3 <- lil_assign x_C_2 x_Ones ;;
  x_C_4 <- t_mxm TyD noacc (mkSr qplus qtimes TyD) (MStruct x_Lower_1) REPLACE x_C_3 (Trn x_mat)
    (Trn x_mat) ;;
  x_q_1 <- meq x_C_4 x_answer2 ;;
  _ <- check x_q_1 ;;
  Ok tt) = Ok tt.
Proof. vm_compute. reflexivity. Qed.

(** test_mxm_ATBT.cpp:2996-3035, optimized_sequential platform *)
Example test_mxm_StructMask_NoAccum_ATBT_ABdup_opt :
 (x_mat <- mdense0 TyD d_Symmetric_4x4 0%Q ;;
  x_Lower <- mdense0 TyD d_Lower_4x4 0%Q ;;
  x_Lower_1 <- lil_setElement x_Lower 2 0 (cast TyD 0%Q) ;;
  x_Ones <- mdense0 TyD d_Ones_4x4 0%Q ;;
  x_C <- mnew 4 4 ;;
  x_answer <- mdense0 TyD [[2; 1; 1; 1]; [3; 9; 1; 1]; [2; 10; 22; 1]; [0; 6; 21; 25]]%Q 0%Q ;;
  x_C_1 <- lil_assign x_C x_Ones ;;
  x_C_2 <- t_opt_mxm TyD noacc TyD (mkSr qplus qtimes TyD) (MStruct (Other x_Lower_1)) MERGE x_C_1
    (OTrn (Other x_mat)) (OTrn (Other x_mat)) ;;
  x_q <- meq x_C_2 x_answer ;;
  _ <- check x_q ;;
  x_answer2 <- mdense0 TyD [[2; 0; 0; 0]; [3; 9; 0; 0]; [2; 10; 22; 0]; [0; 6; 21; 25]]%Q 0%Q ;;
  x_C_3 <- lil_assign x_C_2 x_Ones ;;
  x_C_4 <- t_opt_mxm TyD noacc TyD (mkSr qplus qtimes TyD) (MStruct (Other x_Lower_1)) REPLACE x_C_3
    (OTrn (Other x_mat)) (OTrn (Other x_mat)) ;;
  x_q_1 <- meq x_C_4 x_answer2 ;;
  _ <- check x_q_1 ;;
  Ok tt) = Ok tt.
Proof. vm_compute. reflexivity. Qed.

(** test_mxm_ATBT.cpp:3038-3077 *)
Example test_mxm_StructMask_NoAccum_ATBT_ACdup :
 (x_mat <- mdense0 TyD d_Symmetric_4x4 0%Q ;;
  x_Lower <- mdense0 TyD d_Lower_4x4 0%Q ;;
  x_Lower_1 <- lil_setElement x_Lower 2 0 (cast TyD 0%Q) ;;
  x_Ones <- mdense0 TyD d_Ones_4x4 0%Q ;;
  x_C <- mnew 4 4 ;;
  x_answer <- mdense0 TyD [[2; 1; 0; 0]; [3; 9; 2; 0]; [2; 10; 22; 3]; [0; 6; 21; 25]]%Q 0%Q ;;
  x_C_1 <- lil_assign x_C x_mat ;;
  x_C_2 <- t_mxm TyD noacc (mkSr qplus qtimes TyD) (MStruct x_Lower_1) MERGE x_C_1 (Trn x_C_1) (Trn
    x_mat) ;;
  x_q <- meq x_C_2 x_answer ;;
  _ <- check x_q ;;
  x_answer2 <- mdense0 TyD [[2; 0; 0; 0]; [3; 9; 0; 0]; [2; 10; 22; 0]; [0; 6; 21; 25]]%Q 0%Q ;;
  x_C_3 <- lil_assign x_C_2 x_mat ;;
  x_C_4 <- t_mxm TyD noacc (mkSr qplus qtimes TyD) (MStruct x_Lower_1) REPLACE x_C_3 (Trn x_C_3)
    (Trn x_mat) ;;
  x_q_1 <- meq x_C_4 x_answer2 ;;
  _ <- check x_q_1 ;;
  Ok tt) = Ok tt.
Proof. vm_compute. reflexivity. Qed.

(** test_mxm_ATBT.cpp:3038-3077, optimized_sequential platform *)
Example test_mxm_StructMask_NoAccum_ATBT_ACdup_opt :
 (x_mat <- mdense0 TyD d_Symmetric_4x4 0%Q ;;
  x_Lower <- mdense0 TyD d_Lower_4x4 0%Q ;;
  x_Lower_1 <- lil_setElement x_Lower 2 0 (cast TyD 0%Q) ;;
  x_Ones <- mdense0 TyD d_Ones_4x4 0%Q ;;
  x_C <- mnew 4 4 ;;
  x_answer <- mdense0 TyD [[2; 1; 0; 0]; [3; 9; 2; 0]; [2; 10; 22; 3]; [0; 6; 21; 25]]%Q 0%Q ;;
  x_C_1 <- lil_assign x_C x_mat ;;
  x_C_2 <- t_opt_mxm TyD noacc TyD (mkSr qplus qtimes TyD) (MStruct (Other x_Lower_1)) MERGE x_C_1
    (OTrn (TheOutput (fun x => x))) (OTrn (Other x_mat)) ;;
  x_q <- meq x_C_2 x_answer ;;
  _ <- check x_q ;;
  x_answer2 <- mdense0 TyD [[2; 0; 0; 0]; [3; 9; 0; 0]; [2; 10; 22; 0]; [0; 6; 21; 25]]%Q 0%Q ;;
  x_C_3 <- lil_assign x_C_2 x_mat ;;
  x_C_4 <- t_opt_mxm TyD noacc TyD (mkSr qplus qtimes TyD) (MStruct (Other x_Lower_1)) REPLACE x_C_3
    (OTrn (TheOutput (fun x => x))) (OTrn (Other x_mat)) ;;
  x_q_1 <- meq x_C_4 x_answer2 ;;
  _ <- check x_q_1 ;;
  Ok tt) = Ok tt.
Proof. vm_compute. reflexivity. Qed.

(** test_mxm_ATBT.cpp:3080-3128 *)
Example test_mxm_StructMask_NoAccum_ATBT_BCdup :
 (x_mat <- mdense0 TyD d_Symmetric_4x4 0%Q ;;
  x_Lower <- mdense0 TyD d_Lower_4x4 0%Q ;;
  x_Lower_1 <- lil_setElement x_Lower 2 0 (cast TyD 0%Q) ;;
  x_Ones <- mdense0 TyD d_Ones_4x4 0%Q ;;
  x_C <- mnew 4 4 ;;
  x_answer <- mdense0 TyD [[2; 1; 0; 0]; [3; 9; 2; 0]; [2; 10; 22; 3]; [0; 6; 21; 25]]%Q 0%Q ;;
  x_C_1 <- lil_assign x_C x_mat ;;
  x_C_2 <- t_mxm TyD noacc (mkSr qplus qtimes TyD) (MStruct x_Lower_1) MERGE x_C_1 (Trn x_mat) (Trn
    x_C_1) ;;
  x_q <- meq x_C_2 x_answer ;;
  _ <- check x_q ;;
  x_C_3 <- lil_assign x_C_2 x_mat ;;
  x_C_4 <- t_mxm TyD noacc (mkSr qplus qtimes TyD) (MStruct x_Lower_1) MERGE x_C_3 (Trn x_mat) (Trn
    x_mat) ;;
  x_q_1 <- meq x_C_4 x_answer ;;
  _ <- check x_q_1 ;;
  x_answer2 <- mdense0 TyD [[2; 0; 0; 0]; [3; 9; 0; 0]; [2; 10; 22; 0]; [0; 6; 21; 25]]%Q 0%Q ;;
  x_C_5 <- lil_assign x_C_4 x_mat ;;
  x_C_6 <- t_mxm TyD noacc (mkSr qplus qtimes TyD) (MStruct x_Lower_1) REPLACE x_C_5 (Trn x_mat)
    (Trn x_C_5) ;;
  x_q_2 <- meq x_C_6 x_answer2 ;;
  _ <- check x_q_2 ;;
  Ok tt) = Ok tt.
Proof. vm_compute. reflexivity. Qed.

(** test_mxm_ATBT.cpp:3080-3128, optimized_sequential platform *)
Example test_mxm_StructMask_NoAccum_ATBT_BCdup_opt :
 (x_mat <- mdense0 TyD d_Symmetric_4x4 0%Q ;;
  x_Lower <- mdense0 TyD d_Lower_4x4 0%Q ;;
  x_Lower_1 <- lil_setElement x_Lower 2 0 (cast TyD 0%Q) ;;
  x_Ones <- mdense0 TyD d_Ones_4x4 0%Q ;;
  x_C <- mnew 4 4 ;;
  x_answer <- mdense0 TyD [[2; 1; 0; 0]; [3; 9; 2; 0]; [2; 10; 22; 3]; [0; 6; 21; 25]]%Q 0%Q ;;
  x_C_1 <- lil_assign x_C x_mat ;;
  x_C_2 <- t_opt_mxm TyD noacc TyD (mkSr qplus qtimes TyD) (MStruct (Other x_Lower_1)) MERGE x_C_1
    (OTrn (Other x_mat)) (OTrn (TheOutput (fun x => x))) ;;
  x_q <- meq x_C_2 x_answer ;;
  _ <- check x_q ;;
  x_C_3 <- lil_assign x_C_2 x_mat ;;
  x_C_4 <- t_opt_mxm TyD noacc TyD (mkSr qplus qtimes TyD) (MStruct (Other x_Lower_1)) MERGE x_C_3
    (OTrn (Other x_mat)) (OTrn (Other x_mat)) ;;
  x_q_1 <- meq x_C_4 x_answer ;;
  _ <- check x_q_1 ;;
  x_answer2 <- mdense0 TyD [[2; 0; 0; 0]; [3; 9; 0; 0]; [2; 10; 22; 0]; [0; 6; 21; 25]]%Q 0%Q ;;
  x_C_5 <- lil_assign x_C_4 x_mat ;;
  x_C_6 <- t_opt_mxm TyD noacc TyD (mkSr qplus qtimes TyD) (MStruct (Other x_Lower_1)) REPLACE x_C_5
    (OTrn (Other x_mat)) (OTrn (TheOutput (fun x => x))) ;;
  x_q_2 <- meq x_C_6 x_answer2 ;;
  _ <- check x_q_2 ;;
  Ok tt) = Ok tt.
Proof. vm_compute. reflexivity. Qed.

(** test_mxm_ATBT.cpp:3131-3169 *)
Example test_mxm_StructMask_NoAccum_ATBT_MCdup :
 (x_mat <- mdense0 TyD d_Symmetric_4x4 0%Q ;;
  x_Lower <- mdense0 TyD d_Lower_4x4 0%Q ;;
  x_Lower_1 <- lil_setElement x_Lower 2 0 (cast TyD 0%Q) ;;
  x_C <- mnew 4 4 ;;
  x_answer <- mdense0 TyD [[2; 0; 0; 0]; [3; 9; 0; 0]; [2; 10; 22; 0]; [0; 6; 21; 25]]%Q 0%Q ;;
  x_C_1 <- lil_assign x_C x_Lower_1 ;;
  x_C_2 <- t_mxm TyD noacc (mkSr qplus qtimes TyD) (MStruct x_C_1) MERGE x_C_1 (Trn x_mat) (Trn
    x_mat) ;;
  x_q <- meq x_C_2 x_answer ;;
  _ <- check x_q ;;
  x_answer2 <- mdense0 TyD [[2; 0; 0; 0]; [3; 9; 0; 0]; [2; 10; 22; 0]; [0; 6; 21; 25]]%Q 0%Q ;;
  x_C_3 <- lil_assign x_C_2 x_Lower_1 ;;
  x_C_4 <- t_mxm TyD noacc (mkSr qplus qtimes TyD) (MStruct x_C_3) REPLACE x_C_3 (Trn x_mat) (Trn
    x_mat) ;;
  x_q_1 <- meq x_C_4 x_answer2 ;;
  _ <- check x_q_1 ;;
  Ok tt) = Ok tt.
Proof. vm_compute. reflexivity. Qed.

(** test_mxm_ATBT.cpp:3131-3169, optimized_sequential platform *)
Example test_mxm_StructMask_NoAccum_ATBT_MCdup_opt :
 (x_mat <- mdense0 TyD d_Symmetric_4x4 0%Q ;;
  x_Lower <- mdense0 TyD d_Lower_4x4 0%Q ;;
  x_Lower_1 <- lil_setElement x_Lower 2 0 (cast TyD 0%Q) ;;
  x_C <- mnew 4 4 ;;
  x_answer <- mdense0 TyD [[2; 0; 0; 0]; [3; 9; 0; 0]; [2; 10; 22; 0]; [0; 6; 21; 25]]%Q 0%Q ;;
  x_C_1 <- lil_assign x_C x_Lower_1 ;;
  x_C_2 <- t_opt_mxm TyD noacc TyD (mkSr qplus qtimes TyD) (MStruct (TheOutput (fun x => x))) MERGE
    x_C_1 (OTrn (Other x_mat)) (OTrn (Other x_mat)) ;;
  x_q <- meq x_C_2 x_answer ;;
  _ <- check x_q ;;
  x_answer2 <- mdense0 TyD [[2; 0; 0; 0]; [3; 9; 0; 0]; [2; 10; 22; 0]; [0; 6; 21; 25]]%Q 0%Q ;;
  x_C_3 <- lil_assign x_C_2 x_Lower_1 ;;
  x_C_4 <- t_opt_mxm TyD noacc TyD (mkSr qplus qtimes TyD) (MStruct (TheOutput (fun x => x)))
    REPLACE x_C_3 (OTrn (Other x_mat)) (OTrn (Other x_mat)) ;;
  x_q_1 <- meq x_C_4 x_answer2 ;;
  _ <- check x_q_1 ;;
  Ok tt) = Ok tt.
Proof. vm_compute. reflexivity. Qed.

(** test_mxm_ATBT.cpp:3176-3276 *)
Example test_mxm_StructMask_Accum_ATBT :
 (x_A <- mdense0 TyD d_AT_sparse_3x3 0%Q ;;
  x_AT <- mdense0 TyD d_A_sparse_3x3 0%Q ;;
  x_Identity <- mdense0 TyD d_Identity_3x3 0%Q ;;
  x_Empty <- mnew 3 3 ;;
  x_Ones <- mdense0 TyD d_Ones_3x3 0%Q ;;
  x_C <- mnew 3 3 ;;
  x_MLower <- mdense0 TyD d_Lower_3x3 0%Q ;;
  x_MLower_1 <- lil_setElement x_MLower 2 0 (cast TyD 0%Q) ;;
  x_MNotLower <- mdense0 TyD d_NotLower_3x3 0%Q ;;
  x_MNotLower_1 <- lil_setElement x_MNotLower 0 1 (cast TyD 0%Q) ;;
  x_AFilled <- mdense0 TyD [[12; 7; 1]; [1; (-5); 1]; [7; 1; 9]]%Q 0%Q ;;
  x_C_1 <- lil_assign x_C x_Ones ;;
  x_AT_1 <- lil_setElement x_AT 0 2 (cast TyD 0%Q) ;;
  x_C_2 <- t_mxm TyD (acc TyD qplus) (mkSr qplus qtimes TyD) (MStruct x_AT_1) MERGE x_C_1 (Trn x_A)
    (Trn x_Identity) ;;
  x_t <- mdense0 TyD [[13; 8; 1]; [1; (-4); 1]; [8; 1; 10]]%Q 0%Q ;;
  x_q <- meq x_C_2 x_t ;;
  _ <- check x_q ;;
  x_C_3 <- lil_assign x_C_2 x_Ones ;;
  x_C_4 <- t_mxm TyD (acc TyD qplus) (mkSr qplus qtimes TyD) (MStruct x_MLower_1) MERGE x_C_3 (Trn
    x_Ones) (Trn x_Identity) ;;
  x_t_1 <- mdense0 TyD [[2; 1; 1]; [2; 2; 1]; [2; 2; 2]]%Q 0%Q ;;
  x_q_1 <- meq x_C_4 x_t_1 ;;
  _ <- check x_q_1 ;;
  x_C_5 <- lil_assign x_C_4 x_Ones ;;
  x_C_6 <- t_mxm TyD (acc TyD qplus) (mkSr qplus qtimes TyD) (MStruct x_MNotLower_1) MERGE x_C_5
    (Trn x_Ones) (Trn x_Identity) ;;
  x_t_2 <- mdense0 TyD [[1; 2; 2]; [1; 1; 2]; [1; 1; 1]]%Q 0%Q ;;
  x_q_2 <- meq x_C_6 x_t_2 ;;
  _ <- check x_q_2 ;;
  x_C_7 <- lil_assign x_C_6 x_Ones ;;
  x_Ones_1 <- lil_setElement x_Ones 0 0 (cast TyD 0%Q) ;;
  x_C_8 <- t_mxm TyD (acc TyD qplus) (mkSr qplus qtimes TyD) (MStruct x_Ones_1) REPLACE x_C_7 (Trn
    x_A) (Trn x_Identity) ;;
  x_Ones_2 <- lil_setElement x_Ones_1 0 0 (cast TyD 1%Q) ;;
  x_t_3 <- mdense0 TyD [[13; 8; 1]; [1; (-4); 1]; [8; 1; 10]]%Q 0%Q ;;
  x_q_3 <- meq x_C_8 x_t_3 ;;
  _ <- check x_q_3 ;;
  x_C_9 <- lil_assign x_C_8 x_Ones_2 ;;
  x_C_10 <- t_mxm TyD (acc TyD qplus) (mkSr qplus qtimes TyD) (MStruct x_MLower_1) REPLACE x_C_9
    (Trn x_Ones_2) (Trn x_Identity) ;;
  x_t_4 <- mdense0 TyD [[2; 0; 0]; [2; 2; 0]; [2; 2; 2]]%Q 0%Q ;;
  x_q_4 <- meq x_C_10 x_t_4 ;;
  _ <- check x_q_4 ;;
  x_C_11 <- lil_assign x_C_10 x_Ones_2 ;;
  x_C_12 <- t_mxm TyD (acc TyD qplus) (mkSr qplus qtimes TyD) (MStruct x_MNotLower_1) REPLACE x_C_11
    (Trn x_Ones_2) (Trn x_Identity) ;;
  x_t_5 <- mdense0 TyD [[0; 2; 2]; [0; 0; 2]; [0; 0; 0]]%Q 0%Q ;;
  x_q_5 <- meq x_C_12 x_t_5 ;;
  _ <- check x_q_5 ;;
  Ok tt) = Ok tt.
Proof. vm_compute. reflexivity. Qed.

(** test_mxm_ATBT.cpp:3176-3276, optimized_sequential platform *)
Example test_mxm_StructMask_Accum_ATBT_opt :
 (x_A <- mdense0 TyD d_AT_sparse_3x3 0%Q ;;
  x_AT <- mdense0 TyD d_A_sparse_3x3 0%Q ;;
  x_Identity <- mdense0 TyD d_Identity_3x3 0%Q ;;
  x_Empty <- mnew 3 3 ;;
  x_Ones <- mdense0 TyD d_Ones_3x3 0%Q ;;
  x_C <- mnew 3 3 ;;
  x_MLower <- mdense0 TyD d_Lower_3x3 0%Q ;;
  x_MLower_1 <- lil_setElement x_MLower 2 0 (cast TyD 0%Q) ;;
  x_MNotLower <- mdense0 TyD d_NotLower_3x3 0%Q ;;
  x_MNotLower_1 <- lil_setElement x_MNotLower 0 1 (cast TyD 0%Q) ;;
  x_AFilled <- mdense0 TyD [[12; 7; 1]; [1; (-5); 1]; [7; 1; 9]]%Q 0%Q ;;
  x_C_1 <- lil_assign x_C x_Ones ;;
  x_AT_1 <- lil_setElement x_AT 0 2 (cast TyD 0%Q) ;;
  x_C_2 <- t_opt_mxm TyD (acc TyD qplus) TyD (mkSr qplus qtimes TyD) (MStruct (Other x_AT_1)) MERGE
    x_C_1 (OTrn (Other x_A)) (OTrn (Other x_Identity)) ;;
  x_t <- mdense0 TyD [[13; 8; 1]; [1; (-4); 1]; [8; 1; 10]]%Q 0%Q ;;
  x_q <- meq x_C_2 x_t ;;
  _ <- check x_q ;;
  x_C_3 <- lil_assign x_C_2 x_Ones ;;
  x_C_4 <- t_opt_mxm TyD (acc TyD qplus) TyD (mkSr qplus qtimes TyD) (MStruct (Other x_MLower_1))
    MERGE x_C_3 (OTrn (Other x_Ones)) (OTrn (Other x_Identity)) ;;
  x_t_1 <- mdense0 TyD [[2; 1; 1]; [2; 2; 1]; [2; 2; 2]]%Q 0%Q ;;
  x_q_1 <- meq x_C_4 x_t_1 ;;
  _ <- check x_q_1 ;;
  x_C_5 <- lil_assign x_C_4 x_Ones ;;
  x_C_6 <- t_opt_mxm TyD (acc TyD qplus) TyD (mkSr qplus qtimes TyD) (MStruct (Other x_MNotLower_1))
    MERGE x_C_5 (OTrn (Other x_Ones)) (OTrn (Other x_Identity)) ;;
  x_t_2 <- mdense0 TyD [[1; 2; 2]; [1; 1; 2]; [1; 1; 1]]%Q 0%Q ;;
  x_q_2 <- meq x_C_6 x_t_2 ;;
  _ <- check x_q_2 ;;
  x_C_7 <- lil_assign x_C_6 x_Ones ;;
  x_Ones_1 <- lil_setElement x_Ones 0 0 (cast TyD 0%Q) ;;
  x_C_8 <- t_opt_mxm TyD (acc TyD qplus) TyD (mkSr qplus qtimes TyD) (MStruct (Other x_Ones_1))
    REPLACE x_C_7 (OTrn (Other x_A)) (OTrn (Other x_Identity)) ;;
  x_Ones_2 <- lil_setElement x_Ones_1 0 0 (cast TyD 1%Q) ;;
  x_t_3 <- mdense0 TyD [[13; 8; 1]; [1; (-4); 1]; [8; 1; 10]]%Q 0%Q ;;
  x_q_3 <- meq x_C_8 x_t_3 ;;
  _ <- check x_q_3 ;;
  x_C_9 <- lil_assign x_C_8 x_Ones_2 ;;
  x_C_10 <- t_opt_mxm TyD (acc TyD qplus) TyD (mkSr qplus qtimes TyD) (MStruct (Other x_MLower_1))
    REPLACE x_C_9 (OTrn (Other x_Ones_2)) (OTrn (Other x_Identity)) ;;
  x_t_4 <- mdense0 TyD [[2; 0; 0]; [2; 2; 0]; [2; 2; 2]]%Q 0%Q ;;
  x_q_4 <- meq x_C_10 x_t_4 ;;
  _ <- check x_q_4 ;;
  x_C_11 <- lil_assign x_C_10 x_Ones_2 ;;
  x_C_12 <- t_opt_mxm TyD (acc TyD qplus) TyD (mkSr qplus qtimes TyD) (MStruct (Other
    x_MNotLower_1)) REPLACE x_C_11 (OTrn (Other x_Ones_2)) (OTrn (Other x_Identity)) ;;
  x_t_5 <- mdense0 TyD [[0; 2; 2]; [0; 0; 2]; [0; 0; 0]]%Q 0%Q ;;
  x_q_5 <- meq x_C_12 x_t_5 ;;
  _ <- check x_q_5 ;;
  Ok tt) = Ok tt.
Proof. vm_compute. reflexivity. Qed.

(** test_mxm_ATBT.cpp:3279-3327 *)
Example test_mxm_StructMask_Accum_ATBTMempty :
 (x_Empty <- mnew 3 3 ;;
  x_Ones <- mdense0 TyD d_Ones_3x3 0%Q ;;
  x_C <- mnew 3 3 ;;
  x_M <- mdense0 TyB d_LowerBool_3x3 0%Q ;;
  x_M_1 <- lil_setElement x_M 2 0 (cast TyB 0%Q) ;;
  x_C_1 <- lil_assign x_C x_Ones ;;
  x_C_2 <- t_mxm TyD (acc TyD qplus) (mkSr qplus qtimes TyD) (MStruct x_M_1) MERGE x_C_1 (Trn
    x_Empty) (Trn x_Ones) ;;
  x_q <- meq x_C_2 x_Ones ;;
  _ <- check x_q ;;
  x_C_3 <- lil_assign x_C_2 x_Ones ;;
  x_C_4 <- t_mxm TyD (acc TyD qplus) (mkSr qplus qtimes TyD) (MStruct x_M_1) MERGE x_C_3 (Trn
    x_Ones) (Trn x_Empty) ;;
  x_q_1 <- meq x_C_4 x_Ones ;;
  _ <- check x_q_1 ;;
  x_C_5 <- lil_assign x_C_4 x_Ones ;;
  x_C_6 <- t_mxm TyD (acc TyD qplus) (mkSr qplus qtimes TyD) (MStruct x_Empty) MERGE x_C_5 (Trn
    x_Ones) (Trn x_Ones) ;;
  x_q_2 <- meq x_C_6 x_Ones ;;
  _ <- check x_q_2 ;;
  x_C_7 <- lil_assign x_C_6 x_Ones ;;
  x_C_8 <- t_mxm TyD (acc TyD qplus) (mkSr qplus qtimes TyD) (MStruct x_M_1) REPLACE x_C_7 (Trn
    x_Empty) (Trn x_Ones) ;;
  x_t <- mdense0 TyD d_Lower_3x3 0%Q ;;
  x_q_3 <- meq x_C_8 x_t ;;
  _ <- check x_q_3 ;;
  x_C_9 <- lil_assign x_C_8 x_Ones ;;
  x_C_10 <- t_mxm TyD (acc TyD qplus) (mkSr qplus qtimes TyD) (MStruct x_M_1) REPLACE x_C_9 (Trn
    x_Ones) (Trn x_Empty) ;;
  x_t_1 <- mdense0 TyD d_Lower_3x3 0%Q ;;
  x_q_4 <- meq x_C_10 x_t_1 ;;
  _ <- check x_q_4 ;;
  x_C_11 <- lil_assign x_C_10 x_Ones ;;
  x_C_12 <- t_mxm TyD (acc TyD qplus) (mkSr qplus qtimes TyD) (MStruct x_Empty) REPLACE x_C_11 (Trn
    x_Ones) (Trn x_Empty) ;;
  x_q_5 <- meq x_C_12 x_Empty ;;
  _ <- check x_q_5 ;;
  Ok tt) = Ok tt.
Proof. vm_compute. reflexivity. Qed.

(** test_mxm_ATBT.cpp:3279-3327, optimized_sequential platform *)
Example test_mxm_StructMask_Accum_ATBTMempty_opt :
 (x_Empty <- mnew 3 3 ;;
  x_Ones <- mdense0 TyD d_Ones_3x3 0%Q ;;
  x_C <- mnew 3 3 ;;
  x_M <- mdense0 TyB d_LowerBool_3x3 0%Q ;;
  x_M_1 <- lil_setElement x_M 2 0 (cast TyB 0%Q) ;;
  x_C_1 <- lil_assign x_C x_Ones ;;
  x_C_2 <- t_opt_mxm TyD (acc TyD qplus) TyD (mkSr qplus qtimes TyD) (MStruct (Other x_M_1)) MERGE
    x_C_1 (OTrn (Other x_Empty)) (OTrn (Other x_Ones)) ;;
  x_q <- meq x_C_2 x_Ones ;;
  _ <- check x_q ;;
  x_C_3 <- lil_assign x_C_2 x_Ones ;;
  x_C_4 <- t_opt_mxm TyD (acc TyD qplus) TyD (mkSr qplus qtimes TyD) (MStruct (Other x_M_1)) MERGE
    x_C_3 (OTrn (Other x_Ones)) (OTrn (Other x_Empty)) ;;
  x_q_1 <- meq x_C_4 x_Ones ;;
  _ <- check x_q_1 ;;
  x_C_5 <- lil_assign x_C_4 x_Ones ;;
  x_C_6 <- t_opt_mxm TyD (acc TyD qplus) TyD (mkSr qplus qtimes TyD) (MStruct (Other x_Empty)) MERGE
    x_C_5 (OTrn (Other x_Ones)) (OTrn (Other x_Ones)) ;;
  x_q_2 <- meq x_C_6 x_Ones ;;
  _ <- check x_q_2 ;;
  x_C_7 <- lil_assign x_C_6 x_Ones ;;
  x_C_8 <- t_opt_mxm TyD (acc TyD qplus) TyD (mkSr qplus qtimes TyD) (MStruct (Other x_M_1)) REPLACE
    x_C_7 (OTrn (Other x_Empty)) (OTrn (Other x_Ones)) ;;
  x_t <- mdense0 TyD d_Lower_3x3 0%Q ;;
  x_q_3 <- meq x_C_8 x_t ;;
  _ <- check x_q_3 ;;
  x_C_9 <- lil_assign x_C_8 x_Ones ;;
  x_C_10 <- t_opt_mxm TyD (acc TyD qplus) TyD (mkSr qplus qtimes TyD) (MStruct (Other x_M_1))
    REPLACE x_C_9 (OTrn (Other x_Ones)) (OTrn (Other x_Empty)) ;;
  x_t_1 <- mdense0 TyD d_Lower_3x3 0%Q ;;
  x_q_4 <- meq x_C_10 x_t_1 ;;
  _ <- check x_q_4 ;;
  x_C_11 <- lil_assign x_C_10 x_Ones ;;
  x_C_12 <- t_opt_mxm TyD (acc TyD qplus) TyD (mkSr qplus qtimes TyD) (MStruct (Other x_Empty))
    REPLACE x_C_11 (OTrn (Other x_Ones)) (OTrn (Other x_Empty)) ;;
  x_q_5 <- meq x_C_12 x_Empty ;;
  _ <- check x_q_5 ;;
  Ok tt) = Ok tt.
Proof. vm_compute. reflexivity. Qed.

(** test_mxm_ATBT.cpp:3330-3373 *)
Example test_mxm_StructMask_Accum_ATBT_emptyRowA_emptyColB :
 (x_A <- mdense0 TyD [[8; 0; 4]; [1; 0; 9]; [6; 0; 2]]%Q 0%Q ;;
  x_B <- mdense0 TyD [[0; 1; 0]; [0; 0; 0]; [0; 1; 1]; [1; 1; 1]]%Q 0%Q ;;
  x_Lower <- mdense0 TyD d_Lower_3x4 0%Q ;;
  x_Lower_1 <- lil_setElement x_Lower 2 0 (cast TyD 0%Q) ;;
  x_Ones <- mdense0 TyD d_Ones_3x4 0%Q ;;
  x_C <- mnew 3 4 ;;
  x_answer <- mdense0 TyD [[2; 0; 0; 0]; [1; 1; 0; 0]; [10; 1; 12; 0]]%Q 0%Q ;;
  x_C_1 <- lil_assign x_C x_Ones ;;
  x_C_2 <- t_mxm TyD (acc TyD qplus) (mkSr qplus qtimes TyD) (MStruct x_Lower_1) REPLACE x_C_1 (Trn
    x_A) (Trn x_B) ;;
  x_q <- meq x_C_2 x_answer ;;
  _ <- check x_q ;;
  x_answer2 <- mdense0 TyD [[2; 1; 1; 1]; [1; 1; 1; 1]; [10; 1; 12; 1]]%Q 0%Q ;;
  x_C_3 <- lil_assign x_C_2 x_Ones ;;
  x_C_4 <- t_mxm TyD (acc TyD qplus) (mkSr qplus qtimes TyD) (MStruct x_Lower_1) MERGE x_C_3 (Trn
    x_A) (Trn x_B) ;;
  x_q_1 <- meq x_C_4 x_answer2 ;;
  _ <- check x_q_1 ;;
  Ok tt) = Ok tt.
Proof. vm_compute. reflexivity. Qed.

(** test_mxm_ATBT.cpp:3330-3373, optimized_sequential platform *)
Example test_mxm_StructMask_Accum_ATBT_emptyRowA_emptyColB_opt :
 (x_A <- mdense0 TyD [[8; 0; 4]; [1; 0; 9]; [6; 0; 2]]%Q 0%Q ;;
  x_B <- mdense0 TyD [[0; 1; 0]; [0; 0; 0]; [0; 1; 1]; [1; 1; 1]]%Q 0%Q ;;
  x_Lower <- mdense0 TyD d_Lower_3x4 0%Q ;;
  x_Lower_1 <- lil_setElement x_Lower 2 0 (cast TyD 0%Q) ;;
  x_Ones <- mdense0 TyD d_Ones_3x4 0%Q ;;
  x_C <- mnew 3 4 ;;
  x_answer <- mdense0 TyD [[2; 0; 0; 0]; [1; 1; 0; 0]; [10; 1; 12; 0]]%Q 0%Q ;;
  x_C_1 <- lil_assign x_C x_Ones ;;
  x_C_2 <- t_opt_mxm TyD (acc TyD qplus) TyD (mkSr qplus qtimes TyD) (MStruct (Other x_Lower_1))
    REPLACE x_C_1 (OTrn (Other x_A)) (OTrn (Other x_B)) ;;
  x_q <- meq x_C_2 x_answer ;;
  _ <- check x_q ;;
  x_answer2 <- mdense0 TyD [[2; 1; 1; 1]; [1; 1; 1; 1]; [10; 1; 12; 1]]%Q 0%Q ;;
  x_C_3 <- lil_assign x_C_2 x_Ones ;;
  x_C_4 <- t_opt_mxm TyD (acc TyD qplus) TyD (mkSr qplus qtimes TyD) (MStruct (Other x_Lower_1))
    MERGE x_C_3 (OTrn (Other x_A)) (OTrn (Other x_B)) ;;
  x_q_1 <- meq x_C_4 x_answer2 ;;
  _ <- check x_q_1 ;;
  Ok tt) = Ok tt.
Proof. vm_compute. reflexivity. Qed.

(** test_mxm_ATBT.cpp:3376-3420 *)
Example test_mxm_StructMask_Accum_ATBT_emptyColA_emptyRowB :
 (x_A <- mdense0 TyD [[8; 1; 4]; [0; 0; 0]; [6; 9; 2]]%Q 0%Q ;;
  x_B <- mdense0 TyD [[0; 1; 0]; [1; 0; 0]; [0; 1; 0]; [1; 1; 0]]%Q 0%Q ;;
  x_Lower <- mdense0 TyD d_Lower_3x4 0%Q ;;
  x_Lower_1 <- lil_setElement x_Lower 2 0 (cast TyD 0%Q) ;;
  x_Ones <- mdense0 TyD d_Ones_3x4 0%Q ;;
  x_C <- mnew 3 4 ;;
  x_answer <- mdense0 TyD [[1; 0; 0; 0]; [1; 2; 0; 0]; [1; 5; 1; 0]]%Q 0%Q ;;
  x_C_1 <- lil_assign x_C x_Ones ;;
  x_C_2 <- t_mxm TyD (acc TyD qplus) (mkSr qplus qtimes TyD) (MStruct x_Lower_1) REPLACE x_C_1 (Trn
    x_A) (Trn x_B) ;;
  x_q <- meq x_C_2 x_answer ;;
  _ <- check x_q ;;
  x_answer2 <- mdense0 TyD [[1; 1; 1; 1]; [1; 2; 1; 1]; [1; 5; 1; 1]]%Q 0%Q ;;
  x_C_3 <- lil_assign x_C_2 x_Ones ;;
  x_C_4 <- t_mxm TyD (acc TyD qplus) (mkSr qplus qtimes TyD) (MStruct x_Lower_1) MERGE x_C_3 (Trn
    x_A) (Trn x_B) ;;
  x_q_1 <- meq x_C_4 x_answer2 ;;
  _ <- check x_q_1 ;;
  Ok tt) = Ok tt.
Proof. vm_compute. reflexivity. Qed.

(** test_mxm_ATBT.cpp:3376-3420, optimized_sequential platform *)
Example test_mxm_StructMask_Accum_ATBT_emptyColA_emptyRowB_opt :
 (x_A <- mdense0 TyD [[8; 1; 4]; [0; 0; 0]; [6; 9; 2]]%Q 0%Q ;;
  x_B <- mdense0 TyD [[0; 1; 0]; [1; 0; 0]; [0; 1; 0]; [1; 1; 0]]%Q 0%Q ;;
  x_Lower <- mdense0 TyD d_Lower_3x4 0%Q ;;
  x_Lower_1 <- lil_setElement x_Lower 2 0 (cast TyD 0%Q) ;;
  x_Ones <- mdense0 TyD d_Ones_3x4 0%Q ;;
  x_C <- mnew 3 4 ;;
  x_answer <- mdense0 TyD [[1; 0; 0; 0]; [1; 2; 0; 0]; [1; 5; 1; 0]]%Q 0%Q ;;
  x_C_1 <- lil_assign x_C x_Ones ;;
  x_C_2 <- t_opt_mxm TyD (acc TyD qplus) TyD (mkSr qplus qtimes TyD) (MStruct (Other x_Lower_1))
    REPLACE x_C_1 (OTrn (Other x_A)) (OTrn (Other x_B)) ;;
  x_q <- meq x_C_2 x_answer ;;
  _ <- check x_q ;;
  x_answer2 <- mdense0 TyD [[1; 1; 1; 1]; [1; 2; 1; 1]; [1; 5; 1; 1]]%Q 0%Q ;;
  x_C_3 <- lil_assign x_C_2 x_Ones ;;
  x_C_4 <- t_opt_mxm TyD (acc TyD qplus) TyD (mkSr qplus qtimes TyD) (MStruct (Other x_Lower_1))
    MERGE x_C_3 (OTrn (Other x_A)) (OTrn (Other x_B)) ;;
  x_q_1 <- meq x_C_4 x_answer2 ;;
  _ <- check x_q_1 ;;
  Ok tt) = Ok tt.
Proof. vm_compute. reflexivity. Qed.

(** test_mxm_ATBT.cpp:3423-3466 *)
Example test_mxm_StructMask_Accum_ATBT_emptyRowM :
 (x_A <- mdense0 TyD [[8; 0; 4]; [1; 0; 9]; [6; 0; 2]]%Q 0%Q ;;
  x_B <- mdense0 TyD [[0; 1; 0]; [0; 0; 0]; [0; 1; 1]]%Q 0%Q ;;
  x_NotLower <- mdense0 TyD d_NotLower_3x3 0%Q ;;
  x_NotLower_1 <- lil_setElement x_NotLower 0 2 (cast TyD 0%Q) ;;
  x_Ones <- mdense0 TyD d_Ones_3x3 0%Q ;;
  x_C <- mnew 3 3 ;;
  x_answer <- mdense0 TyD [[0; 1; 8]; [0; 0; 1]; [0; 0; 0]]%Q 0%Q ;;
  x_C_1 <- lil_assign x_C x_Ones ;;
  x_C_2 <- t_mxm TyD (acc TyD qplus) (mkSr qplus qtimes TyD) (MStruct x_NotLower_1) REPLACE x_C_1
    (Trn x_A) (Trn x_B) ;;
  x_q <- meq x_C_2 x_answer ;;
  _ <- check x_q ;;
  x_answer2 <- mdense0 TyD [[1; 1; 8]; [1; 1; 1]; [1; 1; 1]]%Q 0%Q ;;
  x_C_3 <- lil_assign x_C_2 x_Ones ;;
  x_C_4 <- t_mxm TyD (acc TyD qplus) (mkSr qplus qtimes TyD) (MStruct x_NotLower_1) MERGE x_C_3 (Trn
    x_A) (Trn x_B) ;;
  x_q_1 <- meq x_C_4 x_answer2 ;;
  _ <- check x_q_1 ;;
  Ok tt) = Ok tt.
Proof. vm_compute. reflexivity. Qed.

(** test_mxm_ATBT.cpp:3423-3466, optimized_sequential platform *)
Example test_mxm_StructMask_Accum_ATBT_emptyRowM_opt :
 (x_A <- mdense0 TyD [[8; 0; 4]; [1; 0; 9]; [6; 0; 2]]%Q 0%Q ;;
  x_B <- mdense0 TyD [[0; 1; 0]; [0; 0; 0]; [0; 1; 1]]%Q 0%Q ;;
  x_NotLower <- mdense0 TyD d_NotLower_3x3 0%Q ;;
  x_NotLower_1 <- lil_setElement x_NotLower 0 2 (cast TyD 0%Q) ;;
  x_Ones <- mdense0 TyD d_Ones_3x3 0%Q ;;
  x_C <- mnew 3 3 ;;
  x_answer <- mdense0 TyD [[0; 1; 8]; [0; 0; 1]; [0; 0; 0]]%Q 0%Q ;;
  x_C_1 <- lil_assign x_C x_Ones ;;
  x_C_2 <- t_opt_mxm TyD (acc TyD qplus) TyD (mkSr qplus qtimes TyD) (MStruct (Other x_NotLower_1))
    REPLACE x_C_1 (OTrn (Other x_A)) (OTrn (Other x_B)) ;;
  x_q <- meq x_C_2 x_answer ;;
  _ <- check x_q ;;
  x_answer2 <- mdense0 TyD [[1; 1; 8]; [1; 1; 1]; [1; 1; 1]]%Q 0%Q ;;
  x_C_3 <- lil_assign x_C_2 x_Ones ;;
  x_C_4 <- t_opt_mxm TyD (acc TyD qplus) TyD (mkSr qplus qtimes TyD) (MStruct (Other x_NotLower_1))
    MERGE x_C_3 (OTrn (Other x_A)) (OTrn (Other x_B)) ;;
  x_q_1 <- meq x_C_4 x_answer2 ;;
  _ <- check x_q_1 ;;
  Ok tt) = Ok tt.
Proof. vm_compute. reflexivity. Qed.

(** test_mxm_ATBT.cpp:3469-3508 *)
Example test_mxm_StructMask_Accum_ATBT_ABdup :
 (x_mat <- mdense0 TyD d_Symmetric_4x4 0%Q ;;
  x_Lower <- mdense0 TyD d_Lower_4x4 0%Q ;;
  x_Lower_1 <- lil_setElement x_Lower 2 0 (cast TyD 0%Q) ;;
  x_Ones <- mdense0 TyD d_Ones_4x4 0%Q ;;
  x_C <- mnew 4 4 ;;
  x_answer <- mdense0 TyD [[3; 1; 1; 1]; [4; 10; 1; 1]; [3; 11; 23; 1]; [1; 7; 22; 26]]%Q 0%Q ;;
  x_C_1 <- lil_assign x_C x_Ones ;;
  x_C_2 <- t_mxm TyD (acc TyD qplus) (mkSr qplus qtimes TyD) (MStruct x_Lower_1) MERGE x_C_1 (Trn
    x_mat) (Trn x_mat) ;;
  x_q <- meq x_C_2 x_answer ;;
  _ <- check x_q ;;
  x_answer2 <- mdense0 TyD [[3; 0; 0; 0]; [4; 10; 0; 0]; [3; 11; 23; 0]; [1; 7; 22; 26]]%Q 0%Q ;;
  x_C_3 <- lil_assign x_C_2 x_Ones ;;
  x_C_4 <- t_mxm TyD (acc TyD qplus) (mkSr qplus qtimes TyD) (MStruct x_Lower_1) REPLACE x_C_3 (Trn
    x_mat) (Trn x_mat) ;;
  x_q_1 <- meq x_C_4 x_answer2 ;;
  _ <- check x_q_1 ;;
  Ok tt) = Ok tt.
Proof. vm_compute. reflexivity. Qed.

(** test_mxm_ATBT.cpp:3469-3508, optimized_sequential platform *)
Example test_mxm_StructMask_Accum_ATBT_ABdup_opt :
 (x_mat <- mdense0 TyD d_Symmetric_4x4 0%Q ;;
  x_Lower <- mdense0 TyD d_Lower_4x4 0%Q ;;
  x_Lower_1 <- lil_setElement x_Lower 2 0 (cast TyD 0%Q) ;;
  x_Ones <- mdense0 TyD d_Ones_4x4 0%Q ;;
  x_C <- mnew 4 4 ;;
  x_answer <- mdense0 TyD [[3; 1; 1; 1]; [4; 10; 1; 1]; [3; 11; 23; 1]; [1; 7; 22; 26]]%Q 0%Q ;;
  x_C_1 <- lil_assign x_C x_Ones ;;
  x_C_2 <- t_opt_mxm TyD (acc TyD qplus) TyD (mkSr qplus qtimes TyD) (MStruct (Other x_Lower_1))
    MERGE x_C_1 (OTrn (Other x_mat)) (OTrn (Other x_mat)) ;;
  x_q <- meq x_C_2 x_answer ;;
  _ <- check x_q ;;
  x_answer2 <- mdense0 TyD [[3; 0; 0; 0]; [4; 10; 0; 0]; [3; 11; 23; 0]; [1; 7; 22; 26]]%Q 0%Q ;;
  x_C_3 <- lil_assign x_C_2 x_Ones ;;
  x_C_4 <- t_opt_mxm TyD (acc TyD qplus) TyD (mkSr qplus qtimes TyD) (MStruct (Other x_Lower_1))
    REPLACE x_C_3 (OTrn (Other x_mat)) (OTrn (Other x_mat)) ;;
  x_q_1 <- meq x_C_4 x_answer2 ;;
  _ <- check x_q_1 ;;
  Ok tt) = Ok tt.
Proof. vm_compute. reflexivity. Qed.

(** test_mxm_ATBT.cpp:3511-3551 *)
Example test_mxm_StructMask_Accum_ATBT_ACdup :
 (x_mat <- mdense0 TyD d_Symmetric_4x4 0%Q ;;
  x_Lower <- mdense0 TyD d_Lower_4x4 0%Q ;;
  x_Lower_1 <- lil_setElement x_Lower 2 0 (cast TyD 0%Q) ;;
  x_Ones <- mdense0 TyD d_Ones_4x4 0%Q ;;
  x_C <- mnew 4 4 ;;
  x_answer <- mdense0 TyD [[3; 1; 0; 0]; [4; 11; 2; 0]; [2; 12; 25; 3]; [0; 6; 24; 29]]%Q 0%Q ;;
  x_C_1 <- lil_assign x_C x_mat ;;
  x_C_2 <- t_mxm TyD (acc TyD qplus) (mkSr qplus qtimes TyD) (MStruct x_Lower_1) MERGE x_C_1 (Trn
    x_C_1) (Trn x_mat) ;;
  x_q <- meq x_C_2 x_answer ;;
  _ <- check x_q ;;
  x_answer2 <- mdense0 TyD [[3; 0; 0; 0]; [4; 11; 0; 0]; [2; 12; 25; 0]; [0; 6; 24; 29]]%Q 0%Q ;;
  x_C_3 <- lil_assign x_C_2 x_mat ;;
  x_C_4 <- t_mxm TyD (acc TyD qplus) (mkSr qplus qtimes TyD) (MStruct x_Lower_1) REPLACE x_C_3 (Trn
    x_C_3) (Trn x_mat) ;;
  x_q_1 <- meq x_C_4 x_answer2 ;;
  _ <- check x_q_1 ;;
  Ok tt) = Ok tt.
Proof. vm_compute. reflexivity. Qed.

(** test_mxm_ATBT.cpp:3511-3551, optimized_sequential platform *)
Example test_mxm_StructMask_Accum_ATBT_ACdup_opt :
 (x_mat <- mdense0 TyD d_Symmetric_4x4 0%Q ;;
  x_Lower <- mdense0 TyD d_Lower_4x4 0%Q ;;
  x_Lower_1 <- lil_setElement x_Lower 2 0 (cast TyD 0%Q) ;;
  x_Ones <- mdense0 TyD d_Ones_4x4 0%Q ;;
  x_C <- mnew 4 4 ;;
  x_answer <- mdense0 TyD [[3; 1; 0; 0]; [4; 11; 2; 0]; [2; 12; 25; 3]; [0; 6; 24; 29]]%Q 0%Q ;;
  x_C_1 <- lil_assign x_C x_mat ;;
  x_C_2 <- t_opt_mxm TyD (acc TyD qplus) TyD (mkSr qplus qtimes TyD) (MStruct (Other x_Lower_1))
    MERGE x_C_1 (OTrn (TheOutput (fun x => x))) (OTrn (Other x_mat)) ;;
  x_q <- meq x_C_2 x_answer ;;
  _ <- check x_q ;;
  x_answer2 <- mdense0 TyD [[3; 0; 0; 0]; [4; 11; 0; 0]; [2; 12; 25; 0]; [0; 6; 24; 29]]%Q 0%Q ;;
  x_C_3 <- lil_assign x_C_2 x_mat ;;
  x_C_4 <- t_opt_mxm TyD (acc TyD qplus) TyD (mkSr qplus qtimes TyD) (MStruct (Other x_Lower_1))
    REPLACE x_C_3 (OTrn (TheOutput (fun x => x))) (OTrn (Other x_mat)) ;;
  x_q_1 <- meq x_C_4 x_answer2 ;;
  _ <- check x_q_1 ;;
  Ok tt) = Ok tt.
Proof. vm_compute. reflexivity. Qed.

(** test_mxm_ATBT.cpp:3554-3602 *)
Example test_mxm_StructMask_Accum_ATBT_BCdup :
 (x_mat <- mdense0 TyD d_Symmetric_4x4 0%Q ;;
  x_Lower <- mdense0 TyD d_Lower_4x4 0%Q ;;
  x_Lower_1 <- lil_setElement x_Lower 2 0 (cast TyD 0%Q) ;;
  x_Ones <- mdense0 TyD d_Ones_4x4 0%Q ;;
  x_C <- mnew 4 4 ;;
  x_answer <- mdense0 TyD [[3; 1; 0; 0]; [4; 11; 2; 0]; [2; 12; 25; 3]; [0; 6; 24; 29]]%Q 0%Q ;;
  x_C_1 <- lil_assign x_C x_mat ;;
  x_C_2 <- t_mxm TyD (acc TyD qplus) (mkSr qplus qtimes TyD) (MStruct x_Lower_1) MERGE x_C_1 (Trn
    x_mat) (Trn x_C_1) ;;
  x_q <- meq x_C_2 x_answer ;;
  _ <- check x_q ;;
  x_C_3 <- lil_assign x_C_2 x_mat ;;
  x_C_4 <- t_mxm TyD (acc TyD qplus) (mkSr qplus qtimes TyD) (MStruct x_Lower_1) MERGE x_C_3 (Trn
    x_mat) (Trn x_mat) ;;
  x_q_1 <- meq x_C_4 x_answer ;;
  _ <- check x_q_1 ;;
  x_answer2 <- mdense0 TyD [[3; 0; 0; 0]; [4; 11; 0; 0]; [2; 12; 25; 0]; [0; 6; 24; 29]]%Q 0%Q ;;
  x_C_5 <- lil_assign x_C_4 x_mat ;;
  x_C_6 <- t_mxm TyD (acc TyD qplus) (mkSr qplus qtimes TyD) (MStruct x_Lower_1) REPLACE x_C_5 (Trn
    x_mat) (Trn x_C_5) ;;
  x_q_2 <- meq x_C_6 x_answer2 ;;
  _ <- check x_q_2 ;;
  Ok tt) = Ok tt.
Proof. vm_compute. reflexivity. Qed.

(** test_mxm_ATBT.cpp:3554-3602, optimized_sequential platform *)
Example test_mxm_StructMask_Accum_ATBT_BCdup_opt :
 (x_mat <- mdense0 TyD d_Symmetric_4x4 0%Q ;;
  x_Lower <- mdense0 TyD d_Lower_4x4 0%Q ;;
  x_Lower_1 <- lil_setElement x_Lower 2 0 (cast TyD 0%Q) ;;
  x_Ones <- mdense0 TyD d_Ones_4x4 0%Q ;;
  x_C <- mnew 4 4 ;;
  x_answer <- mdense0 TyD [[3; 1; 0; 0]; [4; 11; 2; 0]; [2; 12; 25; 3]; [0; 6; 24; 29]]%Q 0%Q ;;
  x_C_1 <- lil_assign x_C x_mat ;;
  x_C_2 <- t_opt_mxm TyD (acc TyD qplus) TyD (mkSr qplus qtimes TyD) (MStruct (Other x_Lower_1))
    MERGE x_C_1 (OTrn (Other x_mat)) (OTrn (TheOutput (fun x => x))) ;;
  x_q <- meq x_C_2 x_answer ;;
  _ <- check x_q ;;
  x_C_3 <- lil_assign x_C_2 x_mat ;;
  x_C_4 <- t_opt_mxm TyD (acc TyD qplus) TyD (mkSr qplus qtimes TyD) (MStruct (Other x_Lower_1))
    MERGE x_C_3 (OTrn (Other x_mat)) (OTrn (Other x_mat)) ;;
  x_q_1 <- meq x_C_4 x_answer ;;
  _ <- check x_q_1 ;;
  x_answer2 <- mdense0 TyD [[3; 0; 0; 0]; [4; 11; 0; 0]; [2; 12; 25; 0]; [0; 6; 24; 29]]%Q 0%Q ;;
  x_C_5 <- lil_assign x_C_4 x_mat ;;
  x_C_6 <- t_opt_mxm TyD (acc TyD qplus) TyD (mkSr qplus qtimes TyD) (MStruct (Other x_Lower_1))
    REPLACE x_C_5 (OTrn (Other x_mat)) (OTrn (TheOutput (fun x => x))) ;;
  x_q_2 <- meq x_C_6 x_answer2 ;;
  _ <- check x_q_2 ;;
  Ok tt) = Ok tt.
Proof. vm_compute. reflexivity. Qed.

(** test_mxm_ATBT.cpp:3605-3643 *)
Example test_mxm_StructMask_Accum_ATBT_MCdup :
 (x_mat <- mdense0 TyD d_Symmetric_4x4 0%Q ;;
  x_Lower <- mdense0 TyD d_Lower_4x4 0%Q ;;
  x_Lower_1 <- lil_setElement x_Lower 2 0 (cast TyD 0%Q) ;;
  x_C <- mnew 4 4 ;;
  x_answer <- mdense0 TyD [[3; 0; 0; 0]; [4; 10; 0; 0]; [2; 11; 23; 0]; [1; 7; 22; 26]]%Q 0%Q ;;
  x_C_1 <- lil_assign x_C x_Lower_1 ;;
  x_C_2 <- t_mxm TyD (acc TyD qplus) (mkSr qplus qtimes TyD) (MStruct x_C_1) MERGE x_C_1 (Trn x_mat)
    (Trn x_mat) ;;
  x_q <- meq x_C_2 x_answer ;;
  _ <- check x_q ;;
  x_answer2 <- mdense0 TyD [[3; 0; 0; 0]; [4; 10; 0; 0]; [2; 11; 23; 0]; [1; 7; 22; 26]]%Q 0%Q ;;
  x_C_3 <- lil_assign x_C_2 x_Lower_1 ;;
  x_C_4 <- t_mxm TyD (acc TyD qplus) (mkSr qplus qtimes TyD) (MStruct x_C_3) REPLACE x_C_3 (Trn
    x_mat) (Trn x_mat) ;;
  x_q_1 <- meq x_C_4 x_answer2 ;;
  _ <- check x_q_1 ;;
  Ok tt) = Ok tt.
Proof. vm_compute. reflexivity. Qed.

(** test_mxm_ATBT.cpp:3605-3643, optimized_sequential platform *)
Example test_mxm_StructMask_Accum_ATBT_MCdup_opt :
 (x_mat <- mdense0 TyD d_Symmetric_4x4 0%Q ;;
  x_Lower <- mdense0 TyD d_Lower_4x4 0%Q ;;
  x_Lower_1 <- lil_setElement x_Lower 2 0 (cast TyD 0%Q) ;;
  x_C <- mnew 4 4 ;;
  x_answer <- mdense0 TyD [[3; 0; 0; 0]; [4; 10; 0; 0]; [2; 11; 23; 0]; [1; 7; 22; 26]]%Q 0%Q ;;
  x_C_1 <- lil_assign x_C x_Lower_1 ;;
  x_C_2 <- t_opt_mxm TyD (acc TyD qplus) TyD (mkSr qplus qtimes TyD) (MStruct (TheOutput (fun x =>
    x))) MERGE x_C_1 (OTrn (Other x_mat)) (OTrn (Other x_mat)) ;;
  x_q <- meq x_C_2 x_answer ;;
  _ <- check x_q ;;
  x_answer2 <- mdense0 TyD [[3; 0; 0; 0]; [4; 10; 0; 0]; [2; 11; 23; 0]; [1; 7; 22; 26]]%Q 0%Q ;;
  x_C_3 <- lil_assign x_C_2 x_Lower_1 ;;
  x_C_4 <- t_opt_mxm TyD (acc TyD qplus) TyD (mkSr qplus qtimes TyD) (MStruct (TheOutput (fun x =>
    x))) REPLACE x_C_3 (OTrn (Other x_mat)) (OTrn (Other x_mat)) ;;
  x_q_1 <- meq x_C_4 x_answer2 ;;
  _ <- check x_q_1 ;;
  Ok tt) = Ok tt.
Proof. vm_compute. reflexivity. Qed.

(** test_mxm_ATBT.cpp:3646-3669 *)
Example test_mxm_StructMask_Accum_ATBT_Replace_lower_mask_result_ones :
 (x_A <- mdense0 TyD d_AT_dense_3x3 0%Q ;;
  x_B <- mdense0 TyD d_BT_dense_3x4 0%Q ;;
  x_M <- mdense0 TyD d_LowerMask_3x4 0%Q ;;
  x_M_1 <- lil_setElement x_M 2 0 (cast TyD 0%Q) ;;
  _ <- check (Qeq_bool (inject_Z (nvals x_M_1)) 6%Q) ;;
  x_result <- mdense0 TyD d_Ones_3x4 0%Q ;;
  x_answer <- mdense0 TyD [[114; 0; 0; 0]; [74; 97; 0; 0]; [119; 157; 112; 0]]%Q 0%Q ;;
  x_result_1 <- t_mxm TyD (acc TyD qsecond) (mkSr qplus qtimes TyD) (MStruct x_M_1) REPLACE x_result
    (Trn x_A) (Trn x_B) ;;
  _ <- check (Qeq_bool (inject_Z (nvals x_result_1)) 6%Q) ;;
  x_q <- meq x_result_1 x_answer ;;
  _ <- check x_q ;;
  Ok tt) = Ok tt.
Proof. vm_compute. reflexivity. Qed.

(** test_mxm_ATBT.cpp:3646-3669, optimized_sequential platform *)
Example test_mxm_StructMask_Accum_ATBT_Replace_lower_mask_result_ones_opt :
 (x_A <- mdense0 TyD d_AT_dense_3x3 0%Q ;;
  x_B <- mdense0 TyD d_BT_dense_3x4 0%Q ;;
  x_M <- mdense0 TyD d_LowerMask_3x4 0%Q ;;
  x_M_1 <- lil_setElement x_M 2 0 (cast TyD 0%Q) ;;
  _ <- check (Qeq_bool (inject_Z (nvals x_M_1)) 6%Q) ;;
  x_result <- mdense0 TyD d_Ones_3x4 0%Q ;;
  x_answer <- mdense0 TyD [[114; 0; 0; 0]; [74; 97; 0; 0]; [119; 157; 112; 0]]%Q 0%Q ;;
  x_result_1 <- t_opt_mxm TyD (acc TyD qsecond) TyD (mkSr qplus qtimes TyD) (MStruct (Other x_M_1))
    REPLACE x_result (OTrn (Other x_A)) (OTrn (Other x_B)) ;;
  _ <- check (Qeq_bool (inject_Z (nvals x_result_1)) 6%Q) ;;
  x_q <- meq x_result_1 x_answer ;;
  _ <- check x_q ;;
  Ok tt) = Ok tt.
Proof. vm_compute. reflexivity. Qed.

(** test_mxm_ATBT.cpp:3672-3695 *)
Example test_mxm_StructMask_Accum_ATBT_Replace_bool_masked_result_ones :
 (x_A <- mdense0 TyD d_AT_dense_3x3 0%Q ;;
  x_B <- mdense0 TyD d_BT_dense_3x4 0%Q ;;
  x_M <- mdense0 TyB d_LowerBool_3x4 0%Q ;;
  x_M_1 <- lil_setElement x_M 2 0 (cast TyB 0%Q) ;;
  _ <- check (Qeq_bool (inject_Z (nvals x_M_1)) 6%Q) ;;
  x_result <- mdense0 TyD d_Ones_3x4 0%Q ;;
  x_answer <- mdense0 TyD [[114; 0; 0; 0]; [74; 97; 0; 0]; [119; 157; 112; 0]]%Q 0%Q ;;
  x_result_1 <- t_mxm TyD (acc TyD qsecond) (mkSr qplus qtimes TyD) (MStruct x_M_1) REPLACE x_result
    (Trn x_A) (Trn x_B) ;;
  _ <- check (Qeq_bool (inject_Z (nvals x_result_1)) 6%Q) ;;
  x_q <- meq x_result_1 x_answer ;;
  _ <- check x_q ;;
  Ok tt) = Ok tt.
Proof. vm_compute. reflexivity. Qed.

(** test_mxm_ATBT.cpp:3672-3695, optimized_sequential platform *)
Example test_mxm_StructMask_Accum_ATBT_Replace_bool_masked_result_ones_opt :
 (x_A <- mdense0 TyD d_AT_dense_3x3 0%Q ;;
  x_B <- mdense0 TyD d_BT_dense_3x4 0%Q ;;
  x_M <- mdense0 TyB d_LowerBool_3x4 0%Q ;;
  x_M_1 <- lil_setElement x_M 2 0 (cast TyB 0%Q) ;;
  _ <- check (Qeq_bool (inject_Z (nvals x_M_1)) 6%Q) ;;
  x_result <- mdense0 TyD d_Ones_3x4 0%Q ;;
  x_answer <- mdense0 TyD [[114; 0; 0; 0]; [74; 97; 0; 0]; [119; 157; 112; 0]]%Q 0%Q ;;
  x_result_1 <- t_opt_mxm TyD (acc TyD qsecond) TyD (mkSr qplus qtimes TyD) (MStruct (Other x_M_1))
    REPLACE x_result (OTrn (Other x_A)) (OTrn (Other x_B)) ;;
  _ <- check (Qeq_bool (inject_Z (nvals x_result_1)) 6%Q) ;;
  x_q <- meq x_result_1 x_answer ;;
  _ <- check x_q ;;
  Ok tt) = Ok tt.
Proof. vm_compute. reflexivity. Qed.

(** test_mxm_ATBT.cpp:3698-3723 *)
Example test_mxm_StructMask_Accum_ATBT_Merge_Cones_Mlower :
 (x_A <- mdense0 TyD d_AT_dense_3x3 0%Q ;;
  x_B <- mdense0 TyD d_BT_dense_3x4 0%Q ;;
  x_M <- mdense0 TyD [[1; 0; 0; 0]; [1; 1; 0; 0]; [1; 1; 1; 0]]%Q 0%Q ;;
  x_M_1 <- lil_setElement x_M 2 0 (cast TyD 0%Q) ;;
  _ <- check (Qeq_bool (inject_Z (nvals x_M_1)) 6%Q) ;;
  x_result <- mdense0 TyD d_Ones_3x4 0%Q ;;
  x_answer <- mdense0 TyD [[114; 1; 1; 1]; [74; 97; 1; 1]; [119; 157; 112; 1]]%Q 0%Q ;;
  x_result_1 <- t_mxm TyD (acc TyD qsecond) (mkSr qplus qtimes TyD) (MStruct x_M_1) MERGE x_result
    (Trn x_A) (Trn x_B) ;;
  _ <- check (Qeq_bool (inject_Z (nvals x_result_1)) 12%Q) ;;
  x_q <- meq x_result_1 x_answer ;;
  _ <- check x_q ;;
  Ok tt) = Ok tt.
Proof. vm_compute. reflexivity. Qed.

(** test_mxm_ATBT.cpp:3698-3723, optimized_sequential platform *)
Example test_mxm_StructMask_Accum_ATBT_Merge_Cones_Mlower_opt :
 (x_A <- mdense0 TyD d_AT_dense_3x3 0%Q ;;
  x_B <- mdense0 TyD d_BT_dense_3x4 0%Q ;;
  x_M <- mdense0 TyD [[1; 0; 0; 0]; [1; 1; 0; 0]; [1; 1; 1; 0]]%Q 0%Q ;;
  x_M_1 <- lil_setElement x_M 2 0 (cast TyD 0%Q) ;;
  _ <- check (Qeq_bool (inject_Z (nvals x_M_1)) 6%Q) ;;
  x_result <- mdense0 TyD d_Ones_3x4 0%Q ;;
  x_answer <- mdense0 TyD [[114; 1; 1; 1]; [74; 97; 1; 1]; [119; 157; 112; 1]]%Q 0%Q ;;
  x_result_1 <- t_opt_mxm TyD (acc TyD qsecond) TyD (mkSr qplus qtimes TyD) (MStruct (Other x_M_1))
    MERGE x_result (OTrn (Other x_A)) (OTrn (Other x_B)) ;;
  _ <- check (Qeq_bool (inject_Z (nvals x_result_1)) 12%Q) ;;
  x_q <- meq x_result_1 x_answer ;;
  _ <- check x_q ;;
  Ok tt) = Ok tt.
Proof. vm_compute. reflexivity. Qed.

(** test_mxm_ATBT.cpp:3730-3823 *)
Example test_mxm_CompStructMask_NoAccum_ATBT :
 (x_A <- mdense0 TyD d_AT_sparse_3x3 0%Q ;;
  x_AT <- mdense0 TyD d_A_sparse_3x3 0%Q ;;
  x_Identity <- mdense0 TyD d_Identity_3x3 0%Q ;;
  x_Empty <- mnew 3 3 ;;
  x_Ones <- mdense0 TyD d_Ones_3x3 0%Q ;;
  x_C <- mnew 3 3 ;;
  x_MLower <- mdense0 TyD d_Lower_3x3 0%Q ;;
  x_MLower_1 <- lil_setElement x_MLower 2 0 (cast TyD 0%Q) ;;
  x_MNotLower <- mdense0 TyD d_NotLower_3x3 0%Q ;;
  x_MNotLower_1 <- lil_setElement x_MNotLower 0 2 (cast TyD 0%Q) ;;
  x_NotA <- mdense0 TyD [[0; 0; 1]; [1; 0; 1]; [0; 1; 0]]%Q 0%Q ;;
  x_NotA_1 <- lil_setElement x_NotA 1 0 (cast TyD 0%Q) ;;
  x_AFilled <- mdense0 TyD [[12; 7; 1]; [1; (-5); 1]; [7; 1; 9]]%Q 0%Q ;;
  x_C_1 <- lil_assign x_C x_Ones ;;
  x_Ones_1 <- lil_setElement x_Ones 0 0 (cast TyD 0%Q) ;;
  x_C_2 <- t_mxm TyD noacc (mkSr qplus qtimes TyD) (MSComp x_Ones_1) MERGE x_C_1 (Trn x_A) (Trn
    x_Identity) ;;
  x_Ones_2 <- lil_setElement x_Ones_1 0 0 (cast TyD 1%Q) ;;
  x_q <- meq x_C_2 x_Ones_2 ;;
  _ <- check x_q ;;
  x_C_3 <- lil_assign x_C_2 x_Ones_2 ;;
  x_C_4 <- t_mxm TyD noacc (mkSr qplus qtimes TyD) (MSComp x_Empty) MERGE x_C_3 (Trn x_A) (Trn
    x_Identity) ;;
  x_q_1 <- meq x_C_4 x_AT ;;
  _ <- check x_q_1 ;;
  x_C_5 <- lil_assign x_C_4 x_Ones_2 ;;
  x_C_6 <- t_mxm TyD noacc (mkSr qplus qtimes TyD) (MSComp x_NotA_1) MERGE x_C_5 (Trn x_A) (Trn
    x_Identity) ;;
  x_q_2 <- meq x_C_6 x_AFilled ;;
  _ <- check x_q_2 ;;
  x_C_7 <- lil_assign x_C_6 x_Ones_2 ;;
  x_C_8 <- t_mxm TyD noacc (mkSr qplus qtimes TyD) (MSComp x_MNotLower_1) MERGE x_C_7 (Trn x_Ones_2)
    (Trn x_Identity) ;;
  x_q_3 <- meq x_C_8 x_Ones_2 ;;
  _ <- check x_q_3 ;;
  x_C_9 <- lil_assign x_C_8 x_Ones_2 ;;
  x_C_10 <- t_mxm TyD noacc (mkSr qplus qtimes TyD) (MSComp x_MLower_1) MERGE x_C_9 (Trn x_Ones_2)
    (Trn x_Identity) ;;
  x_q_4 <- meq x_C_10 x_Ones_2 ;;
  _ <- check x_q_4 ;;
  x_C_11 <- lil_assign x_C_10 x_Ones_2 ;;
  x_Ones_3 <- lil_setElement x_Ones_2 0 0 (cast TyD 0%Q) ;;
  x_C_12 <- t_mxm TyD noacc (mkSr qplus qtimes TyD) (MSComp x_Ones_3) REPLACE x_C_11 (Trn x_A) (Trn
    x_Identity) ;;
  x_q_5 <- meq x_C_12 x_Empty ;;
  _ <- check x_q_5 ;;
  x_Ones_4 <- lil_setElement x_Ones_3 0 0 (cast TyD 1%Q) ;;
  x_C_13 <- lil_assign x_C_12 x_Ones_4 ;;
  x_C_14 <- t_mxm TyD noacc (mkSr qplus qtimes TyD) (MSComp x_Empty) REPLACE x_C_13 (Trn x_A) (Trn
    x_Identity) ;;
  x_q_6 <- meq x_C_14 x_AT ;;
  _ <- check x_q_6 ;;
  x_C_15 <- lil_assign x_C_14 x_Ones_4 ;;
  x_C_16 <- t_mxm TyD noacc (mkSr qplus qtimes TyD) (MSComp x_MNotLower_1) REPLACE x_C_15 (Trn
    x_Ones_4) (Trn x_Identity) ;;
  x_MLower_2 <- lil_setElement x_MLower_1 2 0 (cast TyD 1%Q) ;;
  x_q_7 <- meq x_C_16 x_MLower_2 ;;
  _ <- check x_q_7 ;;
  x_C_17 <- lil_assign x_C_16 x_Ones_4 ;;
  x_C_18 <- t_mxm TyD noacc (mkSr qplus qtimes TyD) (MSComp x_MLower_2) REPLACE x_C_17 (Trn
    x_Ones_4) (Trn x_Identity) ;;
  x_MNotLower_2 <- lil_setElement x_MNotLower_1 0 2 (cast TyD 1%Q) ;;
  x_q_8 <- meq x_C_18 x_MNotLower_2 ;;
  _ <- check x_q_8 ;;
  Ok tt) = Ok tt.
Proof. vm_compute. reflexivity. Qed.

(** test_mxm_ATBT.cpp:3730-3823, optimized_sequential platform *)
Example test_mxm_CompStructMask_NoAccum_ATBT_opt :
 (x_A <- mdense0 TyD d_AT_sparse_3x3 0%Q ;;
  x_AT <- mdense0 TyD d_A_sparse_3x3 0%Q ;;
  x_Identity <- mdense0 TyD d_Identity_3x3 0%Q ;;
  x_Empty <- mnew 3 3 ;;
  x_Ones <- mdense0 TyD d_Ones_3x3 0%Q ;;
  x_C <- mnew 3 3 ;;
  x_MLower <- mdense0 TyD d_Lower_3x3 0%Q ;;
  x_MLower_1 <- lil_setElement x_MLower 2 0 (cast TyD 0%Q) ;;
  x_MNotLower <- mdense0 TyD d_NotLower_3x3 0%Q ;;
  x_MNotLower_1 <- lil_setElement x_MNotLower 0 2 (cast TyD 0%Q) ;;
  x_NotA <- mdense0 TyD [[0; 0; 1]; [1; 0; 1]; [0; 1; 0]]%Q 0%Q ;;
  x_NotA_1 <- lil_setElement x_NotA 1 0 (cast TyD 0%Q) ;;
  x_AFilled <- mdense0 TyD [[12; 7; 1]; [1; (-5); 1]; [7; 1; 9]]%Q 0%Q ;;
  x_C_1 <- lil_assign x_C x_Ones ;;
  x_Ones_1 <- lil_setElement x_Ones 0 0 (cast TyD 0%Q) ;;
  x_C_2 <- t_opt_mxm TyD noacc TyD (mkSr qplus qtimes TyD) (MSComp (Other x_Ones_1)) MERGE x_C_1
    (OTrn (Other x_A)) (OTrn (Other x_Identity)) ;;
  x_Ones_2 <- lil_setElement x_Ones_1 0 0 (cast TyD 1%Q) ;;
  x_q <- meq x_C_2 x_Ones_2 ;;
  _ <- check x_q ;;
  x_C_3 <- lil_assign x_C_2 x_Ones_2 ;;
  x_C_4 <- t_opt_mxm TyD noacc TyD (mkSr qplus qtimes TyD) (MSComp (Other x_Empty)) MERGE x_C_3
    (OTrn (Other x_A)) (OTrn (Other x_Identity)) ;;
  x_q_1 <- meq x_C_4 x_AT ;;
  _ <- check x_q_1 ;;
  x_C_5 <- lil_assign x_C_4 x_Ones_2 ;;
  x_C_6 <- t_opt_mxm TyD noacc TyD (mkSr qplus qtimes TyD) (MSComp (Other x_NotA_1)) MERGE x_C_5
    (OTrn (Other x_A)) (OTrn (Other x_Identity)) ;;
  x_q_2 <- meq x_C_6 x_AFilled ;;
  _ <- check x_q_2 ;;
  x_C_7 <- lil_assign x_C_6 x_Ones_2 ;;
  x_C_8 <- t_opt_mxm TyD noacc TyD (mkSr qplus qtimes TyD) (MSComp (Other x_MNotLower_1)) MERGE
    x_C_7 (OTrn (Other x_Ones_2)) (OTrn (Other x_Identity)) ;;
  x_q_3 <- meq x_C_8 x_Ones_2 ;;
  _ <- check x_q_3 ;;
  x_C_9 <- lil_assign x_C_8 x_Ones_2 ;;
  x_C_10 <- t_opt_mxm TyD noacc TyD (mkSr qplus qtimes TyD) (MSComp (Other x_MLower_1)) MERGE x_C_9
    (OTrn (Other x_Ones_2)) (OTrn (Other x_Identity)) ;;
  x_q_4 <- meq x_C_10 x_Ones_2 ;;
  _ <- check x_q_4 ;;
  x_C_11 <- lil_assign x_C_10 x_Ones_2 ;;
  x_Ones_3 <- lil_setElement x_Ones_2 0 0 (cast TyD 0%Q) ;;
  x_C_12 <- t_opt_mxm TyD noacc TyD (mkSr qplus qtimes TyD) (MSComp (Other x_Ones_3)) REPLACE x_C_11
    (OTrn (Other x_A)) (OTrn (Other x_Identity)) ;;
  x_q_5 <- meq x_C_12 x_Empty ;;
  _ <- check x_q_5 ;;
  x_Ones_4 <- lil_setElement x_Ones_3 0 0 (cast TyD 1%Q) ;;
  x_C_13 <- lil_assign x_C_12 x_Ones_4 ;;
  x_C_14 <- t_opt_mxm TyD noacc TyD (mkSr qplus qtimes TyD) (MSComp (Other x_Empty)) REPLACE x_C_13
    (OTrn (Other x_A)) (OTrn (Other x_Identity)) ;;
  x_q_6 <- meq x_C_14 x_AT ;;
  _ <- check x_q_6 ;;
  x_C_15 <- lil_assign x_C_14 x_Ones_4 ;;
  x_C_16 <- t_opt_mxm TyD noacc TyD (mkSr qplus qtimes TyD) (MSComp (Other x_MNotLower_1)) REPLACE
    x_C_15 (OTrn (Other x_Ones_4)) (OTrn (Other x_Identity)) ;;
  x_MLower_2 <- lil_setElement x_MLower_1 2 0 (cast TyD 1%Q) ;;
  x_q_7 <- meq x_C_16 x_MLower_2 ;;
  _ <- check x_q_7 ;;
  x_C_17 <- lil_assign x_C_16 x_Ones_4 ;;
  x_C_18 <- t_opt_mxm TyD noacc TyD (mkSr qplus qtimes TyD) (MSComp (Other x_MLower_2)) REPLACE
    x_C_17 (OTrn (Other x_Ones_4)) (OTrn (Other x_Identity)) ;;
  x_MNotLower_2 <- lil_setElement x_MNotLower_1 0 2 (cast TyD 1%Q) ;;
  x_q_8 <- meq x_C_18 x_MNotLower_2 ;;
  _ <- check x_q_8 ;;
  Ok tt) = Ok tt.
Proof. vm_compute. reflexivity. Qed.

(** test_mxm_ATBT.cpp:3826-3891 *)
Example test_mxm_CompStructMask_NoAccum_ATBT_empty :
 (x_Empty <- mnew 3 3 ;;
  x_Ones <- mdense0 TyD d_Ones_3x3 0%Q ;;
  x_Identity <- mdense0 TyD d_Identity_3x3 0%Q ;;
  x_C <- mnew 3 3 ;;
  x_M <- mdense0 TyB d_LowerBool_3x3 0%Q ;;
  x_M_1 <- lil_setElement x_M 2 0 (cast TyB 0%Q) ;;
  x_mUpper <- mdense0 TyD d_NotLower_3x3 0%Q ;;
  x_mUpper_1 <- lil_setElement x_mUpper 0 2 (cast TyD 0%Q) ;;
  x_C_1 <- lil_assign x_C x_Ones ;;
  x_C_2 <- t_mxm TyD noacc (mkSr qplus qtimes TyD) (MSComp x_mUpper_1) MERGE x_C_1 (Trn x_Empty)
    (Trn x_Ones) ;;
  x_mUpper_2 <- lil_setElement x_mUpper_1 0 2 (cast TyD 1%Q) ;;
  x_q <- meq x_C_2 x_mUpper_2 ;;
  _ <- check x_q ;;
  x_C_3 <- lil_assign x_C_2 x_Ones ;;
  x_mUpper_3 <- lil_setElement x_mUpper_2 0 2 (cast TyD 0%Q) ;;
  x_C_4 <- t_mxm TyD noacc (mkSr qplus qtimes TyD) (MSComp x_mUpper_3) MERGE x_C_3 (Trn x_Ones) (Trn
    x_Empty) ;;
  x_mUpper_4 <- lil_setElement x_mUpper_3 0 2 (cast TyD 1%Q) ;;
  x_q_1 <- meq x_C_4 x_mUpper_4 ;;
  _ <- check x_q_1 ;;
  x_C_5 <- lil_assign x_C_4 x_Ones ;;
  x_C_6 <- t_mxm TyD noacc (mkSr qplus qtimes TyD) (MSComp x_Ones) MERGE x_C_5 (Trn x_Ones) (Trn
    x_Empty) ;;
  x_q_2 <- meq x_C_6 x_Ones ;;
  _ <- check x_q_2 ;;
  x_C_7 <- lil_assign x_C_6 x_Empty ;;
  x_C_8 <- t_mxm TyD noacc (mkSr qplus qtimes TyD) (MSComp x_Empty) MERGE x_C_7 (Trn x_Ones) (Trn
    x_Identity) ;;
  x_q_3 <- meq x_C_8 x_Ones ;;
  _ <- check x_q_3 ;;
  x_C_9 <- lil_assign x_C_8 x_Ones ;;
  x_C_10 <- t_mxm TyD noacc (mkSr qplus qtimes TyD) (MSComp x_mUpper_4) REPLACE x_C_9 (Trn x_Empty)
    (Trn x_Ones) ;;
  x_q_4 <- meq x_C_10 x_Empty ;;
  _ <- check x_q_4 ;;
  x_C_11 <- lil_assign x_C_10 x_Ones ;;
  x_C_12 <- t_mxm TyD noacc (mkSr qplus qtimes TyD) (MSComp x_mUpper_4) REPLACE x_C_11 (Trn x_Ones)
    (Trn x_Empty) ;;
  x_q_5 <- meq x_C_12 x_Empty ;;
  _ <- check x_q_5 ;;
  x_C_13 <- lil_assign x_C_12 x_Ones ;;
  x_C_14 <- t_mxm TyD noacc (mkSr qplus qtimes TyD) (MSComp x_Ones) REPLACE x_C_13 (Trn x_Ones) (Trn
    x_Empty) ;;
  x_q_6 <- meq x_C_14 x_Empty ;;
  _ <- check x_q_6 ;;
  x_C_15 <- lil_assign x_C_14 x_Empty ;;
  x_C_16 <- t_mxm TyD noacc (mkSr qplus qtimes TyD) (MSComp x_Empty) REPLACE x_C_15 (Trn x_Ones)
    (Trn x_Identity) ;;
  x_q_7 <- meq x_C_16 x_Ones ;;
  _ <- check x_q_7 ;;
  Ok tt) = Ok tt.
Proof. vm_compute. reflexivity. Qed.

(** test_mxm_ATBT.cpp:3826-3891, optimized_sequential platform *)
Example test_mxm_CompStructMask_NoAccum_ATBT_empty_opt :
 (x_Empty <- mnew 3 3 ;;
  x_Ones <- mdense0 TyD d_Ones_3x3 0%Q ;;
  x_Identity <- mdense0 TyD d_Identity_3x3 0%Q ;;
  x_C <- mnew 3 3 ;;
  x_M <- mdense0 TyB d_LowerBool_3x3 0%Q ;;
  x_M_1 <- lil_setElement x_M 2 0 (cast TyB 0%Q) ;;
  x_mUpper <- mdense0 TyD d_NotLower_3x3 0%Q ;;
  x_mUpper_1 <- lil_setElement x_mUpper 0 2 (cast TyD 0%Q) ;;
  x_C_1 <- lil_assign x_C x_Ones ;;
  x_C_2 <- t_opt_mxm TyD noacc TyD (mkSr qplus qtimes TyD) (MSComp (Other x_mUpper_1)) MERGE x_C_1
    (OTrn (Other x_Empty)) (OTrn (Other x_Ones)) ;;
  x_mUpper_2 <- lil_setElement x_mUpper_1 0 2 (cast TyD 1%Q) ;;
  x_q <- meq x_C_2 x_mUpper_2 ;;
  _ <- check x_q ;;
  x_C_3 <- lil_assign x_C_2 x_Ones ;;
  x_mUpper_3 <- lil_setElement x_mUpper_2 0 2 (cast TyD 0%Q) ;;
  x_C_4 <- t_opt_mxm TyD noacc TyD (mkSr qplus qtimes TyD) (MSComp (Other x_mUpper_3)) MERGE x_C_3
    (OTrn (Other x_Ones)) (OTrn (Other x_Empty)) ;;
  x_mUpper_4 <- lil_setElement x_mUpper_3 0 2 (cast TyD 1%Q) ;;
  x_q_1 <- meq x_C_4 x_mUpper_4 ;;
  _ <- check x_q_1 ;;
  x_C_5 <- lil_assign x_C_4 x_Ones ;;
  x_C_6 <- t_opt_mxm TyD noacc TyD (mkSr qplus qtimes TyD) (MSComp (Other x_Ones)) MERGE x_C_5 (OTrn
    (Other x_Ones)) (OTrn (Other x_Empty)) ;;
  x_q_2 <- meq x_C_6 x_Ones ;;
  _ <- check x_q_2 ;;
  x_C_7 <- lil_assign x_C_6 x_Empty ;;
  x_C_8 <- t_opt_mxm TyD noacc TyD (mkSr qplus qtimes TyD) (MSComp (Other x_Empty)) MERGE x_C_7
    (OTrn (Other x_Ones)) (OTrn (Other x_Identity)) ;;
  x_q_3 <- meq x_C_8 x_Ones ;;
  _ <- check x_q_3 ;;
  x_C_9 <- lil_assign x_C_8 x_Ones ;;
  x_C_10 <- t_opt_mxm TyD noacc TyD (mkSr qplus qtimes TyD) (MSComp (Other x_mUpper_4)) REPLACE
    x_C_9 (OTrn (Other x_Empty)) (OTrn (Other x_Ones)) ;;
  x_q_4 <- meq x_C_10 x_Empty ;;
  _ <- check x_q_4 ;;
  x_C_11 <- lil_assign x_C_10 x_Ones ;;
  x_C_12 <- t_opt_mxm TyD noacc TyD (mkSr qplus qtimes TyD) (MSComp (Other x_mUpper_4)) REPLACE
    x_C_11 (OTrn (Other x_Ones)) (OTrn (Other x_Empty)) ;;
  x_q_5 <- meq x_C_12 x_Empty ;;
  _ <- check x_q_5 ;;
  x_C_13 <- lil_assign x_C_12 x_Ones ;;
  x_C_14 <- t_opt_mxm TyD noacc TyD (mkSr qplus qtimes TyD) (MSComp (Other x_Ones)) REPLACE x_C_13
    (OTrn (Other x_Ones)) (OTrn (Other x_Empty)) ;;
  x_q_6 <- meq x_C_14 x_Empty ;;
  _ <- check x_q_6 ;;
  x_C_15 <- lil_assign x_C_14 x_Empty ;;
  x_C_16 <- t_opt_mxm TyD noacc TyD (mkSr qplus qtimes TyD) (MSComp (Other x_Empty)) REPLACE x_C_15
    (OTrn (Other x_Ones)) (OTrn (Other x_Identity)) ;;
  x_q_7 <- meq x_C_16 x_Ones ;;
  _ <- check x_q_7 ;;
  Ok tt) = Ok tt.
Proof. vm_compute. reflexivity. Qed.

(** test_mxm_ATBT.cpp:3894-3937 *)
Example test_mxm_CompStructMask_NoAccum_ATBT_emptyRowA_emptyColB :
 (x_A <- mdense0 TyD [[8; 0; 4]; [1; 0; 9]; [6; 0; 2]]%Q 0%Q ;;
  x_B <- mdense0 TyD [[0; 1; 0]; [0; 0; 0]; [0; 1; 1]; [1; 1; 1]]%Q 0%Q ;;
  x_NotLower <- mdense0 TyD d_NotLower_3x4 0%Q ;;
  x_NotLower_1 <- lil_setElement x_NotLower 0 2 (cast TyD 0%Q) ;;
  x_Ones <- mdense0 TyD d_Ones_3x4 0%Q ;;
  x_C <- mnew 3 4 ;;
  x_answer <- mdense0 TyD [[1; 0; 0; 0]; [0; 0; 0; 0]; [9; 0; 11; 0]]%Q 0%Q ;;
  x_C_1 <- lil_assign x_C x_Ones ;;
  x_C_2 <- t_mxm TyD noacc (mkSr qplus qtimes TyD) (MSComp x_NotLower_1) REPLACE x_C_1 (Trn x_A)
    (Trn x_B) ;;
  x_q <- meq x_C_2 x_answer ;;
  _ <- check x_q ;;
  x_answer2 <- mdense0 TyD [[1; 1; 1; 1]; [0; 0; 1; 1]; [9; 0; 11; 1]]%Q 0%Q ;;
  x_C_3 <- lil_assign x_C_2 x_Ones ;;
  x_C_4 <- t_mxm TyD noacc (mkSr qplus qtimes TyD) (MSComp x_NotLower_1) MERGE x_C_3 (Trn x_A) (Trn
    x_B) ;;
  x_q_1 <- meq x_C_4 x_answer2 ;;
  _ <- check x_q_1 ;;
  Ok tt) = Ok tt.
Proof. vm_compute. reflexivity. Qed.

(** test_mxm_ATBT.cpp:3894-3937, optimized_sequential platform *)
Example test_mxm_CompStructMask_NoAccum_ATBT_emptyRowA_emptyColB_opt :
 (x_A <- mdense0 TyD [[8; 0; 4]; [1; 0; 9]; [6; 0; 2]]%Q 0%Q ;;
  x_B <- mdense0 TyD [[0; 1; 0]; [0; 0; 0]; [0; 1; 1]; [1; 1; 1]]%Q 0%Q ;;
  x_NotLower <- mdense0 TyD d_NotLower_3x4 0%Q ;;
  x_NotLower_1 <- lil_setElement x_NotLower 0 2 (cast TyD 0%Q) ;;
  x_Ones <- mdense0 TyD d_Ones_3x4 0%Q ;;
  x_C <- mnew 3 4 ;;
  x_answer <- mdense0 TyD [[1; 0; 0; 0]; [0; 0; 0; 0]; [9; 0; 11; 0]]%Q 0%Q ;;
  x_C_1 <- lil_assign x_C x_Ones ;;
  x_C_2 <- t_opt_mxm TyD noacc TyD (mkSr qplus qtimes TyD) (MSComp (Other x_NotLower_1)) REPLACE
    x_C_1 (OTrn (Other x_A)) (OTrn (Other x_B)) ;;
  x_q <- meq x_C_2 x_answer ;;
  _ <- check x_q ;;
  x_answer2 <- mdense0 TyD [[1; 1; 1; 1]; [0; 0; 1; 1]; [9; 0; 11; 1]]%Q 0%Q ;;
  x_C_3 <- lil_assign x_C_2 x_Ones ;;
  x_C_4 <- t_opt_mxm TyD noacc TyD (mkSr qplus qtimes TyD) (MSComp (Other x_NotLower_1)) MERGE x_C_3
    (OTrn (Other x_A)) (OTrn (Other x_B)) ;;
  x_q_1 <- meq x_C_4 x_answer2 ;;
  _ <- check x_q_1 ;;
  Ok tt) = Ok tt.
Proof. vm_compute. reflexivity. Qed.

(** test_mxm_ATBT.cpp:3940-3983 *)
Example test_mxm_CompStructMask_NoAccum_ATBT_emptyColA_emptyRowB :
 (x_A <- mdense0 TyD [[8; 1; 4]; [0; 0; 0]; [6; 9; 2]]%Q 0%Q ;;
  x_B <- mdense0 TyD [[0; 1; 0]; [1; 0; 0]; [0; 1; 0]; [1; 1; 0]]%Q 0%Q ;;
  x_NotLower <- mdense0 TyD d_NotLower_3x4 0%Q ;;
  x_NotLower_1 <- lil_setElement x_NotLower 0 2 (cast TyD 0%Q) ;;
  x_Ones <- mdense0 TyD d_Ones_3x4 0%Q ;;
  x_C <- mnew 3 4 ;;
  x_answer <- mdense0 TyD [[0; 0; 0; 0]; [0; 1; 0; 0]; [0; 4; 0; 0]]%Q 0%Q ;;
  x_C_1 <- lil_assign x_C x_Ones ;;
  x_C_2 <- t_mxm TyD noacc (mkSr qplus qtimes TyD) (MSComp x_NotLower_1) REPLACE x_C_1 (Trn x_A)
    (Trn x_B) ;;
  x_q <- meq x_C_2 x_answer ;;
  _ <- check x_q ;;
  x_answer2 <- mdense0 TyD [[0; 1; 1; 1]; [0; 1; 1; 1]; [0; 4; 0; 1]]%Q 0%Q ;;
  x_C_3 <- lil_assign x_C_2 x_Ones ;;
  x_C_4 <- t_mxm TyD noacc (mkSr qplus qtimes TyD) (MSComp x_NotLower_1) MERGE x_C_3 (Trn x_A) (Trn
    x_B) ;;
  x_q_1 <- meq x_C_4 x_answer2 ;;
  _ <- check x_q_1 ;;
  Ok tt) = Ok tt.
Proof. vm_compute. reflexivity. Qed.

(** test_mxm_ATBT.cpp:3940-3983, optimized_sequential platform *)
Example test_mxm_CompStructMask_NoAccum_ATBT_emptyColA_emptyRowB_opt :
 (x_A <- mdense0 TyD [[8; 1; 4]; [0; 0; 0]; [6; 9; 2]]%Q 0%Q ;;
  x_B <- mdense0 TyD [[0; 1; 0]; [1; 0; 0]; [0; 1; 0]; [1; 1; 0]]%Q 0%Q ;;
  x_NotLower <- mdense0 TyD d_NotLower_3x4 0%Q ;;
  x_NotLower_1 <- lil_setElement x_NotLower 0 2 (cast TyD 0%Q) ;;
  x_Ones <- mdense0 TyD d_Ones_3x4 0%Q ;;
  x_C <- mnew 3 4 ;;
  x_answer <- mdense0 TyD [[0; 0; 0; 0]; [0; 1; 0; 0]; [0; 4; 0; 0]]%Q 0%Q ;;
  x_C_1 <- lil_assign x_C x_Ones ;;
  x_C_2 <- t_opt_mxm TyD noacc TyD (mkSr qplus qtimes TyD) (MSComp (Other x_NotLower_1)) REPLACE
    x_C_1 (OTrn (Other x_A)) (OTrn (Other x_B)) ;;
  x_q <- meq x_C_2 x_answer ;;
  _ <- check x_q ;;
  x_answer2 <- mdense0 TyD [[0; 1; 1; 1]; [0; 1; 1; 1]; [0; 4; 0; 1]]%Q 0%Q ;;
  x_C_3 <- lil_assign x_C_2 x_Ones ;;
  x_C_4 <- t_opt_mxm TyD noacc TyD (mkSr qplus qtimes TyD) (MSComp (Other x_NotLower_1)) MERGE x_C_3
    (OTrn (Other x_A)) (OTrn (Other x_B)) ;;
  x_q_1 <- meq x_C_4 x_answer2 ;;
  _ <- check x_q_1 ;;
  Ok tt) = Ok tt.
Proof. vm_compute. reflexivity. Qed.

(** test_mxm_ATBT.cpp:3986-4028 *)
Example test_mxm_CompStructMask_NoAccum_ATBT_emptyRowM :
 (x_A <- mdense0 TyD [[8; 0; 4]; [1; 0; 9]; [6; 0; 2]]%Q 0%Q ;;
  x_B <- mdense0 TyD [[0; 1; 0]; [0; 0; 0]; [0; 1; 1]]%Q 0%Q ;;
  x_Lower <- mdense0 TyD d_Lower_3x3 0%Q ;;
  x_Lower_1 <- lil_setElement x_Lower 2 0 (cast TyD 0%Q) ;;
  x_Ones <- mdense0 TyD d_Ones_3x3 0%Q ;;
  x_C <- mnew 3 3 ;;
  x_answer <- mdense0 TyD [[0; 0; 7]; [0; 0; 0]; [0; 0; 0]]%Q 0%Q ;;
  x_C_1 <- lil_assign x_C x_Ones ;;
  x_C_2 <- t_mxm TyD noacc (mkSr qplus qtimes TyD) (MSComp x_Lower_1) REPLACE x_C_1 (Trn x_A) (Trn
    x_B) ;;
  x_q <- meq x_C_2 x_answer ;;
  _ <- check x_q ;;
  x_answer2 <- mdense0 TyD [[1; 0; 7]; [1; 1; 0]; [1; 1; 1]]%Q 0%Q ;;
  x_C_3 <- lil_assign x_C_2 x_Ones ;;
  x_C_4 <- t_mxm TyD noacc (mkSr qplus qtimes TyD) (MSComp x_Lower_1) MERGE x_C_3 (Trn x_A) (Trn
    x_B) ;;
  x_q_1 <- meq x_C_4 x_answer2 ;;
  _ <- check x_q_1 ;;
  Ok tt) = Ok tt.
Proof. vm_compute. reflexivity. Qed.

(** test_mxm_ATBT.cpp:3986-4028, optimized_sequential platform *)
Example test_mxm_CompStructMask_NoAccum_ATBT_emptyRowM_opt :
 (x_A <- mdense0 TyD [[8; 0; 4]; [1; 0; 9]; [6; 0; 2]]%Q 0%Q ;;
  x_B <- mdense0 TyD [[0; 1; 0]; [0; 0; 0]; [0; 1; 1]]%Q 0%Q ;;
  x_Lower <- mdense0 TyD d_Lower_3x3 0%Q ;;
  x_Lower_1 <- lil_setElement x_Lower 2 0 (cast TyD 0%Q) ;;
  x_Ones <- mdense0 TyD d_Ones_3x3 0%Q ;;
  x_C <- mnew 3 3 ;;
  x_answer <- mdense0 TyD [[0; 0; 7]; [0; 0; 0]; [0; 0; 0]]%Q 0%Q ;;
  x_C_1 <- lil_assign x_C x_Ones ;;
  x_C_2 <- t_opt_mxm TyD noacc TyD (mkSr qplus qtimes TyD) (MSComp (Other x_Lower_1)) REPLACE x_C_1
    (OTrn (Other x_A)) (OTrn (Other x_B)) ;;
  x_q <- meq x_C_2 x_answer ;;
  _ <- check x_q ;;
  x_answer2 <- mdense0 TyD [[1; 0; 7]; [1; 1; 0]; [1; 1; 1]]%Q 0%Q ;;
  x_C_3 <- lil_assign x_C_2 x_Ones ;;
  x_C_4 <- t_opt_mxm TyD noacc TyD (mkSr qplus qtimes TyD) (MSComp (Other x_Lower_1)) MERGE x_C_3
    (OTrn (Other x_A)) (OTrn (Other x_B)) ;;
  x_q_1 <- meq x_C_4 x_answer2 ;;
  _ <- check x_q_1 ;;
  Ok tt) = Ok tt.
Proof. vm_compute. reflexivity. Qed.

(** test_mxm_ATBT.cpp:4031-4070 *)
Example test_mxm_CompStructMask_NoAccum_ATBT_ABdup :
 (x_mat <- mdense0 TyD d_Symmetric_4x4 0%Q ;;
  x_NotLower <- mdense0 TyD d_NotLower_4x4 0%Q ;;
  x_NotLower_1 <- lil_setElement x_NotLower 0 1 (cast TyD 0%Q) ;;
  x_Ones <- mdense0 TyD d_Ones_4x4 0%Q ;;
  x_C <- mnew 4 4 ;;
  x_answer <- mdense0 TyD [[2; 1; 1; 1]; [3; 9; 1; 1]; [2; 10; 22; 1]; [0; 6; 21; 25]]%Q 0%Q ;;
  x_C_1 <- lil_assign x_C x_Ones ;;
  x_C_2 <- t_mxm TyD noacc (mkSr qplus qtimes TyD) (MSComp x_NotLower_1) MERGE x_C_1 (Trn x_mat)
    (Trn x_mat) ;;
  x_q <- meq x_C_2 x_answer ;;
  _ <- check x_q ;;
  x_answer2 <- mdense0 TyD [[2; 0; 0; 0]; [3; 9; 0; 0]; [2; 10; 22; 0]; [0; 6; 21; 25]]%Q 0%Q ;;
  x_C_3 <- lil_assign x_C_2 x_Ones ;;
  x_C_4 <- t_mxm TyD noacc (mkSr qplus qtimes TyD) (MSComp x_NotLower_1) REPLACE x_C_3 (Trn x_mat)
    (Trn x_mat) ;;
  x_q_1 <- meq x_C_4 x_answer2 ;;
  _ <- check x_q_1 ;;
  Ok tt) = Ok tt.
Proof. vm_compute. reflexivity. Qed.

(** test_mxm_ATBT.cpp:4031-4070, optimized_sequential platform *)
Example test_mxm_CompStructMask_NoAccum_ATBT_ABdup_opt :
 (x_mat <- mdense0 TyD d_Symmetric_4x4 0%Q ;;
  x_NotLower <- mdense0 TyD d_NotLower_4x4 0%Q ;;
  x_NotLower_1 <- lil_setElement x_NotLower 0 1 (cast TyD 0%Q) ;;
  x_Ones <- mdense0 TyD d_Ones_4x4 0%Q ;;
  x_C <- mnew 4 4 ;;
  x_answer <- mdense0 TyD [[2; 1; 1; 1]; [3; 9; 1; 1]; [2; 10; 22; 1]; [0; 6; 21; 25]]%Q 0%Q ;;
  x_C_1 <- lil_assign x_C x_Ones ;;
  x_C_2 <- t_opt_mxm TyD noacc TyD (mkSr qplus qtimes TyD) (MSComp (Other x_NotLower_1)) MERGE x_C_1
    (OTrn (Other x_mat)) (OTrn (Other x_mat)) ;;
  x_q <- meq x_C_2 x_answer ;;
  _ <- check x_q ;;
  x_answer2 <- mdense0 TyD [[2; 0; 0; 0]; [3; 9; 0; 0]; [2; 10; 22; 0]; [0; 6; 21; 25]]%Q 0%Q ;;
  x_C_3 <- lil_assign x_C_2 x_Ones ;;
  x_C_4 <- t_opt_mxm TyD noacc TyD (mkSr qplus qtimes TyD) (MSComp (Other x_NotLower_1)) REPLACE
    x_C_3 (OTrn (Other x_mat)) (OTrn (Other x_mat)) ;;
  x_q_1 <- meq x_C_4 x_answer2 ;;
  _ <- check x_q_1 ;;
  Ok tt) = Ok tt.
Proof. vm_compute. reflexivity. Qed.

(** test_mxm_ATBT.cpp:4073-4112 *)
Example test_mxm_CompStructMask_NoAccum_ATBT_ACdup :
 (x_mat <- mdense0 TyD d_Symmetric_4x4 0%Q ;;
  x_NotLower <- mdense0 TyD d_NotLower_4x4 0%Q ;;
  x_NotLower_1 <- lil_setElement x_NotLower 0 1 (cast TyD 0%Q) ;;
  x_Ones <- mdense0 TyD d_Ones_4x4 0%Q ;;
  x_C <- mnew 4 4 ;;
  x_answer <- mdense0 TyD [[2; 1; 0; 0]; [3; 9; 2; 0]; [2; 10; 22; 3]; [0; 6; 21; 25]]%Q 0%Q ;;
  x_C_1 <- lil_assign x_C x_mat ;;
  x_C_2 <- t_mxm TyD noacc (mkSr qplus qtimes TyD) (MSComp x_NotLower_1) MERGE x_C_1 (Trn x_C_1)
    (Trn x_mat) ;;
  x_q <- meq x_C_2 x_answer ;;
  _ <- check x_q ;;
  x_answer2 <- mdense0 TyD [[2; 0; 0; 0]; [3; 9; 0; 0]; [2; 10; 22; 0]; [0; 6; 21; 25]]%Q 0%Q ;;
  x_C_3 <- lil_assign x_C_2 x_mat ;;
  x_C_4 <- t_mxm TyD noacc (mkSr qplus qtimes TyD) (MSComp x_NotLower_1) REPLACE x_C_3 (Trn x_C_3)
    (Trn x_mat) ;;
  x_q_1 <- meq x_C_4 x_answer2 ;;
  _ <- check x_q_1 ;;
  Ok tt) = Ok tt.
Proof. vm_compute. reflexivity. Qed.

(** test_mxm_ATBT.cpp:4073-4112, optimized_sequential platform *)
Example test_mxm_CompStructMask_NoAccum_ATBT_ACdup_opt :
 (x_mat <- mdense0 TyD d_Symmetric_4x4 0%Q ;;
  x_NotLower <- mdense0 TyD d_NotLower_4x4 0%Q ;;
  x_NotLower_1 <- lil_setElement x_NotLower 0 1 (cast TyD 0%Q) ;;
  x_Ones <- mdense0 TyD d_Ones_4x4 0%Q ;;
  x_C <- mnew 4 4 ;;
  x_answer <- mdense0 TyD [[2; 1; 0; 0]; [3; 9; 2; 0]; [2; 10; 22; 3]; [0; 6; 21; 25]]%Q 0%Q ;;
  x_C_1 <- lil_assign x_C x_mat ;;
  x_C_2 <- t_opt_mxm TyD noacc TyD (mkSr qplus qtimes TyD) (MSComp (Other x_NotLower_1)) MERGE x_C_1
    (OTrn (TheOutput (fun x => x))) (OTrn (Other x_mat)) ;;
  x_q <- meq x_C_2 x_answer ;;
  _ <- check x_q ;;
  x_answer2 <- mdense0 TyD [[2; 0; 0; 0]; [3; 9; 0; 0]; [2; 10; 22; 0]; [0; 6; 21; 25]]%Q 0%Q ;;
  x_C_3 <- lil_assign x_C_2 x_mat ;;
  x_C_4 <- t_opt_mxm TyD noacc TyD (mkSr qplus qtimes TyD) (MSComp (Other x_NotLower_1)) REPLACE
    x_C_3 (OTrn (TheOutput (fun x => x))) (OTrn (Other x_mat)) ;;
  x_q_1 <- meq x_C_4 x_answer2 ;;
  _ <- check x_q_1 ;;
  Ok tt) = Ok tt.
Proof. vm_compute. reflexivity. Qed.

(** test_mxm_ATBT.cpp:4115-4163 *)
Example test_mxm_CompStructMask_NoAccum_ATBT_BCdup :
 (x_mat <- mdense0 TyD d_Symmetric_4x4 0%Q ;;
  x_NotLower <- mdense0 TyD d_NotLower_4x4 0%Q ;;
  x_NotLower_1 <- lil_setElement x_NotLower 0 1 (cast TyD 0%Q) ;;
  x_Ones <- mdense0 TyD d_Ones_4x4 0%Q ;;
  x_C <- mnew 4 4 ;;
  x_answer <- mdense0 TyD [[2; 1; 0; 0]; [3; 9; 2; 0]; [2; 10; 22; 3]; [0; 6; 21; 25]]%Q 0%Q ;;
  x_C_1 <- lil_assign x_C x_mat ;;
  x_C_2 <- t_mxm TyD noacc (mkSr qplus qtimes TyD) (MSComp x_NotLower_1) MERGE x_C_1 (Trn x_mat)
    (Trn x_C_1) ;;
  x_q <- meq x_C_2 x_answer ;;
  _ <- check x_q ;;
  x_C_3 <- lil_assign x_C_2 x_mat ;;
  x_C_4 <- t_mxm TyD noacc (mkSr qplus qtimes TyD) (MSComp x_NotLower_1) MERGE x_C_3 (Trn x_mat)
    (Trn x_mat) ;;
  x_q_1 <- meq x_C_4 x_answer ;;
  _ <- check x_q_1 ;;
  x_answer2 <- mdense0 TyD [[2; 0; 0; 0]; [3; 9; 0; 0]; [2; 10; 22; 0]; [0; 6; 21; 25]]%Q 0%Q ;;
  x_C_5 <- lil_assign x_C_4 x_mat ;;
  x_C_6 <- t_mxm TyD noacc (mkSr qplus qtimes TyD) (MSComp x_NotLower_1) REPLACE x_C_5 (Trn x_mat)
    (Trn x_C_5) ;;
  x_q_2 <- meq x_C_6 x_answer2 ;;
  _ <- check x_q_2 ;;
  Ok tt) = Ok tt.
Proof. vm_compute. reflexivity. Qed.

(** test_mxm_ATBT.cpp:4115-4163, optimized_sequential platform *)
Example test_mxm_CompStructMask_NoAccum_ATBT_BCdup_opt :
 (x_mat <- mdense0 TyD d_Symmetric_4x4 0%Q ;;
  x_NotLower <- mdense0 TyD d_NotLower_4x4 0%Q ;;
  x_NotLower_1 <- lil_setElement x_NotLower 0 1 (cast TyD 0%Q) ;;
  x_Ones <- mdense0 TyD d_Ones_4x4 0%Q ;;
  x_C <- mnew 4 4 ;;
  x_answer <- mdense0 TyD [[2; 1; 0; 0]; [3; 9; 2; 0]; [2; 10; 22; 3]; [0; 6; 21; 25]]%Q 0%Q ;;
  x_C_1 <- lil_assign x_C x_mat ;;
  x_C_2 <- t_opt_mxm TyD noacc TyD (mkSr qplus qtimes TyD) (MSComp (Other x_NotLower_1)) MERGE x_C_1
    (OTrn (Other x_mat)) (OTrn (TheOutput (fun x => x))) ;;
  x_q <- meq x_C_2 x_answer ;;
  _ <- check x_q ;;
  x_C_3 <- lil_assign x_C_2 x_mat ;;
  x_C_4 <- t_opt_mxm TyD noacc TyD (mkSr qplus qtimes TyD) (MSComp (Other x_NotLower_1)) MERGE x_C_3
    (OTrn (Other x_mat)) (OTrn (Other x_mat)) ;;
  x_q_1 <- meq x_C_4 x_answer ;;
  _ <- check x_q_1 ;;
  x_answer2 <- mdense0 TyD [[2; 0; 0; 0]; [3; 9; 0; 0]; [2; 10; 22; 0]; [0; 6; 21; 25]]%Q 0%Q ;;
  x_C_5 <- lil_assign x_C_4 x_mat ;;
  x_C_6 <- t_opt_mxm TyD noacc TyD (mkSr qplus qtimes TyD) (MSComp (Other x_NotLower_1)) REPLACE
    x_C_5 (OTrn (Other x_mat)) (OTrn (TheOutput (fun x => x))) ;;
  x_q_2 <- meq x_C_6 x_answer2 ;;
  _ <- check x_q_2 ;;
  Ok tt) = Ok tt.
Proof. vm_compute. reflexivity. Qed.

(** test_mxm_ATBT.cpp:4166-4188 *)
Example test_mxm_CompStructMask_NoAccum_ATBT_Replace_ABdup :
 (x_mat <- mdense0 TyD d_Symmetric_4x4 0%Q ;;
  x_result <- mdense0 TyD d_Ones_4x4 0%Q ;;
  x_answer <- mdense0 TyD [[2; 0; 0; 0]; [3; 9; 0; 0]; [2; 10; 22; 0]; [0; 6; 21; 25]]%Q 0%Q ;;
  x_M <- mdense0 TyD d_NotLower_4x4 0%Q ;;
  x_M_1 <- lil_setElement x_M 0 1 (cast TyD 0%Q) ;;
  x_result_1 <- t_mxm TyD noacc (mkSr qplus qtimes TyD) (MSComp x_M_1) REPLACE x_result (Trn x_mat)
    (Trn x_mat) ;;
  x_q <- meq x_result_1 x_answer ;;
  _ <- check x_q ;;
  Ok tt) = Ok tt.
Proof. vm_compute. reflexivity. Qed.

(** test_mxm_ATBT.cpp:4166-4188, optimized_sequential platform *)
Example test_mxm_CompStructMask_NoAccum_ATBT_Replace_ABdup_opt :
 (x_mat <- mdense0 TyD d_Symmetric_4x4 0%Q ;;
  x_result <- mdense0 TyD d_Ones_4x4 0%Q ;;
  x_answer <- mdense0 TyD [[2; 0; 0; 0]; [3; 9; 0; 0]; [2; 10; 22; 0]; [0; 6; 21; 25]]%Q 0%Q ;;
  x_M <- mdense0 TyD d_NotLower_4x4 0%Q ;;
  x_M_1 <- lil_setElement x_M 0 1 (cast TyD 0%Q) ;;
  x_result_1 <- t_opt_mxm TyD noacc TyD (mkSr qplus qtimes TyD) (MSComp (Other x_M_1)) REPLACE
    x_result (OTrn (Other x_mat)) (OTrn (Other x_mat)) ;;
  x_q <- meq x_result_1 x_answer ;;
  _ <- check x_q ;;
  Ok tt) = Ok tt.
Proof. vm_compute. reflexivity. Qed.

(** test_mxm_ATBT.cpp:4195-4315 *)
Example test_mxm_CompStructMask_Accum_ATBT :
 (x_A <- mdense0 TyD d_AT_sparse_3x3 0%Q ;;
  x_Identity <- mdense0 TyD d_Identity_3x3 0%Q ;;
  x_Empty <- mnew 3 3 ;;
  x_Ones <- mdense0 TyD d_Ones_3x3 0%Q ;;
  x_C <- mnew 3 3 ;;
  x_MLower <- mdense0 TyD d_Lower_3x3 0%Q ;;
  x_MLower_1 <- lil_setElement x_MLower 2 0 (cast TyD 0%Q) ;;
  x_MNotLower <- mdense0 TyD d_NotLower_3x3 0%Q ;;
  x_MNotLower_1 <- lil_setElement x_MNotLower 0 2 (cast TyD 0%Q) ;;
  x_AFilled <- mdense0 TyD [[12; 7; 1]; [1; (-5); 1]; [7; 1; 9]]%Q 0%Q ;;
  x_NotA <- mdense0 TyD [[0; 0; 1]; [1; 0; 1]; [0; 1; 0]]%Q 0%Q ;;
  x_C_1 <- lil_assign x_C x_Ones ;;
  x_Ones_1 <- lil_setElement x_Ones 0 0 (cast TyD 0%Q) ;;
  x_C_2 <- t_mxm TyD (acc TyD qplus) (mkSr qplus qtimes TyD) (MSComp x_Ones_1) MERGE x_C_1 (Trn x_A)
    (Trn x_Identity) ;;
  x_Ones_2 <- lil_setElement x_Ones_1 0 0 (cast TyD 1%Q) ;;
  x_q <- meq x_C_2 x_Ones_2 ;;
  _ <- check x_q ;;
  x_C_3 <- lil_assign x_C_2 x_Ones_2 ;;
  x_C_4 <- t_mxm TyD (acc TyD qplus) (mkSr qplus qtimes TyD) (MSComp x_NotA) MERGE x_C_3 (Trn x_A)
    (Trn x_Identity) ;;
  x_t <- mdense0 TyD [[13; 8; 1]; [1; (-4); 1]; [8; 1; 10]]%Q 0%Q ;;
  x_q_1 <- meq x_C_4 x_t ;;
  _ <- check x_q_1 ;;
  x_C_5 <- lil_assign x_C_4 x_Ones_2 ;;
  x_C_6 <- t_mxm TyD (acc TyD qplus) (mkSr qplus qtimes TyD) (MSComp x_MNotLower_1) MERGE x_C_5 (Trn
    x_Ones_2) (Trn x_Identity) ;;
  x_t_1 <- mdense0 TyD [[2; 1; 1]; [2; 2; 1]; [2; 2; 2]]%Q 0%Q ;;
  x_q_2 <- meq x_C_6 x_t_1 ;;
  _ <- check x_q_2 ;;
  x_C_7 <- lil_assign x_C_6 x_Ones_2 ;;
  x_C_8 <- t_mxm TyD (acc TyD qplus) (mkSr qplus qtimes TyD) (MSComp x_MLower_1) MERGE x_C_7 (Trn
    x_Ones_2) (Trn x_Identity) ;;
  x_t_2 <- mdense0 TyD [[1; 2; 2]; [1; 1; 2]; [1; 1; 1]]%Q 0%Q ;;
  x_q_3 <- meq x_C_8 x_t_2 ;;
  _ <- check x_q_3 ;;
  x_C_9 <- lil_assign x_C_8 x_Ones_2 ;;
  x_Ones_3 <- lil_setElement x_Ones_2 0 0 (cast TyD 0%Q) ;;
  x_C_10 <- t_mxm TyD (acc TyD qplus) (mkSr qplus qtimes TyD) (MSComp x_Ones_3) REPLACE x_C_9 (Trn
    x_A) (Trn x_Identity) ;;
  x_Ones_4 <- lil_setElement x_Ones_3 0 0 (cast TyD 1%Q) ;;
  x_q_4 <- meq x_C_10 x_Empty ;;
  _ <- check x_q_4 ;;
  x_C_11 <- lil_assign x_C_10 x_Ones_4 ;;
  x_C_12 <- t_mxm TyD (acc TyD qplus) (mkSr qplus qtimes TyD) (MSComp x_Empty) REPLACE x_C_11 (Trn
    x_A) (Trn x_Identity) ;;
  x_t_3 <- mdense0 TyD [[13; 8; 1]; [1; (-4); 1]; [8; 1; 10]]%Q 0%Q ;;
  x_q_5 <- meq x_C_12 x_t_3 ;;
  _ <- check x_q_5 ;;
  x_C_13 <- lil_assign x_C_12 x_Ones_4 ;;
  x_C_14 <- t_mxm TyD (acc TyD qplus) (mkSr qplus qtimes TyD) (MSComp x_MNotLower_1) REPLACE x_C_13
    (Trn x_Ones_4) (Trn x_Identity) ;;
  x_t_4 <- mdense0 TyD [[2; 0; 0]; [2; 2; 0]; [2; 2; 2]]%Q 0%Q ;;
  x_q_6 <- meq x_C_14 x_t_4 ;;
  _ <- check x_q_6 ;;
  x_C_15 <- lil_assign x_C_14 x_Ones_4 ;;
  x_C_16 <- t_mxm TyD (acc TyD qplus) (mkSr qplus qtimes TyD) (MSComp x_MLower_1) REPLACE x_C_15
    (Trn x_Ones_4) (Trn x_Identity) ;;
  x_t_5 <- mdense0 TyD [[0; 2; 2]; [0; 0; 2]; [0; 0; 0]]%Q 0%Q ;;
  x_q_7 <- meq x_C_16 x_t_5 ;;
  _ <- check x_q_7 ;;
  Ok tt) = Ok tt.
Proof. vm_compute. reflexivity. Qed.

(** test_mxm_ATBT.cpp:4195-4315, optimized_sequential platform *)
Example test_mxm_CompStructMask_Accum_ATBT_opt :
 (x_A <- mdense0 TyD d_AT_sparse_3x3 0%Q ;;
  x_Identity <- mdense0 TyD d_Identity_3x3 0%Q ;;
  x_Empty <- mnew 3 3 ;;
  x_Ones <- mdense0 TyD d_Ones_3x3 0%Q ;;
  x_C <- mnew 3 3 ;;
  x_MLower <- mdense0 TyD d_Lower_3x3 0%Q ;;
  x_MLower_1 <- lil_setElement x_MLower 2 0 (cast TyD 0%Q) ;;
  x_MNotLower <- mdense0 TyD d_NotLower_3x3 0%Q ;;
  x_MNotLower_1 <- lil_setElement x_MNotLower 0 2 (cast TyD 0%Q) ;;
  x_AFilled <- mdense0 TyD [[12; 7; 1]; [1; (-5); 1]; [7; 1; 9]]%Q 0%Q ;;
  x_NotA <- mdense0 TyD [[0; 0; 1]; [1; 0; 1]; [0; 1; 0]]%Q 0%Q ;;
  x_C_1 <- lil_assign x_C x_Ones ;;
  x_Ones_1 <- lil_setElement x_Ones 0 0 (cast TyD 0%Q) ;;
  x_C_2 <- t_opt_mxm TyD (acc TyD qplus) TyD (mkSr qplus qtimes TyD) (MSComp (Other x_Ones_1)) MERGE
    x_C_1 (OTrn (Other x_A)) (OTrn (Other x_Identity)) ;;
  x_Ones_2 <- lil_setElement x_Ones_1 0 0 (cast TyD 1%Q) ;;
  x_q <- meq x_C_2 x_Ones_2 ;;
  _ <- check x_q ;;
  x_C_3 <- lil_assign x_C_2 x_Ones_2 ;;
  x_C_4 <- t_opt_mxm TyD (acc TyD qplus) TyD (mkSr qplus qtimes TyD) (MSComp (Other x_NotA)) MERGE
    x_C_3 (OTrn (Other x_A)) (OTrn (Other x_Identity)) ;;
  x_t <- mdense0 TyD [[13; 8; 1]; [1; (-4); 1]; [8; 1; 10]]%Q 0%Q ;;
  x_q_1 <- meq x_C_4 x_t ;;
  _ <- check x_q_1 ;;
  x_C_5 <- lil_assign x_C_4 x_Ones_2 ;;
  x_C_6 <- t_opt_mxm TyD (acc TyD qplus) TyD (mkSr qplus qtimes TyD) (MSComp (Other x_MNotLower_1))
    MERGE x_C_5 (OTrn (Other x_Ones_2)) (OTrn (Other x_Identity)) ;;
  x_t_1 <- mdense0 TyD [[2; 1; 1]; [2; 2; 1]; [2; 2; 2]]%Q 0%Q ;;
  x_q_2 <- meq x_C_6 x_t_1 ;;
  _ <- check x_q_2 ;;
  x_C_7 <- lil_assign x_C_6 x_Ones_2 ;;
  x_C_8 <- t_opt_mxm TyD (acc TyD qplus) TyD (mkSr qplus qtimes TyD) (MSComp (Other x_MLower_1))
    MERGE x_C_7 (OTrn (Other x_Ones_2)) (OTrn (Other x_Identity)) ;;
  x_t_2 <- mdense0 TyD [[1; 2; 2]; [1; 1; 2]; [1; 1; 1]]%Q 0%Q ;;
  x_q_3 <- meq x_C_8 x_t_2 ;;
  _ <- check x_q_3 ;;
  x_C_9 <- lil_assign x_C_8 x_Ones_2 ;;
  x_Ones_3 <- lil_setElement x_Ones_2 0 0 (cast TyD 0%Q) ;;
  x_C_10 <- t_opt_mxm TyD (acc TyD qplus) TyD (mkSr qplus qtimes TyD) (MSComp (Other x_Ones_3))
    REPLACE x_C_9 (OTrn (Other x_A)) (OTrn (Other x_Identity)) ;;
  x_Ones_4 <- lil_setElement x_Ones_3 0 0 (cast TyD 1%Q) ;;
  x_q_4 <- meq x_C_10 x_Empty ;;
  _ <- check x_q_4 ;;
  x_C_11 <- lil_assign x_C_10 x_Ones_4 ;;
  x_C_12 <- t_opt_mxm TyD (acc TyD qplus) TyD (mkSr qplus qtimes TyD) (MSComp (Other x_Empty))
    REPLACE x_C_11 (OTrn (Other x_A)) (OTrn (Other x_Identity)) ;;
  x_t_3 <- mdense0 TyD [[13; 8; 1]; [1; (-4); 1]; [8; 1; 10]]%Q 0%Q ;;
  x_q_5 <- meq x_C_12 x_t_3 ;;
  _ <- check x_q_5 ;;
  x_C_13 <- lil_assign x_C_12 x_Ones_4 ;;
  x_C_14 <- t_opt_mxm TyD (acc TyD qplus) TyD (mkSr qplus qtimes TyD) (MSComp (Other x_MNotLower_1))
    REPLACE x_C_13 (OTrn (Other x_Ones_4)) (OTrn (Other x_Identity)) ;;
  x_t_4 <- mdense0 TyD [[2; 0; 0]; [2; 2; 0]; [2; 2; 2]]%Q 0%Q ;;
  x_q_6 <- meq x_C_14 x_t_4 ;;
  _ <- check x_q_6 ;;
  x_C_15 <- lil_assign x_C_14 x_Ones_4 ;;
  x_C_16 <- t_opt_mxm TyD (acc TyD qplus) TyD (mkSr qplus qtimes TyD) (MSComp (Other x_MLower_1))
    REPLACE x_C_15 (OTrn (Other x_Ones_4)) (OTrn (Other x_Identity)) ;;
  x_t_5 <- mdense0 TyD [[0; 2; 2]; [0; 0; 2]; [0; 0; 0]]%Q 0%Q ;;
  x_q_7 <- meq x_C_16 x_t_5 ;;
  _ <- check x_q_7 ;;
  Ok tt) = Ok tt.
Proof. vm_compute. reflexivity. Qed.

(** test_mxm_ATBT.cpp:4318-4369 *)
Example test_mxm_CompStructMask_Accum_ATBTM_empty :
 (x_Empty <- mnew 3 3 ;;
  x_Ones <- mdense0 TyD d_Ones_3x3 0%Q ;;
  x_C <- mnew 3 3 ;;
  x_MNotLower <- mdense0 TyB d_NotLowerBool_3x3 0%Q ;;
  x_MNotLower_1 <- lil_setElement x_MNotLower 0 2 (cast TyB 0%Q) ;;
  x_C_1 <- lil_assign x_C x_Ones ;;
  x_C_2 <- t_mxm TyD (acc TyD qplus) (mkSr qplus qtimes TyD) (MSComp x_MNotLower_1) MERGE x_C_1 (Trn
    x_Empty) (Trn x_Ones) ;;
  x_q <- meq x_C_2 x_Ones ;;
  _ <- check x_q ;;
  x_C_3 <- lil_assign x_C_2 x_Ones ;;
  x_C_4 <- t_mxm TyD (acc TyD qplus) (mkSr qplus qtimes TyD) (MSComp x_MNotLower_1) MERGE x_C_3 (Trn
    x_Ones) (Trn x_Empty) ;;
  x_q_1 <- meq x_C_4 x_Ones ;;
  _ <- check x_q_1 ;;
  x_C_5 <- lil_assign x_C_4 x_Ones ;;
  x_Ones_1 <- lil_setElement x_Ones 0 2 (cast TyD 0%Q) ;;
  x_C_6 <- t_mxm TyD (acc TyD qplus) (mkSr qplus qtimes TyD) (MSComp x_Ones_1) MERGE x_C_5 (Trn
    x_Ones_1) (Trn x_Ones_1) ;;
  x_Ones_2 <- lil_setElement x_Ones_1 0 2 (cast TyD 1%Q) ;;
  x_q_2 <- meq x_C_6 x_Ones_2 ;;
  _ <- check x_q_2 ;;
  x_C_7 <- lil_assign x_C_6 x_Ones_2 ;;
  x_C_8 <- t_mxm TyD (acc TyD qplus) (mkSr qplus qtimes TyD) (MSComp x_MNotLower_1) REPLACE x_C_7
    (Trn x_Empty) (Trn x_Ones_2) ;;
  x_t <- mdense0 TyD d_Lower_3x3 0%Q ;;
  x_q_3 <- meq x_C_8 x_t ;;
  _ <- check x_q_3 ;;
  x_C_9 <- lil_assign x_C_8 x_Ones_2 ;;
  x_C_10 <- t_mxm TyD (acc TyD qplus) (mkSr qplus qtimes TyD) (MSComp x_MNotLower_1) REPLACE x_C_9
    (Trn x_Ones_2) (Trn x_Empty) ;;
  x_t_1 <- mdense0 TyD d_Lower_3x3 0%Q ;;
  x_q_4 <- meq x_C_10 x_t_1 ;;
  _ <- check x_q_4 ;;
  x_C_11 <- lil_assign x_C_10 x_Ones_2 ;;
  x_Ones_3 <- lil_setElement x_Ones_2 0 2 (cast TyD 0%Q) ;;
  x_C_12 <- t_mxm TyD (acc TyD qplus) (mkSr qplus qtimes TyD) (MSComp x_Ones_3) REPLACE x_C_11 (Trn
    x_Ones_3) (Trn x_Empty) ;;
  x_q_5 <- meq x_C_12 x_Empty ;;
  _ <- check x_q_5 ;;
  Ok tt) = Ok tt.
Proof. vm_compute. reflexivity. Qed.

(** test_mxm_ATBT.cpp:4318-4369, optimized_sequential platform *)
Example test_mxm_CompStructMask_Accum_ATBTM_empty_opt :
 (x_Empty <- mnew 3 3 ;;
  x_Ones <- mdense0 TyD d_Ones_3x3 0%Q ;;
  x_C <- mnew 3 3 ;;
  x_MNotLower <- mdense0 TyB d_NotLowerBool_3x3 0%Q ;;
  x_MNotLower_1 <- lil_setElement x_MNotLower 0 2 (cast TyB 0%Q) ;;
  x_C_1 <- lil_assign x_C x_Ones ;;
  x_C_2 <- t_opt_mxm TyD (acc TyD qplus) TyD (mkSr qplus qtimes TyD) (MSComp (Other x_MNotLower_1))
    MERGE x_C_1 (OTrn (Other x_Empty)) (OTrn (Other x_Ones)) ;;
  x_q <- meq x_C_2 x_Ones ;;
  _ <- check x_q ;;
  x_C_3 <- lil_assign x_C_2 x_Ones ;;
  x_C_4 <- t_opt_mxm TyD (acc TyD qplus) TyD (mkSr qplus qtimes TyD) (MSComp (Other x_MNotLower_1))
    MERGE x_C_3 (OTrn (Other x_Ones)) (OTrn (Other x_Empty)) ;;
  x_q_1 <- meq x_C_4 x_Ones ;;
  _ <- check x_q_1 ;;
  x_C_5 <- lil_assign x_C_4 x_Ones ;;
  x_Ones_1 <- lil_setElement x_Ones 0 2 (cast TyD 0%Q) ;;
  x_C_6 <- t_opt_mxm TyD (acc TyD qplus) TyD (mkSr qplus qtimes TyD) (MSComp (Other x_Ones_1)) MERGE
    x_C_5 (OTrn (Other x_Ones_1)) (OTrn (Other x_Ones_1)) ;;
  x_Ones_2 <- lil_setElement x_Ones_1 0 2 (cast TyD 1%Q) ;;
  x_q_2 <- meq x_C_6 x_Ones_2 ;;
  _ <- check x_q_2 ;;
  x_C_7 <- lil_assign x_C_6 x_Ones_2 ;;
  x_C_8 <- t_opt_mxm TyD (acc TyD qplus) TyD (mkSr qplus qtimes TyD) (MSComp (Other x_MNotLower_1))
    REPLACE x_C_7 (OTrn (Other x_Empty)) (OTrn (Other x_Ones_2)) ;;
  x_t <- mdense0 TyD d_Lower_3x3 0%Q ;;
  x_q_3 <- meq x_C_8 x_t ;;
  _ <- check x_q_3 ;;
  x_C_9 <- lil_assign x_C_8 x_Ones_2 ;;
  x_C_10 <- t_opt_mxm TyD (acc TyD qplus) TyD (mkSr qplus qtimes TyD) (MSComp (Other x_MNotLower_1))
    REPLACE x_C_9 (OTrn (Other x_Ones_2)) (OTrn (Other x_Empty)) ;;
  x_t_1 <- mdense0 TyD d_Lower_3x3 0%Q ;;
  x_q_4 <- meq x_C_10 x_t_1 ;;
  _ <- check x_q_4 ;;
  x_C_11 <- lil_assign x_C_10 x_Ones_2 ;;
  x_Ones_3 <- lil_setElement x_Ones_2 0 2 (cast TyD 0%Q) ;;
  x_C_12 <- t_opt_mxm TyD (acc TyD qplus) TyD (mkSr qplus qtimes TyD) (MSComp (Other x_Ones_3))
    REPLACE x_C_11 (OTrn (Other x_Ones_3)) (OTrn (Other x_Empty)) ;;
  x_q_5 <- meq x_C_12 x_Empty ;;
  _ <- check x_q_5 ;;
  Ok tt) = Ok tt.
Proof. vm_compute. reflexivity. Qed.

(** test_mxm_ATBT.cpp:4372-4415 *)
Example test_mxm_CompStructMask_Accum_ATBT_emptyRowA_emptyColB :
 (x_A <- mdense0 TyD [[8; 0; 4]; [1; 0; 9]; [6; 0; 2]]%Q 0%Q ;;
  x_B <- mdense0 TyD [[0; 1; 0]; [0; 0; 0]; [0; 1; 1]; [1; 1; 1]]%Q 0%Q ;;
  x_MNotLower <- mdense0 TyD d_NotLower_3x4 0%Q ;;
  x_MNotLower_1 <- lil_setElement x_MNotLower 0 2 (cast TyD 0%Q) ;;
  x_Ones <- mdense0 TyD d_Ones_3x4 0%Q ;;
  x_C <- mnew 3 4 ;;
  x_answer <- mdense0 TyD [[2; 0; 0; 0]; [1; 1; 0; 0]; [10; 1; 12; 0]]%Q 0%Q ;;
  x_C_1 <- lil_assign x_C x_Ones ;;
  x_C_2 <- t_mxm TyD (acc TyD qplus) (mkSr qplus qtimes TyD) (MSComp x_MNotLower_1) REPLACE x_C_1
    (Trn x_A) (Trn x_B) ;;
  x_q <- meq x_C_2 x_answer ;;
  _ <- check x_q ;;
  x_answer2 <- mdense0 TyD [[2; 1; 1; 1]; [1; 1; 1; 1]; [10; 1; 12; 1]]%Q 0%Q ;;
  x_C_3 <- lil_assign x_C_2 x_Ones ;;
  x_C_4 <- t_mxm TyD (acc TyD qplus) (mkSr qplus qtimes TyD) (MSComp x_MNotLower_1) MERGE x_C_3 (Trn
    x_A) (Trn x_B) ;;
  x_q_1 <- meq x_C_4 x_answer2 ;;
  _ <- check x_q_1 ;;
  Ok tt) = Ok tt.
Proof. vm_compute. reflexivity. Qed.

(** test_mxm_ATBT.cpp:4372-4415, optimized_sequential platform *)
Example test_mxm_CompStructMask_Accum_ATBT_emptyRowA_emptyColB_opt :
 (x_A <- mdense0 TyD [[8; 0; 4]; [1; 0; 9]; [6; 0; 2]]%Q 0%Q ;;
  x_B <- mdense0 TyD [[0; 1; 0]; [0; 0; 0]; [0; 1; 1]; [1; 1; 1]]%Q 0%Q ;;
  x_MNotLower <- mdense0 TyD d_NotLower_3x4 0%Q ;;
  x_MNotLower_1 <- lil_setElement x_MNotLower 0 2 (cast TyD 0%Q) ;;
  x_Ones <- mdense0 TyD d_Ones_3x4 0%Q ;;
  x_C <- mnew 3 4 ;;
  x_answer <- mdense0 TyD [[2; 0; 0; 0]; [1; 1; 0; 0]; [10; 1; 12; 0]]%Q 0%Q ;;
  x_C_1 <- lil_assign x_C x_Ones ;;
  x_C_2 <- t_opt_mxm TyD (acc TyD qplus) TyD (mkSr qplus qtimes TyD) (MSComp (Other x_MNotLower_1))
    REPLACE x_C_1 (OTrn (Other x_A)) (OTrn (Other x_B)) ;;
  x_q <- meq x_C_2 x_answer ;;
  _ <- check x_q ;;
  x_answer2 <- mdense0 TyD [[2; 1; 1; 1]; [1; 1; 1; 1]; [10; 1; 12; 1]]%Q 0%Q ;;
  x_C_3 <- lil_assign x_C_2 x_Ones ;;
  x_C_4 <- t_opt_mxm TyD (acc TyD qplus) TyD (mkSr qplus qtimes TyD) (MSComp (Other x_MNotLower_1))
    MERGE x_C_3 (OTrn (Other x_A)) (OTrn (Other x_B)) ;;
  x_q_1 <- meq x_C_4 x_answer2 ;;
  _ <- check x_q_1 ;;
  Ok tt) = Ok tt.
Proof. vm_compute. reflexivity. Qed.

(** test_mxm_ATBT.cpp:4418-4461 *)
Example test_mxm_CompStructMask_Accum_ATBT_emptyColA_emptyRowB :
 (x_A <- mdense0 TyD [[8; 1; 4]; [0; 0; 0]; [6; 9; 2]]%Q 0%Q ;;
  x_B <- mdense0 TyD [[0; 1; 0]; [1; 0; 0]; [0; 1; 0]; [1; 1; 0]]%Q 0%Q ;;
  x_NotLower <- mdense0 TyD d_NotLower_3x4 0%Q ;;
  x_NotLower_1 <- lil_setElement x_NotLower 0 2 (cast TyD 0%Q) ;;
  x_Ones <- mdense0 TyD d_Ones_3x4 0%Q ;;
  x_C <- mnew 3 4 ;;
  x_answer <- mdense0 TyD [[1; 0; 0; 0]; [1; 2; 0; 0]; [1; 5; 1; 0]]%Q 0%Q ;;
  x_C_1 <- lil_assign x_C x_Ones ;;
  x_C_2 <- t_mxm TyD (acc TyD qplus) (mkSr qplus qtimes TyD) (MSComp x_NotLower_1) REPLACE x_C_1
    (Trn x_A) (Trn x_B) ;;
  x_q <- meq x_C_2 x_answer ;;
  _ <- check x_q ;;
  x_answer2 <- mdense0 TyD [[1; 1; 1; 1]; [1; 2; 1; 1]; [1; 5; 1; 1]]%Q 0%Q ;;
  x_C_3 <- lil_assign x_C_2 x_Ones ;;
  x_C_4 <- t_mxm TyD (acc TyD qplus) (mkSr qplus qtimes TyD) (MSComp x_NotLower_1) MERGE x_C_3 (Trn
    x_A) (Trn x_B) ;;
  x_q_1 <- meq x_C_4 x_answer2 ;;
  _ <- check x_q_1 ;;
  Ok tt) = Ok tt.
Proof. vm_compute. reflexivity. Qed.

(** test_mxm_ATBT.cpp:4418-4461, optimized_sequential platform *)
Example test_mxm_CompStructMask_Accum_ATBT_emptyColA_emptyRowB_opt :
 (x_A <- mdense0 TyD [[8; 1; 4]; [0; 0; 0]; [6; 9; 2]]%Q 0%Q ;;
  x_B <- mdense0 TyD [[0; 1; 0]; [1; 0; 0]; [0; 1; 0]; [1; 1; 0]]%Q 0%Q ;;
  x_NotLower <- mdense0 TyD d_NotLower_3x4 0%Q ;;
  x_NotLower_1 <- lil_setElement x_NotLower 0 2 (cast TyD 0%Q) ;;
  x_Ones <- mdense0 TyD d_Ones_3x4 0%Q ;;
  x_C <- mnew 3 4 ;;
  x_answer <- mdense0 TyD [[1; 0; 0; 0]; [1; 2; 0; 0]; [1; 5; 1; 0]]%Q 0%Q ;;
  x_C_1 <- lil_assign x_C x_Ones ;;
  x_C_2 <- t_opt_mxm TyD (acc TyD qplus) TyD (mkSr qplus qtimes TyD) (MSComp (Other x_NotLower_1))
    REPLACE x_C_1 (OTrn (Other x_A)) (OTrn (Other x_B)) ;;
  x_q <- meq x_C_2 x_answer ;;
  _ <- check x_q ;;
  x_answer2 <- mdense0 TyD [[1; 1; 1; 1]; [1; 2; 1; 1]; [1; 5; 1; 1]]%Q 0%Q ;;
  x_C_3 <- lil_assign x_C_2 x_Ones ;;
  x_C_4 <- t_opt_mxm TyD (acc TyD qplus) TyD (mkSr qplus qtimes TyD) (MSComp (Other x_NotLower_1))
    MERGE x_C_3 (OTrn (Other x_A)) (OTrn (Other x_B)) ;;
  x_q_1 <- meq x_C_4 x_answer2 ;;
  _ <- check x_q_1 ;;
  Ok tt) = Ok tt.
Proof. vm_compute. reflexivity. Qed.

(** test_mxm_ATBT.cpp:4464-4503 *)
Example test_mxm_CompStructMask_Accum_ATBT_ABdup :
 (x_mat <- mdense0 TyD d_Symmetric_4x4 0%Q ;;
  x_NotLower <- mdense0 TyD d_NotLower_4x4 0%Q ;;
  x_NotLower_1 <- lil_setElement x_NotLower 0 1 (cast TyD 0%Q) ;;
  x_Ones <- mdense0 TyD d_Ones_4x4 0%Q ;;
  x_C <- mnew 4 4 ;;
  x_answer <- mdense0 TyD [[3; 1; 1; 1]; [4; 10; 1; 1]; [3; 11; 23; 1]; [1; 7; 22; 26]]%Q 0%Q ;;
  x_C_1 <- lil_assign x_C x_Ones ;;
  x_C_2 <- t_mxm TyD (acc TyD qplus) (mkSr qplus qtimes TyD) (MSComp x_NotLower_1) MERGE x_C_1 (Trn
    x_mat) (Trn x_mat) ;;
  x_q <- meq x_C_2 x_answer ;;
  _ <- check x_q ;;
  x_answer2 <- mdense0 TyD [[3; 0; 0; 0]; [4; 10; 0; 0]; [3; 11; 23; 0]; [1; 7; 22; 26]]%Q 0%Q ;;
  x_C_3 <- lil_assign x_C_2 x_Ones ;;
  x_C_4 <- t_mxm TyD (acc TyD qplus) (mkSr qplus qtimes TyD) (MSComp x_NotLower_1) REPLACE x_C_3
    (Trn x_mat) (Trn x_mat) ;;
  x_q_1 <- meq x_C_4 x_answer2 ;;
  _ <- check x_q_1 ;;
  Ok tt) = Ok tt.
Proof. vm_compute. reflexivity. Qed.

(** test_mxm_ATBT.cpp:4464-4503, optimized_sequential platform *)
Example test_mxm_CompStructMask_Accum_ATBT_ABdup_opt :
 (x_mat <- mdense0 TyD d_Symmetric_4x4 0%Q ;;
  x_NotLower <- mdense0 TyD d_NotLower_4x4 0%Q ;;
  x_NotLower_1 <- lil_setElement x_NotLower 0 1 (cast TyD 0%Q) ;;
  x_Ones <- mdense0 TyD d_Ones_4x4 0%Q ;;
  x_C <- mnew 4 4 ;;
  x_answer <- mdense0 TyD [[3; 1; 1; 1]; [4; 10; 1; 1]; [3; 11; 23; 1]; [1; 7; 22; 26]]%Q 0%Q ;;
  x_C_1 <- lil_assign x_C x_Ones ;;
  x_C_2 <- t_opt_mxm TyD (acc TyD qplus) TyD (mkSr qplus qtimes TyD) (MSComp (Other x_NotLower_1))
    MERGE x_C_1 (OTrn (Other x_mat)) (OTrn (Other x_mat)) ;;
  x_q <- meq x_C_2 x_answer ;;
  _ <- check x_q ;;
  x_answer2 <- mdense0 TyD [[3; 0; 0; 0]; [4; 10; 0; 0]; [3; 11; 23; 0]; [1; 7; 22; 26]]%Q 0%Q ;;
  x_C_3 <- lil_assign x_C_2 x_Ones ;;
  x_C_4 <- t_opt_mxm TyD (acc TyD qplus) TyD (mkSr qplus qtimes TyD) (MSComp (Other x_NotLower_1))
    REPLACE x_C_3 (OTrn (Other x_mat)) (OTrn (Other x_mat)) ;;
  x_q_1 <- meq x_C_4 x_answer2 ;;
  _ <- check x_q_1 ;;
  Ok tt) = Ok tt.
Proof. vm_compute. reflexivity. Qed.

(** test_mxm_ATBT.cpp:4506-4546 *)
Example test_mxm_CompStructMask_Accum_ATBT_ACdup :
 (x_mat <- mdense0 TyD d_Symmetric_4x4 0%Q ;;
  x_NotLower <- mdense0 TyD d_NotLower_4x4 0%Q ;;
  x_NotLower_1 <- lil_setElement x_NotLower 0 1 (cast TyD 0%Q) ;;
  x_Ones <- mdense0 TyD d_Ones_4x4 0%Q ;;
  x_C <- mnew 4 4 ;;
  x_answer <- mdense0 TyD [[3; 1; 0; 0]; [4; 11; 2; 0]; [2; 12; 25; 3]; [0; 6; 24; 29]]%Q 0%Q ;;
  x_C_1 <- lil_assign x_C x_mat ;;
  x_C_2 <- t_mxm TyD (acc TyD qplus) (mkSr qplus qtimes TyD) (MSComp x_NotLower_1) MERGE x_C_1 (Trn
    x_C_1) (Trn x_mat) ;;
  x_q <- meq x_C_2 x_answer ;;
  _ <- check x_q ;;
  x_answer2 <- mdense0 TyD [[3; 0; 0; 0]; [4; 11; 0; 0]; [2; 12; 25; 0]; [0; 6; 24; 29]]%Q 0%Q ;;
  x_C_3 <- lil_assign x_C_2 x_mat ;;
  x_C_4 <- t_mxm TyD (acc TyD qplus) (mkSr qplus qtimes TyD) (MSComp x_NotLower_1) REPLACE x_C_3
    (Trn x_C_3) (Trn x_mat) ;;
  x_q_1 <- meq x_C_4 x_answer2 ;;
  _ <- check x_q_1 ;;
  Ok tt) = Ok tt.
Proof. vm_compute. reflexivity. Qed.

(** test_mxm_ATBT.cpp:4506-4546, optimized_sequential platform *)
Example test_mxm_CompStructMask_Accum_ATBT_ACdup_opt :
 (x_mat <- mdense0 TyD d_Symmetric_4x4 0%Q ;;
  x_NotLower <- mdense0 TyD d_NotLower_4x4 0%Q ;;
  x_NotLower_1 <- lil_setElement x_NotLower 0 1 (cast TyD 0%Q) ;;
  x_Ones <- mdense0 TyD d_Ones_4x4 0%Q ;;
  x_C <- mnew 4 4 ;;
  x_answer <- mdense0 TyD [[3; 1; 0; 0]; [4; 11; 2; 0]; [2; 12; 25; 3]; [0; 6; 24; 29]]%Q 0%Q ;;
  x_C_1 <- lil_assign x_C x_mat ;;
  x_C_2 <- t_opt_mxm TyD (acc TyD qplus) TyD (mkSr qplus qtimes TyD) (MSComp (Other x_NotLower_1))
    MERGE x_C_1 (OTrn (TheOutput (fun x => x))) (OTrn (Other x_mat)) ;;
  x_q <- meq x_C_2 x_answer ;;
  _ <- check x_q ;;
  x_answer2 <- mdense0 TyD [[3; 0; 0; 0]; [4; 11; 0; 0]; [2; 12; 25; 0]; [0; 6; 24; 29]]%Q 0%Q ;;
  x_C_3 <- lil_assign x_C_2 x_mat ;;
  x_C_4 <- t_opt_mxm TyD (acc TyD qplus) TyD (mkSr qplus qtimes TyD) (MSComp (Other x_NotLower_1))
    REPLACE x_C_3 (OTrn (TheOutput (fun x => x))) (OTrn (Other x_mat)) ;;
  x_q_1 <- meq x_C_4 x_answer2 ;;
  _ <- check x_q_1 ;;
  Ok tt) = Ok tt.
Proof. vm_compute. reflexivity. Qed.

(** test_mxm_ATBT.cpp:4549-4597 *)
Example test_mxm_CompStructMask_Accum_ATBT_BCdup :
 (x_mat <- mdense0 TyD d_Symmetric_4x4 0%Q ;;
  x_NotLower <- mdense0 TyD d_NotLower_4x4 0%Q ;;
  x_NotLower_1 <- lil_setElement x_NotLower 0 1 (cast TyD 0%Q) ;;
  x_Ones <- mdense0 TyD d_Ones_4x4 0%Q ;;
  x_C <- mnew 4 4 ;;
  x_answer <- mdense0 TyD [[3; 1; 0; 0]; [4; 11; 2; 0]; [2; 12; 25; 3]; [0; 6; 24; 29]]%Q 0%Q ;;
  x_C_1 <- lil_assign x_C x_mat ;;
  x_C_2 <- t_mxm TyD (acc TyD qplus) (mkSr qplus qtimes TyD) (MSComp x_NotLower_1) MERGE x_C_1 (Trn
    x_mat) (Trn x_C_1) ;;
  x_q <- meq x_C_2 x_answer ;;
  _ <- check x_q ;;
  x_C_3 <- lil_assign x_C_2 x_mat ;;
  x_C_4 <- t_mxm TyD (acc TyD qplus) (mkSr qplus qtimes TyD) (MSComp x_NotLower_1) MERGE x_C_3 (Trn
    x_mat) (Trn x_mat) ;;
  x_q_1 <- meq x_C_4 x_answer ;;
  _ <- check x_q_1 ;;
  x_answer2 <- mdense0 TyD [[3; 0; 0; 0]; [4; 11; 0; 0]; [2; 12; 25; 0]; [0; 6; 24; 29]]%Q 0%Q ;;
  x_C_5 <- lil_assign x_C_4 x_mat ;;
  x_C_6 <- t_mxm TyD (acc TyD qplus) (mkSr qplus qtimes TyD) (MSComp x_NotLower_1) REPLACE x_C_5
    (Trn x_mat) (Trn x_C_5) ;;
  x_q_2 <- meq x_C_6 x_answer2 ;;
  _ <- check x_q_2 ;;
  Ok tt) = Ok tt.
Proof. vm_compute. reflexivity. Qed.

(** test_mxm_ATBT.cpp:4549-4597, optimized_sequential platform *)
Example test_mxm_CompStructMask_Accum_ATBT_BCdup_opt :
 (x_mat <- mdense0 TyD d_Symmetric_4x4 0%Q ;;
  x_NotLower <- mdense0 TyD d_NotLower_4x4 0%Q ;;
  x_NotLower_1 <- lil_setElement x_NotLower 0 1 (cast TyD 0%Q) ;;
  x_Ones <- mdense0 TyD d_Ones_4x4 0%Q ;;
  x_C <- mnew 4 4 ;;
  x_answer <- mdense0 TyD [[3; 1; 0; 0]; [4; 11; 2; 0]; [2; 12; 25; 3]; [0; 6; 24; 29]]%Q 0%Q ;;
  x_C_1 <- lil_assign x_C x_mat ;;
  x_C_2 <- t_opt_mxm TyD (acc TyD qplus) TyD (mkSr qplus qtimes TyD) (MSComp (Other x_NotLower_1))
    MERGE x_C_1 (OTrn (Other x_mat)) (OTrn (TheOutput (fun x => x))) ;;
  x_q <- meq x_C_2 x_answer ;;
  _ <- check x_q ;;
  x_C_3 <- lil_assign x_C_2 x_mat ;;
  x_C_4 <- t_opt_mxm TyD (acc TyD qplus) TyD (mkSr qplus qtimes TyD) (MSComp (Other x_NotLower_1))
    MERGE x_C_3 (OTrn (Other x_mat)) (OTrn (Other x_mat)) ;;
  x_q_1 <- meq x_C_4 x_answer ;;
  _ <- check x_q_1 ;;
  x_answer2 <- mdense0 TyD [[3; 0; 0; 0]; [4; 11; 0; 0]; [2; 12; 25; 0]; [0; 6; 24; 29]]%Q 0%Q ;;
  x_C_5 <- lil_assign x_C_4 x_mat ;;
  x_C_6 <- t_opt_mxm TyD (acc TyD qplus) TyD (mkSr qplus qtimes TyD) (MSComp (Other x_NotLower_1))
    REPLACE x_C_5 (OTrn (Other x_mat)) (OTrn (TheOutput (fun x => x))) ;;
  x_q_2 <- meq x_C_6 x_answer2 ;;
  _ <- check x_q_2 ;;
  Ok tt) = Ok tt.
Proof. vm_compute. reflexivity. Qed.

(** test_mxm_ATBT.cpp:4600-4638 *)
Example test_mxm_CompStructMask_Accum_ATBT_MCdup :
 (x_mat <- mdense0 TyD d_Symmetric_4x4 0%Q ;;
  x_NotLower <- mdense0 TyD d_NotLower_4x4 0%Q ;;
  x_NotLower_1 <- lil_setElement x_NotLower 0 1 (cast TyD 0%Q) ;;
  x_C <- mnew 4 4 ;;
  x_answer <- mdense0 TyD [[2; 0; 1; 1]; [3; 9; 1; 1]; [2; 10; 22; 1]; [99; 6; 21; 25]]%Q 99%Q ;;
  x_C_1 <- lil_assign x_C x_NotLower_1 ;;
  x_C_2 <- t_mxm TyD (acc TyD qplus) (mkSr qplus qtimes TyD) (MSComp x_C_1) MERGE x_C_1 (Trn x_mat)
    (Trn x_mat) ;;
  x_q <- meq x_C_2 x_answer ;;
  _ <- check x_q ;;
  x_answer2 <- mdense0 TyD [[2; 0; 0; 0]; [3; 9; 0; 0]; [2; 10; 22; 0]; [0; 6; 21; 25]]%Q 0%Q ;;
  x_C_3 <- lil_assign x_C_2 x_NotLower_1 ;;
  x_C_4 <- t_mxm TyD (acc TyD qplus) (mkSr qplus qtimes TyD) (MSComp x_C_3) REPLACE x_C_3 (Trn
    x_mat) (Trn x_mat) ;;
  x_q_1 <- meq x_C_4 x_answer2 ;;
  _ <- check x_q_1 ;;
  Ok tt) = Ok tt.
Proof. vm_compute. reflexivity. Qed.

(** test_mxm_ATBT.cpp:4600-4638, optimized_sequential platform *)
Example test_mxm_CompStructMask_Accum_ATBT_MCdup_opt :
 (x_mat <- mdense0 TyD d_Symmetric_4x4 0%Q ;;
  x_NotLower <- mdense0 TyD d_NotLower_4x4 0%Q ;;
  x_NotLower_1 <- lil_setElement x_NotLower 0 1 (cast TyD 0%Q) ;;
  x_C <- mnew 4 4 ;;
  x_answer <- mdense0 TyD [[2; 0; 1; 1]; [3; 9; 1; 1]; [2; 10; 22; 1]; [99; 6; 21; 25]]%Q 99%Q ;;
  x_C_1 <- lil_assign x_C x_NotLower_1 ;;
  x_C_2 <- t_opt_mxm TyD (acc TyD qplus) TyD (mkSr qplus qtimes TyD) (MSComp (TheOutput (fun x =>
    x))) MERGE x_C_1 (OTrn (Other x_mat)) (OTrn (Other x_mat)) ;;
  x_q <- meq x_C_2 x_answer ;;
  _ <- check x_q ;;
  x_answer2 <- mdense0 TyD [[2; 0; 0; 0]; [3; 9; 0; 0]; [2; 10; 22; 0]; [0; 6; 21; 25]]%Q 0%Q ;;
  x_C_3 <- lil_assign x_C_2 x_NotLower_1 ;;
  x_C_4 <- t_opt_mxm TyD (acc TyD qplus) TyD (mkSr qplus qtimes TyD) (MSComp (TheOutput (fun x =>
    x))) REPLACE x_C_3 (OTrn (Other x_mat)) (OTrn (Other x_mat)) ;;
  x_q_1 <- meq x_C_4 x_answer2 ;;
  _ <- check x_q_1 ;;
  Ok tt) = Ok tt.
Proof. vm_compute. reflexivity. Qed.

(** test_mxm_ATBT.cpp:4641-4663 *)
Example test_mxm_CompStructMask_Accum_ATBT_Replace_Cones_Mnlower :
 (x_A <- mdense0 TyD d_AT_dense_3x3 0%Q ;;
  x_B <- mdense0 TyD d_BT_dense_3x4 0%Q ;;
  x_M <- mdense0 TyD d_NotLower_3x4 0%Q ;;
  x_M_1 <- lil_setElement x_M 0 1 (cast TyD 0%Q) ;;
  _ <- check (Qeq_bool (inject_Z (nvals x_M_1)) 6%Q) ;;
  x_result <- mdense0 TyD d_Ones_3x4 0%Q ;;
  x_answer <- mdense0 TyD [[114; 0; 0; 0]; [74; 97; 0; 0]; [119; 157; 112; 0]]%Q 0%Q ;;
  x_result_1 <- t_mxm TyD (acc TyD qsecond) (mkSr qplus qtimes TyD) (MSComp x_M_1) REPLACE x_result
    (Trn x_A) (Trn x_B) ;;
  _ <- check (Qeq_bool (inject_Z (nvals x_result_1)) 6%Q) ;;
  x_q <- meq x_result_1 x_answer ;;
  _ <- check x_q ;;
  Ok tt) = Ok tt.
Proof. vm_compute. reflexivity. Qed.

(** test_mxm_ATBT.cpp:4641-4663, optimized_sequential platform *)
Example test_mxm_CompStructMask_Accum_ATBT_Replace_Cones_Mnlower_opt :
 (x_A <- mdense0 TyD d_AT_dense_3x3 0%Q ;;
  x_B <- mdense0 TyD d_BT_dense_3x4 0%Q ;;
  x_M <- mdense0 TyD d_NotLower_3x4 0%Q ;;
  x_M_1 <- lil_setElement x_M 0 1 (cast TyD 0%Q) ;;
  _ <- check (Qeq_bool (inject_Z (nvals x_M_1)) 6%Q) ;;
  x_result <- mdense0 TyD d_Ones_3x4 0%Q ;;
  x_answer <- mdense0 TyD [[114; 0; 0; 0]; [74; 97; 0; 0]; [119; 157; 112; 0]]%Q 0%Q ;;
  x_result_1 <- t_opt_mxm TyD (acc TyD qsecond) TyD (mkSr qplus qtimes TyD) (MSComp (Other x_M_1))
    REPLACE x_result (OTrn (Other x_A)) (OTrn (Other x_B)) ;;
  _ <- check (Qeq_bool (inject_Z (nvals x_result_1)) 6%Q) ;;
  x_q <- meq x_result_1 x_answer ;;
  _ <- check x_q ;;
  Ok tt) = Ok tt.
Proof. vm_compute. reflexivity. Qed.

(** test_mxm_ATBT.cpp:4666-4687 *)
Example test_mxm_CompStructMask_Accum_ATBT_Merge :
 (x_A <- mdense0 TyD d_AT_dense_3x3 0%Q ;;
  x_B <- mdense0 TyD d_BT_dense_3x4 0%Q ;;
  x_M <- mdense0 TyD d_NotLower_3x4 0%Q ;;
  x_M_1 <- lil_setElement x_M 0 1 (cast TyD 0%Q) ;;
  _ <- check (Qeq_bool (inject_Z (nvals x_M_1)) 6%Q) ;;
  x_result <- mdense0 TyD d_Ones_3x4 0%Q ;;
  x_answer <- mdense0 TyD [[114; 1; 1; 1]; [74; 97; 1; 1]; [119; 157; 112; 1]]%Q 0%Q ;;
  x_result_1 <- t_mxm TyD (acc TyD qsecond) (mkSr qplus qtimes TyD) (MSComp x_M_1) MERGE x_result
    (Trn x_A) (Trn x_B) ;;
  _ <- check (Qeq_bool (inject_Z (nvals x_result_1)) 12%Q) ;;
  x_q <- meq x_result_1 x_answer ;;
  _ <- check x_q ;;
  Ok tt) = Ok tt.
Proof. vm_compute. reflexivity. Qed.

(** test_mxm_ATBT.cpp:4666-4687, optimized_sequential platform *)
Example test_mxm_CompStructMask_Accum_ATBT_Merge_opt :
 (x_A <- mdense0 TyD d_AT_dense_3x3 0%Q ;;
  x_B <- mdense0 TyD d_BT_dense_3x4 0%Q ;;
  x_M <- mdense0 TyD d_NotLower_3x4 0%Q ;;
  x_M_1 <- lil_setElement x_M 0 1 (cast TyD 0%Q) ;;
  _ <- check (Qeq_bool (inject_Z (nvals x_M_1)) 6%Q) ;;
  x_result <- mdense0 TyD d_Ones_3x4 0%Q ;;
  x_answer <- mdense0 TyD [[114; 1; 1; 1]; [74; 97; 1; 1]; [119; 157; 112; 1]]%Q 0%Q ;;
  x_result_1 <- t_opt_mxm TyD (acc TyD qsecond) TyD (mkSr qplus qtimes TyD) (MSComp (Other x_M_1))
    MERGE x_result (OTrn (Other x_A)) (OTrn (Other x_B)) ;;
  _ <- check (Qeq_bool (inject_Z (nvals x_result_1)) 12%Q) ;;
  x_q <- meq x_result_1 x_answer ;;
  _ <- check x_q ;;
  Ok tt) = Ok tt.
Proof. vm_compute. reflexivity. Qed.

(** test_mxm_ATBT.cpp:4690-4712 *)
Example test_mxm_CompStructMask_Accum_ATBT_Merge_ABdup :
 (x_mat <- mdense0 TyD d_Symmetric_4x4 0%Q ;;
  x_result <- mdense0 TyD d_Ones_4x4 0%Q ;;
  x_answer <- mdense0 TyD [[2; 1; 1; 1]; [3; 9; 1; 1]; [2; 10; 22; 1]; [0; 6; 21; 25]]%Q 0%Q ;;
  x_M <- mdense0 TyD d_NotLower_4x4 0%Q ;;
  x_M_1 <- lil_setElement x_M 0 1 (cast TyD 0%Q) ;;
  x_result_1 <- t_mxm TyD noacc (mkSr qplus qtimes TyD) (MSComp x_M_1) MERGE x_result (Trn x_mat)
    (Trn x_mat) ;;
  x_q <- meq x_result_1 x_answer ;;
  _ <- check x_q ;;
  Ok tt) = Ok tt.
Proof. vm_compute. reflexivity. Qed.

(** test_mxm_ATBT.cpp:4690-4712, optimized_sequential platform *)
Example test_mxm_CompStructMask_Accum_ATBT_Merge_ABdup_opt :
 (x_mat <- mdense0 TyD d_Symmetric_4x4 0%Q ;;
  x_result <- mdense0 TyD d_Ones_4x4 0%Q ;;
  x_answer <- mdense0 TyD [[2; 1; 1; 1]; [3; 9; 1; 1]; [2; 10; 22; 1]; [0; 6; 21; 25]]%Q 0%Q ;;
  x_M <- mdense0 TyD d_NotLower_4x4 0%Q ;;
  x_M_1 <- lil_setElement x_M 0 1 (cast TyD 0%Q) ;;
  x_result_1 <- t_opt_mxm TyD noacc TyD (mkSr qplus qtimes TyD) (MSComp (Other x_M_1)) MERGE
    x_result (OTrn (Other x_mat)) (OTrn (Other x_mat)) ;;
  x_q <- meq x_result_1 x_answer ;;
  _ <- check x_q ;;
  Ok tt) = Ok tt.
Proof. vm_compute. reflexivity. Qed.
