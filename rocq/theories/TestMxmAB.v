(** The tests of /repo/src/test/test_mxm_AB.cpp, run on the model.  Generated translation. *)
From Verif Require Import TestRun.

Definition d_A_dense_3x3 : list (list Q) :=
  [[12; 7; 3];
   [4; 5; 6];
   [7; 8; 9]]%Q.
Definition d_B_dense_3x4 : list (list Q) :=
  [[5; 8; 1; 2];
   [6; 7; 3; 0];
   [4; 5; 9; 1]]%Q.
Definition d_Answer_dense : list (list Q) :=
  [[114; 160; 60; 27];
   [74; 97; 73; 14];
   [119; 157; 112; 23]]%Q.
Definition d_A_sparse_3x3 : list (list Q) :=
  [[12; 7; 0];
   [0; (-5); 0];
   [7; 0; 9]]%Q.
Definition d_B_sparse_3x4 : list (list Q) :=
  [[5; 8; 0; (-2)];
   [0; (-7); 3; 0];
   [4; 0; 0; 1]]%Q.
Definition d_AA_answer_sparse : list (list Q) :=
  [[144; 49; 0];
   [0; 25; 0];
   [147; 49; 81]]%Q.
Definition d_Answer_sparse : list (list Q) :=
  [[60; 47; 21; (-24)];
   [0; 35; (-15); 0];
   [71; 56; 0; (-5)]]%Q.
Definition d_Symmetric_4x4 : list (list Q) :=
  [[1; 1; 0; 0];
   [1; 2; 2; 0];
   [0; 2; 3; 3];
   [0; 0; 3; 4]]%Q.
Definition d_Symmetric2_4x4 : list (list Q) :=
  [[2; 3; 2; 0];
   [3; 9; 10; 6];
   [2; 10; 22; 21];
   [0; 6; 21; 25]]%Q.
Definition d_Ones_4x4 : list (list Q) :=
  [[1; 1; 1; 1];
   [1; 1; 1; 1];
   [1; 1; 1; 1];
   [1; 1; 1; 1]]%Q.
Definition d_Ones_3x4 : list (list Q) :=
  [[1; 1; 1; 1];
   [1; 1; 1; 1];
   [1; 1; 1; 1]]%Q.
Definition d_Ones_3x3 : list (list Q) :=
  [[1; 1; 1];
   [1; 1; 1];
   [1; 1; 1]]%Q.
Definition d_Identity_3x3 : list (list Q) :=
  [[1; 0; 0];
   [0; 1; 0];
   [0; 0; 1]]%Q.
Definition d_Lower_3x3 : list (list Q) :=
  [[1; 0; 0];
   [1; 1; 0];
   [1; 1; 1]]%Q.
Definition d_Lower_3x4 : list (list Q) :=
  [[1; 0; 0; 0];
   [1; 1; 0; 0];
   [1; 1; 1; 0]]%Q.
Definition d_Lower_4x4 : list (list Q) :=
  [[1; 0; 0; 0];
   [1; 1; 0; 0];
   [1; 1; 1; 0];
   [1; 1; 1; 1]]%Q.
Definition d_NotLower_3x3 : list (list Q) :=
  [[0; 1; 1];
   [0; 0; 1];
   [0; 0; 0]]%Q.
Definition d_NotLower_3x4 : list (list Q) :=
  [[0; 1; 1; 1];
   [0; 0; 1; 1];
   [0; 0; 0; 1]]%Q.
Definition d_NotLower_4x4 : list (list Q) :=
  [[0; 1; 1; 1];
   [0; 0; 1; 1];
   [0; 0; 0; 1];
   [0; 0; 0; 0]]%Q.
Definition d_LowerMask_3x4 : list (list Q) :=
  [[1; 0; 0; 0];
   [1; (1 # 2); 0; 0];
   [1; (-1); (3 # 2); 0]]%Q.
Definition d_LowerBool_3x4 : list (list Q) :=
  [[1; 0; 0; 0];
   [1; 1; 0; 0];
   [1; 1; 1; 0]]%Q.
Definition d_LowerBool_3x3 : list (list Q) :=
  [[1; 0; 0];
   [1; 1; 0];
   [1; 1; 1]]%Q.
Definition d_NotLowerBool_3x3 : list (list Q) :=
  [[0; 1; 1];
   [0; 0; 1];
   [0; 0; 0]]%Q.

(** test_mxm_AB.cpp:205-319 *)
Example test_mxm_bad_dimensions :
 (x_A <- mdense0 TyD d_A_dense_3x3 0%Q ;;
  x_B <- mdense0 TyD d_B_dense_3x4 0%Q ;;
  x_result3x4 <- mnew 3 4 ;;
  x_result3x3 <- mnew 3 3 ;;
  x_ones3x4 <- mdense0 TyD d_Ones_3x4 0%Q ;;
  x_M <- mdense0 TyD [[1; 0; 0]; [1; 1; 0]; [1; 1; 1]]%Q 0%Q ;;
  _ <- check (Qeq_bool (inject_Z (nvals x_M)) 6%Q) ;;
  _ <- throws DimensionException (t_mxm TyD noacc (mkSr qplus qtimes TyD) NoMask MERGE x_result3x4
    (Mat x_B) (Mat x_A)) ;;
  _ <- throws DimensionException (t_mxm TyD noacc (mkSr qplus qtimes TyD) NoMask MERGE x_result3x3
    (Mat x_A) (Mat x_B)) ;;
  _ <- throws DimensionException (t_mxm TyD (acc TyD qsecond) (mkSr qplus qtimes TyD) NoMask MERGE
    x_result3x4 (Mat x_B) (Mat x_A)) ;;
  _ <- throws DimensionException (t_mxm TyD (acc TyD qsecond) (mkSr qplus qtimes TyD) NoMask MERGE
    x_result3x3 (Mat x_A) (Mat x_B)) ;;
  _ <- throws DimensionException (t_mxm TyD noacc (mkSr qplus qtimes TyD) (MVal x_M) REPLACE
    x_ones3x4 (Mat x_A) (Mat x_B)) ;;
  _ <- throws DimensionException (t_mxm TyD (acc TyD qsecond) (mkSr qplus qtimes TyD) (MVal x_M)
    REPLACE x_ones3x4 (Mat x_A) (Mat x_B)) ;;
  _ <- throws DimensionException (t_mxm TyD (acc TyD qsecond) (mkSr qplus qtimes TyD) (MVal x_M)
    MERGE x_ones3x4 (Mat x_A) (Mat x_B)) ;;
  _ <- throws DimensionException (t_mxm TyD noacc (mkSr qplus qtimes TyD) (MComp x_M) REPLACE
    x_ones3x4 (Mat x_A) (Mat x_B)) ;;
  _ <- throws DimensionException (t_mxm TyD noacc (mkSr qplus qtimes TyD) (MComp x_M) MERGE
    x_result3x4 (Mat x_A) (Mat x_B)) ;;
  _ <- throws DimensionException (t_mxm TyD (acc TyD qsecond) (mkSr qplus qtimes TyD) (MComp x_M)
    REPLACE x_ones3x4 (Mat x_A) (Mat x_B)) ;;
  _ <- throws DimensionException (t_mxm TyD (acc TyD qsecond) (mkSr qplus qtimes TyD) (MComp x_M)
    MERGE x_result3x4 (Mat x_A) (Mat x_B)) ;;
  Ok tt) = Ok tt.
Proof. vm_compute. reflexivity. Qed.

(** test_mxm_AB.cpp:205-319, optimized_sequential platform *)
Example test_mxm_bad_dimensions_opt :
 (x_A <- mdense0 TyD d_A_dense_3x3 0%Q ;;
  x_B <- mdense0 TyD d_B_dense_3x4 0%Q ;;
  x_result3x4 <- mnew 3 4 ;;
  x_result3x3 <- mnew 3 3 ;;
  x_ones3x4 <- mdense0 TyD d_Ones_3x4 0%Q ;;
  x_M <- mdense0 TyD [[1; 0; 0]; [1; 1; 0]; [1; 1; 1]]%Q 0%Q ;;
  _ <- check (Qeq_bool (inject_Z (nvals x_M)) 6%Q) ;;
  _ <- throws DimensionException (t_opt_mxm TyD noacc TyD (mkSr qplus qtimes TyD) NoMask MERGE
    x_result3x4 (OMat (Other x_B)) (OMat (Other x_A))) ;;
  _ <- throws DimensionException (t_opt_mxm TyD noacc TyD (mkSr qplus qtimes TyD) NoMask MERGE
    x_result3x3 (OMat (Other x_A)) (OMat (Other x_B))) ;;
  _ <- throws DimensionException (t_opt_mxm TyD (acc TyD qsecond) TyD (mkSr qplus qtimes TyD) NoMask
    MERGE x_result3x4 (OMat (Other x_B)) (OMat (Other x_A))) ;;
  _ <- throws DimensionException (t_opt_mxm TyD (acc TyD qsecond) TyD (mkSr qplus qtimes TyD) NoMask
    MERGE x_result3x3 (OMat (Other x_A)) (OMat (Other x_B))) ;;
  _ <- throws DimensionException (t_opt_mxm TyD noacc TyD (mkSr qplus qtimes TyD) (MVal (Other x_M))
    REPLACE x_ones3x4 (OMat (Other x_A)) (OMat (Other x_B))) ;;
  _ <- throws DimensionException (t_opt_mxm TyD (acc TyD qsecond) TyD (mkSr qplus qtimes TyD) (MVal
    (Other x_M)) REPLACE x_ones3x4 (OMat (Other x_A)) (OMat (Other x_B))) ;;
  _ <- throws DimensionException (t_opt_mxm TyD (acc TyD qsecond) TyD (mkSr qplus qtimes TyD) (MVal
    (Other x_M)) MERGE x_ones3x4 (OMat (Other x_A)) (OMat (Other x_B))) ;;
  _ <- throws DimensionException (t_opt_mxm TyD noacc TyD (mkSr qplus qtimes TyD) (MComp (Other
    x_M)) REPLACE x_ones3x4 (OMat (Other x_A)) (OMat (Other x_B))) ;;
  _ <- throws DimensionException (t_opt_mxm TyD noacc TyD (mkSr qplus qtimes TyD) (MComp (Other
    x_M)) MERGE x_result3x4 (OMat (Other x_A)) (OMat (Other x_B))) ;;
  _ <- throws DimensionException (t_opt_mxm TyD (acc TyD qsecond) TyD (mkSr qplus qtimes TyD) (MComp
    (Other x_M)) REPLACE x_ones3x4 (OMat (Other x_A)) (OMat (Other x_B))) ;;
  _ <- throws DimensionException (t_opt_mxm TyD (acc TyD qsecond) TyD (mkSr qplus qtimes TyD) (MComp
    (Other x_M)) MERGE x_result3x4 (OMat (Other x_A)) (OMat (Other x_B))) ;;
  Ok tt) = Ok tt.
Proof. vm_compute. reflexivity. Qed.

(** test_mxm_AB.cpp:353-369 *)
Example test_mxm_NoMask_NoAccum_AB_empty :
 (x_Zero <- mnew 3 3 ;;
  x_Ones <- mdense0 TyD d_Ones_3x3 0%Q ;;
  x_C <- mdense0 TyD d_Ones_3x3 0%Q ;;
  x_mD <- mdense0 TyD d_Ones_3x3 0%Q ;;
  x_C_1 <- t_mxm TyD noacc (mkSr qplus qtimes TyD) NoMask MERGE x_C (Mat x_Zero) (Mat x_Ones) ;;
  x_q <- meq x_C_1 x_Zero ;;
  _ <- check x_q ;;
  x_mD_1 <- t_mxm TyD noacc (mkSr qplus qtimes TyD) NoMask MERGE x_mD (Mat x_Ones) (Mat x_Zero) ;;
  x_q_1 <- meq x_mD_1 x_Zero ;;
  _ <- check x_q_1 ;;
  Ok tt) = Ok tt.
Proof. vm_compute. reflexivity. Qed.

(** test_mxm_AB.cpp:353-369, optimized_sequential platform *)
Example test_mxm_NoMask_NoAccum_AB_empty_opt :
 (x_Zero <- mnew 3 3 ;;
  x_Ones <- mdense0 TyD d_Ones_3x3 0%Q ;;
  x_C <- mdense0 TyD d_Ones_3x3 0%Q ;;
  x_mD <- mdense0 TyD d_Ones_3x3 0%Q ;;
  x_C_1 <- t_opt_mxm TyD noacc TyD (mkSr qplus qtimes TyD) NoMask MERGE x_C (OMat (Other x_Zero))
    (OMat (Other x_Ones)) ;;
  x_q <- meq x_C_1 x_Zero ;;
  _ <- check x_q ;;
  x_mD_1 <- t_opt_mxm TyD noacc TyD (mkSr qplus qtimes TyD) NoMask MERGE x_mD (OMat (Other x_Ones))
    (OMat (Other x_Zero)) ;;
  x_q_1 <- meq x_mD_1 x_Zero ;;
  _ <- check x_q_1 ;;
  Ok tt) = Ok tt.
Proof. vm_compute. reflexivity. Qed.

(** test_mxm_AB.cpp:372-401 *)
Example test_mxm_NoMask_NoAccum_AB_dense :
 (x_A <- mnew 3 3 ;;
  x_A_1 <- mbuild TyD qsecond x_A [0; 0; 0; 1; 1; 1; 2; 2; 2] [0; 1; 2; 0; 1; 2; 0; 1; 2] [12; 7; 3;
    4; 5; 6; 7; 8; 9]%Q ;;
  x_B <- mnew 3 4 ;;
  x_B_1 <- mbuild TyD qsecond x_B [0; 0; 0; 0; 1; 1; 1; 2; 2; 2; 2] [0; 1; 2; 3; 0; 1; 2; 0; 1; 2;
    3] [5; 8; 1; 2; 6; 7; 3; 4; 5; 9; 1]%Q ;;
  x_result <- mnew 3 4 ;;
  x_answer <- mnew 3 4 ;;
  x_answer_1 <- mbuild TyD qsecond x_answer [0; 0; 0; 0; 1; 1; 1; 1; 2; 2; 2; 2] [0; 1; 2; 3; 0; 1;
    2; 3; 0; 1; 2; 3] [114; 160; 60; 27; 74; 97; 73; 14; 119; 157; 112; 23]%Q ;;
  x_result_1 <- t_mxm TyD noacc (mkSr qplus qtimes TyD) NoMask MERGE x_result (Mat x_A_1) (Mat
    x_B_1) ;;
  x_q <- meq x_result_1 x_answer_1 ;;
  _ <- check x_q ;;
  Ok tt) = Ok tt.
Proof. vm_compute. reflexivity. Qed.

(** test_mxm_AB.cpp:372-401, optimized_sequential platform *)
Example test_mxm_NoMask_NoAccum_AB_dense_opt :
 (x_A <- mnew 3 3 ;;
  x_A_1 <- mbuild TyD qsecond x_A [0; 0; 0; 1; 1; 1; 2; 2; 2] [0; 1; 2; 0; 1; 2; 0; 1; 2] [12; 7; 3;
    4; 5; 6; 7; 8; 9]%Q ;;
  x_B <- mnew 3 4 ;;
  x_B_1 <- mbuild TyD qsecond x_B [0; 0; 0; 0; 1; 1; 1; 2; 2; 2; 2] [0; 1; 2; 3; 0; 1; 2; 0; 1; 2;
    3] [5; 8; 1; 2; 6; 7; 3; 4; 5; 9; 1]%Q ;;
  x_result <- mnew 3 4 ;;
  x_answer <- mnew 3 4 ;;
  x_answer_1 <- mbuild TyD qsecond x_answer [0; 0; 0; 0; 1; 1; 1; 1; 2; 2; 2; 2] [0; 1; 2; 3; 0; 1;
    2; 3; 0; 1; 2; 3] [114; 160; 60; 27; 74; 97; 73; 14; 119; 157; 112; 23]%Q ;;
  x_result_1 <- t_opt_mxm TyD noacc TyD (mkSr qplus qtimes TyD) NoMask MERGE x_result (OMat (Other
    x_A_1)) (OMat (Other x_B_1)) ;;
  x_q <- meq x_result_1 x_answer_1 ;;
  _ <- check x_q ;;
  Ok tt) = Ok tt.
Proof. vm_compute. reflexivity. Qed.

(** test_mxm_AB.cpp:404-428 *)
Example test_mxm_NoMask_NoAccum_AB_emptyRowA_emptyColB :
 (x_A <- mdense0 TyD [[8; 1; 6]; [0; 0; 0]; [4; 9; 2]]%Q 0%Q ;;
  x_B <- mdense0 TyD [[0; 0; 0; 1]; [1; 0; 1; 1]; [0; 0; 1; 1]]%Q 0%Q ;;
  x_result <- mnew 3 4 ;;
  x_answer <- mdense0 TyD [[1; 0; 7; 15]; [0; 0; 0; 0]; [9; 0; 11; 15]]%Q 0%Q ;;
  x_result_1 <- t_mxm TyD noacc (mkSr qplus qtimes TyD) NoMask MERGE x_result (Mat x_A) (Mat x_B) ;;
  x_q <- meq x_result_1 x_answer ;;
  _ <- check x_q ;;
  Ok tt) = Ok tt.
Proof. vm_compute. reflexivity. Qed.

(** test_mxm_AB.cpp:404-428, optimized_sequential platform *)
Example test_mxm_NoMask_NoAccum_AB_emptyRowA_emptyColB_opt :
 (x_A <- mdense0 TyD [[8; 1; 6]; [0; 0; 0]; [4; 9; 2]]%Q 0%Q ;;
  x_B <- mdense0 TyD [[0; 0; 0; 1]; [1; 0; 1; 1]; [0; 0; 1; 1]]%Q 0%Q ;;
  x_result <- mnew 3 4 ;;
  x_answer <- mdense0 TyD [[1; 0; 7; 15]; [0; 0; 0; 0]; [9; 0; 11; 15]]%Q 0%Q ;;
  x_result_1 <- t_opt_mxm TyD noacc TyD (mkSr qplus qtimes TyD) NoMask MERGE x_result (OMat (Other
    x_A)) (OMat (Other x_B)) ;;
  x_q <- meq x_result_1 x_answer ;;
  _ <- check x_q ;;
  Ok tt) = Ok tt.
Proof. vm_compute. reflexivity. Qed.

(** test_mxm_AB.cpp:431-455 *)
Example test_mxm_NoMask_NoAccum_AB_emptyColA_emptyRowB :
 (x_A <- mdense0 TyD [[8; 0; 6]; [1; 0; 9]; [4; 0; 2]]%Q 0%Q ;;
  x_B <- mdense0 TyD [[0; 1; 0; 1]; [1; 0; 1; 1]; [0; 0; 0; 0]]%Q 0%Q ;;
  x_result <- mnew 3 4 ;;
  x_answer <- mdense0 TyD [[0; 8; 0; 8]; [0; 1; 0; 1]; [0; 4; 0; 4]]%Q 0%Q ;;
  x_result_1 <- t_mxm TyD noacc (mkSr qplus qtimes TyD) NoMask MERGE x_result (Mat x_A) (Mat x_B) ;;
  x_q <- meq x_result_1 x_answer ;;
  _ <- check x_q ;;
  Ok tt) = Ok tt.
Proof. vm_compute. reflexivity. Qed.

(** test_mxm_AB.cpp:431-455, optimized_sequential platform *)
Example test_mxm_NoMask_NoAccum_AB_emptyColA_emptyRowB_opt :
 (x_A <- mdense0 TyD [[8; 0; 6]; [1; 0; 9]; [4; 0; 2]]%Q 0%Q ;;
  x_B <- mdense0 TyD [[0; 1; 0; 1]; [1; 0; 1; 1]; [0; 0; 0; 0]]%Q 0%Q ;;
  x_result <- mnew 3 4 ;;
  x_answer <- mdense0 TyD [[0; 8; 0; 8]; [0; 1; 0; 1]; [0; 4; 0; 4]]%Q 0%Q ;;
  x_result_1 <- t_opt_mxm TyD noacc TyD (mkSr qplus qtimes TyD) NoMask MERGE x_result (OMat (Other
    x_A)) (OMat (Other x_B)) ;;
  x_q <- meq x_result_1 x_answer ;;
  _ <- check x_q ;;
  Ok tt) = Ok tt.
Proof. vm_compute. reflexivity. Qed.

(** test_mxm_AB.cpp:458-471 *)
Example test_mxm_NoMask_NoAccum_AB_ABdup :
 (x_mat <- mdense0 TyD d_Symmetric_4x4 0%Q ;;
  x_m3 <- mnew 4 4 ;;
  x_answer <- mdense0 TyD d_Symmetric2_4x4 0%Q ;;
  x_m3_1 <- t_mxm TyD noacc (mkSr qplus qtimes TyD) NoMask MERGE x_m3 (Mat x_mat) (Mat x_mat) ;;
  x_q <- meq x_m3_1 x_answer ;;
  _ <- check x_q ;;
  Ok tt) = Ok tt.
Proof. vm_compute. reflexivity. Qed.

(** test_mxm_AB.cpp:458-471, optimized_sequential platform *)
Example test_mxm_NoMask_NoAccum_AB_ABdup_opt :
 (x_mat <- mdense0 TyD d_Symmetric_4x4 0%Q ;;
  x_m3 <- mnew 4 4 ;;
  x_answer <- mdense0 TyD d_Symmetric2_4x4 0%Q ;;
  x_m3_1 <- t_opt_mxm TyD noacc TyD (mkSr qplus qtimes TyD) NoMask MERGE x_m3 (OMat (Other x_mat))
    (OMat (Other x_mat)) ;;
  x_q <- meq x_m3_1 x_answer ;;
  _ <- check x_q ;;
  Ok tt) = Ok tt.
Proof. vm_compute. reflexivity. Qed.

(** test_mxm_AB.cpp:474-487 *)
Example test_mxm_NoMask_NoAccum_AB_ACdup :
 (x_C <- mdense0 TyD d_A_sparse_3x3 0%Q ;;
  x_B <- mdense0 TyD d_A_sparse_3x3 0%Q ;;
  x_answer <- mdense0 TyD d_AA_answer_sparse 0%Q ;;
  x_C_1 <- t_mxm TyD noacc (mkSr qplus qtimes TyD) NoMask MERGE x_C (Mat x_C) (Mat x_B) ;;
  x_q <- meq x_C_1 x_answer ;;
  _ <- check x_q ;;
  Ok tt) = Ok tt.
Proof. vm_compute. reflexivity. Qed.

(** test_mxm_AB.cpp:474-487, optimized_sequential platform *)
Example test_mxm_NoMask_NoAccum_AB_ACdup_opt :
 (x_C <- mdense0 TyD d_A_sparse_3x3 0%Q ;;
  x_B <- mdense0 TyD d_A_sparse_3x3 0%Q ;;
  x_answer <- mdense0 TyD d_AA_answer_sparse 0%Q ;;
  x_C_1 <- t_opt_mxm TyD noacc TyD (mkSr qplus qtimes TyD) NoMask MERGE x_C (OMat (TheOutput (fun x
    => x))) (OMat (Other x_B)) ;;
  x_q <- meq x_C_1 x_answer ;;
  _ <- check x_q ;;
  Ok tt) = Ok tt.
Proof. vm_compute. reflexivity. Qed.

(** test_mxm_AB.cpp:490-503 *)
Example test_mxm_NoMask_NoAccum_AB_BCdup :
 (x_A <- mdense0 TyD d_A_sparse_3x3 0%Q ;;
  x_C <- mdense0 TyD d_B_sparse_3x4 0%Q ;;
  x_answer <- mdense0 TyD d_Answer_sparse 0%Q ;;
  x_C_1 <- t_mxm TyD noacc (mkSr qplus qtimes TyD) NoMask MERGE x_C (Mat x_A) (Mat x_C) ;;
  x_q <- meq x_C_1 x_answer ;;
  _ <- check x_q ;;
  Ok tt) = Ok tt.
Proof. vm_compute. reflexivity. Qed.

(** test_mxm_AB.cpp:490-503, optimized_sequential platform *)
Example test_mxm_NoMask_NoAccum_AB_BCdup_opt :
 (x_A <- mdense0 TyD d_A_sparse_3x3 0%Q ;;
  x_C <- mdense0 TyD d_B_sparse_3x4 0%Q ;;
  x_answer <- mdense0 TyD d_Answer_sparse 0%Q ;;
  x_C_1 <- t_opt_mxm TyD noacc TyD (mkSr qplus qtimes TyD) NoMask MERGE x_C (OMat (Other x_A)) (OMat
    (TheOutput (fun x => x))) ;;
  x_q <- meq x_C_1 x_answer ;;
  _ <- check x_q ;;
  Ok tt) = Ok tt.
Proof. vm_compute. reflexivity. Qed.

(** test_mxm_AB.cpp:510-522 *)
Example test_mxm_NoMask_Accum_AB :
 (x_A <- mdense0 TyD d_A_dense_3x3 0%Q ;;
  x_B <- mdense0 TyD d_B_dense_3x4 0%Q ;;
  x_result <- mnew 3 4 ;;
  x_answer <- mdense0 TyD d_Answer_dense 0%Q ;;
  x_result_1 <- t_mxm TyD (acc TyD qsecond) (mkSr qplus qtimes TyD) NoMask MERGE x_result (Mat x_A)
    (Mat x_B) ;;
  x_q <- meq x_result_1 x_answer ;;
  _ <- check x_q ;;
  Ok tt) = Ok tt.
Proof. vm_compute. reflexivity. Qed.

(** test_mxm_AB.cpp:510-522, optimized_sequential platform *)
Example test_mxm_NoMask_Accum_AB_opt :
 (x_A <- mdense0 TyD d_A_dense_3x3 0%Q ;;
  x_B <- mdense0 TyD d_B_dense_3x4 0%Q ;;
  x_result <- mnew 3 4 ;;
  x_answer <- mdense0 TyD d_Answer_dense 0%Q ;;
  x_result_1 <- t_opt_mxm TyD (acc TyD qsecond) TyD (mkSr qplus qtimes TyD) NoMask MERGE x_result
    (OMat (Other x_A)) (OMat (Other x_B)) ;;
  x_q <- meq x_result_1 x_answer ;;
  _ <- check x_q ;;
  Ok tt) = Ok tt.
Proof. vm_compute. reflexivity. Qed.

(** test_mxm_AB.cpp:525-541 *)
Example test_mxm_NoMask_Accum_AB_empty :
 (x_Zero <- mnew 3 3 ;;
  x_Ones <- mdense0 TyD d_Ones_3x3 0%Q ;;
  x_C <- mdense0 TyD d_Ones_3x3 0%Q ;;
  x_mD <- mdense0 TyD d_Ones_3x3 0%Q ;;
  x_C_1 <- t_mxm TyD (acc TyD qplus) (mkSr qplus qtimes TyD) NoMask MERGE x_C (Mat x_Zero) (Mat
    x_Ones) ;;
  x_q <- meq x_C_1 x_Ones ;;
  _ <- check x_q ;;
  x_mD_1 <- t_mxm TyD (acc TyD qplus) (mkSr qplus qtimes TyD) NoMask MERGE x_mD (Mat x_Ones) (Mat
    x_Zero) ;;
  x_q_1 <- meq x_mD_1 x_Ones ;;
  _ <- check x_q_1 ;;
  Ok tt) = Ok tt.
Proof. vm_compute. reflexivity. Qed.

(** test_mxm_AB.cpp:525-541, optimized_sequential platform *)
Example test_mxm_NoMask_Accum_AB_empty_opt :
 (x_Zero <- mnew 3 3 ;;
  x_Ones <- mdense0 TyD d_Ones_3x3 0%Q ;;
  x_C <- mdense0 TyD d_Ones_3x3 0%Q ;;
  x_mD <- mdense0 TyD d_Ones_3x3 0%Q ;;
  x_C_1 <- t_opt_mxm TyD (acc TyD qplus) TyD (mkSr qplus qtimes TyD) NoMask MERGE x_C (OMat (Other
    x_Zero)) (OMat (Other x_Ones)) ;;
  x_q <- meq x_C_1 x_Ones ;;
  _ <- check x_q ;;
  x_mD_1 <- t_opt_mxm TyD (acc TyD qplus) TyD (mkSr qplus qtimes TyD) NoMask MERGE x_mD (OMat (Other
    x_Ones)) (OMat (Other x_Zero)) ;;
  x_q_1 <- meq x_mD_1 x_Ones ;;
  _ <- check x_q_1 ;;
  Ok tt) = Ok tt.
Proof. vm_compute. reflexivity. Qed.

(** test_mxm_AB.cpp:544-569 *)
Example test_mxm_NoMask_Accum_AB_stored_zero_result :
 (x_A <- mdense0 TyD d_Symmetric_4x4 0%Q ;;
  x_B <- mdense0 TyI [[1; (-2); 0; 0]; [(-1); 1; 0; 0]; [0; 0; 3; (-4)]; [0; 0; (-3); 3]]%Q 0%Q ;;
  x_result <- mnew 4 4 ;;
  x_answer <- mdense0 TyI [[0; (-1); 666; 666]; [(-1); 0; 6; (-8)]; [(-2); 2; 0; (-3)]; [666; 666;
    (-3); 0]]%Q 666%Q ;;
  x_result_1 <- t_mxm TyI (acc TyI (op3 TyI TyI TyI qsecond)) (mkSr (op3 TyI TyI TyI qplus) (op3 TyI
    TyI TyI qtimes) TyI) NoMask MERGE x_result (Mat x_A) (Mat x_B) ;;
  x_q <- meq x_result_1 x_answer ;;
  _ <- check x_q ;;
  _ <- check (Qeq_bool (inject_Z (nvals x_result_1)) 12%Q) ;;
  Ok tt) = Ok tt.
Proof. vm_compute. reflexivity. Qed.

(** test_mxm_AB.cpp:544-569, optimized_sequential platform *)
Example test_mxm_NoMask_Accum_AB_stored_zero_result_opt :
 (x_A <- mdense0 TyD d_Symmetric_4x4 0%Q ;;
  x_B <- mdense0 TyI [[1; (-2); 0; 0]; [(-1); 1; 0; 0]; [0; 0; 3; (-4)]; [0; 0; (-3); 3]]%Q 0%Q ;;
  x_result <- mnew 4 4 ;;
  x_answer <- mdense0 TyI [[0; (-1); 666; 666]; [(-1); 0; 6; (-8)]; [(-2); 2; 0; (-3)]; [666; 666;
    (-3); 0]]%Q 666%Q ;;
  x_result_1 <- t_opt_mxm TyI (acc TyI (op3 TyI TyI TyI qsecond)) TyD (mkSr (op3 TyI TyI TyI qplus)
    (op3 TyI TyI TyI qtimes) TyI) NoMask MERGE x_result (OMat (Other x_A)) (OMat (Other x_B)) ;;
  x_q <- meq x_result_1 x_answer ;;
  _ <- check x_q ;;
  _ <- check (Qeq_bool (inject_Z (nvals x_result_1)) 12%Q) ;;
  Ok tt) = Ok tt.
Proof. vm_compute. reflexivity. Qed.

(** test_mxm_AB.cpp:572-585 *)
Example test_mxm_NoMask_Accum_AB_ABdup_Cempty :
 (x_mat <- mdense0 TyD d_Symmetric_4x4 0%Q ;;
  x_result <- mnew 4 4 ;;
  x_answer <- mdense0 TyD d_Symmetric2_4x4 0%Q ;;
  x_result_1 <- t_mxm TyD (acc TyD qsecond) (mkSr qplus qtimes TyD) NoMask MERGE x_result (Mat
    x_mat) (Mat x_mat) ;;
  x_q <- meq x_result_1 x_answer ;;
  _ <- check x_q ;;
  Ok tt) = Ok tt.
Proof. vm_compute. reflexivity. Qed.

(** test_mxm_AB.cpp:572-585, optimized_sequential platform *)
Example test_mxm_NoMask_Accum_AB_ABdup_Cempty_opt :
 (x_mat <- mdense0 TyD d_Symmetric_4x4 0%Q ;;
  x_result <- mnew 4 4 ;;
  x_answer <- mdense0 TyD d_Symmetric2_4x4 0%Q ;;
  x_result_1 <- t_opt_mxm TyD (acc TyD qsecond) TyD (mkSr qplus qtimes TyD) NoMask MERGE x_result
    (OMat (Other x_mat)) (OMat (Other x_mat)) ;;
  x_q <- meq x_result_1 x_answer ;;
  _ <- check x_q ;;
  Ok tt) = Ok tt.
Proof. vm_compute. reflexivity. Qed.

(** test_mxm_AB.cpp:588-612 *)
Example test_mxm_NoMask_Accum_AB_emptyRowA_emptyColB :
 (x_A <- mdense0 TyD [[8; 1; 6]; [0; 0; 0]; [4; 9; 2]]%Q 0%Q ;;
  x_B <- mdense0 TyD [[0; 0; 0; 1]; [1; 0; 1; 1]; [0; 0; 1; 1]]%Q 0%Q ;;
  x_result <- mdense0 TyD d_Ones_3x4 0%Q ;;
  x_answer <- mdense0 TyD [[2; 1; 8; 16]; [1; 1; 1; 1]; [10; 1; 12; 16]]%Q 0%Q ;;
  x_result_1 <- t_mxm TyD (acc TyD qplus) (mkSr qplus qtimes TyD) NoMask MERGE x_result (Mat x_A)
    (Mat x_B) ;;
  x_q <- meq x_result_1 x_answer ;;
  _ <- check x_q ;;
  Ok tt) = Ok tt.
Proof. vm_compute. reflexivity. Qed.

(** test_mxm_AB.cpp:588-612, optimized_sequential platform *)
Example test_mxm_NoMask_Accum_AB_emptyRowA_emptyColB_opt :
 (x_A <- mdense0 TyD [[8; 1; 6]; [0; 0; 0]; [4; 9; 2]]%Q 0%Q ;;
  x_B <- mdense0 TyD [[0; 0; 0; 1]; [1; 0; 1; 1]; [0; 0; 1; 1]]%Q 0%Q ;;
  x_result <- mdense0 TyD d_Ones_3x4 0%Q ;;
  x_answer <- mdense0 TyD [[2; 1; 8; 16]; [1; 1; 1; 1]; [10; 1; 12; 16]]%Q 0%Q ;;
  x_result_1 <- t_opt_mxm TyD (acc TyD qplus) TyD (mkSr qplus qtimes TyD) NoMask MERGE x_result
    (OMat (Other x_A)) (OMat (Other x_B)) ;;
  x_q <- meq x_result_1 x_answer ;;
  _ <- check x_q ;;
  Ok tt) = Ok tt.
Proof. vm_compute. reflexivity. Qed.

(** test_mxm_AB.cpp:615-639 *)
Example test_mxm_NoMask_Accum_AB_emptyColA_emptyRowB :
 (x_A <- mdense0 TyD [[8; 0; 6]; [1; 0; 9]; [4; 0; 2]]%Q 0%Q ;;
  x_B <- mdense0 TyD [[0; 1; 0; 1]; [1; 0; 1; 1]; [0; 0; 0; 0]]%Q 0%Q ;;
  x_result <- mdense0 TyD d_Ones_3x4 0%Q ;;
  x_answer <- mdense0 TyD [[1; 9; 1; 9]; [1; 2; 1; 2]; [1; 5; 1; 5]]%Q 0%Q ;;
  x_result_1 <- t_mxm TyD (acc TyD qplus) (mkSr qplus qtimes TyD) NoMask MERGE x_result (Mat x_A)
    (Mat x_B) ;;
  x_q <- meq x_result_1 x_answer ;;
  _ <- check x_q ;;
  Ok tt) = Ok tt.
Proof. vm_compute. reflexivity. Qed.

(** test_mxm_AB.cpp:615-639, optimized_sequential platform *)
Example test_mxm_NoMask_Accum_AB_emptyColA_emptyRowB_opt :
 (x_A <- mdense0 TyD [[8; 0; 6]; [1; 0; 9]; [4; 0; 2]]%Q 0%Q ;;
  x_B <- mdense0 TyD [[0; 1; 0; 1]; [1; 0; 1; 1]; [0; 0; 0; 0]]%Q 0%Q ;;
  x_result <- mdense0 TyD d_Ones_3x4 0%Q ;;
  x_answer <- mdense0 TyD [[1; 9; 1; 9]; [1; 2; 1; 2]; [1; 5; 1; 5]]%Q 0%Q ;;
  x_result_1 <- t_opt_mxm TyD (acc TyD qplus) TyD (mkSr qplus qtimes TyD) NoMask MERGE x_result
    (OMat (Other x_A)) (OMat (Other x_B)) ;;
  x_q <- meq x_result_1 x_answer ;;
  _ <- check x_q ;;
  Ok tt) = Ok tt.
Proof. vm_compute. reflexivity. Qed.

(** test_mxm_AB.cpp:642-662 *)
Example test_mxm_NoMask_Accum_AB_ABdup :
 (x_mat <- mdense0 TyD d_A_sparse_3x3 0%Q ;;
  x_m3 <- mdense0 TyD d_Ones_3x3 0%Q ;;
  x_answer <- mdense0 TyD [[145; 50; 1]; [1; 26; 1]; [148; 50; 82]]%Q 0%Q ;;
  x_m3_1 <- t_mxm TyD (acc TyD qplus) (mkSr qplus qtimes TyD) NoMask MERGE x_m3 (Mat x_mat) (Mat
    x_mat) ;;
  x_q <- meq x_m3_1 x_answer ;;
  _ <- check x_q ;;
  Ok tt) = Ok tt.
Proof. vm_compute. reflexivity. Qed.

(** test_mxm_AB.cpp:642-662, optimized_sequential platform *)
Example test_mxm_NoMask_Accum_AB_ABdup_opt :
 (x_mat <- mdense0 TyD d_A_sparse_3x3 0%Q ;;
  x_m3 <- mdense0 TyD d_Ones_3x3 0%Q ;;
  x_answer <- mdense0 TyD [[145; 50; 1]; [1; 26; 1]; [148; 50; 82]]%Q 0%Q ;;
  x_m3_1 <- t_opt_mxm TyD (acc TyD qplus) TyD (mkSr qplus qtimes TyD) NoMask MERGE x_m3 (OMat (Other
    x_mat)) (OMat (Other x_mat)) ;;
  x_q <- meq x_m3_1 x_answer ;;
  _ <- check x_q ;;
  Ok tt) = Ok tt.
Proof. vm_compute. reflexivity. Qed.

(** test_mxm_AB.cpp:665-683 *)
Example test_mxm_NoMask_Accum_AB_ACdup :
 (x_C <- mdense0 TyD d_A_sparse_3x3 0%Q ;;
  x_B <- mdense0 TyD d_A_sparse_3x3 0%Q ;;
  x_answer <- mdense0 TyD [[156; 56; 0]; [0; 20; 0]; [154; 49; 90]]%Q 0%Q ;;
  x_C_1 <- t_mxm TyD (acc TyD qplus) (mkSr qplus qtimes TyD) NoMask MERGE x_C (Mat x_C) (Mat x_B) ;;
  x_q <- meq x_C_1 x_answer ;;
  _ <- check x_q ;;
  Ok tt) = Ok tt.
Proof. vm_compute. reflexivity. Qed.

(** test_mxm_AB.cpp:665-683, optimized_sequential platform *)
Example test_mxm_NoMask_Accum_AB_ACdup_opt :
 (x_C <- mdense0 TyD d_A_sparse_3x3 0%Q ;;
  x_B <- mdense0 TyD d_A_sparse_3x3 0%Q ;;
  x_answer <- mdense0 TyD [[156; 56; 0]; [0; 20; 0]; [154; 49; 90]]%Q 0%Q ;;
  x_C_1 <- t_opt_mxm TyD (acc TyD qplus) TyD (mkSr qplus qtimes TyD) NoMask MERGE x_C (OMat
    (TheOutput (fun x => x))) (OMat (Other x_B)) ;;
  x_q <- meq x_C_1 x_answer ;;
  _ <- check x_q ;;
  Ok tt) = Ok tt.
Proof. vm_compute. reflexivity. Qed.

(** test_mxm_AB.cpp:686-704 *)
Example test_mxm_NoMask_Accum_AB_BCdup :
 (x_A <- mdense0 TyD d_A_sparse_3x3 0%Q ;;
  x_C <- mdense0 TyD d_A_sparse_3x3 0%Q ;;
  x_answer <- mdense0 TyD [[156; 56; 0]; [0; 20; 0]; [154; 49; 90]]%Q 0%Q ;;
  x_C_1 <- t_mxm TyD (acc TyD qplus) (mkSr qplus qtimes TyD) NoMask MERGE x_C (Mat x_A) (Mat x_C) ;;
  x_q <- meq x_C_1 x_answer ;;
  _ <- check x_q ;;
  Ok tt) = Ok tt.
Proof. vm_compute. reflexivity. Qed.

(** test_mxm_AB.cpp:686-704, optimized_sequential platform *)
Example test_mxm_NoMask_Accum_AB_BCdup_opt :
 (x_A <- mdense0 TyD d_A_sparse_3x3 0%Q ;;
  x_C <- mdense0 TyD d_A_sparse_3x3 0%Q ;;
  x_answer <- mdense0 TyD [[156; 56; 0]; [0; 20; 0]; [154; 49; 90]]%Q 0%Q ;;
  x_C_1 <- t_opt_mxm TyD (acc TyD qplus) TyD (mkSr qplus qtimes TyD) NoMask MERGE x_C (OMat (Other
    x_A)) (OMat (TheOutput (fun x => x))) ;;
  x_q <- meq x_C_1 x_answer ;;
  _ <- check x_q ;;
  Ok tt) = Ok tt.
Proof. vm_compute. reflexivity. Qed.

(** test_mxm_AB.cpp:711-789 *)
Example test_mxm_Mask_NoAccum_AB :
 (x_A <- mdense0 TyD d_A_sparse_3x3 0%Q ;;
  x_Identity <- mdense0 TyD d_Identity_3x3 0%Q ;;
  x_Empty <- mnew 3 3 ;;
  x_Ones <- mdense0 TyD d_Ones_3x3 0%Q ;;
  x_C <- mnew 3 3 ;;
  x_MLower <- mdense0 TyD d_Lower_3x3 0%Q ;;
  x_MNotLower <- mdense0 TyD d_NotLower_3x3 0%Q ;;
  x_AFilled <- mdense0 TyD [[12; 7; 1]; [1; (-5); 1]; [7; 1; 9]]%Q 0%Q ;;
  x_C_1 <- lil_assign x_C x_Ones ;;
  x_C_2 <- t_mxm TyD noacc (mkSr qplus qtimes TyD) (MVal x_Empty) MERGE x_C_1 (Mat x_A) (Mat
    x_Identity) ;;
  x_q <- meq x_C_2 x_Ones ;;
  _ <- check x_q ;;
  x_C_3 <- lil_assign x_C_2 x_Ones ;;
  x_C_4 <- t_mxm TyD noacc (mkSr qplus qtimes TyD) (MVal x_Ones) MERGE x_C_3 (Mat x_A) (Mat
    x_Identity) ;;
  x_q_1 <- meq x_C_4 x_A ;;
  _ <- check x_q_1 ;;
  x_C_5 <- lil_assign x_C_4 x_Ones ;;
  x_C_6 <- t_mxm TyD noacc (mkSr qplus qtimes TyD) (MVal x_A) MERGE x_C_5 (Mat x_A) (Mat x_Identity)
    ;;
  x_q_2 <- meq x_C_6 x_AFilled ;;
  _ <- check x_q_2 ;;
  x_C_7 <- lil_assign x_C_6 x_Ones ;;
  x_C_8 <- t_mxm TyD noacc (mkSr qplus qtimes TyD) (MVal x_MLower) MERGE x_C_7 (Mat x_Ones) (Mat
    x_Identity) ;;
  x_q_3 <- meq x_C_8 x_Ones ;;
  _ <- check x_q_3 ;;
  x_C_9 <- lil_assign x_C_8 x_Ones ;;
  x_C_10 <- t_mxm TyD noacc (mkSr qplus qtimes TyD) (MVal x_MNotLower) MERGE x_C_9 (Mat x_Ones) (Mat
    x_Identity) ;;
  x_q_4 <- meq x_C_10 x_Ones ;;
  _ <- check x_q_4 ;;
  x_C_11 <- lil_assign x_C_10 x_Ones ;;
  x_C_12 <- t_mxm TyD noacc (mkSr qplus qtimes TyD) (MVal x_Empty) REPLACE x_C_11 (Mat x_A) (Mat
    x_Identity) ;;
  x_q_5 <- meq x_C_12 x_Empty ;;
  _ <- check x_q_5 ;;
  x_C_13 <- lil_assign x_C_12 x_Ones ;;
  x_C_14 <- t_mxm TyD noacc (mkSr qplus qtimes TyD) (MVal x_Ones) REPLACE x_C_13 (Mat x_A) (Mat
    x_Identity) ;;
  x_q_6 <- meq x_C_14 x_A ;;
  _ <- check x_q_6 ;;
  x_C_15 <- lil_assign x_C_14 x_Ones ;;
  x_C_16 <- t_mxm TyD noacc (mkSr qplus qtimes TyD) (MVal x_MLower) REPLACE x_C_15 (Mat x_Ones) (Mat
    x_Identity) ;;
  x_q_7 <- meq x_C_16 x_MLower ;;
  _ <- check x_q_7 ;;
  x_C_17 <- lil_assign x_C_16 x_Ones ;;
  x_C_18 <- t_mxm TyD noacc (mkSr qplus qtimes TyD) (MVal x_MNotLower) REPLACE x_C_17 (Mat x_Ones)
    (Mat x_Identity) ;;
  x_q_8 <- meq x_C_18 x_MNotLower ;;
  _ <- check x_q_8 ;;
  Ok tt) = Ok tt.
Proof. vm_compute. reflexivity. Qed.

(** test_mxm_AB.cpp:711-789, optimized_sequential platform *)
Example test_mxm_Mask_NoAccum_AB_opt :
 (x_A <- mdense0 TyD d_A_sparse_3x3 0%Q ;;
  x_Identity <- mdense0 TyD d_Identity_3x3 0%Q ;;
  x_Empty <- mnew 3 3 ;;
  x_Ones <- mdense0 TyD d_Ones_3x3 0%Q ;;
  x_C <- mnew 3 3 ;;
  x_MLower <- mdense0 TyD d_Lower_3x3 0%Q ;;
  x_MNotLower <- mdense0 TyD d_NotLower_3x3 0%Q ;;
  x_AFilled <- mdense0 TyD [[12; 7; 1]; [1; (-5); 1]; [7; 1; 9]]%Q 0%Q ;;
  x_C_1 <- lil_assign x_C x_Ones ;;
  x_C_2 <- t_opt_mxm TyD noacc TyD (mkSr qplus qtimes TyD) (MVal (Other x_Empty)) MERGE x_C_1 (OMat
    (Other x_A)) (OMat (Other x_Identity)) ;;
  x_q <- meq x_C_2 x_Ones ;;
  _ <- check x_q ;;
  x_C_3 <- lil_assign x_C_2 x_Ones ;;
  x_C_4 <- t_opt_mxm TyD noacc TyD (mkSr qplus qtimes TyD) (MVal (Other x_Ones)) MERGE x_C_3 (OMat
    (Other x_A)) (OMat (Other x_Identity)) ;;
  x_q_1 <- meq x_C_4 x_A ;;
  _ <- check x_q_1 ;;
  x_C_5 <- lil_assign x_C_4 x_Ones ;;
  x_C_6 <- t_opt_mxm TyD noacc TyD (mkSr qplus qtimes TyD) (MVal (Other x_A)) MERGE x_C_5 (OMat
    (Other x_A)) (OMat (Other x_Identity)) ;;
  x_q_2 <- meq x_C_6 x_AFilled ;;
  _ <- check x_q_2 ;;
  x_C_7 <- lil_assign x_C_6 x_Ones ;;
  x_C_8 <- t_opt_mxm TyD noacc TyD (mkSr qplus qtimes TyD) (MVal (Other x_MLower)) MERGE x_C_7 (OMat
    (Other x_Ones)) (OMat (Other x_Identity)) ;;
  x_q_3 <- meq x_C_8 x_Ones ;;
  _ <- check x_q_3 ;;
  x_C_9 <- lil_assign x_C_8 x_Ones ;;
  x_C_10 <- t_opt_mxm TyD noacc TyD (mkSr qplus qtimes TyD) (MVal (Other x_MNotLower)) MERGE x_C_9
    (OMat (Other x_Ones)) (OMat (Other x_Identity)) ;;
  x_q_4 <- meq x_C_10 x_Ones ;;
  _ <- check x_q_4 ;;
  x_C_11 <- lil_assign x_C_10 x_Ones ;;
  x_C_12 <- t_opt_mxm TyD noacc TyD (mkSr qplus qtimes TyD) (MVal (Other x_Empty)) REPLACE x_C_11
    (OMat (Other x_A)) (OMat (Other x_Identity)) ;;
  x_q_5 <- meq x_C_12 x_Empty ;;
  _ <- check x_q_5 ;;
  x_C_13 <- lil_assign x_C_12 x_Ones ;;
  x_C_14 <- t_opt_mxm TyD noacc TyD (mkSr qplus qtimes TyD) (MVal (Other x_Ones)) REPLACE x_C_13
    (OMat (Other x_A)) (OMat (Other x_Identity)) ;;
  x_q_6 <- meq x_C_14 x_A ;;
  _ <- check x_q_6 ;;
  x_C_15 <- lil_assign x_C_14 x_Ones ;;
  x_C_16 <- t_opt_mxm TyD noacc TyD (mkSr qplus qtimes TyD) (MVal (Other x_MLower)) REPLACE x_C_15
    (OMat (Other x_Ones)) (OMat (Other x_Identity)) ;;
  x_q_7 <- meq x_C_16 x_MLower ;;
  _ <- check x_q_7 ;;
  x_C_17 <- lil_assign x_C_16 x_Ones ;;
  x_C_18 <- t_opt_mxm TyD noacc TyD (mkSr qplus qtimes TyD) (MVal (Other x_MNotLower)) REPLACE
    x_C_17 (OMat (Other x_Ones)) (OMat (Other x_Identity)) ;;
  x_q_8 <- meq x_C_18 x_MNotLower ;;
  _ <- check x_q_8 ;;
  Ok tt) = Ok tt.
Proof. vm_compute. reflexivity. Qed.

(** test_mxm_AB.cpp:792-841 *)
Example test_mxm_Mask_NoAccum_ABM_empty :
 (x_Empty <- mnew 3 3 ;;
  x_Ones <- mdense0 TyD d_Ones_3x3 0%Q ;;
  x_C <- mnew 3 3 ;;
  x_M <- mdense0 TyB d_LowerBool_3x3 0%Q ;;
  x_mUpper <- mdense0 TyD d_NotLower_3x3 0%Q ;;
  x_C_1 <- lil_assign x_C x_Ones ;;
  x_C_2 <- t_mxm TyD noacc (mkSr qplus qtimes TyD) (MVal x_M) MERGE x_C_1 (Mat x_Empty) (Mat x_Ones)
    ;;
  x_q <- meq x_C_2 x_mUpper ;;
  _ <- check x_q ;;
  x_C_3 <- lil_assign x_C_2 x_Ones ;;
  x_C_4 <- t_mxm TyD noacc (mkSr qplus qtimes TyD) (MVal x_M) MERGE x_C_3 (Mat x_Ones) (Mat x_Empty)
    ;;
  x_q_1 <- meq x_C_4 x_mUpper ;;
  _ <- check x_q_1 ;;
  x_C_5 <- lil_assign x_C_4 x_Ones ;;
  x_C_6 <- t_mxm TyD noacc (mkSr qplus qtimes TyD) (MVal x_Empty) MERGE x_C_5 (Mat x_Ones) (Mat
    x_Empty) ;;
  x_q_2 <- meq x_C_6 x_Ones ;;
  _ <- check x_q_2 ;;
  x_C_7 <- lil_assign x_C_6 x_Ones ;;
  x_C_8 <- t_mxm TyD noacc (mkSr qplus qtimes TyD) (MVal x_M) REPLACE x_C_7 (Mat x_Empty) (Mat
    x_Ones) ;;
  x_q_3 <- meq x_C_8 x_Empty ;;
  _ <- check x_q_3 ;;
  x_C_9 <- lil_assign x_C_8 x_Ones ;;
  x_C_10 <- t_mxm TyD noacc (mkSr qplus qtimes TyD) (MVal x_M) REPLACE x_C_9 (Mat x_Ones) (Mat
    x_Empty) ;;
  x_q_4 <- meq x_C_10 x_Empty ;;
  _ <- check x_q_4 ;;
  x_C_11 <- lil_assign x_C_10 x_Ones ;;
  x_C_12 <- t_mxm TyD noacc (mkSr qplus qtimes TyD) (MVal x_Empty) REPLACE x_C_11 (Mat x_Ones) (Mat
    x_Empty) ;;
  x_q_5 <- meq x_C_12 x_Empty ;;
  _ <- check x_q_5 ;;
  Ok tt) = Ok tt.
Proof. vm_compute. reflexivity. Qed.

(** test_mxm_AB.cpp:792-841, optimized_sequential platform *)
Example test_mxm_Mask_NoAccum_ABM_empty_opt :
 (x_Empty <- mnew 3 3 ;;
  x_Ones <- mdense0 TyD d_Ones_3x3 0%Q ;;
  x_C <- mnew 3 3 ;;
  x_M <- mdense0 TyB d_LowerBool_3x3 0%Q ;;
  x_mUpper <- mdense0 TyD d_NotLower_3x3 0%Q ;;
  x_C_1 <- lil_assign x_C x_Ones ;;
  x_C_2 <- t_opt_mxm TyD noacc TyD (mkSr qplus qtimes TyD) (MVal (Other x_M)) MERGE x_C_1 (OMat
    (Other x_Empty)) (OMat (Other x_Ones)) ;;
  x_q <- meq x_C_2 x_mUpper ;;
  _ <- check x_q ;;
  x_C_3 <- lil_assign x_C_2 x_Ones ;;
  x_C_4 <- t_opt_mxm TyD noacc TyD (mkSr qplus qtimes TyD) (MVal (Other x_M)) MERGE x_C_3 (OMat
    (Other x_Ones)) (OMat (Other x_Empty)) ;;
  x_q_1 <- meq x_C_4 x_mUpper ;;
  _ <- check x_q_1 ;;
  x_C_5 <- lil_assign x_C_4 x_Ones ;;
  x_C_6 <- t_opt_mxm TyD noacc TyD (mkSr qplus qtimes TyD) (MVal (Other x_Empty)) MERGE x_C_5 (OMat
    (Other x_Ones)) (OMat (Other x_Empty)) ;;
  x_q_2 <- meq x_C_6 x_Ones ;;
  _ <- check x_q_2 ;;
  x_C_7 <- lil_assign x_C_6 x_Ones ;;
  x_C_8 <- t_opt_mxm TyD noacc TyD (mkSr qplus qtimes TyD) (MVal (Other x_M)) REPLACE x_C_7 (OMat
    (Other x_Empty)) (OMat (Other x_Ones)) ;;
  x_q_3 <- meq x_C_8 x_Empty ;;
  _ <- check x_q_3 ;;
  x_C_9 <- lil_assign x_C_8 x_Ones ;;
  x_C_10 <- t_opt_mxm TyD noacc TyD (mkSr qplus qtimes TyD) (MVal (Other x_M)) REPLACE x_C_9 (OMat
    (Other x_Ones)) (OMat (Other x_Empty)) ;;
  x_q_4 <- meq x_C_10 x_Empty ;;
  _ <- check x_q_4 ;;
  x_C_11 <- lil_assign x_C_10 x_Ones ;;
  x_C_12 <- t_opt_mxm TyD noacc TyD (mkSr qplus qtimes TyD) (MVal (Other x_Empty)) REPLACE x_C_11
    (OMat (Other x_Ones)) (OMat (Other x_Empty)) ;;
  x_q_5 <- meq x_C_12 x_Empty ;;
  _ <- check x_q_5 ;;
  Ok tt) = Ok tt.
Proof. vm_compute. reflexivity. Qed.

(** test_mxm_AB.cpp:844-877 *)
Example test_mxm_Mask_NoAccum_AB_Merge_full_mask :
 (x_A <- mnew 3 3 ;;
  x_A_1 <- mbuild TyD qsecond x_A [0; 0; 0; 1; 1; 1; 2; 2; 2] [0; 1; 2; 0; 1; 2; 0; 1; 2] [12; 7; 3;
    4; 5; 6; 7; 8; 9]%Q ;;
  x_B <- mnew 3 4 ;;
  x_B_1 <- mbuild TyD qsecond x_B [0; 0; 0; 0; 1; 1; 1; 2; 2; 2; 2] [0; 1; 2; 3; 0; 1; 2; 0; 1; 2;
    3] [5; 8; 1; 2; 6; 7; 3; 4; 5; 9; 1]%Q ;;
  x_result <- mnew 3 4 ;;
  x_answer <- mnew 3 4 ;;
  x_answer_1 <- mbuild TyD qsecond x_answer [0; 0; 0; 0; 1; 1; 1; 1; 2; 2; 2; 2] [0; 1; 2; 3; 0; 1;
    2; 3; 0; 1; 2; 3] [114; 160; 60; 27; 74; 97; 73; 14; 119; 157; 112; 23]%Q ;;
  x_mask <- mnew 3 4 ;;
  x_mask_1 <- mbuild (TyU 32) qsecond x_mask [0; 0; 0; 0; 1; 1; 1; 1; 2; 2; 2; 2] [0; 1; 2; 3; 0; 1;
    2; 3; 0; 1; 2; 3] [1; 1; 1; 1; 1; 1; 1; 1; 1; 1; 1; 1]%Q ;;
  x_result_1 <- t_mxm TyD noacc (mkSr qplus qtimes TyD) (MVal x_mask_1) MERGE x_result (Mat x_A_1)
    (Mat x_B_1) ;;
  x_q <- meq x_result_1 x_answer_1 ;;
  _ <- check x_q ;;
  Ok tt) = Ok tt.
Proof. vm_compute. reflexivity. Qed.

(** test_mxm_AB.cpp:844-877, optimized_sequential platform *)
Example test_mxm_Mask_NoAccum_AB_Merge_full_mask_opt :
 (x_A <- mnew 3 3 ;;
  x_A_1 <- mbuild TyD qsecond x_A [0; 0; 0; 1; 1; 1; 2; 2; 2] [0; 1; 2; 0; 1; 2; 0; 1; 2] [12; 7; 3;
    4; 5; 6; 7; 8; 9]%Q ;;
  x_B <- mnew 3 4 ;;
  x_B_1 <- mbuild TyD qsecond x_B [0; 0; 0; 0; 1; 1; 1; 2; 2; 2; 2] [0; 1; 2; 3; 0; 1; 2; 0; 1; 2;
    3] [5; 8; 1; 2; 6; 7; 3; 4; 5; 9; 1]%Q ;;
  x_result <- mnew 3 4 ;;
  x_answer <- mnew 3 4 ;;
  x_answer_1 <- mbuild TyD qsecond x_answer [0; 0; 0; 0; 1; 1; 1; 1; 2; 2; 2; 2] [0; 1; 2; 3; 0; 1;
    2; 3; 0; 1; 2; 3] [114; 160; 60; 27; 74; 97; 73; 14; 119; 157; 112; 23]%Q ;;
  x_mask <- mnew 3 4 ;;
  x_mask_1 <- mbuild (TyU 32) qsecond x_mask [0; 0; 0; 0; 1; 1; 1; 1; 2; 2; 2; 2] [0; 1; 2; 3; 0; 1;
    2; 3; 0; 1; 2; 3] [1; 1; 1; 1; 1; 1; 1; 1; 1; 1; 1; 1]%Q ;;
  x_result_1 <- t_opt_mxm TyD noacc TyD (mkSr qplus qtimes TyD) (MVal (Other x_mask_1)) MERGE
    x_result (OMat (Other x_A_1)) (OMat (Other x_B_1)) ;;
  x_q <- meq x_result_1 x_answer_1 ;;
  _ <- check x_q ;;
  Ok tt) = Ok tt.
Proof. vm_compute. reflexivity. Qed.

(** test_mxm_AB.cpp:881-914 *)
Example test_mxm_Mask_NoAccum_AB_mask_not_full :
 (x_A <- mnew 3 3 ;;
  x_A_1 <- mbuild TyD qsecond x_A [0; 0; 0; 1; 1; 1; 2; 2; 2] [0; 1; 2; 0; 1; 2; 0; 1; 2] [12; 7; 3;
    4; 5; 6; 7; 8; 9]%Q ;;
  x_B <- mnew 3 4 ;;
  x_B_1 <- mbuild TyD qsecond x_B [0; 0; 0; 0; 1; 1; 1; 2; 2; 2; 2] [0; 1; 2; 3; 0; 1; 2; 0; 1; 2;
    3] [5; 8; 1; 2; 6; 7; 3; 4; 5; 9; 1]%Q ;;
  x_result <- mnew 3 4 ;;
  x_answer <- mnew 3 4 ;;
  x_answer_1 <- mbuild TyD qsecond x_answer [0; 0; 0; 0; 1; 1; 1; 1; 2; 2; 2] [0; 1; 2; 3; 0; 1; 2;
    3; 0; 1; 2] [114; 160; 60; 27; 74; 97; 73; 14; 119; 157; 112]%Q ;;
  x_mask <- mnew 3 4 ;;
  x_mask_1 <- mbuild (TyU 32) qsecond x_mask [0; 0; 0; 0; 1; 1; 1; 1; 2; 2; 2] [0; 1; 2; 3; 0; 1; 2;
    3; 0; 1; 2] [1; 1; 1; 1; 1; 1; 1; 1; 1; 1; 1]%Q ;;
  x_result_1 <- t_mxm TyD noacc (mkSr qplus qtimes TyD) (MVal x_mask_1) MERGE x_result (Mat x_A_1)
    (Mat x_B_1) ;;
  x_q <- meq x_result_1 x_answer_1 ;;
  _ <- check x_q ;;
  Ok tt) = Ok tt.
Proof. vm_compute. reflexivity. Qed.

(** test_mxm_AB.cpp:881-914, optimized_sequential platform *)
Example test_mxm_Mask_NoAccum_AB_mask_not_full_opt :
 (x_A <- mnew 3 3 ;;
  x_A_1 <- mbuild TyD qsecond x_A [0; 0; 0; 1; 1; 1; 2; 2; 2] [0; 1; 2; 0; 1; 2; 0; 1; 2] [12; 7; 3;
    4; 5; 6; 7; 8; 9]%Q ;;
  x_B <- mnew 3 4 ;;
  x_B_1 <- mbuild TyD qsecond x_B [0; 0; 0; 0; 1; 1; 1; 2; 2; 2; 2] [0; 1; 2; 3; 0; 1; 2; 0; 1; 2;
    3] [5; 8; 1; 2; 6; 7; 3; 4; 5; 9; 1]%Q ;;
  x_result <- mnew 3 4 ;;
  x_answer <- mnew 3 4 ;;
  x_answer_1 <- mbuild TyD qsecond x_answer [0; 0; 0; 0; 1; 1; 1; 1; 2; 2; 2] [0; 1; 2; 3; 0; 1; 2;
    3; 0; 1; 2] [114; 160; 60; 27; 74; 97; 73; 14; 119; 157; 112]%Q ;;
  x_mask <- mnew 3 4 ;;
  x_mask_1 <- mbuild (TyU 32) qsecond x_mask [0; 0; 0; 0; 1; 1; 1; 1; 2; 2; 2] [0; 1; 2; 3; 0; 1; 2;
    3; 0; 1; 2] [1; 1; 1; 1; 1; 1; 1; 1; 1; 1; 1]%Q ;;
  x_result_1 <- t_opt_mxm TyD noacc TyD (mkSr qplus qtimes TyD) (MVal (Other x_mask_1)) MERGE
    x_result (OMat (Other x_A_1)) (OMat (Other x_B_1)) ;;
  x_q <- meq x_result_1 x_answer_1 ;;
  _ <- check x_q ;;
  Ok tt) = Ok tt.
Proof. vm_compute. reflexivity. Qed.

(** test_mxm_AB.cpp:917-938 *)
Example test_mxm_Mask_NoAccum_AB_Merge_Cones_Mlower_stored_zero :
 (x_A <- mdense0 TyD d_A_dense_3x3 0%Q ;;
  x_B <- mdense0 TyD d_B_dense_3x4 0%Q ;;
  x_M <- mdense0 TyD d_Lower_3x4 0%Q ;;
  x_M_1 <- lil_setElement x_M 0 1 (cast TyD 0%Q) ;;
  _ <- check (Qeq_bool (inject_Z (nvals x_M_1)) 7%Q) ;;
  x_result <- mdense0 TyD d_Ones_3x4 0%Q ;;
  x_answer <- mdense0 TyD [[114; 1; 1; 1]; [74; 97; 1; 1]; [119; 157; 112; 1]]%Q 0%Q ;;
  x_result_1 <- t_mxm TyD noacc (mkSr qplus qtimes TyD) (MVal x_M_1) MERGE x_result (Mat x_A) (Mat
    x_B) ;;
  _ <- check (Qeq_bool (inject_Z (nvals x_result_1)) 12%Q) ;;
  x_q <- meq x_result_1 x_answer ;;
  _ <- check x_q ;;
  Ok tt) = Ok tt.
Proof. vm_compute. reflexivity. Qed.

(** test_mxm_AB.cpp:917-938, optimized_sequential platform *)
Example test_mxm_Mask_NoAccum_AB_Merge_Cones_Mlower_stored_zero_opt :
 (x_A <- mdense0 TyD d_A_dense_3x3 0%Q ;;
  x_B <- mdense0 TyD d_B_dense_3x4 0%Q ;;
  x_M <- mdense0 TyD d_Lower_3x4 0%Q ;;
  x_M_1 <- lil_setElement x_M 0 1 (cast TyD 0%Q) ;;
  _ <- check (Qeq_bool (inject_Z (nvals x_M_1)) 7%Q) ;;
  x_result <- mdense0 TyD d_Ones_3x4 0%Q ;;
  x_answer <- mdense0 TyD [[114; 1; 1; 1]; [74; 97; 1; 1]; [119; 157; 112; 1]]%Q 0%Q ;;
  x_result_1 <- t_opt_mxm TyD noacc TyD (mkSr qplus qtimes TyD) (MVal (Other x_M_1)) MERGE x_result
    (OMat (Other x_A)) (OMat (Other x_B)) ;;
  _ <- check (Qeq_bool (inject_Z (nvals x_result_1)) 12%Q) ;;
  x_q <- meq x_result_1 x_answer ;;
  _ <- check x_q ;;
  Ok tt) = Ok tt.
Proof. vm_compute. reflexivity. Qed.

(** test_mxm_AB.cpp:941-982 *)
Example test_mxm_Mask_NoAccum_AB_emptyRowA_emptyColB :
 (x_A <- mdense0 TyD [[8; 1; 6]; [0; 0; 0]; [4; 9; 2]]%Q 0%Q ;;
  x_B <- mdense0 TyD [[0; 0; 0; 1]; [1; 0; 1; 1]; [0; 0; 1; 1]]%Q 0%Q ;;
  x_Lower <- mdense0 TyD d_Lower_3x4 0%Q ;;
  x_Ones <- mdense0 TyD d_Ones_3x4 0%Q ;;
  x_C <- mnew 3 4 ;;
  x_answer <- mdense0 TyD [[1; 0; 0; 0]; [0; 0; 0; 0]; [9; 0; 11; 0]]%Q 0%Q ;;
  x_C_1 <- lil_assign x_C x_Ones ;;
  x_C_2 <- t_mxm TyD noacc (mkSr qplus qtimes TyD) (MVal x_Lower) REPLACE x_C_1 (Mat x_A) (Mat x_B)
    ;;
  x_q <- meq x_C_2 x_answer ;;
  _ <- check x_q ;;
  x_answer2 <- mdense0 TyD [[1; 1; 1; 1]; [0; 0; 1; 1]; [9; 0; 11; 1]]%Q 0%Q ;;
  x_C_3 <- lil_assign x_C_2 x_Ones ;;
  x_C_4 <- t_mxm TyD noacc (mkSr qplus qtimes TyD) (MVal x_Lower) MERGE x_C_3 (Mat x_A) (Mat x_B) ;;
  x_q_1 <- meq x_C_4 x_answer2 ;;
  _ <- check x_q_1 ;;
  Ok tt) = Ok tt.
Proof. vm_compute. reflexivity. Qed.

(** test_mxm_AB.cpp:941-982, optimized_sequential platform *)
Example test_mxm_Mask_NoAccum_AB_emptyRowA_emptyColB_opt :
 (x_A <- mdense0 TyD [[8; 1; 6]; [0; 0; 0]; [4; 9; 2]]%Q 0%Q ;;
  x_B <- mdense0 TyD [[0; 0; 0; 1]; [1; 0; 1; 1]; [0; 0; 1; 1]]%Q 0%Q ;;
  x_Lower <- mdense0 TyD d_Lower_3x4 0%Q ;;
  x_Ones <- mdense0 TyD d_Ones_3x4 0%Q ;;
  x_C <- mnew 3 4 ;;
  x_answer <- mdense0 TyD [[1; 0; 0; 0]; [0; 0; 0; 0]; [9; 0; 11; 0]]%Q 0%Q ;;
  x_C_1 <- lil_assign x_C x_Ones ;;
  x_C_2 <- t_opt_mxm TyD noacc TyD (mkSr qplus qtimes TyD) (MVal (Other x_Lower)) REPLACE x_C_1
    (OMat (Other x_A)) (OMat (Other x_B)) ;;
  x_q <- meq x_C_2 x_answer ;;
  _ <- check x_q ;;
  x_answer2 <- mdense0 TyD [[1; 1; 1; 1]; [0; 0; 1; 1]; [9; 0; 11; 1]]%Q 0%Q ;;
  x_C_3 <- lil_assign x_C_2 x_Ones ;;
  x_C_4 <- t_opt_mxm TyD noacc TyD (mkSr qplus qtimes TyD) (MVal (Other x_Lower)) MERGE x_C_3 (OMat
    (Other x_A)) (OMat (Other x_B)) ;;
  x_q_1 <- meq x_C_4 x_answer2 ;;
  _ <- check x_q_1 ;;
  Ok tt) = Ok tt.
Proof. vm_compute. reflexivity. Qed.

(** test_mxm_AB.cpp:985-1027 *)
Example test_mxm_Mask_NoAccum_AB_emptyColA_emptyRowB :
 (x_A <- mdense0 TyD [[8; 0; 6]; [1; 0; 9]; [4; 0; 2]]%Q 0%Q ;;
  x_B <- mdense0 TyD [[0; 1; 0; 1]; [1; 0; 1; 1]; [0; 0; 0; 0]]%Q 0%Q ;;
  x_Lower <- mdense0 TyD d_Lower_3x4 0%Q ;;
  x_Ones <- mdense0 TyD d_Ones_3x4 0%Q ;;
  x_C <- mnew 3 4 ;;
  x_answer <- mdense0 TyD [[0; 0; 0; 0]; [0; 1; 0; 0]; [0; 4; 0; 0]]%Q 0%Q ;;
  x_C_1 <- lil_assign x_C x_Ones ;;
  x_C_2 <- t_mxm TyD noacc (mkSr qplus qtimes TyD) (MVal x_Lower) REPLACE x_C_1 (Mat x_A) (Mat x_B)
    ;;
  x_q <- meq x_C_2 x_answer ;;
  _ <- check x_q ;;
  x_answer2 <- mdense0 TyD [[0; 1; 1; 1]; [0; 1; 1; 1]; [0; 4; 0; 1]]%Q 0%Q ;;
  x_C_3 <- lil_assign x_C_2 x_Ones ;;
  x_C_4 <- t_mxm TyD noacc (mkSr qplus qtimes TyD) (MVal x_Lower) MERGE x_C_3 (Mat x_A) (Mat x_B) ;;
  x_q_1 <- meq x_C_4 x_answer2 ;;
  _ <- check x_q_1 ;;
  Ok tt) = Ok tt.
Proof. vm_compute. reflexivity. Qed.

(** test_mxm_AB.cpp:985-1027, optimized_sequential platform *)
Example test_mxm_Mask_NoAccum_AB_emptyColA_emptyRowB_opt :
 (x_A <- mdense0 TyD [[8; 0; 6]; [1; 0; 9]; [4; 0; 2]]%Q 0%Q ;;
  x_B <- mdense0 TyD [[0; 1; 0; 1]; [1; 0; 1; 1]; [0; 0; 0; 0]]%Q 0%Q ;;
  x_Lower <- mdense0 TyD d_Lower_3x4 0%Q ;;
  x_Ones <- mdense0 TyD d_Ones_3x4 0%Q ;;
  x_C <- mnew 3 4 ;;
  x_answer <- mdense0 TyD [[0; 0; 0; 0]; [0; 1; 0; 0]; [0; 4; 0; 0]]%Q 0%Q ;;
  x_C_1 <- lil_assign x_C x_Ones ;;
  x_C_2 <- t_opt_mxm TyD noacc TyD (mkSr qplus qtimes TyD) (MVal (Other x_Lower)) REPLACE x_C_1
    (OMat (Other x_A)) (OMat (Other x_B)) ;;
  x_q <- meq x_C_2 x_answer ;;
  _ <- check x_q ;;
  x_answer2 <- mdense0 TyD [[0; 1; 1; 1]; [0; 1; 1; 1]; [0; 4; 0; 1]]%Q 0%Q ;;
  x_C_3 <- lil_assign x_C_2 x_Ones ;;
  x_C_4 <- t_opt_mxm TyD noacc TyD (mkSr qplus qtimes TyD) (MVal (Other x_Lower)) MERGE x_C_3 (OMat
    (Other x_A)) (OMat (Other x_B)) ;;
  x_q_1 <- meq x_C_4 x_answer2 ;;
  _ <- check x_q_1 ;;
  Ok tt) = Ok tt.
Proof. vm_compute. reflexivity. Qed.

(** test_mxm_AB.cpp:1030-1072 *)
Example test_mxm_Mask_NoAccum_AB_emptyRowM :
 (x_A <- mdense0 TyD [[8; 1; 6]; [0; 0; 0]; [4; 9; 2]]%Q 0%Q ;;
  x_B <- mdense0 TyD [[0; 0; 0]; [1; 0; 1]; [0; 0; 1]]%Q 0%Q ;;
  x_NotLower <- mdense0 TyD d_NotLower_3x3 0%Q ;;
  x_Ones <- mdense0 TyD d_Ones_3x3 0%Q ;;
  x_C <- mnew 3 3 ;;
  x_answer <- mdense0 TyD [[0; 0; 7]; [0; 0; 0]; [0; 0; 0]]%Q 0%Q ;;
  x_C_1 <- lil_assign x_C x_Ones ;;
  x_C_2 <- t_mxm TyD noacc (mkSr qplus qtimes TyD) (MVal x_NotLower) REPLACE x_C_1 (Mat x_A) (Mat
    x_B) ;;
  x_q <- meq x_C_2 x_answer ;;
  _ <- check x_q ;;
  x_answer2 <- mdense0 TyD [[1; 0; 7]; [1; 1; 0]; [1; 1; 1]]%Q 0%Q ;;
  x_C_3 <- lil_assign x_C_2 x_Ones ;;
  x_C_4 <- t_mxm TyD noacc (mkSr qplus qtimes TyD) (MVal x_NotLower) MERGE x_C_3 (Mat x_A) (Mat x_B)
    ;;
  x_q_1 <- meq x_C_4 x_answer2 ;;
  _ <- check x_q_1 ;;
  Ok tt) = Ok tt.
Proof. vm_compute. reflexivity. Qed.

(** test_mxm_AB.cpp:1030-1072, optimized_sequential platform *)
Example test_mxm_Mask_NoAccum_AB_emptyRowM_opt :
 (x_A <- mdense0 TyD [[8; 1; 6]; [0; 0; 0]; [4; 9; 2]]%Q 0%Q ;;
  x_B <- mdense0 TyD [[0; 0; 0]; [1; 0; 1]; [0; 0; 1]]%Q 0%Q ;;
  x_NotLower <- mdense0 TyD d_NotLower_3x3 0%Q ;;
  x_Ones <- mdense0 TyD d_Ones_3x3 0%Q ;;
  x_C <- mnew 3 3 ;;
  x_answer <- mdense0 TyD [[0; 0; 7]; [0; 0; 0]; [0; 0; 0]]%Q 0%Q ;;
  x_C_1 <- lil_assign x_C x_Ones ;;
  x_C_2 <- t_opt_mxm TyD noacc TyD (mkSr qplus qtimes TyD) (MVal (Other x_NotLower)) REPLACE x_C_1
    (OMat (Other x_A)) (OMat (Other x_B)) ;;
  x_q <- meq x_C_2 x_answer ;;
  _ <- check x_q ;;
  x_answer2 <- mdense0 TyD [[1; 0; 7]; [1; 1; 0]; [1; 1; 1]]%Q 0%Q ;;
  x_C_3 <- lil_assign x_C_2 x_Ones ;;
  x_C_4 <- t_opt_mxm TyD noacc TyD (mkSr qplus qtimes TyD) (MVal (Other x_NotLower)) MERGE x_C_3
    (OMat (Other x_A)) (OMat (Other x_B)) ;;
  x_q_1 <- meq x_C_4 x_answer2 ;;
  _ <- check x_q_1 ;;
  Ok tt) = Ok tt.
Proof. vm_compute. reflexivity. Qed.

(** test_mxm_AB.cpp:1075-1117 *)
Example test_mxm_Mask_NoAccum_AB_ABdup :
 (x_mat <- mdense0 TyD [[1; 1; 0; 0]; [1; 2; 2; 0]; [0; 2; 3; 3]; [0; 0; 3; 4]]%Q 0%Q ;;
  x_Lower <- mdense0 TyD d_Lower_4x4 0%Q ;;
  x_Ones <- mdense0 TyD d_Ones_4x4 0%Q ;;
  x_C <- mnew 4 4 ;;
  x_answer <- mdense0 TyD [[2; 1; 1; 1]; [3; 9; 1; 1]; [2; 10; 22; 1]; [0; 6; 21; 25]]%Q 0%Q ;;
  x_C_1 <- lil_assign x_C x_Ones ;;
  x_C_2 <- t_mxm TyD noacc (mkSr qplus qtimes TyD) (MVal x_Lower) MERGE x_C_1 (Mat x_mat) (Mat
    x_mat) ;;
  x_q <- meq x_C_2 x_answer ;;
  _ <- check x_q ;;
  x_answer2 <- mdense0 TyD [[2; 0; 0; 0]; [3; 9; 0; 0]; [2; 10; 22; 0]; [0; 6; 21; 25]]%Q 0%Q ;;
  x_C_3 <- lil_assign x_C_2 x_Ones ;;
  x_C_4 <- t_mxm TyD noacc (mkSr qplus qtimes TyD) (MVal x_Lower) REPLACE x_C_3 (Mat x_mat) (Mat
    x_mat) ;;
  x_q_1 <- meq x_C_4 x_answer2 ;;
  _ <- check x_q_1 ;;
  Ok tt) = Ok tt.
Proof. vm_compute. reflexivity. Qed.

(** test_mxm_AB.cpp:1075-1117, optimized_sequential platform *)
Example test_mxm_Mask_NoAccum_AB_ABdup_opt :
 (x_mat <- mdense0 TyD [[1; 1; 0; 0]; [1; 2; 2; 0]; [0; 2; 3; 3]; [0; 0; 3; 4]]%Q 0%Q ;;
  x_Lower <- mdense0 TyD d_Lower_4x4 0%Q ;;
  x_Ones <- mdense0 TyD d_Ones_4x4 0%Q ;;
  x_C <- mnew 4 4 ;;
  x_answer <- mdense0 TyD [[2; 1; 1; 1]; [3; 9; 1; 1]; [2; 10; 22; 1]; [0; 6; 21; 25]]%Q 0%Q ;;
  x_C_1 <- lil_assign x_C x_Ones ;;
  x_C_2 <- t_opt_mxm TyD noacc TyD (mkSr qplus qtimes TyD) (MVal (Other x_Lower)) MERGE x_C_1 (OMat
    (Other x_mat)) (OMat (Other x_mat)) ;;
  x_q <- meq x_C_2 x_answer ;;
  _ <- check x_q ;;
  x_answer2 <- mdense0 TyD [[2; 0; 0; 0]; [3; 9; 0; 0]; [2; 10; 22; 0]; [0; 6; 21; 25]]%Q 0%Q ;;
  x_C_3 <- lil_assign x_C_2 x_Ones ;;
  x_C_4 <- t_opt_mxm TyD noacc TyD (mkSr qplus qtimes TyD) (MVal (Other x_Lower)) REPLACE x_C_3
    (OMat (Other x_mat)) (OMat (Other x_mat)) ;;
  x_q_1 <- meq x_C_4 x_answer2 ;;
  _ <- check x_q_1 ;;
  Ok tt) = Ok tt.
Proof. vm_compute. reflexivity. Qed.

(** test_mxm_AB.cpp:1120-1162 *)
Example test_mxm_Mask_NoAccum_AB_ACdup :
 (x_mat <- mdense0 TyD [[1; 1; 0; 0]; [1; 2; 2; 0]; [0; 2; 3; 3]; [0; 0; 3; 4]]%Q 0%Q ;;
  x_Lower <- mdense0 TyD d_Lower_4x4 0%Q ;;
  x_Ones <- mdense0 TyD d_Ones_4x4 0%Q ;;
  x_C <- mnew 4 4 ;;
  x_answer <- mdense0 TyD [[2; 1; 0; 0]; [3; 9; 2; 0]; [2; 10; 22; 3]; [0; 6; 21; 25]]%Q 0%Q ;;
  x_C_1 <- lil_assign x_C x_mat ;;
  x_C_2 <- t_mxm TyD noacc (mkSr qplus qtimes TyD) (MVal x_Lower) MERGE x_C_1 (Mat x_C_1) (Mat
    x_mat) ;;
  x_q <- meq x_C_2 x_answer ;;
  _ <- check x_q ;;
  x_answer2 <- mdense0 TyD [[2; 0; 0; 0]; [3; 9; 0; 0]; [2; 10; 22; 0]; [0; 6; 21; 25]]%Q 0%Q ;;
  x_C_3 <- lil_assign x_C_2 x_mat ;;
  x_C_4 <- t_mxm TyD noacc (mkSr qplus qtimes TyD) (MVal x_Lower) REPLACE x_C_3 (Mat x_C_3) (Mat
    x_mat) ;;
  x_q_1 <- meq x_C_4 x_answer2 ;;
  _ <- check x_q_1 ;;
  Ok tt) = Ok tt.
Proof. vm_compute. reflexivity. Qed.

(** test_mxm_AB.cpp:1120-1162, optimized_sequential platform *)
Example test_mxm_Mask_NoAccum_AB_ACdup_opt :
 (x_mat <- mdense0 TyD [[1; 1; 0; 0]; [1; 2; 2; 0]; [0; 2; 3; 3]; [0; 0; 3; 4]]%Q 0%Q ;;
  x_Lower <- mdense0 TyD d_Lower_4x4 0%Q ;;
  x_Ones <- mdense0 TyD d_Ones_4x4 0%Q ;;
  x_C <- mnew 4 4 ;;
  x_answer <- mdense0 TyD [[2; 1; 0; 0]; [3; 9; 2; 0]; [2; 10; 22; 3]; [0; 6; 21; 25]]%Q 0%Q ;;
  x_C_1 <- lil_assign x_C x_mat ;;
  x_C_2 <- t_opt_mxm TyD noacc TyD (mkSr qplus qtimes TyD) (MVal (Other x_Lower)) MERGE x_C_1 (OMat
    (TheOutput (fun x => x))) (OMat (Other x_mat)) ;;
  x_q <- meq x_C_2 x_answer ;;
  _ <- check x_q ;;
  x_answer2 <- mdense0 TyD [[2; 0; 0; 0]; [3; 9; 0; 0]; [2; 10; 22; 0]; [0; 6; 21; 25]]%Q 0%Q ;;
  x_C_3 <- lil_assign x_C_2 x_mat ;;
  x_C_4 <- t_opt_mxm TyD noacc TyD (mkSr qplus qtimes TyD) (MVal (Other x_Lower)) REPLACE x_C_3
    (OMat (TheOutput (fun x => x))) (OMat (Other x_mat)) ;;
  x_q_1 <- meq x_C_4 x_answer2 ;;
  _ <- check x_q_1 ;;
  Ok tt) = Ok tt.
Proof. vm_compute. reflexivity. Qed.

(** test_mxm_AB.cpp:1165-1216 *)
Example test_mxm_Mask_NoAccum_AB_BCdup :
 (x_mat <- mdense0 TyD [[1; 1; 0; 0]; [1; 2; 2; 0]; [0; 2; 3; 3]; [0; 0; 3; 4]]%Q 0%Q ;;
  x_Lower <- mdense0 TyD d_Lower_4x4 0%Q ;;
  x_Ones <- mdense0 TyD d_Ones_4x4 0%Q ;;
  x_C <- mnew 4 4 ;;
  x_answer <- mdense0 TyD [[2; 1; 0; 0]; [3; 9; 2; 0]; [2; 10; 22; 3]; [0; 6; 21; 25]]%Q 0%Q ;;
  x_C_1 <- lil_assign x_C x_mat ;;
  x_C_2 <- t_mxm TyD noacc (mkSr qplus qtimes TyD) (MVal x_Lower) MERGE x_C_1 (Mat x_mat) (Mat
    x_C_1) ;;
  x_q <- meq x_C_2 x_answer ;;
  _ <- check x_q ;;
  x_C_3 <- lil_assign x_C_2 x_mat ;;
  x_C_4 <- t_mxm TyD noacc (mkSr qplus qtimes TyD) (MVal x_Lower) MERGE x_C_3 (Mat x_mat) (Mat
    x_mat) ;;
  x_q_1 <- meq x_C_4 x_answer ;;
  _ <- check x_q_1 ;;
  x_answer2 <- mdense0 TyD [[2; 0; 0; 0]; [3; 9; 0; 0]; [2; 10; 22; 0]; [0; 6; 21; 25]]%Q 0%Q ;;
  x_C_5 <- lil_assign x_C_4 x_mat ;;
  x_C_6 <- t_mxm TyD noacc (mkSr qplus qtimes TyD) (MVal x_Lower) REPLACE x_C_5 (Mat x_mat) (Mat
    x_C_5) ;;
  x_q_2 <- meq x_C_6 x_answer2 ;;
  _ <- check x_q_2 ;;
  Ok tt) = Ok tt.
Proof. vm_compute. reflexivity. Qed.

(** test_mxm_AB.cpp:1165-1216, optimized_sequential platform *)
Example test_mxm_Mask_NoAccum_AB_BCdup_opt :
 (x_mat <- mdense0 TyD [[1; 1; 0; 0]; [1; 2; 2; 0]; [0; 2; 3; 3]; [0; 0; 3; 4]]%Q 0%Q ;;
  x_Lower <- mdense0 TyD d_Lower_4x4 0%Q ;;
  x_Ones <- mdense0 TyD d_Ones_4x4 0%Q ;;
  x_C <- mnew 4 4 ;;
  x_answer <- mdense0 TyD [[2; 1; 0; 0]; [3; 9; 2; 0]; [2; 10; 22; 3]; [0; 6; 21; 25]]%Q 0%Q ;;
  x_C_1 <- lil_assign x_C x_mat ;;
  x_C_2 <- t_opt_mxm TyD noacc TyD (mkSr qplus qtimes TyD) (MVal (Other x_Lower)) MERGE x_C_1 (OMat
    (Other x_mat)) (OMat (TheOutput (fun x => x))) ;;
  x_q <- meq x_C_2 x_answer ;;
  _ <- check x_q ;;
  x_C_3 <- lil_assign x_C_2 x_mat ;;
  x_C_4 <- t_opt_mxm TyD noacc TyD (mkSr qplus qtimes TyD) (MVal (Other x_Lower)) MERGE x_C_3 (OMat
    (Other x_mat)) (OMat (Other x_mat)) ;;
  x_q_1 <- meq x_C_4 x_answer ;;
  _ <- check x_q_1 ;;
  x_answer2 <- mdense0 TyD [[2; 0; 0; 0]; [3; 9; 0; 0]; [2; 10; 22; 0]; [0; 6; 21; 25]]%Q 0%Q ;;
  x_C_5 <- lil_assign x_C_4 x_mat ;;
  x_C_6 <- t_opt_mxm TyD noacc TyD (mkSr qplus qtimes TyD) (MVal (Other x_Lower)) REPLACE x_C_5
    (OMat (Other x_mat)) (OMat (TheOutput (fun x => x))) ;;
  x_q_2 <- meq x_C_6 x_answer2 ;;
  _ <- check x_q_2 ;;
  Ok tt) = Ok tt.
Proof. vm_compute. reflexivity. Qed.

(** test_mxm_AB.cpp:1219-1260 *)
Example test_mxm_Mask_NoAccum_AB_MCdup :
 (x_mat <- mdense0 TyD [[1; 1; 0; 0]; [1; 2; 2; 0]; [0; 2; 3; 3]; [0; 0; 3; 4]]%Q 0%Q ;;
  x_Lower <- mdense0 TyD d_Lower_4x4 0%Q ;;
  x_C <- mnew 4 4 ;;
  x_answer <- mdense0 TyD [[2; 0; 0; 0]; [3; 9; 0; 0]; [2; 10; 22; 0]; [0; 6; 21; 25]]%Q 0%Q ;;
  x_C_1 <- lil_assign x_C x_Lower ;;
  x_C_2 <- t_mxm TyD noacc (mkSr qplus qtimes TyD) (MVal x_C_1) MERGE x_C_1 (Mat x_mat) (Mat x_mat)
    ;;
  x_q <- meq x_C_2 x_answer ;;
  _ <- check x_q ;;
  x_answer2 <- mdense0 TyD [[2; 0; 0; 0]; [3; 9; 0; 0]; [2; 10; 22; 0]; [0; 6; 21; 25]]%Q 0%Q ;;
  x_C_3 <- lil_assign x_C_2 x_Lower ;;
  x_C_4 <- t_mxm TyD noacc (mkSr qplus qtimes TyD) (MVal x_C_3) REPLACE x_C_3 (Mat x_mat) (Mat
    x_mat) ;;
  x_q_1 <- meq x_C_4 x_answer2 ;;
  _ <- check x_q_1 ;;
  Ok tt) = Ok tt.
Proof. vm_compute. reflexivity. Qed.

(** test_mxm_AB.cpp:1219-1260, optimized_sequential platform *)
Example test_mxm_Mask_NoAccum_AB_MCdup_opt :
 (x_mat <- mdense0 TyD [[1; 1; 0; 0]; [1; 2; 2; 0]; [0; 2; 3; 3]; [0; 0; 3; 4]]%Q 0%Q ;;
  x_Lower <- mdense0 TyD d_Lower_4x4 0%Q ;;
  x_C <- mnew 4 4 ;;
  x_answer <- mdense0 TyD [[2; 0; 0; 0]; [3; 9; 0; 0]; [2; 10; 22; 0]; [0; 6; 21; 25]]%Q 0%Q ;;
  x_C_1 <- lil_assign x_C x_Lower ;;
  x_C_2 <- t_opt_mxm TyD noacc TyD (mkSr qplus qtimes TyD) (MVal (TheOutput (fun x => x))) MERGE
    x_C_1 (OMat (Other x_mat)) (OMat (Other x_mat)) ;;
  x_q <- meq x_C_2 x_answer ;;
  _ <- check x_q ;;
  x_answer2 <- mdense0 TyD [[2; 0; 0; 0]; [3; 9; 0; 0]; [2; 10; 22; 0]; [0; 6; 21; 25]]%Q 0%Q ;;
  x_C_3 <- lil_assign x_C_2 x_Lower ;;
  x_C_4 <- t_opt_mxm TyD noacc TyD (mkSr qplus qtimes TyD) (MVal (TheOutput (fun x => x))) REPLACE
    x_C_3 (OMat (Other x_mat)) (OMat (Other x_mat)) ;;
  x_q_1 <- meq x_C_4 x_answer2 ;;
  _ <- check x_q_1 ;;
  Ok tt) = Ok tt.
Proof. vm_compute. reflexivity. Qed.

(** test_mxm_AB.cpp:1267-1375 *)
Example test_mxm_Mask_Accum_AB :
 (x_A <- mdense0 TyD d_A_sparse_3x3 0%Q ;;
  x_Identity <- mdense0 TyD d_Identity_3x3 0%Q ;;
  x_Empty <- mnew 3 3 ;;
  x_Ones <- mdense0 TyD d_Ones_3x3 0%Q ;;
  x_C <- mnew 3 3 ;;
  x_MLower <- mdense0 TyD d_Lower_3x3 0%Q ;;
  x_MNotLower <- mdense0 TyD d_NotLower_3x3 0%Q ;;
  x_AFilled <- mdense0 TyD [[12; 7; 1]; [1; (-5); 1]; [7; 1; 9]]%Q 0%Q ;;
  x_C_1 <- lil_assign x_C x_Ones ;;
  x_C_2 <- t_mxm TyD (acc TyD qplus) (mkSr qplus qtimes TyD) (MVal x_Empty) MERGE x_C_1 (Mat x_A)
    (Mat x_Identity) ;;
  x_q <- meq x_C_2 x_Ones ;;
  _ <- check x_q ;;
  x_C_3 <- lil_assign x_C_2 x_Ones ;;
  x_C_4 <- t_mxm TyD (acc TyD qplus) (mkSr qplus qtimes TyD) (MVal x_A) MERGE x_C_3 (Mat x_A) (Mat
    x_Identity) ;;
  x_t <- mdense0 TyD [[13; 8; 1]; [1; (-4); 1]; [8; 1; 10]]%Q 0%Q ;;
  x_q_1 <- meq x_C_4 x_t ;;
  _ <- check x_q_1 ;;
  x_C_5 <- lil_assign x_C_4 x_Ones ;;
  x_C_6 <- t_mxm TyD (acc TyD qplus) (mkSr qplus qtimes TyD) (MVal x_MLower) MERGE x_C_5 (Mat
    x_Ones) (Mat x_Identity) ;;
  x_t_1 <- mdense0 TyD [[2; 1; 1]; [2; 2; 1]; [2; 2; 2]]%Q 0%Q ;;
  x_q_2 <- meq x_C_6 x_t_1 ;;
  _ <- check x_q_2 ;;
  x_C_7 <- lil_assign x_C_6 x_Ones ;;
  x_C_8 <- t_mxm TyD (acc TyD qplus) (mkSr qplus qtimes TyD) (MVal x_MNotLower) MERGE x_C_7 (Mat
    x_Ones) (Mat x_Identity) ;;
  x_t_2 <- mdense0 TyD [[1; 2; 2]; [1; 1; 2]; [1; 1; 1]]%Q 0%Q ;;
  x_q_3 <- meq x_C_8 x_t_2 ;;
  _ <- check x_q_3 ;;
  x_C_9 <- lil_assign x_C_8 x_Ones ;;
  x_C_10 <- t_mxm TyD (acc TyD qplus) (mkSr qplus qtimes TyD) (MVal x_Empty) REPLACE x_C_9 (Mat x_A)
    (Mat x_Identity) ;;
  x_q_4 <- meq x_C_10 x_Empty ;;
  _ <- check x_q_4 ;;
  x_C_11 <- lil_assign x_C_10 x_Ones ;;
  x_C_12 <- t_mxm TyD (acc TyD qplus) (mkSr qplus qtimes TyD) (MVal x_Ones) REPLACE x_C_11 (Mat x_A)
    (Mat x_Identity) ;;
  x_t_3 <- mdense0 TyD [[13; 8; 1]; [1; (-4); 1]; [8; 1; 10]]%Q 0%Q ;;
  x_q_5 <- meq x_C_12 x_t_3 ;;
  _ <- check x_q_5 ;;
  x_C_13 <- lil_assign x_C_12 x_Ones ;;
  x_C_14 <- t_mxm TyD (acc TyD qplus) (mkSr qplus qtimes TyD) (MVal x_MLower) REPLACE x_C_13 (Mat
    x_Ones) (Mat x_Identity) ;;
  x_t_4 <- mdense0 TyD [[2; 0; 0]; [2; 2; 0]; [2; 2; 2]]%Q 0%Q ;;
  x_q_6 <- meq x_C_14 x_t_4 ;;
  _ <- check x_q_6 ;;
  x_C_15 <- lil_assign x_C_14 x_Ones ;;
  x_C_16 <- t_mxm TyD (acc TyD qplus) (mkSr qplus qtimes TyD) (MVal x_MNotLower) REPLACE x_C_15 (Mat
    x_Ones) (Mat x_Identity) ;;
  x_t_5 <- mdense0 TyD [[0; 2; 2]; [0; 0; 2]; [0; 0; 0]]%Q 0%Q ;;
  x_q_7 <- meq x_C_16 x_t_5 ;;
  _ <- check x_q_7 ;;
  Ok tt) = Ok tt.
Proof. vm_compute. reflexivity. Qed.

(** test_mxm_AB.cpp:1267-1375, optimized_sequential platform *)
Example test_mxm_Mask_Accum_AB_opt :
 (x_A <- mdense0 TyD d_A_sparse_3x3 0%Q ;;
  x_Identity <- mdense0 TyD d_Identity_3x3 0%Q ;;
  x_Empty <- mnew 3 3 ;;
  x_Ones <- mdense0 TyD d_Ones_3x3 0%Q ;;
  x_C <- mnew 3 3 ;;
  x_MLower <- mdense0 TyD d_Lower_3x3 0%Q ;;
  x_MNotLower <- mdense0 TyD d_NotLower_3x3 0%Q ;;
  x_AFilled <- mdense0 TyD [[12; 7; 1]; [1; (-5); 1]; [7; 1; 9]]%Q 0%Q ;;
  x_C_1 <- lil_assign x_C x_Ones ;;
  x_C_2 <- t_opt_mxm TyD (acc TyD qplus) TyD (mkSr qplus qtimes TyD) (MVal (Other x_Empty)) MERGE
    x_C_1 (OMat (Other x_A)) (OMat (Other x_Identity)) ;;
  x_q <- meq x_C_2 x_Ones ;;
  _ <- check x_q ;;
  x_C_3 <- lil_assign x_C_2 x_Ones ;;
  x_C_4 <- t_opt_mxm TyD (acc TyD qplus) TyD (mkSr qplus qtimes TyD) (MVal (Other x_A)) MERGE x_C_3
    (OMat (Other x_A)) (OMat (Other x_Identity)) ;;
  x_t <- mdense0 TyD [[13; 8; 1]; [1; (-4); 1]; [8; 1; 10]]%Q 0%Q ;;
  x_q_1 <- meq x_C_4 x_t ;;
  _ <- check x_q_1 ;;
  x_C_5 <- lil_assign x_C_4 x_Ones ;;
  x_C_6 <- t_opt_mxm TyD (acc TyD qplus) TyD (mkSr qplus qtimes TyD) (MVal (Other x_MLower)) MERGE
    x_C_5 (OMat (Other x_Ones)) (OMat (Other x_Identity)) ;;
  x_t_1 <- mdense0 TyD [[2; 1; 1]; [2; 2; 1]; [2; 2; 2]]%Q 0%Q ;;
  x_q_2 <- meq x_C_6 x_t_1 ;;
  _ <- check x_q_2 ;;
  x_C_7 <- lil_assign x_C_6 x_Ones ;;
  x_C_8 <- t_opt_mxm TyD (acc TyD qplus) TyD (mkSr qplus qtimes TyD) (MVal (Other x_MNotLower))
    MERGE x_C_7 (OMat (Other x_Ones)) (OMat (Other x_Identity)) ;;
  x_t_2 <- mdense0 TyD [[1; 2; 2]; [1; 1; 2]; [1; 1; 1]]%Q 0%Q ;;
  x_q_3 <- meq x_C_8 x_t_2 ;;
  _ <- check x_q_3 ;;
  x_C_9 <- lil_assign x_C_8 x_Ones ;;
  x_C_10 <- t_opt_mxm TyD (acc TyD qplus) TyD (mkSr qplus qtimes TyD) (MVal (Other x_Empty)) REPLACE
    x_C_9 (OMat (Other x_A)) (OMat (Other x_Identity)) ;;
  x_q_4 <- meq x_C_10 x_Empty ;;
  _ <- check x_q_4 ;;
  x_C_11 <- lil_assign x_C_10 x_Ones ;;
  x_C_12 <- t_opt_mxm TyD (acc TyD qplus) TyD (mkSr qplus qtimes TyD) (MVal (Other x_Ones)) REPLACE
    x_C_11 (OMat (Other x_A)) (OMat (Other x_Identity)) ;;
  x_t_3 <- mdense0 TyD [[13; 8; 1]; [1; (-4); 1]; [8; 1; 10]]%Q 0%Q ;;
  x_q_5 <- meq x_C_12 x_t_3 ;;
  _ <- check x_q_5 ;;
  x_C_13 <- lil_assign x_C_12 x_Ones ;;
  x_C_14 <- t_opt_mxm TyD (acc TyD qplus) TyD (mkSr qplus qtimes TyD) (MVal (Other x_MLower))
    REPLACE x_C_13 (OMat (Other x_Ones)) (OMat (Other x_Identity)) ;;
  x_t_4 <- mdense0 TyD [[2; 0; 0]; [2; 2; 0]; [2; 2; 2]]%Q 0%Q ;;
  x_q_6 <- meq x_C_14 x_t_4 ;;
  _ <- check x_q_6 ;;
  x_C_15 <- lil_assign x_C_14 x_Ones ;;
  x_C_16 <- t_opt_mxm TyD (acc TyD qplus) TyD (mkSr qplus qtimes TyD) (MVal (Other x_MNotLower))
    REPLACE x_C_15 (OMat (Other x_Ones)) (OMat (Other x_Identity)) ;;
  x_t_5 <- mdense0 TyD [[0; 2; 2]; [0; 0; 2]; [0; 0; 0]]%Q 0%Q ;;
  x_q_7 <- meq x_C_16 x_t_5 ;;
  _ <- check x_q_7 ;;
  Ok tt) = Ok tt.
Proof. vm_compute. reflexivity. Qed.

(** test_mxm_AB.cpp:1378-1425 *)
Example test_mxm_Mask_Accum_ABMempty :
 (x_Empty <- mnew 3 3 ;;
  x_Ones <- mdense0 TyD d_Ones_3x3 0%Q ;;
  x_C <- mnew 3 3 ;;
  x_M <- mdense0 TyB d_LowerBool_3x3 0%Q ;;
  x_C_1 <- lil_assign x_C x_Ones ;;
  x_C_2 <- t_mxm TyD (acc TyD qplus) (mkSr qplus qtimes TyD) (MVal x_M) MERGE x_C_1 (Mat x_Empty)
    (Mat x_Ones) ;;
  x_q <- meq x_C_2 x_Ones ;;
  _ <- check x_q ;;
  x_C_3 <- lil_assign x_C_2 x_Ones ;;
  x_C_4 <- t_mxm TyD (acc TyD qplus) (mkSr qplus qtimes TyD) (MVal x_M) MERGE x_C_3 (Mat x_Ones)
    (Mat x_Empty) ;;
  x_q_1 <- meq x_C_4 x_Ones ;;
  _ <- check x_q_1 ;;
  x_C_5 <- lil_assign x_C_4 x_Ones ;;
  x_C_6 <- t_mxm TyD (acc TyD qplus) (mkSr qplus qtimes TyD) (MVal x_Empty) MERGE x_C_5 (Mat x_Ones)
    (Mat x_Ones) ;;
  x_q_2 <- meq x_C_6 x_Ones ;;
  _ <- check x_q_2 ;;
  x_C_7 <- lil_assign x_C_6 x_Ones ;;
  x_C_8 <- t_mxm TyD (acc TyD qplus) (mkSr qplus qtimes TyD) (MVal x_M) REPLACE x_C_7 (Mat x_Empty)
    (Mat x_Ones) ;;
  x_t <- mdense0 TyD d_Lower_3x3 0%Q ;;
  x_q_3 <- meq x_C_8 x_t ;;
  _ <- check x_q_3 ;;
  x_C_9 <- lil_assign x_C_8 x_Ones ;;
  x_C_10 <- t_mxm TyD (acc TyD qplus) (mkSr qplus qtimes TyD) (MVal x_M) REPLACE x_C_9 (Mat x_Ones)
    (Mat x_Empty) ;;
  x_t_1 <- mdense0 TyD d_Lower_3x3 0%Q ;;
  x_q_4 <- meq x_C_10 x_t_1 ;;
  _ <- check x_q_4 ;;
  x_C_11 <- lil_assign x_C_10 x_Ones ;;
  x_C_12 <- t_mxm TyD (acc TyD qplus) (mkSr qplus qtimes TyD) (MVal x_Empty) REPLACE x_C_11 (Mat
    x_Ones) (Mat x_Empty) ;;
  x_q_5 <- meq x_C_12 x_Empty ;;
  _ <- check x_q_5 ;;
  Ok tt) = Ok tt.
Proof. vm_compute. reflexivity. Qed.

(** test_mxm_AB.cpp:1378-1425, optimized_sequential platform *)
Example test_mxm_Mask_Accum_ABMempty_opt :
 (x_Empty <- mnew 3 3 ;;
  x_Ones <- mdense0 TyD d_Ones_3x3 0%Q ;;
  x_C <- mnew 3 3 ;;
  x_M <- mdense0 TyB d_LowerBool_3x3 0%Q ;;
  x_C_1 <- lil_assign x_C x_Ones ;;
  x_C_2 <- t_opt_mxm TyD (acc TyD qplus) TyD (mkSr qplus qtimes TyD) (MVal (Other x_M)) MERGE x_C_1
    (OMat (Other x_Empty)) (OMat (Other x_Ones)) ;;
  x_q <- meq x_C_2 x_Ones ;;
  _ <- check x_q ;;
  x_C_3 <- lil_assign x_C_2 x_Ones ;;
  x_C_4 <- t_opt_mxm TyD (acc TyD qplus) TyD (mkSr qplus qtimes TyD) (MVal (Other x_M)) MERGE x_C_3
    (OMat (Other x_Ones)) (OMat (Other x_Empty)) ;;
  x_q_1 <- meq x_C_4 x_Ones ;;
  _ <- check x_q_1 ;;
  x_C_5 <- lil_assign x_C_4 x_Ones ;;
  x_C_6 <- t_opt_mxm TyD (acc TyD qplus) TyD (mkSr qplus qtimes TyD) (MVal (Other x_Empty)) MERGE
    x_C_5 (OMat (Other x_Ones)) (OMat (Other x_Ones)) ;;
  x_q_2 <- meq x_C_6 x_Ones ;;
  _ <- check x_q_2 ;;
  x_C_7 <- lil_assign x_C_6 x_Ones ;;
  x_C_8 <- t_opt_mxm TyD (acc TyD qplus) TyD (mkSr qplus qtimes TyD) (MVal (Other x_M)) REPLACE
    x_C_7 (OMat (Other x_Empty)) (OMat (Other x_Ones)) ;;
  x_t <- mdense0 TyD d_Lower_3x3 0%Q ;;
  x_q_3 <- meq x_C_8 x_t ;;
  _ <- check x_q_3 ;;
  x_C_9 <- lil_assign x_C_8 x_Ones ;;
  x_C_10 <- t_opt_mxm TyD (acc TyD qplus) TyD (mkSr qplus qtimes TyD) (MVal (Other x_M)) REPLACE
    x_C_9 (OMat (Other x_Ones)) (OMat (Other x_Empty)) ;;
  x_t_1 <- mdense0 TyD d_Lower_3x3 0%Q ;;
  x_q_4 <- meq x_C_10 x_t_1 ;;
  _ <- check x_q_4 ;;
  x_C_11 <- lil_assign x_C_10 x_Ones ;;
  x_C_12 <- t_opt_mxm TyD (acc TyD qplus) TyD (mkSr qplus qtimes TyD) (MVal (Other x_Empty)) REPLACE
    x_C_11 (OMat (Other x_Ones)) (OMat (Other x_Empty)) ;;
  x_q_5 <- meq x_C_12 x_Empty ;;
  _ <- check x_q_5 ;;
  Ok tt) = Ok tt.
Proof. vm_compute. reflexivity. Qed.

(** test_mxm_AB.cpp:1428-1469 *)
Example test_mxm_Mask_Accum_AB_emptyRowA_emptyColB :
 (x_A <- mdense0 TyD [[8; 1; 6]; [0; 0; 0]; [4; 9; 2]]%Q 0%Q ;;
  x_B <- mdense0 TyD [[0; 0; 0; 1]; [1; 0; 1; 1]; [0; 0; 1; 1]]%Q 0%Q ;;
  x_Lower <- mdense0 TyD d_Lower_3x4 0%Q ;;
  x_Ones <- mdense0 TyD d_Ones_3x4 0%Q ;;
  x_C <- mnew 3 4 ;;
  x_answer <- mdense0 TyD [[2; 0; 0; 0]; [1; 1; 0; 0]; [10; 1; 12; 0]]%Q 0%Q ;;
  x_C_1 <- lil_assign x_C x_Ones ;;
  x_C_2 <- t_mxm TyD (acc TyD qplus) (mkSr qplus qtimes TyD) (MVal x_Lower) REPLACE x_C_1 (Mat x_A)
    (Mat x_B) ;;
  x_q <- meq x_C_2 x_answer ;;
  _ <- check x_q ;;
  x_answer2 <- mdense0 TyD [[2; 1; 1; 1]; [1; 1; 1; 1]; [10; 1; 12; 1]]%Q 0%Q ;;
  x_C_3 <- lil_assign x_C_2 x_Ones ;;
  x_C_4 <- t_mxm TyD (acc TyD qplus) (mkSr qplus qtimes TyD) (MVal x_Lower) MERGE x_C_3 (Mat x_A)
    (Mat x_B) ;;
  x_q_1 <- meq x_C_4 x_answer2 ;;
  _ <- check x_q_1 ;;
  Ok tt) = Ok tt.
Proof. vm_compute. reflexivity. Qed.

(** test_mxm_AB.cpp:1428-1469, optimized_sequential platform *)
Example test_mxm_Mask_Accum_AB_emptyRowA_emptyColB_opt :
 (x_A <- mdense0 TyD [[8; 1; 6]; [0; 0; 0]; [4; 9; 2]]%Q 0%Q ;;
  x_B <- mdense0 TyD [[0; 0; 0; 1]; [1; 0; 1; 1]; [0; 0; 1; 1]]%Q 0%Q ;;
  x_Lower <- mdense0 TyD d_Lower_3x4 0%Q ;;
  x_Ones <- mdense0 TyD d_Ones_3x4 0%Q ;;
  x_C <- mnew 3 4 ;;
  x_answer <- mdense0 TyD [[2; 0; 0; 0]; [1; 1; 0; 0]; [10; 1; 12; 0]]%Q 0%Q ;;
  x_C_1 <- lil_assign x_C x_Ones ;;
  x_C_2 <- t_opt_mxm TyD (acc TyD qplus) TyD (mkSr qplus qtimes TyD) (MVal (Other x_Lower)) REPLACE
    x_C_1 (OMat (Other x_A)) (OMat (Other x_B)) ;;
  x_q <- meq x_C_2 x_answer ;;
  _ <- check x_q ;;
  x_answer2 <- mdense0 TyD [[2; 1; 1; 1]; [1; 1; 1; 1]; [10; 1; 12; 1]]%Q 0%Q ;;
  x_C_3 <- lil_assign x_C_2 x_Ones ;;
  x_C_4 <- t_opt_mxm TyD (acc TyD qplus) TyD (mkSr qplus qtimes TyD) (MVal (Other x_Lower)) MERGE
    x_C_3 (OMat (Other x_A)) (OMat (Other x_B)) ;;
  x_q_1 <- meq x_C_4 x_answer2 ;;
  _ <- check x_q_1 ;;
  Ok tt) = Ok tt.
Proof. vm_compute. reflexivity. Qed.

(** test_mxm_AB.cpp:1472-1514 *)
Example test_mxm_Mask_Accum_AB_emptyColA_emptyRowB :
 (x_A <- mdense0 TyD [[8; 0; 6]; [1; 0; 9]; [4; 0; 2]]%Q 0%Q ;;
  x_B <- mdense0 TyD [[0; 1; 0; 1]; [1; 0; 1; 1]; [0; 0; 0; 0]]%Q 0%Q ;;
  x_Lower <- mdense0 TyD d_Lower_3x4 0%Q ;;
  x_Ones <- mdense0 TyD d_Ones_3x4 0%Q ;;
  x_C <- mnew 3 4 ;;
  x_answer <- mdense0 TyD [[1; 0; 0; 0]; [1; 2; 0; 0]; [1; 5; 1; 0]]%Q 0%Q ;;
  x_C_1 <- lil_assign x_C x_Ones ;;
  x_C_2 <- t_mxm TyD (acc TyD qplus) (mkSr qplus qtimes TyD) (MVal x_Lower) REPLACE x_C_1 (Mat x_A)
    (Mat x_B) ;;
  x_q <- meq x_C_2 x_answer ;;
  _ <- check x_q ;;
  x_answer2 <- mdense0 TyD [[1; 1; 1; 1]; [1; 2; 1; 1]; [1; 5; 1; 1]]%Q 0%Q ;;
  x_C_3 <- lil_assign x_C_2 x_Ones ;;
  x_C_4 <- t_mxm TyD (acc TyD qplus) (mkSr qplus qtimes TyD) (MVal x_Lower) MERGE x_C_3 (Mat x_A)
    (Mat x_B) ;;
  x_q_1 <- meq x_C_4 x_answer2 ;;
  _ <- check x_q_1 ;;
  Ok tt) = Ok tt.
Proof. vm_compute. reflexivity. Qed.

(** test_mxm_AB.cpp:1472-1514, optimized_sequential platform *)
Example test_mxm_Mask_Accum_AB_emptyColA_emptyRowB_opt :
 (x_A <- mdense0 TyD [[8; 0; 6]; [1; 0; 9]; [4; 0; 2]]%Q 0%Q ;;
  x_B <- mdense0 TyD [[0; 1; 0; 1]; [1; 0; 1; 1]; [0; 0; 0; 0]]%Q 0%Q ;;
  x_Lower <- mdense0 TyD d_Lower_3x4 0%Q ;;
  x_Ones <- mdense0 TyD d_Ones_3x4 0%Q ;;
  x_C <- mnew 3 4 ;;
  x_answer <- mdense0 TyD [[1; 0; 0; 0]; [1; 2; 0; 0]; [1; 5; 1; 0]]%Q 0%Q ;;
  x_C_1 <- lil_assign x_C x_Ones ;;
  x_C_2 <- t_opt_mxm TyD (acc TyD qplus) TyD (mkSr qplus qtimes TyD) (MVal (Other x_Lower)) REPLACE
    x_C_1 (OMat (Other x_A)) (OMat (Other x_B)) ;;
  x_q <- meq x_C_2 x_answer ;;
  _ <- check x_q ;;
  x_answer2 <- mdense0 TyD [[1; 1; 1; 1]; [1; 2; 1; 1]; [1; 5; 1; 1]]%Q 0%Q ;;
  x_C_3 <- lil_assign x_C_2 x_Ones ;;
  x_C_4 <- t_opt_mxm TyD (acc TyD qplus) TyD (mkSr qplus qtimes TyD) (MVal (Other x_Lower)) MERGE
    x_C_3 (OMat (Other x_A)) (OMat (Other x_B)) ;;
  x_q_1 <- meq x_C_4 x_answer2 ;;
  _ <- check x_q_1 ;;
  Ok tt) = Ok tt.
Proof. vm_compute. reflexivity. Qed.

(** test_mxm_AB.cpp:1517-1559 *)
Example test_mxm_Mask_Accum_AB_emptyRowM :
 (x_A <- mdense0 TyD [[8; 1; 6]; [0; 0; 0]; [4; 9; 2]]%Q 0%Q ;;
  x_B <- mdense0 TyD [[0; 0; 0]; [1; 0; 1]; [0; 0; 1]]%Q 0%Q ;;
  x_NotLower <- mdense0 TyD d_NotLower_3x3 0%Q ;;
  x_Ones <- mdense0 TyD d_Ones_3x3 0%Q ;;
  x_C <- mnew 3 3 ;;
  x_answer <- mdense0 TyD [[0; 1; 8]; [0; 0; 1]; [0; 0; 0]]%Q 0%Q ;;
  x_C_1 <- lil_assign x_C x_Ones ;;
  x_C_2 <- t_mxm TyD (acc TyD qplus) (mkSr qplus qtimes TyD) (MVal x_NotLower) REPLACE x_C_1 (Mat
    x_A) (Mat x_B) ;;
  x_q <- meq x_C_2 x_answer ;;
  _ <- check x_q ;;
  x_answer2 <- mdense0 TyD [[1; 1; 8]; [1; 1; 1]; [1; 1; 1]]%Q 0%Q ;;
  x_C_3 <- lil_assign x_C_2 x_Ones ;;
  x_C_4 <- t_mxm TyD (acc TyD qplus) (mkSr qplus qtimes TyD) (MVal x_NotLower) MERGE x_C_3 (Mat x_A)
    (Mat x_B) ;;
  x_q_1 <- meq x_C_4 x_answer2 ;;
  _ <- check x_q_1 ;;
  Ok tt) = Ok tt.
Proof. vm_compute. reflexivity. Qed.

(** test_mxm_AB.cpp:1517-1559, optimized_sequential platform *)
Example test_mxm_Mask_Accum_AB_emptyRowM_opt :
 (x_A <- mdense0 TyD [[8; 1; 6]; [0; 0; 0]; [4; 9; 2]]%Q 0%Q ;;
  x_B <- mdense0 TyD [[0; 0; 0]; [1; 0; 1]; [0; 0; 1]]%Q 0%Q ;;
  x_NotLower <- mdense0 TyD d_NotLower_3x3 0%Q ;;
  x_Ones <- mdense0 TyD d_Ones_3x3 0%Q ;;
  x_C <- mnew 3 3 ;;
  x_answer <- mdense0 TyD [[0; 1; 8]; [0; 0; 1]; [0; 0; 0]]%Q 0%Q ;;
  x_C_1 <- lil_assign x_C x_Ones ;;
  x_C_2 <- t_opt_mxm TyD (acc TyD qplus) TyD (mkSr qplus qtimes TyD) (MVal (Other x_NotLower))
    REPLACE x_C_1 (OMat (Other x_A)) (OMat (Other x_B)) ;;
  x_q <- meq x_C_2 x_answer ;;
  _ <- check x_q ;;
  x_answer2 <- mdense0 TyD [[1; 1; 8]; [1; 1; 1]; [1; 1; 1]]%Q 0%Q ;;
  x_C_3 <- lil_assign x_C_2 x_Ones ;;
  x_C_4 <- t_opt_mxm TyD (acc TyD qplus) TyD (mkSr qplus qtimes TyD) (MVal (Other x_NotLower)) MERGE
    x_C_3 (OMat (Other x_A)) (OMat (Other x_B)) ;;
  x_q_1 <- meq x_C_4 x_answer2 ;;
  _ <- check x_q_1 ;;
  Ok tt) = Ok tt.
Proof. vm_compute. reflexivity. Qed.

(** test_mxm_AB.cpp:1562-1604 *)
Example test_mxm_Mask_Accum_AB_ABdup :
 (x_mat <- mdense0 TyD [[1; 1; 0; 0]; [1; 2; 2; 0]; [0; 2; 3; 3]; [0; 0; 3; 4]]%Q 0%Q ;;
  x_Lower <- mdense0 TyD d_Lower_4x4 0%Q ;;
  x_Ones <- mdense0 TyD d_Ones_4x4 0%Q ;;
  x_C <- mnew 4 4 ;;
  x_answer <- mdense0 TyD [[3; 1; 1; 1]; [4; 10; 1; 1]; [3; 11; 23; 1]; [1; 7; 22; 26]]%Q 0%Q ;;
  x_C_1 <- lil_assign x_C x_Ones ;;
  x_C_2 <- t_mxm TyD (acc TyD qplus) (mkSr qplus qtimes TyD) (MVal x_Lower) MERGE x_C_1 (Mat x_mat)
    (Mat x_mat) ;;
  x_q <- meq x_C_2 x_answer ;;
  _ <- check x_q ;;
  x_answer2 <- mdense0 TyD [[3; 0; 0; 0]; [4; 10; 0; 0]; [3; 11; 23; 0]; [1; 7; 22; 26]]%Q 0%Q ;;
  x_C_3 <- lil_assign x_C_2 x_Ones ;;
  x_C_4 <- t_mxm TyD (acc TyD qplus) (mkSr qplus qtimes TyD) (MVal x_Lower) REPLACE x_C_3 (Mat
    x_mat) (Mat x_mat) ;;
  x_q_1 <- meq x_C_4 x_answer2 ;;
  _ <- check x_q_1 ;;
  Ok tt) = Ok tt.
Proof. vm_compute. reflexivity. Qed.

(** test_mxm_AB.cpp:1562-1604, optimized_sequential platform *)
Example test_mxm_Mask_Accum_AB_ABdup_opt :
 (x_mat <- mdense0 TyD [[1; 1; 0; 0]; [1; 2; 2; 0]; [0; 2; 3; 3]; [0; 0; 3; 4]]%Q 0%Q ;;
  x_Lower <- mdense0 TyD d_Lower_4x4 0%Q ;;
  x_Ones <- mdense0 TyD d_Ones_4x4 0%Q ;;
  x_C <- mnew 4 4 ;;
  x_answer <- mdense0 TyD [[3; 1; 1; 1]; [4; 10; 1; 1]; [3; 11; 23; 1]; [1; 7; 22; 26]]%Q 0%Q ;;
  x_C_1 <- lil_assign x_C x_Ones ;;
  x_C_2 <- t_opt_mxm TyD (acc TyD qplus) TyD (mkSr qplus qtimes TyD) (MVal (Other x_Lower)) MERGE
    x_C_1 (OMat (Other x_mat)) (OMat (Other x_mat)) ;;
  x_q <- meq x_C_2 x_answer ;;
  _ <- check x_q ;;
  x_answer2 <- mdense0 TyD [[3; 0; 0; 0]; [4; 10; 0; 0]; [3; 11; 23; 0]; [1; 7; 22; 26]]%Q 0%Q ;;
  x_C_3 <- lil_assign x_C_2 x_Ones ;;
  x_C_4 <- t_opt_mxm TyD (acc TyD qplus) TyD (mkSr qplus qtimes TyD) (MVal (Other x_Lower)) REPLACE
    x_C_3 (OMat (Other x_mat)) (OMat (Other x_mat)) ;;
  x_q_1 <- meq x_C_4 x_answer2 ;;
  _ <- check x_q_1 ;;
  Ok tt) = Ok tt.
Proof. vm_compute. reflexivity. Qed.

(** test_mxm_AB.cpp:1607-1650 *)
Example test_mxm_Mask_Accum_AB_ACdup :
 (x_mat <- mdense0 TyD [[1; 1; 0; 0]; [1; 2; 2; 0]; [0; 2; 3; 3]; [0; 0; 3; 4]]%Q 0%Q ;;
  x_Lower <- mdense0 TyD d_Lower_4x4 0%Q ;;
  x_Ones <- mdense0 TyD d_Ones_4x4 0%Q ;;
  x_C <- mnew 4 4 ;;
  x_answer <- mdense0 TyD [[3; 1; 0; 0]; [4; 11; 2; 0]; [2; 12; 25; 3]; [0; 6; 24; 29]]%Q 0%Q ;;
  x_C_1 <- lil_assign x_C x_mat ;;
  x_C_2 <- t_mxm TyD (acc TyD qplus) (mkSr qplus qtimes TyD) (MVal x_Lower) MERGE x_C_1 (Mat x_C_1)
    (Mat x_mat) ;;
  x_q <- meq x_C_2 x_answer ;;
  _ <- check x_q ;;
  x_answer2 <- mdense0 TyD [[3; 0; 0; 0]; [4; 11; 0; 0]; [2; 12; 25; 0]; [0; 6; 24; 29]]%Q 0%Q ;;
  x_C_3 <- lil_assign x_C_2 x_mat ;;
  x_C_4 <- t_mxm TyD (acc TyD qplus) (mkSr qplus qtimes TyD) (MVal x_Lower) REPLACE x_C_3 (Mat
    x_C_3) (Mat x_mat) ;;
  x_q_1 <- meq x_C_4 x_answer2 ;;
  _ <- check x_q_1 ;;
  Ok tt) = Ok tt.
Proof. vm_compute. reflexivity. Qed.

(** test_mxm_AB.cpp:1607-1650, optimized_sequential platform *)
Example test_mxm_Mask_Accum_AB_ACdup_opt :
 (x_mat <- mdense0 TyD [[1; 1; 0; 0]; [1; 2; 2; 0]; [0; 2; 3; 3]; [0; 0; 3; 4]]%Q 0%Q ;;
  x_Lower <- mdense0 TyD d_Lower_4x4 0%Q ;;
  x_Ones <- mdense0 TyD d_Ones_4x4 0%Q ;;
  x_C <- mnew 4 4 ;;
  x_answer <- mdense0 TyD [[3; 1; 0; 0]; [4; 11; 2; 0]; [2; 12; 25; 3]; [0; 6; 24; 29]]%Q 0%Q ;;
  x_C_1 <- lil_assign x_C x_mat ;;
  x_C_2 <- t_opt_mxm TyD (acc TyD qplus) TyD (mkSr qplus qtimes TyD) (MVal (Other x_Lower)) MERGE
    x_C_1 (OMat (TheOutput (fun x => x))) (OMat (Other x_mat)) ;;
  x_q <- meq x_C_2 x_answer ;;
  _ <- check x_q ;;
  x_answer2 <- mdense0 TyD [[3; 0; 0; 0]; [4; 11; 0; 0]; [2; 12; 25; 0]; [0; 6; 24; 29]]%Q 0%Q ;;
  x_C_3 <- lil_assign x_C_2 x_mat ;;
  x_C_4 <- t_opt_mxm TyD (acc TyD qplus) TyD (mkSr qplus qtimes TyD) (MVal (Other x_Lower)) REPLACE
    x_C_3 (OMat (TheOutput (fun x => x))) (OMat (Other x_mat)) ;;
  x_q_1 <- meq x_C_4 x_answer2 ;;
  _ <- check x_q_1 ;;
  Ok tt) = Ok tt.
Proof. vm_compute. reflexivity. Qed.

(** test_mxm_AB.cpp:1653-1704 *)
Example test_mxm_Mask_Accum_AB_BCdup :
 (x_mat <- mdense0 TyD [[1; 1; 0; 0]; [1; 2; 2; 0]; [0; 2; 3; 3]; [0; 0; 3; 4]]%Q 0%Q ;;
  x_Lower <- mdense0 TyD d_Lower_4x4 0%Q ;;
  x_Ones <- mdense0 TyD d_Ones_4x4 0%Q ;;
  x_C <- mnew 4 4 ;;
  x_answer <- mdense0 TyD [[3; 1; 0; 0]; [4; 11; 2; 0]; [2; 12; 25; 3]; [0; 6; 24; 29]]%Q 0%Q ;;
  x_C_1 <- lil_assign x_C x_mat ;;
  x_C_2 <- t_mxm TyD (acc TyD qplus) (mkSr qplus qtimes TyD) (MVal x_Lower) MERGE x_C_1 (Mat x_mat)
    (Mat x_C_1) ;;
  x_q <- meq x_C_2 x_answer ;;
  _ <- check x_q ;;
  x_C_3 <- lil_assign x_C_2 x_mat ;;
  x_C_4 <- t_mxm TyD (acc TyD qplus) (mkSr qplus qtimes TyD) (MVal x_Lower) MERGE x_C_3 (Mat x_mat)
    (Mat x_mat) ;;
  x_q_1 <- meq x_C_4 x_answer ;;
  _ <- check x_q_1 ;;
  x_answer2 <- mdense0 TyD [[3; 0; 0; 0]; [4; 11; 0; 0]; [2; 12; 25; 0]; [0; 6; 24; 29]]%Q 0%Q ;;
  x_C_5 <- lil_assign x_C_4 x_mat ;;
  x_C_6 <- t_mxm TyD (acc TyD qplus) (mkSr qplus qtimes TyD) (MVal x_Lower) REPLACE x_C_5 (Mat
    x_mat) (Mat x_C_5) ;;
  x_q_2 <- meq x_C_6 x_answer2 ;;
  _ <- check x_q_2 ;;
  Ok tt) = Ok tt.
Proof. vm_compute. reflexivity. Qed.

(** test_mxm_AB.cpp:1653-1704, optimized_sequential platform *)
Example test_mxm_Mask_Accum_AB_BCdup_opt :
 (x_mat <- mdense0 TyD [[1; 1; 0; 0]; [1; 2; 2; 0]; [0; 2; 3; 3]; [0; 0; 3; 4]]%Q 0%Q ;;
  x_Lower <- mdense0 TyD d_Lower_4x4 0%Q ;;
  x_Ones <- mdense0 TyD d_Ones_4x4 0%Q ;;
  x_C <- mnew 4 4 ;;
  x_answer <- mdense0 TyD [[3; 1; 0; 0]; [4; 11; 2; 0]; [2; 12; 25; 3]; [0; 6; 24; 29]]%Q 0%Q ;;
  x_C_1 <- lil_assign x_C x_mat ;;
  x_C_2 <- t_opt_mxm TyD (acc TyD qplus) TyD (mkSr qplus qtimes TyD) (MVal (Other x_Lower)) MERGE
    x_C_1 (OMat (Other x_mat)) (OMat (TheOutput (fun x => x))) ;;
  x_q <- meq x_C_2 x_answer ;;
  _ <- check x_q ;;
  x_C_3 <- lil_assign x_C_2 x_mat ;;
  x_C_4 <- t_opt_mxm TyD (acc TyD qplus) TyD (mkSr qplus qtimes TyD) (MVal (Other x_Lower)) MERGE
    x_C_3 (OMat (Other x_mat)) (OMat (Other x_mat)) ;;
  x_q_1 <- meq x_C_4 x_answer ;;
  _ <- check x_q_1 ;;
  x_answer2 <- mdense0 TyD [[3; 0; 0; 0]; [4; 11; 0; 0]; [2; 12; 25; 0]; [0; 6; 24; 29]]%Q 0%Q ;;
  x_C_5 <- lil_assign x_C_4 x_mat ;;
  x_C_6 <- t_opt_mxm TyD (acc TyD qplus) TyD (mkSr qplus qtimes TyD) (MVal (Other x_Lower)) REPLACE
    x_C_5 (OMat (Other x_mat)) (OMat (TheOutput (fun x => x))) ;;
  x_q_2 <- meq x_C_6 x_answer2 ;;
  _ <- check x_q_2 ;;
  Ok tt) = Ok tt.
Proof. vm_compute. reflexivity. Qed.

(** test_mxm_AB.cpp:1707-1748 *)
Example test_mxm_Mask_Accum_AB_MCdup :
 (x_mat <- mdense0 TyD [[1; 1; 0; 0]; [1; 2; 2; 0]; [0; 2; 3; 3]; [0; 0; 3; 4]]%Q 0%Q ;;
  x_Lower <- mdense0 TyD d_Lower_4x4 0%Q ;;
  x_C <- mnew 4 4 ;;
  x_answer <- mdense0 TyD [[3; 0; 0; 0]; [4; 10; 0; 0]; [3; 11; 23; 0]; [1; 7; 22; 26]]%Q 0%Q ;;
  x_C_1 <- lil_assign x_C x_Lower ;;
  x_C_2 <- t_mxm TyD (acc TyD qplus) (mkSr qplus qtimes TyD) (MVal x_C_1) MERGE x_C_1 (Mat x_mat)
    (Mat x_mat) ;;
  x_q <- meq x_C_2 x_answer ;;
  _ <- check x_q ;;
  x_answer2 <- mdense0 TyD [[3; 0; 0; 0]; [4; 10; 0; 0]; [3; 11; 23; 0]; [1; 7; 22; 26]]%Q 0%Q ;;
  x_C_3 <- lil_assign x_C_2 x_Lower ;;
  x_C_4 <- t_mxm TyD (acc TyD qplus) (mkSr qplus qtimes TyD) (MVal x_C_3) REPLACE x_C_3 (Mat x_mat)
    (Mat x_mat) ;;
  x_q_1 <- meq x_C_4 x_answer2 ;;
  _ <- check x_q_1 ;;
  Ok tt) = Ok tt.
Proof. vm_compute. reflexivity. Qed.

(** test_mxm_AB.cpp:1707-1748, optimized_sequential platform *)
Example test_mxm_Mask_Accum_AB_MCdup_opt :
 (x_mat <- mdense0 TyD [[1; 1; 0; 0]; [1; 2; 2; 0]; [0; 2; 3; 3]; [0; 0; 3; 4]]%Q 0%Q ;;
  x_Lower <- mdense0 TyD d_Lower_4x4 0%Q ;;
  x_C <- mnew 4 4 ;;
  x_answer <- mdense0 TyD [[3; 0; 0; 0]; [4; 10; 0; 0]; [3; 11; 23; 0]; [1; 7; 22; 26]]%Q 0%Q ;;
  x_C_1 <- lil_assign x_C x_Lower ;;
  x_C_2 <- t_opt_mxm TyD (acc TyD qplus) TyD (mkSr qplus qtimes TyD) (MVal (TheOutput (fun x => x)))
    MERGE x_C_1 (OMat (Other x_mat)) (OMat (Other x_mat)) ;;
  x_q <- meq x_C_2 x_answer ;;
  _ <- check x_q ;;
  x_answer2 <- mdense0 TyD [[3; 0; 0; 0]; [4; 10; 0; 0]; [3; 11; 23; 0]; [1; 7; 22; 26]]%Q 0%Q ;;
  x_C_3 <- lil_assign x_C_2 x_Lower ;;
  x_C_4 <- t_opt_mxm TyD (acc TyD qplus) TyD (mkSr qplus qtimes TyD) (MVal (TheOutput (fun x => x)))
    REPLACE x_C_3 (OMat (Other x_mat)) (OMat (Other x_mat)) ;;
  x_q_1 <- meq x_C_4 x_answer2 ;;
  _ <- check x_q_1 ;;
  Ok tt) = Ok tt.
Proof. vm_compute. reflexivity. Qed.

(** test_mxm_AB.cpp:1751-1773 *)
Example test_mxm_Mask_Accum_AB_Replace_lower_mask_result_ones :
 (x_A <- mdense0 TyD d_A_dense_3x3 0%Q ;;
  x_B <- mdense0 TyD d_B_dense_3x4 0%Q ;;
  x_M <- mdense0 TyD d_LowerMask_3x4 0%Q ;;
  _ <- check (Qeq_bool (inject_Z (nvals x_M)) 6%Q) ;;
  x_result <- mdense0 TyD d_Ones_3x4 0%Q ;;
  x_answer <- mdense0 TyD [[114; 0; 0; 0]; [74; 97; 0; 0]; [119; 157; 112; 0]]%Q 0%Q ;;
  x_result_1 <- t_mxm TyD (acc TyD qsecond) (mkSr qplus qtimes TyD) (MVal x_M) REPLACE x_result (Mat
    x_A) (Mat x_B) ;;
  _ <- check (Qeq_bool (inject_Z (nvals x_result_1)) 6%Q) ;;
  x_q <- meq x_result_1 x_answer ;;
  _ <- check x_q ;;
  Ok tt) = Ok tt.
Proof. vm_compute. reflexivity. Qed.

(** test_mxm_AB.cpp:1751-1773, optimized_sequential platform *)
Example test_mxm_Mask_Accum_AB_Replace_lower_mask_result_ones_opt :
 (x_A <- mdense0 TyD d_A_dense_3x3 0%Q ;;
  x_B <- mdense0 TyD d_B_dense_3x4 0%Q ;;
  x_M <- mdense0 TyD d_LowerMask_3x4 0%Q ;;
  _ <- check (Qeq_bool (inject_Z (nvals x_M)) 6%Q) ;;
  x_result <- mdense0 TyD d_Ones_3x4 0%Q ;;
  x_answer <- mdense0 TyD [[114; 0; 0; 0]; [74; 97; 0; 0]; [119; 157; 112; 0]]%Q 0%Q ;;
  x_result_1 <- t_opt_mxm TyD (acc TyD qsecond) TyD (mkSr qplus qtimes TyD) (MVal (Other x_M))
    REPLACE x_result (OMat (Other x_A)) (OMat (Other x_B)) ;;
  _ <- check (Qeq_bool (inject_Z (nvals x_result_1)) 6%Q) ;;
  x_q <- meq x_result_1 x_answer ;;
  _ <- check x_q ;;
  Ok tt) = Ok tt.
Proof. vm_compute. reflexivity. Qed.

(** test_mxm_AB.cpp:1776-1798 *)
Example test_mxm_Mask_Accum_AB_Replace_bool_masked_result_ones :
 (x_A <- mdense0 TyD d_A_dense_3x3 0%Q ;;
  x_B <- mdense0 TyD d_B_dense_3x4 0%Q ;;
  x_M <- mdense0 TyB d_LowerBool_3x4 0%Q ;;
  _ <- check (Qeq_bool (inject_Z (nvals x_M)) 6%Q) ;;
  x_result <- mdense0 TyD d_Ones_3x4 0%Q ;;
  x_answer <- mdense0 TyD [[114; 0; 0; 0]; [74; 97; 0; 0]; [119; 157; 112; 0]]%Q 0%Q ;;
  x_result_1 <- t_mxm TyD (acc TyD qsecond) (mkSr qplus qtimes TyD) (MVal x_M) REPLACE x_result (Mat
    x_A) (Mat x_B) ;;
  _ <- check (Qeq_bool (inject_Z (nvals x_result_1)) 6%Q) ;;
  x_q <- meq x_result_1 x_answer ;;
  _ <- check x_q ;;
  Ok tt) = Ok tt.
Proof. vm_compute. reflexivity. Qed.

(** test_mxm_AB.cpp:1776-1798, optimized_sequential platform *)
Example test_mxm_Mask_Accum_AB_Replace_bool_masked_result_ones_opt :
 (x_A <- mdense0 TyD d_A_dense_3x3 0%Q ;;
  x_B <- mdense0 TyD d_B_dense_3x4 0%Q ;;
  x_M <- mdense0 TyB d_LowerBool_3x4 0%Q ;;
  _ <- check (Qeq_bool (inject_Z (nvals x_M)) 6%Q) ;;
  x_result <- mdense0 TyD d_Ones_3x4 0%Q ;;
  x_answer <- mdense0 TyD [[114; 0; 0; 0]; [74; 97; 0; 0]; [119; 157; 112; 0]]%Q 0%Q ;;
  x_result_1 <- t_opt_mxm TyD (acc TyD qsecond) TyD (mkSr qplus qtimes TyD) (MVal (Other x_M))
    REPLACE x_result (OMat (Other x_A)) (OMat (Other x_B)) ;;
  _ <- check (Qeq_bool (inject_Z (nvals x_result_1)) 6%Q) ;;
  x_q <- meq x_result_1 x_answer ;;
  _ <- check x_q ;;
  Ok tt) = Ok tt.
Proof. vm_compute. reflexivity. Qed.

(** test_mxm_AB.cpp:1801-1823 *)
Example test_mxm_Mask_Accum_AB_Replace_mask_stored_zero_result_ones :
 (x_A <- mdense0 TyD d_A_dense_3x3 0%Q ;;
  x_B <- mdense0 TyD d_B_dense_3x4 0%Q ;;
  x_M <- mdense0 TyD d_Lower_3x4 0%Q ;;
  x_M_1 <- lil_setElement x_M 0 1 (cast TyD 0%Q) ;;
  _ <- check (Qeq_bool (inject_Z (nvals x_M_1)) 7%Q) ;;
  x_result <- mdense0 TyD d_Ones_3x4 0%Q ;;
  x_answer <- mdense0 TyD [[114; 0; 0; 0]; [74; 97; 0; 0]; [119; 157; 112; 0]]%Q 0%Q ;;
  x_result_1 <- t_mxm TyD (acc TyD qsecond) (mkSr qplus qtimes TyD) (MVal x_M_1) REPLACE x_result
    (Mat x_A) (Mat x_B) ;;
  _ <- check (Qeq_bool (inject_Z (nvals x_result_1)) 6%Q) ;;
  x_q <- meq x_result_1 x_answer ;;
  _ <- check x_q ;;
  Ok tt) = Ok tt.
Proof. vm_compute. reflexivity. Qed.

(** test_mxm_AB.cpp:1801-1823, optimized_sequential platform *)
Example test_mxm_Mask_Accum_AB_Replace_mask_stored_zero_result_ones_opt :
 (x_A <- mdense0 TyD d_A_dense_3x3 0%Q ;;
  x_B <- mdense0 TyD d_B_dense_3x4 0%Q ;;
  x_M <- mdense0 TyD d_Lower_3x4 0%Q ;;
  x_M_1 <- lil_setElement x_M 0 1 (cast TyD 0%Q) ;;
  _ <- check (Qeq_bool (inject_Z (nvals x_M_1)) 7%Q) ;;
  x_result <- mdense0 TyD d_Ones_3x4 0%Q ;;
  x_answer <- mdense0 TyD [[114; 0; 0; 0]; [74; 97; 0; 0]; [119; 157; 112; 0]]%Q 0%Q ;;
  x_result_1 <- t_opt_mxm TyD (acc TyD qsecond) TyD (mkSr qplus qtimes TyD) (MVal (Other x_M_1))
    REPLACE x_result (OMat (Other x_A)) (OMat (Other x_B)) ;;
  _ <- check (Qeq_bool (inject_Z (nvals x_result_1)) 6%Q) ;;
  x_q <- meq x_result_1 x_answer ;;
  _ <- check x_q ;;
  Ok tt) = Ok tt.
Proof. vm_compute. reflexivity. Qed.

(** test_mxm_AB.cpp:1826-1850 *)
Example test_mxm_Mask_Accum_AB_Merge_Cones_Mlower :
 (x_A <- mdense0 TyD d_A_dense_3x3 0%Q ;;
  x_B <- mdense0 TyD d_B_dense_3x4 0%Q ;;
  x_M <- mdense0 TyD [[1; 0; 0; 0]; [1; 1; 0; 0]; [1; 1; 1; 0]]%Q 0%Q ;;
  _ <- check (Qeq_bool (inject_Z (nvals x_M)) 6%Q) ;;
  x_result <- mdense0 TyD d_Ones_3x4 0%Q ;;
  x_answer <- mdense0 TyD [[114; 1; 1; 1]; [74; 97; 1; 1]; [119; 157; 112; 1]]%Q 0%Q ;;
  x_result_1 <- t_mxm TyD (acc TyD qsecond) (mkSr qplus qtimes TyD) (MVal x_M) MERGE x_result (Mat
    x_A) (Mat x_B) ;;
  _ <- check (Qeq_bool (inject_Z (nvals x_result_1)) 12%Q) ;;
  x_q <- meq x_result_1 x_answer ;;
  _ <- check x_q ;;
  Ok tt) = Ok tt.
Proof. vm_compute. reflexivity. Qed.

(** test_mxm_AB.cpp:1826-1850, optimized_sequential platform *)
Example test_mxm_Mask_Accum_AB_Merge_Cones_Mlower_opt :
 (x_A <- mdense0 TyD d_A_dense_3x3 0%Q ;;
  x_B <- mdense0 TyD d_B_dense_3x4 0%Q ;;
  x_M <- mdense0 TyD [[1; 0; 0; 0]; [1; 1; 0; 0]; [1; 1; 1; 0]]%Q 0%Q ;;
  _ <- check (Qeq_bool (inject_Z (nvals x_M)) 6%Q) ;;
  x_result <- mdense0 TyD d_Ones_3x4 0%Q ;;
  x_answer <- mdense0 TyD [[114; 1; 1; 1]; [74; 97; 1; 1]; [119; 157; 112; 1]]%Q 0%Q ;;
  x_result_1 <- t_opt_mxm TyD (acc TyD qsecond) TyD (mkSr qplus qtimes TyD) (MVal (Other x_M)) MERGE
    x_result (OMat (Other x_A)) (OMat (Other x_B)) ;;
  _ <- check (Qeq_bool (inject_Z (nvals x_result_1)) 12%Q) ;;
  x_q <- meq x_result_1 x_answer ;;
  _ <- check x_q ;;
  Ok tt) = Ok tt.
Proof. vm_compute. reflexivity. Qed.

(** test_mxm_AB.cpp:1857-1941 *)
Example test_mxm_CompMask_NoAccum_AB :
 (x_A <- mdense0 TyD d_A_sparse_3x3 0%Q ;;
  x_Identity <- mdense0 TyD d_Identity_3x3 0%Q ;;
  x_Empty <- mnew 3 3 ;;
  x_Ones <- mdense0 TyD d_Ones_3x3 0%Q ;;
  x_C <- mnew 3 3 ;;
  x_MLower <- mdense0 TyD d_Lower_3x3 0%Q ;;
  x_MNotLower <- mdense0 TyD d_NotLower_3x3 0%Q ;;
  x_NotA <- mdense0 TyD [[0; 0; 1]; [1; 0; 1]; [0; 1; 0]]%Q 0%Q ;;
  x_AFilled <- mdense0 TyD [[12; 7; 1]; [1; (-5); 1]; [7; 1; 9]]%Q 0%Q ;;
  x_C_1 <- lil_assign x_C x_Ones ;;
  x_C_2 <- t_mxm TyD noacc (mkSr qplus qtimes TyD) (MComp x_Ones) MERGE x_C_1 (Mat x_A) (Mat
    x_Identity) ;;
  x_q <- meq x_C_2 x_Ones ;;
  _ <- check x_q ;;
  x_C_3 <- lil_assign x_C_2 x_Ones ;;
  x_C_4 <- t_mxm TyD noacc (mkSr qplus qtimes TyD) (MComp x_Empty) MERGE x_C_3 (Mat x_A) (Mat
    x_Identity) ;;
  x_q_1 <- meq x_C_4 x_A ;;
  _ <- check x_q_1 ;;
  x_C_5 <- lil_assign x_C_4 x_Ones ;;
  x_C_6 <- t_mxm TyD noacc (mkSr qplus qtimes TyD) (MComp x_NotA) MERGE x_C_5 (Mat x_A) (Mat
    x_Identity) ;;
  x_q_2 <- meq x_C_6 x_AFilled ;;
  _ <- check x_q_2 ;;
  x_C_7 <- lil_assign x_C_6 x_Ones ;;
  x_C_8 <- t_mxm TyD noacc (mkSr qplus qtimes TyD) (MComp x_MNotLower) MERGE x_C_7 (Mat x_Ones) (Mat
    x_Identity) ;;
  x_q_3 <- meq x_C_8 x_Ones ;;
  _ <- check x_q_3 ;;
  x_C_9 <- lil_assign x_C_8 x_Ones ;;
  x_C_10 <- t_mxm TyD noacc (mkSr qplus qtimes TyD) (MComp x_MLower) MERGE x_C_9 (Mat x_Ones) (Mat
    x_Identity) ;;
  x_q_4 <- meq x_C_10 x_Ones ;;
  _ <- check x_q_4 ;;
  x_C_11 <- lil_assign x_C_10 x_Ones ;;
  x_C_12 <- t_mxm TyD noacc (mkSr qplus qtimes TyD) (MComp x_Ones) REPLACE x_C_11 (Mat x_A) (Mat
    x_Identity) ;;
  x_q_5 <- meq x_C_12 x_Empty ;;
  _ <- check x_q_5 ;;
  x_C_13 <- lil_assign x_C_12 x_Ones ;;
  x_C_14 <- t_mxm TyD noacc (mkSr qplus qtimes TyD) (MComp x_Empty) REPLACE x_C_13 (Mat x_A) (Mat
    x_Identity) ;;
  x_q_6 <- meq x_C_14 x_A ;;
  _ <- check x_q_6 ;;
  x_C_15 <- lil_assign x_C_14 x_Ones ;;
  x_C_16 <- t_mxm TyD noacc (mkSr qplus qtimes TyD) (MComp x_MNotLower) REPLACE x_C_15 (Mat x_Ones)
    (Mat x_Identity) ;;
  x_q_7 <- meq x_C_16 x_MLower ;;
  _ <- check x_q_7 ;;
  x_C_17 <- lil_assign x_C_16 x_Ones ;;
  x_C_18 <- t_mxm TyD noacc (mkSr qplus qtimes TyD) (MComp x_MLower) REPLACE x_C_17 (Mat x_Ones)
    (Mat x_Identity) ;;
  x_q_8 <- meq x_C_18 x_MNotLower ;;
  _ <- check x_q_8 ;;
  Ok tt) = Ok tt.
Proof. vm_compute. reflexivity. Qed.

(** test_mxm_AB.cpp:1857-1941, optimized_sequential platform *)
Example test_mxm_CompMask_NoAccum_AB_opt :
 (x_A <- mdense0 TyD d_A_sparse_3x3 0%Q ;;
  x_Identity <- mdense0 TyD d_Identity_3x3 0%Q ;;
  x_Empty <- mnew 3 3 ;;
  x_Ones <- mdense0 TyD d_Ones_3x3 0%Q ;;
  x_C <- mnew 3 3 ;;
  x_MLower <- mdense0 TyD d_Lower_3x3 0%Q ;;
  x_MNotLower <- mdense0 TyD d_NotLower_3x3 0%Q ;;
  x_NotA <- mdense0 TyD [[0; 0; 1]; [1; 0; 1]; [0; 1; 0]]%Q 0%Q ;;
  x_AFilled <- mdense0 TyD [[12; 7; 1]; [1; (-5); 1]; [7; 1; 9]]%Q 0%Q ;;
  x_C_1 <- lil_assign x_C x_Ones ;;
  x_C_2 <- t_opt_mxm TyD noacc TyD (mkSr qplus qtimes TyD) (MComp (Other x_Ones)) MERGE x_C_1 (OMat
    (Other x_A)) (OMat (Other x_Identity)) ;;
  x_q <- meq x_C_2 x_Ones ;;
  _ <- check x_q ;;
  x_C_3 <- lil_assign x_C_2 x_Ones ;;
  x_C_4 <- t_opt_mxm TyD noacc TyD (mkSr qplus qtimes TyD) (MComp (Other x_Empty)) MERGE x_C_3 (OMat
    (Other x_A)) (OMat (Other x_Identity)) ;;
  x_q_1 <- meq x_C_4 x_A ;;
  _ <- check x_q_1 ;;
  x_C_5 <- lil_assign x_C_4 x_Ones ;;
  x_C_6 <- t_opt_mxm TyD noacc TyD (mkSr qplus qtimes TyD) (MComp (Other x_NotA)) MERGE x_C_5 (OMat
    (Other x_A)) (OMat (Other x_Identity)) ;;
  x_q_2 <- meq x_C_6 x_AFilled ;;
  _ <- check x_q_2 ;;
  x_C_7 <- lil_assign x_C_6 x_Ones ;;
  x_C_8 <- t_opt_mxm TyD noacc TyD (mkSr qplus qtimes TyD) (MComp (Other x_MNotLower)) MERGE x_C_7
    (OMat (Other x_Ones)) (OMat (Other x_Identity)) ;;
  x_q_3 <- meq x_C_8 x_Ones ;;
  _ <- check x_q_3 ;;
  x_C_9 <- lil_assign x_C_8 x_Ones ;;
  x_C_10 <- t_opt_mxm TyD noacc TyD (mkSr qplus qtimes TyD) (MComp (Other x_MLower)) MERGE x_C_9
    (OMat (Other x_Ones)) (OMat (Other x_Identity)) ;;
  x_q_4 <- meq x_C_10 x_Ones ;;
  _ <- check x_q_4 ;;
  x_C_11 <- lil_assign x_C_10 x_Ones ;;
  x_C_12 <- t_opt_mxm TyD noacc TyD (mkSr qplus qtimes TyD) (MComp (Other x_Ones)) REPLACE x_C_11
    (OMat (Other x_A)) (OMat (Other x_Identity)) ;;
  x_q_5 <- meq x_C_12 x_Empty ;;
  _ <- check x_q_5 ;;
  x_C_13 <- lil_assign x_C_12 x_Ones ;;
  x_C_14 <- t_opt_mxm TyD noacc TyD (mkSr qplus qtimes TyD) (MComp (Other x_Empty)) REPLACE x_C_13
    (OMat (Other x_A)) (OMat (Other x_Identity)) ;;
  x_q_6 <- meq x_C_14 x_A ;;
  _ <- check x_q_6 ;;
  x_C_15 <- lil_assign x_C_14 x_Ones ;;
  x_C_16 <- t_opt_mxm TyD noacc TyD (mkSr qplus qtimes TyD) (MComp (Other x_MNotLower)) REPLACE
    x_C_15 (OMat (Other x_Ones)) (OMat (Other x_Identity)) ;;
  x_q_7 <- meq x_C_16 x_MLower ;;
  _ <- check x_q_7 ;;
  x_C_17 <- lil_assign x_C_16 x_Ones ;;
  x_C_18 <- t_opt_mxm TyD noacc TyD (mkSr qplus qtimes TyD) (MComp (Other x_MLower)) REPLACE x_C_17
    (OMat (Other x_Ones)) (OMat (Other x_Identity)) ;;
  x_q_8 <- meq x_C_18 x_MNotLower ;;
  _ <- check x_q_8 ;;
  Ok tt) = Ok tt.
Proof. vm_compute. reflexivity. Qed.

(** test_mxm_AB.cpp:1944-2005 *)
Example test_mxm_CompMask_NoAccum_AB_empty :
 (x_Empty <- mnew 3 3 ;;
  x_Ones <- mdense0 TyD d_Ones_3x3 0%Q ;;
  x_Identity <- mdense0 TyD d_Identity_3x3 0%Q ;;
  x_C <- mnew 3 3 ;;
  x_M <- mdense0 TyB d_LowerBool_3x3 0%Q ;;
  x_mUpper <- mdense0 TyD d_NotLower_3x3 0%Q ;;
  x_C_1 <- lil_assign x_C x_Ones ;;
  x_C_2 <- t_mxm TyD noacc (mkSr qplus qtimes TyD) (MComp x_mUpper) MERGE x_C_1 (Mat x_Empty) (Mat
    x_Ones) ;;
  x_q <- meq x_C_2 x_mUpper ;;
  _ <- check x_q ;;
  x_C_3 <- lil_assign x_C_2 x_Ones ;;
  x_C_4 <- t_mxm TyD noacc (mkSr qplus qtimes TyD) (MComp x_mUpper) MERGE x_C_3 (Mat x_Ones) (Mat
    x_Empty) ;;
  x_q_1 <- meq x_C_4 x_mUpper ;;
  _ <- check x_q_1 ;;
  x_C_5 <- lil_assign x_C_4 x_Ones ;;
  x_C_6 <- t_mxm TyD noacc (mkSr qplus qtimes TyD) (MComp x_Ones) MERGE x_C_5 (Mat x_Ones) (Mat
    x_Empty) ;;
  x_q_2 <- meq x_C_6 x_Ones ;;
  _ <- check x_q_2 ;;
  x_C_7 <- lil_assign x_C_6 x_Empty ;;
  x_C_8 <- t_mxm TyD noacc (mkSr qplus qtimes TyD) (MComp x_Empty) MERGE x_C_7 (Mat x_Ones) (Mat
    x_Identity) ;;
  x_q_3 <- meq x_C_8 x_Ones ;;
  _ <- check x_q_3 ;;
  x_C_9 <- lil_assign x_C_8 x_Ones ;;
  x_C_10 <- t_mxm TyD noacc (mkSr qplus qtimes TyD) (MComp x_mUpper) REPLACE x_C_9 (Mat x_Empty)
    (Mat x_Ones) ;;
  x_q_4 <- meq x_C_10 x_Empty ;;
  _ <- check x_q_4 ;;
  x_C_11 <- lil_assign x_C_10 x_Ones ;;
  x_C_12 <- t_mxm TyD noacc (mkSr qplus qtimes TyD) (MComp x_mUpper) REPLACE x_C_11 (Mat x_Ones)
    (Mat x_Empty) ;;
  x_q_5 <- meq x_C_12 x_Empty ;;
  _ <- check x_q_5 ;;
  x_C_13 <- lil_assign x_C_12 x_Ones ;;
  x_C_14 <- t_mxm TyD noacc (mkSr qplus qtimes TyD) (MComp x_Ones) REPLACE x_C_13 (Mat x_Ones) (Mat
    x_Empty) ;;
  x_q_6 <- meq x_C_14 x_Empty ;;
  _ <- check x_q_6 ;;
  x_C_15 <- lil_assign x_C_14 x_Empty ;;
  x_C_16 <- t_mxm TyD noacc (mkSr qplus qtimes TyD) (MComp x_Empty) REPLACE x_C_15 (Mat x_Ones) (Mat
    x_Identity) ;;
  x_q_7 <- meq x_C_16 x_Ones ;;
  _ <- check x_q_7 ;;
  Ok tt) = Ok tt.
Proof. vm_compute. reflexivity. Qed.

(** test_mxm_AB.cpp:1944-2005, optimized_sequential platform *)
Example test_mxm_CompMask_NoAccum_AB_empty_opt :
 (x_Empty <- mnew 3 3 ;;
  x_Ones <- mdense0 TyD d_Ones_3x3 0%Q ;;
  x_Identity <- mdense0 TyD d_Identity_3x3 0%Q ;;
  x_C <- mnew 3 3 ;;
  x_M <- mdense0 TyB d_LowerBool_3x3 0%Q ;;
  x_mUpper <- mdense0 TyD d_NotLower_3x3 0%Q ;;
  x_C_1 <- lil_assign x_C x_Ones ;;
  x_C_2 <- t_opt_mxm TyD noacc TyD (mkSr qplus qtimes TyD) (MComp (Other x_mUpper)) MERGE x_C_1
    (OMat (Other x_Empty)) (OMat (Other x_Ones)) ;;
  x_q <- meq x_C_2 x_mUpper ;;
  _ <- check x_q ;;
  x_C_3 <- lil_assign x_C_2 x_Ones ;;
  x_C_4 <- t_opt_mxm TyD noacc TyD (mkSr qplus qtimes TyD) (MComp (Other x_mUpper)) MERGE x_C_3
    (OMat (Other x_Ones)) (OMat (Other x_Empty)) ;;
  x_q_1 <- meq x_C_4 x_mUpper ;;
  _ <- check x_q_1 ;;
  x_C_5 <- lil_assign x_C_4 x_Ones ;;
  x_C_6 <- t_opt_mxm TyD noacc TyD (mkSr qplus qtimes TyD) (MComp (Other x_Ones)) MERGE x_C_5 (OMat
    (Other x_Ones)) (OMat (Other x_Empty)) ;;
  x_q_2 <- meq x_C_6 x_Ones ;;
  _ <- check x_q_2 ;;
  x_C_7 <- lil_assign x_C_6 x_Empty ;;
  x_C_8 <- t_opt_mxm TyD noacc TyD (mkSr qplus qtimes TyD) (MComp (Other x_Empty)) MERGE x_C_7 (OMat
    (Other x_Ones)) (OMat (Other x_Identity)) ;;
  x_q_3 <- meq x_C_8 x_Ones ;;
  _ <- check x_q_3 ;;
  x_C_9 <- lil_assign x_C_8 x_Ones ;;
  x_C_10 <- t_opt_mxm TyD noacc TyD (mkSr qplus qtimes TyD) (MComp (Other x_mUpper)) REPLACE x_C_9
    (OMat (Other x_Empty)) (OMat (Other x_Ones)) ;;
  x_q_4 <- meq x_C_10 x_Empty ;;
  _ <- check x_q_4 ;;
  x_C_11 <- lil_assign x_C_10 x_Ones ;;
  x_C_12 <- t_opt_mxm TyD noacc TyD (mkSr qplus qtimes TyD) (MComp (Other x_mUpper)) REPLACE x_C_11
    (OMat (Other x_Ones)) (OMat (Other x_Empty)) ;;
  x_q_5 <- meq x_C_12 x_Empty ;;
  _ <- check x_q_5 ;;
  x_C_13 <- lil_assign x_C_12 x_Ones ;;
  x_C_14 <- t_opt_mxm TyD noacc TyD (mkSr qplus qtimes TyD) (MComp (Other x_Ones)) REPLACE x_C_13
    (OMat (Other x_Ones)) (OMat (Other x_Empty)) ;;
  x_q_6 <- meq x_C_14 x_Empty ;;
  _ <- check x_q_6 ;;
  x_C_15 <- lil_assign x_C_14 x_Empty ;;
  x_C_16 <- t_opt_mxm TyD noacc TyD (mkSr qplus qtimes TyD) (MComp (Other x_Empty)) REPLACE x_C_15
    (OMat (Other x_Ones)) (OMat (Other x_Identity)) ;;
  x_q_7 <- meq x_C_16 x_Ones ;;
  _ <- check x_q_7 ;;
  Ok tt) = Ok tt.
Proof. vm_compute. reflexivity. Qed.

(** test_mxm_AB.cpp:2008-2029 *)
Example test_mxm_CompMask_NoAccum_AB_Merge_Cones_Mlower_stored_zero :
 (x_A <- mdense0 TyD d_A_dense_3x3 0%Q ;;
  x_B <- mdense0 TyD d_B_dense_3x4 0%Q ;;
  x_M <- mdense0 TyD d_NotLower_3x4 0%Q ;;
  x_M_1 <- lil_setElement x_M 0 0 (cast TyD 0%Q) ;;
  _ <- check (Qeq_bool (inject_Z (nvals x_M_1)) 7%Q) ;;
  x_result <- mdense0 TyD d_Ones_3x4 0%Q ;;
  x_answer <- mdense0 TyD [[114; 1; 1; 1]; [74; 97; 1; 1]; [119; 157; 112; 1]]%Q 0%Q ;;
  x_result_1 <- t_mxm TyD noacc (mkSr qplus qtimes TyD) (MComp x_M_1) MERGE x_result (Mat x_A) (Mat
    x_B) ;;
  _ <- check (Qeq_bool (inject_Z (nvals x_result_1)) 12%Q) ;;
  x_q <- meq x_result_1 x_answer ;;
  _ <- check x_q ;;
  Ok tt) = Ok tt.
Proof. vm_compute. reflexivity. Qed.

(** test_mxm_AB.cpp:2008-2029, optimized_sequential platform *)
Example test_mxm_CompMask_NoAccum_AB_Merge_Cones_Mlower_stored_zero_opt :
 (x_A <- mdense0 TyD d_A_dense_3x3 0%Q ;;
  x_B <- mdense0 TyD d_B_dense_3x4 0%Q ;;
  x_M <- mdense0 TyD d_NotLower_3x4 0%Q ;;
  x_M_1 <- lil_setElement x_M 0 0 (cast TyD 0%Q) ;;
  _ <- check (Qeq_bool (inject_Z (nvals x_M_1)) 7%Q) ;;
  x_result <- mdense0 TyD d_Ones_3x4 0%Q ;;
  x_answer <- mdense0 TyD [[114; 1; 1; 1]; [74; 97; 1; 1]; [119; 157; 112; 1]]%Q 0%Q ;;
  x_result_1 <- t_opt_mxm TyD noacc TyD (mkSr qplus qtimes TyD) (MComp (Other x_M_1)) MERGE x_result
    (OMat (Other x_A)) (OMat (Other x_B)) ;;
  _ <- check (Qeq_bool (inject_Z (nvals x_result_1)) 12%Q) ;;
  x_q <- meq x_result_1 x_answer ;;
  _ <- check x_q ;;
  Ok tt) = Ok tt.
Proof. vm_compute. reflexivity. Qed.

(** test_mxm_AB.cpp:2032-2073 *)
Example test_mxm_CompMask_NoAccum_AB_emptyRowA_emptyColB :
 (x_A <- mdense0 TyD [[8; 1; 6]; [0; 0; 0]; [4; 9; 2]]%Q 0%Q ;;
  x_B <- mdense0 TyD [[0; 0; 0; 1]; [1; 0; 1; 1]; [0; 0; 1; 1]]%Q 0%Q ;;
  x_NotLower <- mdense0 TyD d_NotLower_3x4 0%Q ;;
  x_Ones <- mdense0 TyD d_Ones_3x4 0%Q ;;
  x_C <- mnew 3 4 ;;
  x_answer <- mdense0 TyD [[1; 0; 0; 0]; [0; 0; 0; 0]; [9; 0; 11; 0]]%Q 0%Q ;;
  x_C_1 <- lil_assign x_C x_Ones ;;
  x_C_2 <- t_mxm TyD noacc (mkSr qplus qtimes TyD) (MComp x_NotLower) REPLACE x_C_1 (Mat x_A) (Mat
    x_B) ;;
  x_q <- meq x_C_2 x_answer ;;
  _ <- check x_q ;;
  x_answer2 <- mdense0 TyD [[1; 1; 1; 1]; [0; 0; 1; 1]; [9; 0; 11; 1]]%Q 0%Q ;;
  x_C_3 <- lil_assign x_C_2 x_Ones ;;
  x_C_4 <- t_mxm TyD noacc (mkSr qplus qtimes TyD) (MComp x_NotLower) MERGE x_C_3 (Mat x_A) (Mat
    x_B) ;;
  x_q_1 <- meq x_C_4 x_answer2 ;;
  _ <- check x_q_1 ;;
  Ok tt) = Ok tt.
Proof. vm_compute. reflexivity. Qed.

(** test_mxm_AB.cpp:2032-2073, optimized_sequential platform *)
Example test_mxm_CompMask_NoAccum_AB_emptyRowA_emptyColB_opt :
 (x_A <- mdense0 TyD [[8; 1; 6]; [0; 0; 0]; [4; 9; 2]]%Q 0%Q ;;
  x_B <- mdense0 TyD [[0; 0; 0; 1]; [1; 0; 1; 1]; [0; 0; 1; 1]]%Q 0%Q ;;
  x_NotLower <- mdense0 TyD d_NotLower_3x4 0%Q ;;
  x_Ones <- mdense0 TyD d_Ones_3x4 0%Q ;;
  x_C <- mnew 3 4 ;;
  x_answer <- mdense0 TyD [[1; 0; 0; 0]; [0; 0; 0; 0]; [9; 0; 11; 0]]%Q 0%Q ;;
  x_C_1 <- lil_assign x_C x_Ones ;;
  x_C_2 <- t_opt_mxm TyD noacc TyD (mkSr qplus qtimes TyD) (MComp (Other x_NotLower)) REPLACE x_C_1
    (OMat (Other x_A)) (OMat (Other x_B)) ;;
  x_q <- meq x_C_2 x_answer ;;
  _ <- check x_q ;;
  x_answer2 <- mdense0 TyD [[1; 1; 1; 1]; [0; 0; 1; 1]; [9; 0; 11; 1]]%Q 0%Q ;;
  x_C_3 <- lil_assign x_C_2 x_Ones ;;
  x_C_4 <- t_opt_mxm TyD noacc TyD (mkSr qplus qtimes TyD) (MComp (Other x_NotLower)) MERGE x_C_3
    (OMat (Other x_A)) (OMat (Other x_B)) ;;
  x_q_1 <- meq x_C_4 x_answer2 ;;
  _ <- check x_q_1 ;;
  Ok tt) = Ok tt.
Proof. vm_compute. reflexivity. Qed.

(** test_mxm_AB.cpp:2076-2117 *)
Example test_mxm_CompMask_NoAccum_AB_emptyColA_emptyRowB :
 (x_A <- mdense0 TyD [[8; 0; 6]; [1; 0; 9]; [4; 0; 2]]%Q 0%Q ;;
  x_B <- mdense0 TyD [[0; 1; 0; 1]; [1; 0; 1; 1]; [0; 0; 0; 0]]%Q 0%Q ;;
  x_NotLower <- mdense0 TyD d_NotLower_3x4 0%Q ;;
  x_Ones <- mdense0 TyD d_Ones_3x4 0%Q ;;
  x_C <- mnew 3 4 ;;
  x_answer <- mdense0 TyD [[0; 0; 0; 0]; [0; 1; 0; 0]; [0; 4; 0; 0]]%Q 0%Q ;;
  x_C_1 <- lil_assign x_C x_Ones ;;
  x_C_2 <- t_mxm TyD noacc (mkSr qplus qtimes TyD) (MComp x_NotLower) REPLACE x_C_1 (Mat x_A) (Mat
    x_B) ;;
  x_q <- meq x_C_2 x_answer ;;
  _ <- check x_q ;;
  x_answer2 <- mdense0 TyD [[0; 1; 1; 1]; [0; 1; 1; 1]; [0; 4; 0; 1]]%Q 0%Q ;;
  x_C_3 <- lil_assign x_C_2 x_Ones ;;
  x_C_4 <- t_mxm TyD noacc (mkSr qplus qtimes TyD) (MComp x_NotLower) MERGE x_C_3 (Mat x_A) (Mat
    x_B) ;;
  x_q_1 <- meq x_C_4 x_answer2 ;;
  _ <- check x_q_1 ;;
  Ok tt) = Ok tt.
Proof. vm_compute. reflexivity. Qed.

(** test_mxm_AB.cpp:2076-2117, optimized_sequential platform *)
Example test_mxm_CompMask_NoAccum_AB_emptyColA_emptyRowB_opt :
 (x_A <- mdense0 TyD [[8; 0; 6]; [1; 0; 9]; [4; 0; 2]]%Q 0%Q ;;
  x_B <- mdense0 TyD [[0; 1; 0; 1]; [1; 0; 1; 1]; [0; 0; 0; 0]]%Q 0%Q ;;
  x_NotLower <- mdense0 TyD d_NotLower_3x4 0%Q ;;
  x_Ones <- mdense0 TyD d_Ones_3x4 0%Q ;;
  x_C <- mnew 3 4 ;;
  x_answer <- mdense0 TyD [[0; 0; 0; 0]; [0; 1; 0; 0]; [0; 4; 0; 0]]%Q 0%Q ;;
  x_C_1 <- lil_assign x_C x_Ones ;;
  x_C_2 <- t_opt_mxm TyD noacc TyD (mkSr qplus qtimes TyD) (MComp (Other x_NotLower)) REPLACE x_C_1
    (OMat (Other x_A)) (OMat (Other x_B)) ;;
  x_q <- meq x_C_2 x_answer ;;
  _ <- check x_q ;;
  x_answer2 <- mdense0 TyD [[0; 1; 1; 1]; [0; 1; 1; 1]; [0; 4; 0; 1]]%Q 0%Q ;;
  x_C_3 <- lil_assign x_C_2 x_Ones ;;
  x_C_4 <- t_opt_mxm TyD noacc TyD (mkSr qplus qtimes TyD) (MComp (Other x_NotLower)) MERGE x_C_3
    (OMat (Other x_A)) (OMat (Other x_B)) ;;
  x_q_1 <- meq x_C_4 x_answer2 ;;
  _ <- check x_q_1 ;;
  Ok tt) = Ok tt.
Proof. vm_compute. reflexivity. Qed.

(** test_mxm_AB.cpp:2120-2161 *)
Example test_mxm_CompMask_NoAccum_AB_emptyRowM :
 (x_A <- mdense0 TyD [[8; 1; 6]; [0; 0; 0]; [4; 9; 2]]%Q 0%Q ;;
  x_B <- mdense0 TyD [[0; 0; 0]; [1; 0; 1]; [0; 0; 1]]%Q 0%Q ;;
  x_Lower <- mdense0 TyD d_Lower_3x3 0%Q ;;
  x_Ones <- mdense0 TyD d_Ones_3x3 0%Q ;;
  x_C <- mnew 3 3 ;;
  x_answer <- mdense0 TyD [[0; 0; 7]; [0; 0; 0]; [0; 0; 0]]%Q 0%Q ;;
  x_C_1 <- lil_assign x_C x_Ones ;;
  x_C_2 <- t_mxm TyD noacc (mkSr qplus qtimes TyD) (MComp x_Lower) REPLACE x_C_1 (Mat x_A) (Mat x_B)
    ;;
  x_q <- meq x_C_2 x_answer ;;
  _ <- check x_q ;;
  x_answer2 <- mdense0 TyD [[1; 0; 7]; [1; 1; 0]; [1; 1; 1]]%Q 0%Q ;;
  x_C_3 <- lil_assign x_C_2 x_Ones ;;
  x_C_4 <- t_mxm TyD noacc (mkSr qplus qtimes TyD) (MComp x_Lower) MERGE x_C_3 (Mat x_A) (Mat x_B)
    ;;
  x_q_1 <- meq x_C_4 x_answer2 ;;
  _ <- check x_q_1 ;;
  Ok tt) = Ok tt.
Proof. vm_compute. reflexivity. Qed.

(** test_mxm_AB.cpp:2120-2161, optimized_sequential platform *)
Example test_mxm_CompMask_NoAccum_AB_emptyRowM_opt :
 (x_A <- mdense0 TyD [[8; 1; 6]; [0; 0; 0]; [4; 9; 2]]%Q 0%Q ;;
  x_B <- mdense0 TyD [[0; 0; 0]; [1; 0; 1]; [0; 0; 1]]%Q 0%Q ;;
  x_Lower <- mdense0 TyD d_Lower_3x3 0%Q ;;
  x_Ones <- mdense0 TyD d_Ones_3x3 0%Q ;;
  x_C <- mnew 3 3 ;;
  x_answer <- mdense0 TyD [[0; 0; 7]; [0; 0; 0]; [0; 0; 0]]%Q 0%Q ;;
  x_C_1 <- lil_assign x_C x_Ones ;;
  x_C_2 <- t_opt_mxm TyD noacc TyD (mkSr qplus qtimes TyD) (MComp (Other x_Lower)) REPLACE x_C_1
    (OMat (Other x_A)) (OMat (Other x_B)) ;;
  x_q <- meq x_C_2 x_answer ;;
  _ <- check x_q ;;
  x_answer2 <- mdense0 TyD [[1; 0; 7]; [1; 1; 0]; [1; 1; 1]]%Q 0%Q ;;
  x_C_3 <- lil_assign x_C_2 x_Ones ;;
  x_C_4 <- t_opt_mxm TyD noacc TyD (mkSr qplus qtimes TyD) (MComp (Other x_Lower)) MERGE x_C_3 (OMat
    (Other x_A)) (OMat (Other x_B)) ;;
  x_q_1 <- meq x_C_4 x_answer2 ;;
  _ <- check x_q_1 ;;
  Ok tt) = Ok tt.
Proof. vm_compute. reflexivity. Qed.

(** test_mxm_AB.cpp:2164-2206 *)
Example test_mxm_CompMask_NoAccum_AB_ABdup :
 (x_mat <- mdense0 TyD [[1; 1; 0; 0]; [1; 2; 2; 0]; [0; 2; 3; 3]; [0; 0; 3; 4]]%Q 0%Q ;;
  x_NotLower <- mdense0 TyD d_NotLower_4x4 0%Q ;;
  x_Ones <- mdense0 TyD d_Ones_4x4 0%Q ;;
  x_C <- mnew 4 4 ;;
  x_answer <- mdense0 TyD [[2; 1; 1; 1]; [3; 9; 1; 1]; [2; 10; 22; 1]; [0; 6; 21; 25]]%Q 0%Q ;;
  x_C_1 <- lil_assign x_C x_Ones ;;
  x_C_2 <- t_mxm TyD noacc (mkSr qplus qtimes TyD) (MComp x_NotLower) MERGE x_C_1 (Mat x_mat) (Mat
    x_mat) ;;
  x_q <- meq x_C_2 x_answer ;;
  _ <- check x_q ;;
  x_answer2 <- mdense0 TyD [[2; 0; 0; 0]; [3; 9; 0; 0]; [2; 10; 22; 0]; [0; 6; 21; 25]]%Q 0%Q ;;
  x_C_3 <- lil_assign x_C_2 x_Ones ;;
  x_C_4 <- t_mxm TyD noacc (mkSr qplus qtimes TyD) (MComp x_NotLower) REPLACE x_C_3 (Mat x_mat) (Mat
    x_mat) ;;
  x_q_1 <- meq x_C_4 x_answer2 ;;
  _ <- check x_q_1 ;;
  Ok tt) = Ok tt.
Proof. vm_compute. reflexivity. Qed.

(** test_mxm_AB.cpp:2164-2206, optimized_sequential platform *)
Example test_mxm_CompMask_NoAccum_AB_ABdup_opt :
 (x_mat <- mdense0 TyD [[1; 1; 0; 0]; [1; 2; 2; 0]; [0; 2; 3; 3]; [0; 0; 3; 4]]%Q 0%Q ;;
  x_NotLower <- mdense0 TyD d_NotLower_4x4 0%Q ;;
  x_Ones <- mdense0 TyD d_Ones_4x4 0%Q ;;
  x_C <- mnew 4 4 ;;
  x_answer <- mdense0 TyD [[2; 1; 1; 1]; [3; 9; 1; 1]; [2; 10; 22; 1]; [0; 6; 21; 25]]%Q 0%Q ;;
  x_C_1 <- lil_assign x_C x_Ones ;;
  x_C_2 <- t_opt_mxm TyD noacc TyD (mkSr qplus qtimes TyD) (MComp (Other x_NotLower)) MERGE x_C_1
    (OMat (Other x_mat)) (OMat (Other x_mat)) ;;
  x_q <- meq x_C_2 x_answer ;;
  _ <- check x_q ;;
  x_answer2 <- mdense0 TyD [[2; 0; 0; 0]; [3; 9; 0; 0]; [2; 10; 22; 0]; [0; 6; 21; 25]]%Q 0%Q ;;
  x_C_3 <- lil_assign x_C_2 x_Ones ;;
  x_C_4 <- t_opt_mxm TyD noacc TyD (mkSr qplus qtimes TyD) (MComp (Other x_NotLower)) REPLACE x_C_3
    (OMat (Other x_mat)) (OMat (Other x_mat)) ;;
  x_q_1 <- meq x_C_4 x_answer2 ;;
  _ <- check x_q_1 ;;
  Ok tt) = Ok tt.
Proof. vm_compute. reflexivity. Qed.

(** test_mxm_AB.cpp:2209-2251 *)
Example test_mxm_CompMask_NoAccum_AB_ACdup :
 (x_mat <- mdense0 TyD [[1; 1; 0; 0]; [1; 2; 2; 0]; [0; 2; 3; 3]; [0; 0; 3; 4]]%Q 0%Q ;;
  x_NotLower <- mdense0 TyD d_NotLower_4x4 0%Q ;;
  x_Ones <- mdense0 TyD d_Ones_4x4 0%Q ;;
  x_C <- mnew 4 4 ;;
  x_answer <- mdense0 TyD [[2; 1; 0; 0]; [3; 9; 2; 0]; [2; 10; 22; 3]; [0; 6; 21; 25]]%Q 0%Q ;;
  x_C_1 <- lil_assign x_C x_mat ;;
  x_C_2 <- t_mxm TyD noacc (mkSr qplus qtimes TyD) (MComp x_NotLower) MERGE x_C_1 (Mat x_C_1) (Mat
    x_mat) ;;
  x_q <- meq x_C_2 x_answer ;;
  _ <- check x_q ;;
  x_answer2 <- mdense0 TyD [[2; 0; 0; 0]; [3; 9; 0; 0]; [2; 10; 22; 0]; [0; 6; 21; 25]]%Q 0%Q ;;
  x_C_3 <- lil_assign x_C_2 x_mat ;;
  x_C_4 <- t_mxm TyD noacc (mkSr qplus qtimes TyD) (MComp x_NotLower) REPLACE x_C_3 (Mat x_C_3) (Mat
    x_mat) ;;
  x_q_1 <- meq x_C_4 x_answer2 ;;
  _ <- check x_q_1 ;;
  Ok tt) = Ok tt.
Proof. vm_compute. reflexivity. Qed.

(** test_mxm_AB.cpp:2209-2251, optimized_sequential platform *)
Example test_mxm_CompMask_NoAccum_AB_ACdup_opt :
 (x_mat <- mdense0 TyD [[1; 1; 0; 0]; [1; 2; 2; 0]; [0; 2; 3; 3]; [0; 0; 3; 4]]%Q 0%Q ;;
  x_NotLower <- mdense0 TyD d_NotLower_4x4 0%Q ;;
  x_Ones <- mdense0 TyD d_Ones_4x4 0%Q ;;
  x_C <- mnew 4 4 ;;
  x_answer <- mdense0 TyD [[2; 1; 0; 0]; [3; 9; 2; 0]; [2; 10; 22; 3]; [0; 6; 21; 25]]%Q 0%Q ;;
  x_C_1 <- lil_assign x_C x_mat ;;
  x_C_2 <- t_opt_mxm TyD noacc TyD (mkSr qplus qtimes TyD) (MComp (Other x_NotLower)) MERGE x_C_1
    (OMat (TheOutput (fun x => x))) (OMat (Other x_mat)) ;;
  x_q <- meq x_C_2 x_answer ;;
  _ <- check x_q ;;
  x_answer2 <- mdense0 TyD [[2; 0; 0; 0]; [3; 9; 0; 0]; [2; 10; 22; 0]; [0; 6; 21; 25]]%Q 0%Q ;;
  x_C_3 <- lil_assign x_C_2 x_mat ;;
  x_C_4 <- t_opt_mxm TyD noacc TyD (mkSr qplus qtimes TyD) (MComp (Other x_NotLower)) REPLACE x_C_3
    (OMat (TheOutput (fun x => x))) (OMat (Other x_mat)) ;;
  x_q_1 <- meq x_C_4 x_answer2 ;;
  _ <- check x_q_1 ;;
  Ok tt) = Ok tt.
Proof. vm_compute. reflexivity. Qed.

(** test_mxm_AB.cpp:2254-2305 *)
Example test_mxm_CompMask_NoAccum_AB_BCdup :
 (x_mat <- mdense0 TyD [[1; 1; 0; 0]; [1; 2; 2; 0]; [0; 2; 3; 3]; [0; 0; 3; 4]]%Q 0%Q ;;
  x_NotLower <- mdense0 TyD d_NotLower_4x4 0%Q ;;
  x_Ones <- mdense0 TyD d_Ones_4x4 0%Q ;;
  x_C <- mnew 4 4 ;;
  x_answer <- mdense0 TyD [[2; 1; 0; 0]; [3; 9; 2; 0]; [2; 10; 22; 3]; [0; 6; 21; 25]]%Q 0%Q ;;
  x_C_1 <- lil_assign x_C x_mat ;;
  x_C_2 <- t_mxm TyD noacc (mkSr qplus qtimes TyD) (MComp x_NotLower) MERGE x_C_1 (Mat x_mat) (Mat
    x_C_1) ;;
  x_q <- meq x_C_2 x_answer ;;
  _ <- check x_q ;;
  x_C_3 <- lil_assign x_C_2 x_mat ;;
  x_C_4 <- t_mxm TyD noacc (mkSr qplus qtimes TyD) (MComp x_NotLower) MERGE x_C_3 (Mat x_mat) (Mat
    x_mat) ;;
  x_q_1 <- meq x_C_4 x_answer ;;
  _ <- check x_q_1 ;;
  x_answer2 <- mdense0 TyD [[2; 0; 0; 0]; [3; 9; 0; 0]; [2; 10; 22; 0]; [0; 6; 21; 25]]%Q 0%Q ;;
  x_C_5 <- lil_assign x_C_4 x_mat ;;
  x_C_6 <- t_mxm TyD noacc (mkSr qplus qtimes TyD) (MComp x_NotLower) REPLACE x_C_5 (Mat x_mat) (Mat
    x_C_5) ;;
  x_q_2 <- meq x_C_6 x_answer2 ;;
  _ <- check x_q_2 ;;
  Ok tt) = Ok tt.
Proof. vm_compute. reflexivity. Qed.

(** test_mxm_AB.cpp:2254-2305, optimized_sequential platform *)
Example test_mxm_CompMask_NoAccum_AB_BCdup_opt :
 (x_mat <- mdense0 TyD [[1; 1; 0; 0]; [1; 2; 2; 0]; [0; 2; 3; 3]; [0; 0; 3; 4]]%Q 0%Q ;;
  x_NotLower <- mdense0 TyD d_NotLower_4x4 0%Q ;;
  x_Ones <- mdense0 TyD d_Ones_4x4 0%Q ;;
  x_C <- mnew 4 4 ;;
  x_answer <- mdense0 TyD [[2; 1; 0; 0]; [3; 9; 2; 0]; [2; 10; 22; 3]; [0; 6; 21; 25]]%Q 0%Q ;;
  x_C_1 <- lil_assign x_C x_mat ;;
  x_C_2 <- t_opt_mxm TyD noacc TyD (mkSr qplus qtimes TyD) (MComp (Other x_NotLower)) MERGE x_C_1
    (OMat (Other x_mat)) (OMat (TheOutput (fun x => x))) ;;
  x_q <- meq x_C_2 x_answer ;;
  _ <- check x_q ;;
  x_C_3 <- lil_assign x_C_2 x_mat ;;
  x_C_4 <- t_opt_mxm TyD noacc TyD (mkSr qplus qtimes TyD) (MComp (Other x_NotLower)) MERGE x_C_3
    (OMat (Other x_mat)) (OMat (Other x_mat)) ;;
  x_q_1 <- meq x_C_4 x_answer ;;
  _ <- check x_q_1 ;;
  x_answer2 <- mdense0 TyD [[2; 0; 0; 0]; [3; 9; 0; 0]; [2; 10; 22; 0]; [0; 6; 21; 25]]%Q 0%Q ;;
  x_C_5 <- lil_assign x_C_4 x_mat ;;
  x_C_6 <- t_opt_mxm TyD noacc TyD (mkSr qplus qtimes TyD) (MComp (Other x_NotLower)) REPLACE x_C_5
    (OMat (Other x_mat)) (OMat (TheOutput (fun x => x))) ;;
  x_q_2 <- meq x_C_6 x_answer2 ;;
  _ <- check x_q_2 ;;
  Ok tt) = Ok tt.
Proof. vm_compute. reflexivity. Qed.

(** test_mxm_AB.cpp:2308-2334 *)
Example test_mxm_CompMask_NoAccum_AB_Replace_ABdup :
 (x_mat <- mdense0 TyD [[1; 1; 0; 0]; [1; 2; 2; 0]; [0; 2; 3; 3]; [0; 0; 3; 4]]%Q 0%Q ;;
  x_result <- mdense0 TyD d_Ones_4x4 0%Q ;;
  x_answer <- mdense0 TyD [[2; 0; 0; 0]; [3; 9; 0; 0]; [2; 10; 22; 0]; [0; 6; 21; 25]]%Q 0%Q ;;
  x_M <- mdense0 TyD d_NotLower_4x4 0%Q ;;
  x_result_1 <- t_mxm TyD noacc (mkSr qplus qtimes TyD) (MComp x_M) REPLACE x_result (Mat x_mat)
    (Mat x_mat) ;;
  x_q <- meq x_result_1 x_answer ;;
  _ <- check x_q ;;
  Ok tt) = Ok tt.
Proof. vm_compute. reflexivity. Qed.

(** test_mxm_AB.cpp:2308-2334, optimized_sequential platform *)
Example test_mxm_CompMask_NoAccum_AB_Replace_ABdup_opt :
 (x_mat <- mdense0 TyD [[1; 1; 0; 0]; [1; 2; 2; 0]; [0; 2; 3; 3]; [0; 0; 3; 4]]%Q 0%Q ;;
  x_result <- mdense0 TyD d_Ones_4x4 0%Q ;;
  x_answer <- mdense0 TyD [[2; 0; 0; 0]; [3; 9; 0; 0]; [2; 10; 22; 0]; [0; 6; 21; 25]]%Q 0%Q ;;
  x_M <- mdense0 TyD d_NotLower_4x4 0%Q ;;
  x_result_1 <- t_opt_mxm TyD noacc TyD (mkSr qplus qtimes TyD) (MComp (Other x_M)) REPLACE x_result
    (OMat (Other x_mat)) (OMat (Other x_mat)) ;;
  x_q <- meq x_result_1 x_answer ;;
  _ <- check x_q ;;
  Ok tt) = Ok tt.
Proof. vm_compute. reflexivity. Qed.

(** test_mxm_AB.cpp:2341-2455 *)
Example test_mxm_CompMask_Accum_AB :
 (x_A <- mdense0 TyD d_A_sparse_3x3 0%Q ;;
  x_Identity <- mdense0 TyD d_Identity_3x3 0%Q ;;
  x_Empty <- mnew 3 3 ;;
  x_Ones <- mdense0 TyD d_Ones_3x3 0%Q ;;
  x_C <- mnew 3 3 ;;
  x_MLower <- mdense0 TyD d_Lower_3x3 0%Q ;;
  x_MNotLower <- mdense0 TyD d_NotLower_3x3 0%Q ;;
  x_AFilled <- mdense0 TyD [[12; 7; 1]; [1; (-5); 1]; [7; 1; 9]]%Q 0%Q ;;
  x_NotA <- mdense0 TyD [[0; 0; 1]; [1; 0; 1]; [0; 1; 0]]%Q 0%Q ;;
  x_C_1 <- lil_assign x_C x_Ones ;;
  x_C_2 <- t_mxm TyD (acc TyD qplus) (mkSr qplus qtimes TyD) (MComp x_Ones) MERGE x_C_1 (Mat x_A)
    (Mat x_Identity) ;;
  x_q <- meq x_C_2 x_Ones ;;
  _ <- check x_q ;;
  x_C_3 <- lil_assign x_C_2 x_Ones ;;
  x_C_4 <- t_mxm TyD (acc TyD qplus) (mkSr qplus qtimes TyD) (MComp x_NotA) MERGE x_C_3 (Mat x_A)
    (Mat x_Identity) ;;
  x_t <- mdense0 TyD [[13; 8; 1]; [1; (-4); 1]; [8; 1; 10]]%Q 0%Q ;;
  x_q_1 <- meq x_C_4 x_t ;;
  _ <- check x_q_1 ;;
  x_C_5 <- lil_assign x_C_4 x_Ones ;;
  x_C_6 <- t_mxm TyD (acc TyD qplus) (mkSr qplus qtimes TyD) (MComp x_MNotLower) MERGE x_C_5 (Mat
    x_Ones) (Mat x_Identity) ;;
  x_t_1 <- mdense0 TyD [[2; 1; 1]; [2; 2; 1]; [2; 2; 2]]%Q 0%Q ;;
  x_q_2 <- meq x_C_6 x_t_1 ;;
  _ <- check x_q_2 ;;
  x_C_7 <- lil_assign x_C_6 x_Ones ;;
  x_C_8 <- t_mxm TyD (acc TyD qplus) (mkSr qplus qtimes TyD) (MComp x_MLower) MERGE x_C_7 (Mat
    x_Ones) (Mat x_Identity) ;;
  x_t_2 <- mdense0 TyD [[1; 2; 2]; [1; 1; 2]; [1; 1; 1]]%Q 0%Q ;;
  x_q_3 <- meq x_C_8 x_t_2 ;;
  _ <- check x_q_3 ;;
  x_C_9 <- lil_assign x_C_8 x_Ones ;;
  x_C_10 <- t_mxm TyD (acc TyD qplus) (mkSr qplus qtimes TyD) (MComp x_Ones) REPLACE x_C_9 (Mat x_A)
    (Mat x_Identity) ;;
  x_q_4 <- meq x_C_10 x_Empty ;;
  _ <- check x_q_4 ;;
  x_C_11 <- lil_assign x_C_10 x_Ones ;;
  x_C_12 <- t_mxm TyD (acc TyD qplus) (mkSr qplus qtimes TyD) (MComp x_Empty) REPLACE x_C_11 (Mat
    x_A) (Mat x_Identity) ;;
  x_t_3 <- mdense0 TyD [[13; 8; 1]; [1; (-4); 1]; [8; 1; 10]]%Q 0%Q ;;
  x_q_5 <- meq x_C_12 x_t_3 ;;
  _ <- check x_q_5 ;;
  x_C_13 <- lil_assign x_C_12 x_Ones ;;
  x_C_14 <- t_mxm TyD (acc TyD qplus) (mkSr qplus qtimes TyD) (MComp x_MNotLower) REPLACE x_C_13
    (Mat x_Ones) (Mat x_Identity) ;;
  x_t_4 <- mdense0 TyD [[2; 0; 0]; [2; 2; 0]; [2; 2; 2]]%Q 0%Q ;;
  x_q_6 <- meq x_C_14 x_t_4 ;;
  _ <- check x_q_6 ;;
  x_C_15 <- lil_assign x_C_14 x_Ones ;;
  x_C_16 <- t_mxm TyD (acc TyD qplus) (mkSr qplus qtimes TyD) (MComp x_MLower) REPLACE x_C_15 (Mat
    x_Ones) (Mat x_Identity) ;;
  x_t_5 <- mdense0 TyD [[0; 2; 2]; [0; 0; 2]; [0; 0; 0]]%Q 0%Q ;;
  x_q_7 <- meq x_C_16 x_t_5 ;;
  _ <- check x_q_7 ;;
  Ok tt) = Ok tt.
Proof. vm_compute. reflexivity. Qed.

(** test_mxm_AB.cpp:2341-2455, optimized_sequential platform *)
Example test_mxm_CompMask_Accum_AB_opt :
 (x_A <- mdense0 TyD d_A_sparse_3x3 0%Q ;;
  x_Identity <- mdense0 TyD d_Identity_3x3 0%Q ;;
  x_Empty <- mnew 3 3 ;;
  x_Ones <- mdense0 TyD d_Ones_3x3 0%Q ;;
  x_C <- mnew 3 3 ;;
  x_MLower <- mdense0 TyD d_Lower_3x3 0%Q ;;
  x_MNotLower <- mdense0 TyD d_NotLower_3x3 0%Q ;;
  x_AFilled <- mdense0 TyD [[12; 7; 1]; [1; (-5); 1]; [7; 1; 9]]%Q 0%Q ;;
  x_NotA <- mdense0 TyD [[0; 0; 1]; [1; 0; 1]; [0; 1; 0]]%Q 0%Q ;;
  x_C_1 <- lil_assign x_C x_Ones ;;
  x_C_2 <- t_opt_mxm TyD (acc TyD qplus) TyD (mkSr qplus qtimes TyD) (MComp (Other x_Ones)) MERGE
    x_C_1 (OMat (Other x_A)) (OMat (Other x_Identity)) ;;
  x_q <- meq x_C_2 x_Ones ;;
  _ <- check x_q ;;
  x_C_3 <- lil_assign x_C_2 x_Ones ;;
  x_C_4 <- t_opt_mxm TyD (acc TyD qplus) TyD (mkSr qplus qtimes TyD) (MComp (Other x_NotA)) MERGE
    x_C_3 (OMat (Other x_A)) (OMat (Other x_Identity)) ;;
  x_t <- mdense0 TyD [[13; 8; 1]; [1; (-4); 1]; [8; 1; 10]]%Q 0%Q ;;
  x_q_1 <- meq x_C_4 x_t ;;
  _ <- check x_q_1 ;;
  x_C_5 <- lil_assign x_C_4 x_Ones ;;
  x_C_6 <- t_opt_mxm TyD (acc TyD qplus) TyD (mkSr qplus qtimes TyD) (MComp (Other x_MNotLower))
    MERGE x_C_5 (OMat (Other x_Ones)) (OMat (Other x_Identity)) ;;
  x_t_1 <- mdense0 TyD [[2; 1; 1]; [2; 2; 1]; [2; 2; 2]]%Q 0%Q ;;
  x_q_2 <- meq x_C_6 x_t_1 ;;
  _ <- check x_q_2 ;;
  x_C_7 <- lil_assign x_C_6 x_Ones ;;
  x_C_8 <- t_opt_mxm TyD (acc TyD qplus) TyD (mkSr qplus qtimes TyD) (MComp (Other x_MLower)) MERGE
    x_C_7 (OMat (Other x_Ones)) (OMat (Other x_Identity)) ;;
  x_t_2 <- mdense0 TyD [[1; 2; 2]; [1; 1; 2]; [1; 1; 1]]%Q 0%Q ;;
  x_q_3 <- meq x_C_8 x_t_2 ;;
  _ <- check x_q_3 ;;
  x_C_9 <- lil_assign x_C_8 x_Ones ;;
  x_C_10 <- t_opt_mxm TyD (acc TyD qplus) TyD (mkSr qplus qtimes TyD) (MComp (Other x_Ones)) REPLACE
    x_C_9 (OMat (Other x_A)) (OMat (Other x_Identity)) ;;
  x_q_4 <- meq x_C_10 x_Empty ;;
  _ <- check x_q_4 ;;
  x_C_11 <- lil_assign x_C_10 x_Ones ;;
  x_C_12 <- t_opt_mxm TyD (acc TyD qplus) TyD (mkSr qplus qtimes TyD) (MComp (Other x_Empty))
    REPLACE x_C_11 (OMat (Other x_A)) (OMat (Other x_Identity)) ;;
  x_t_3 <- mdense0 TyD [[13; 8; 1]; [1; (-4); 1]; [8; 1; 10]]%Q 0%Q ;;
  x_q_5 <- meq x_C_12 x_t_3 ;;
  _ <- check x_q_5 ;;
  x_C_13 <- lil_assign x_C_12 x_Ones ;;
  x_C_14 <- t_opt_mxm TyD (acc TyD qplus) TyD (mkSr qplus qtimes TyD) (MComp (Other x_MNotLower))
    REPLACE x_C_13 (OMat (Other x_Ones)) (OMat (Other x_Identity)) ;;
  x_t_4 <- mdense0 TyD [[2; 0; 0]; [2; 2; 0]; [2; 2; 2]]%Q 0%Q ;;
  x_q_6 <- meq x_C_14 x_t_4 ;;
  _ <- check x_q_6 ;;
  x_C_15 <- lil_assign x_C_14 x_Ones ;;
  x_C_16 <- t_opt_mxm TyD (acc TyD qplus) TyD (mkSr qplus qtimes TyD) (MComp (Other x_MLower))
    REPLACE x_C_15 (OMat (Other x_Ones)) (OMat (Other x_Identity)) ;;
  x_t_5 <- mdense0 TyD [[0; 2; 2]; [0; 0; 2]; [0; 0; 0]]%Q 0%Q ;;
  x_q_7 <- meq x_C_16 x_t_5 ;;
  _ <- check x_q_7 ;;
  Ok tt) = Ok tt.
Proof. vm_compute. reflexivity. Qed.

(** test_mxm_AB.cpp:2458-2505 *)
Example test_mxm_CompMask_Accum_ABM_empty :
 (x_Empty <- mnew 3 3 ;;
  x_Ones <- mdense0 TyD d_Ones_3x3 0%Q ;;
  x_C <- mnew 3 3 ;;
  x_MNotLower <- mdense0 TyB d_NotLowerBool_3x3 0%Q ;;
  x_C_1 <- lil_assign x_C x_Ones ;;
  x_C_2 <- t_mxm TyD (acc TyD qplus) (mkSr qplus qtimes TyD) (MComp x_MNotLower) MERGE x_C_1 (Mat
    x_Empty) (Mat x_Ones) ;;
  x_q <- meq x_C_2 x_Ones ;;
  _ <- check x_q ;;
  x_C_3 <- lil_assign x_C_2 x_Ones ;;
  x_C_4 <- t_mxm TyD (acc TyD qplus) (mkSr qplus qtimes TyD) (MComp x_MNotLower) MERGE x_C_3 (Mat
    x_Ones) (Mat x_Empty) ;;
  x_q_1 <- meq x_C_4 x_Ones ;;
  _ <- check x_q_1 ;;
  x_C_5 <- lil_assign x_C_4 x_Ones ;;
  x_C_6 <- t_mxm TyD (acc TyD qplus) (mkSr qplus qtimes TyD) (MComp x_Ones) MERGE x_C_5 (Mat x_Ones)
    (Mat x_Ones) ;;
  x_q_2 <- meq x_C_6 x_Ones ;;
  _ <- check x_q_2 ;;
  x_C_7 <- lil_assign x_C_6 x_Ones ;;
  x_C_8 <- t_mxm TyD (acc TyD qplus) (mkSr qplus qtimes TyD) (MComp x_MNotLower) REPLACE x_C_7 (Mat
    x_Empty) (Mat x_Ones) ;;
  x_t <- mdense0 TyD d_Lower_3x3 0%Q ;;
  x_q_3 <- meq x_C_8 x_t ;;
  _ <- check x_q_3 ;;
  x_C_9 <- lil_assign x_C_8 x_Ones ;;
  x_C_10 <- t_mxm TyD (acc TyD qplus) (mkSr qplus qtimes TyD) (MComp x_MNotLower) REPLACE x_C_9 (Mat
    x_Ones) (Mat x_Empty) ;;
  x_t_1 <- mdense0 TyD d_Lower_3x3 0%Q ;;
  x_q_4 <- meq x_C_10 x_t_1 ;;
  _ <- check x_q_4 ;;
  x_C_11 <- lil_assign x_C_10 x_Ones ;;
  x_C_12 <- t_mxm TyD (acc TyD qplus) (mkSr qplus qtimes TyD) (MComp x_Ones) REPLACE x_C_11 (Mat
    x_Ones) (Mat x_Empty) ;;
  x_q_5 <- meq x_C_12 x_Empty ;;
  _ <- check x_q_5 ;;
  Ok tt) = Ok tt.
Proof. vm_compute. reflexivity. Qed.

(** test_mxm_AB.cpp:2458-2505, optimized_sequential platform *)
Example test_mxm_CompMask_Accum_ABM_empty_opt :
 (x_Empty <- mnew 3 3 ;;
  x_Ones <- mdense0 TyD d_Ones_3x3 0%Q ;;
  x_C <- mnew 3 3 ;;
  x_MNotLower <- mdense0 TyB d_NotLowerBool_3x3 0%Q ;;
  x_C_1 <- lil_assign x_C x_Ones ;;
  x_C_2 <- t_opt_mxm TyD (acc TyD qplus) TyD (mkSr qplus qtimes TyD) (MComp (Other x_MNotLower))
    MERGE x_C_1 (OMat (Other x_Empty)) (OMat (Other x_Ones)) ;;
  x_q <- meq x_C_2 x_Ones ;;
  _ <- check x_q ;;
  x_C_3 <- lil_assign x_C_2 x_Ones ;;
  x_C_4 <- t_opt_mxm TyD (acc TyD qplus) TyD (mkSr qplus qtimes TyD) (MComp (Other x_MNotLower))
    MERGE x_C_3 (OMat (Other x_Ones)) (OMat (Other x_Empty)) ;;
  x_q_1 <- meq x_C_4 x_Ones ;;
  _ <- check x_q_1 ;;
  x_C_5 <- lil_assign x_C_4 x_Ones ;;
  x_C_6 <- t_opt_mxm TyD (acc TyD qplus) TyD (mkSr qplus qtimes TyD) (MComp (Other x_Ones)) MERGE
    x_C_5 (OMat (Other x_Ones)) (OMat (Other x_Ones)) ;;
  x_q_2 <- meq x_C_6 x_Ones ;;
  _ <- check x_q_2 ;;
  x_C_7 <- lil_assign x_C_6 x_Ones ;;
  x_C_8 <- t_opt_mxm TyD (acc TyD qplus) TyD (mkSr qplus qtimes TyD) (MComp (Other x_MNotLower))
    REPLACE x_C_7 (OMat (Other x_Empty)) (OMat (Other x_Ones)) ;;
  x_t <- mdense0 TyD d_Lower_3x3 0%Q ;;
  x_q_3 <- meq x_C_8 x_t ;;
  _ <- check x_q_3 ;;
  x_C_9 <- lil_assign x_C_8 x_Ones ;;
  x_C_10 <- t_opt_mxm TyD (acc TyD qplus) TyD (mkSr qplus qtimes TyD) (MComp (Other x_MNotLower))
    REPLACE x_C_9 (OMat (Other x_Ones)) (OMat (Other x_Empty)) ;;
  x_t_1 <- mdense0 TyD d_Lower_3x3 0%Q ;;
  x_q_4 <- meq x_C_10 x_t_1 ;;
  _ <- check x_q_4 ;;
  x_C_11 <- lil_assign x_C_10 x_Ones ;;
  x_C_12 <- t_opt_mxm TyD (acc TyD qplus) TyD (mkSr qplus qtimes TyD) (MComp (Other x_Ones)) REPLACE
    x_C_11 (OMat (Other x_Ones)) (OMat (Other x_Empty)) ;;
  x_q_5 <- meq x_C_12 x_Empty ;;
  _ <- check x_q_5 ;;
  Ok tt) = Ok tt.
Proof. vm_compute. reflexivity. Qed.

(** test_mxm_AB.cpp:2508-2549 *)
Example test_mxm_CompMask_Accum_AB_emptyRowA_emptyColB :
 (x_A <- mdense0 TyD [[8; 1; 6]; [0; 0; 0]; [4; 9; 2]]%Q 0%Q ;;
  x_B <- mdense0 TyD [[0; 0; 0; 1]; [1; 0; 1; 1]; [0; 0; 1; 1]]%Q 0%Q ;;
  x_MNotLower <- mdense0 TyD d_NotLower_3x4 0%Q ;;
  x_Ones <- mdense0 TyD d_Ones_3x4 0%Q ;;
  x_C <- mnew 3 4 ;;
  x_answer <- mdense0 TyD [[2; 0; 0; 0]; [1; 1; 0; 0]; [10; 1; 12; 0]]%Q 0%Q ;;
  x_C_1 <- lil_assign x_C x_Ones ;;
  x_C_2 <- t_mxm TyD (acc TyD qplus) (mkSr qplus qtimes TyD) (MComp x_MNotLower) REPLACE x_C_1 (Mat
    x_A) (Mat x_B) ;;
  x_q <- meq x_C_2 x_answer ;;
  _ <- check x_q ;;
  x_answer2 <- mdense0 TyD [[2; 1; 1; 1]; [1; 1; 1; 1]; [10; 1; 12; 1]]%Q 0%Q ;;
  x_C_3 <- lil_assign x_C_2 x_Ones ;;
  x_C_4 <- t_mxm TyD (acc TyD qplus) (mkSr qplus qtimes TyD) (MComp x_MNotLower) MERGE x_C_3 (Mat
    x_A) (Mat x_B) ;;
  x_q_1 <- meq x_C_4 x_answer2 ;;
  _ <- check x_q_1 ;;
  Ok tt) = Ok tt.
Proof. vm_compute. reflexivity. Qed.

(** test_mxm_AB.cpp:2508-2549, optimized_sequential platform *)
Example test_mxm_CompMask_Accum_AB_emptyRowA_emptyColB_opt :
 (x_A <- mdense0 TyD [[8; 1; 6]; [0; 0; 0]; [4; 9; 2]]%Q 0%Q ;;
  x_B <- mdense0 TyD [[0; 0; 0; 1]; [1; 0; 1; 1]; [0; 0; 1; 1]]%Q 0%Q ;;
  x_MNotLower <- mdense0 TyD d_NotLower_3x4 0%Q ;;
  x_Ones <- mdense0 TyD d_Ones_3x4 0%Q ;;
  x_C <- mnew 3 4 ;;
  x_answer <- mdense0 TyD [[2; 0; 0; 0]; [1; 1; 0; 0]; [10; 1; 12; 0]]%Q 0%Q ;;
  x_C_1 <- lil_assign x_C x_Ones ;;
  x_C_2 <- t_opt_mxm TyD (acc TyD qplus) TyD (mkSr qplus qtimes TyD) (MComp (Other x_MNotLower))
    REPLACE x_C_1 (OMat (Other x_A)) (OMat (Other x_B)) ;;
  x_q <- meq x_C_2 x_answer ;;
  _ <- check x_q ;;
  x_answer2 <- mdense0 TyD [[2; 1; 1; 1]; [1; 1; 1; 1]; [10; 1; 12; 1]]%Q 0%Q ;;
  x_C_3 <- lil_assign x_C_2 x_Ones ;;
  x_C_4 <- t_opt_mxm TyD (acc TyD qplus) TyD (mkSr qplus qtimes TyD) (MComp (Other x_MNotLower))
    MERGE x_C_3 (OMat (Other x_A)) (OMat (Other x_B)) ;;
  x_q_1 <- meq x_C_4 x_answer2 ;;
  _ <- check x_q_1 ;;
  Ok tt) = Ok tt.
Proof. vm_compute. reflexivity. Qed.

(** test_mxm_AB.cpp:2552-2593 *)
Example test_mxm_CompMask_Accum_AB_emptyColA_emptyRowB :
 (x_A <- mdense0 TyD [[8; 0; 6]; [1; 0; 9]; [4; 0; 2]]%Q 0%Q ;;
  x_B <- mdense0 TyD [[0; 1; 0; 1]; [1; 0; 1; 1]; [0; 0; 0; 0]]%Q 0%Q ;;
  x_NotLower <- mdense0 TyD d_NotLower_3x4 0%Q ;;
  x_Ones <- mdense0 TyD d_Ones_3x4 0%Q ;;
  x_C <- mnew 3 4 ;;
  x_answer <- mdense0 TyD [[1; 0; 0; 0]; [1; 2; 0; 0]; [1; 5; 1; 0]]%Q 0%Q ;;
  x_C_1 <- lil_assign x_C x_Ones ;;
  x_C_2 <- t_mxm TyD (acc TyD qplus) (mkSr qplus qtimes TyD) (MComp x_NotLower) REPLACE x_C_1 (Mat
    x_A) (Mat x_B) ;;
  x_q <- meq x_C_2 x_answer ;;
  _ <- check x_q ;;
  x_answer2 <- mdense0 TyD [[1; 1; 1; 1]; [1; 2; 1; 1]; [1; 5; 1; 1]]%Q 0%Q ;;
  x_C_3 <- lil_assign x_C_2 x_Ones ;;
  x_C_4 <- t_mxm TyD (acc TyD qplus) (mkSr qplus qtimes TyD) (MComp x_NotLower) MERGE x_C_3 (Mat
    x_A) (Mat x_B) ;;
  x_q_1 <- meq x_C_4 x_answer2 ;;
  _ <- check x_q_1 ;;
  Ok tt) = Ok tt.
Proof. vm_compute. reflexivity. Qed.

(** test_mxm_AB.cpp:2552-2593, optimized_sequential platform *)
Example test_mxm_CompMask_Accum_AB_emptyColA_emptyRowB_opt :
 (x_A <- mdense0 TyD [[8; 0; 6]; [1; 0; 9]; [4; 0; 2]]%Q 0%Q ;;
  x_B <- mdense0 TyD [[0; 1; 0; 1]; [1; 0; 1; 1]; [0; 0; 0; 0]]%Q 0%Q ;;
  x_NotLower <- mdense0 TyD d_NotLower_3x4 0%Q ;;
  x_Ones <- mdense0 TyD d_Ones_3x4 0%Q ;;
  x_C <- mnew 3 4 ;;
  x_answer <- mdense0 TyD [[1; 0; 0; 0]; [1; 2; 0; 0]; [1; 5; 1; 0]]%Q 0%Q ;;
  x_C_1 <- lil_assign x_C x_Ones ;;
  x_C_2 <- t_opt_mxm TyD (acc TyD qplus) TyD (mkSr qplus qtimes TyD) (MComp (Other x_NotLower))
    REPLACE x_C_1 (OMat (Other x_A)) (OMat (Other x_B)) ;;
  x_q <- meq x_C_2 x_answer ;;
  _ <- check x_q ;;
  x_answer2 <- mdense0 TyD [[1; 1; 1; 1]; [1; 2; 1; 1]; [1; 5; 1; 1]]%Q 0%Q ;;
  x_C_3 <- lil_assign x_C_2 x_Ones ;;
  x_C_4 <- t_opt_mxm TyD (acc TyD qplus) TyD (mkSr qplus qtimes TyD) (MComp (Other x_NotLower))
    MERGE x_C_3 (OMat (Other x_A)) (OMat (Other x_B)) ;;
  x_q_1 <- meq x_C_4 x_answer2 ;;
  _ <- check x_q_1 ;;
  Ok tt) = Ok tt.
Proof. vm_compute. reflexivity. Qed.

(** test_mxm_AB.cpp:2596-2638 *)
Example test_mxm_CompMask_Accum_AB_ABdup :
 (x_mat <- mdense0 TyD [[1; 1; 0; 0]; [1; 2; 2; 0]; [0; 2; 3; 3]; [0; 0; 3; 4]]%Q 0%Q ;;
  x_NotLower <- mdense0 TyD d_NotLower_4x4 0%Q ;;
  x_Ones <- mdense0 TyD d_Ones_4x4 0%Q ;;
  x_C <- mnew 4 4 ;;
  x_answer <- mdense0 TyD [[3; 1; 1; 1]; [4; 10; 1; 1]; [3; 11; 23; 1]; [1; 7; 22; 26]]%Q 0%Q ;;
  x_C_1 <- lil_assign x_C x_Ones ;;
  x_C_2 <- t_mxm TyD (acc TyD qplus) (mkSr qplus qtimes TyD) (MComp x_NotLower) MERGE x_C_1 (Mat
    x_mat) (Mat x_mat) ;;
  x_q <- meq x_C_2 x_answer ;;
  _ <- check x_q ;;
  x_answer2 <- mdense0 TyD [[3; 0; 0; 0]; [4; 10; 0; 0]; [3; 11; 23; 0]; [1; 7; 22; 26]]%Q 0%Q ;;
  x_C_3 <- lil_assign x_C_2 x_Ones ;;
  x_C_4 <- t_mxm TyD (acc TyD qplus) (mkSr qplus qtimes TyD) (MComp x_NotLower) REPLACE x_C_3 (Mat
    x_mat) (Mat x_mat) ;;
  x_q_1 <- meq x_C_4 x_answer2 ;;
  _ <- check x_q_1 ;;
  Ok tt) = Ok tt.
Proof. vm_compute. reflexivity. Qed.

(** test_mxm_AB.cpp:2596-2638, optimized_sequential platform *)
Example test_mxm_CompMask_Accum_AB_ABdup_opt :
 (x_mat <- mdense0 TyD [[1; 1; 0; 0]; [1; 2; 2; 0]; [0; 2; 3; 3]; [0; 0; 3; 4]]%Q 0%Q ;;
  x_NotLower <- mdense0 TyD d_NotLower_4x4 0%Q ;;
  x_Ones <- mdense0 TyD d_Ones_4x4 0%Q ;;
  x_C <- mnew 4 4 ;;
  x_answer <- mdense0 TyD [[3; 1; 1; 1]; [4; 10; 1; 1]; [3; 11; 23; 1]; [1; 7; 22; 26]]%Q 0%Q ;;
  x_C_1 <- lil_assign x_C x_Ones ;;
  x_C_2 <- t_opt_mxm TyD (acc TyD qplus) TyD (mkSr qplus qtimes TyD) (MComp (Other x_NotLower))
    MERGE x_C_1 (OMat (Other x_mat)) (OMat (Other x_mat)) ;;
  x_q <- meq x_C_2 x_answer ;;
  _ <- check x_q ;;
  x_answer2 <- mdense0 TyD [[3; 0; 0; 0]; [4; 10; 0; 0]; [3; 11; 23; 0]; [1; 7; 22; 26]]%Q 0%Q ;;
  x_C_3 <- lil_assign x_C_2 x_Ones ;;
  x_C_4 <- t_opt_mxm TyD (acc TyD qplus) TyD (mkSr qplus qtimes TyD) (MComp (Other x_NotLower))
    REPLACE x_C_3 (OMat (Other x_mat)) (OMat (Other x_mat)) ;;
  x_q_1 <- meq x_C_4 x_answer2 ;;
  _ <- check x_q_1 ;;
  Ok tt) = Ok tt.
Proof. vm_compute. reflexivity. Qed.

(** test_mxm_AB.cpp:2641-2684 *)
Example test_mxm_CompMask_Accum_AB_ACdup :
 (x_mat <- mdense0 TyD [[1; 1; 0; 0]; [1; 2; 2; 0]; [0; 2; 3; 3]; [0; 0; 3; 4]]%Q 0%Q ;;
  x_NotLower <- mdense0 TyD d_NotLower_4x4 0%Q ;;
  x_Ones <- mdense0 TyD d_Ones_4x4 0%Q ;;
  x_C <- mnew 4 4 ;;
  x_answer <- mdense0 TyD [[3; 1; 0; 0]; [4; 11; 2; 0]; [2; 12; 25; 3]; [0; 6; 24; 29]]%Q 0%Q ;;
  x_C_1 <- lil_assign x_C x_mat ;;
  x_C_2 <- t_mxm TyD (acc TyD qplus) (mkSr qplus qtimes TyD) (MComp x_NotLower) MERGE x_C_1 (Mat
    x_C_1) (Mat x_mat) ;;
  x_q <- meq x_C_2 x_answer ;;
  _ <- check x_q ;;
  x_answer2 <- mdense0 TyD [[3; 0; 0; 0]; [4; 11; 0; 0]; [2; 12; 25; 0]; [0; 6; 24; 29]]%Q 0%Q ;;
  x_C_3 <- lil_assign x_C_2 x_mat ;;
  x_C_4 <- t_mxm TyD (acc TyD qplus) (mkSr qplus qtimes TyD) (MComp x_NotLower) REPLACE x_C_3 (Mat
    x_C_3) (Mat x_mat) ;;
  x_q_1 <- meq x_C_4 x_answer2 ;;
  _ <- check x_q_1 ;;
  Ok tt) = Ok tt.
Proof. vm_compute. reflexivity. Qed.

(** test_mxm_AB.cpp:2641-2684, optimized_sequential platform *)
Example test_mxm_CompMask_Accum_AB_ACdup_opt :
 (x_mat <- mdense0 TyD [[1; 1; 0; 0]; [1; 2; 2; 0]; [0; 2; 3; 3]; [0; 0; 3; 4]]%Q 0%Q ;;
  x_NotLower <- mdense0 TyD d_NotLower_4x4 0%Q ;;
  x_Ones <- mdense0 TyD d_Ones_4x4 0%Q ;;
  x_C <- mnew 4 4 ;;
  x_answer <- mdense0 TyD [[3; 1; 0; 0]; [4; 11; 2; 0]; [2; 12; 25; 3]; [0; 6; 24; 29]]%Q 0%Q ;;
  x_C_1 <- lil_assign x_C x_mat ;;
  x_C_2 <- t_opt_mxm TyD (acc TyD qplus) TyD (mkSr qplus qtimes TyD) (MComp (Other x_NotLower))
    MERGE x_C_1 (OMat (TheOutput (fun x => x))) (OMat (Other x_mat)) ;;
  x_q <- meq x_C_2 x_answer ;;
  _ <- check x_q ;;
  x_answer2 <- mdense0 TyD [[3; 0; 0; 0]; [4; 11; 0; 0]; [2; 12; 25; 0]; [0; 6; 24; 29]]%Q 0%Q ;;
  x_C_3 <- lil_assign x_C_2 x_mat ;;
  x_C_4 <- t_opt_mxm TyD (acc TyD qplus) TyD (mkSr qplus qtimes TyD) (MComp (Other x_NotLower))
    REPLACE x_C_3 (OMat (TheOutput (fun x => x))) (OMat (Other x_mat)) ;;
  x_q_1 <- meq x_C_4 x_answer2 ;;
  _ <- check x_q_1 ;;
  Ok tt) = Ok tt.
Proof. vm_compute. reflexivity. Qed.

(** test_mxm_AB.cpp:2687-2738 *)
Example test_mxm_CompMask_Accum_AB_BCdup :
 (x_mat <- mdense0 TyD [[1; 1; 0; 0]; [1; 2; 2; 0]; [0; 2; 3; 3]; [0; 0; 3; 4]]%Q 0%Q ;;
  x_NotLower <- mdense0 TyD d_NotLower_4x4 0%Q ;;
  x_Ones <- mdense0 TyD d_Ones_4x4 0%Q ;;
  x_C <- mnew 4 4 ;;
  x_answer <- mdense0 TyD [[3; 1; 0; 0]; [4; 11; 2; 0]; [2; 12; 25; 3]; [0; 6; 24; 29]]%Q 0%Q ;;
  x_C_1 <- lil_assign x_C x_mat ;;
  x_C_2 <- t_mxm TyD (acc TyD qplus) (mkSr qplus qtimes TyD) (MComp x_NotLower) MERGE x_C_1 (Mat
    x_mat) (Mat x_C_1) ;;
  x_q <- meq x_C_2 x_answer ;;
  _ <- check x_q ;;
  x_C_3 <- lil_assign x_C_2 x_mat ;;
  x_C_4 <- t_mxm TyD (acc TyD qplus) (mkSr qplus qtimes TyD) (MComp x_NotLower) MERGE x_C_3 (Mat
    x_mat) (Mat x_mat) ;;
  x_q_1 <- meq x_C_4 x_answer ;;
  _ <- check x_q_1 ;;
  x_answer2 <- mdense0 TyD [[3; 0; 0; 0]; [4; 11; 0; 0]; [2; 12; 25; 0]; [0; 6; 24; 29]]%Q 0%Q ;;
  x_C_5 <- lil_assign x_C_4 x_mat ;;
  x_C_6 <- t_mxm TyD (acc TyD qplus) (mkSr qplus qtimes TyD) (MComp x_NotLower) REPLACE x_C_5 (Mat
    x_mat) (Mat x_C_5) ;;
  x_q_2 <- meq x_C_6 x_answer2 ;;
  _ <- check x_q_2 ;;
  Ok tt) = Ok tt.
Proof. vm_compute. reflexivity. Qed.

(** test_mxm_AB.cpp:2687-2738, optimized_sequential platform *)
Example test_mxm_CompMask_Accum_AB_BCdup_opt :
 (x_mat <- mdense0 TyD [[1; 1; 0; 0]; [1; 2; 2; 0]; [0; 2; 3; 3]; [0; 0; 3; 4]]%Q 0%Q ;;
  x_NotLower <- mdense0 TyD d_NotLower_4x4 0%Q ;;
  x_Ones <- mdense0 TyD d_Ones_4x4 0%Q ;;
  x_C <- mnew 4 4 ;;
  x_answer <- mdense0 TyD [[3; 1; 0; 0]; [4; 11; 2; 0]; [2; 12; 25; 3]; [0; 6; 24; 29]]%Q 0%Q ;;
  x_C_1 <- lil_assign x_C x_mat ;;
  x_C_2 <- t_opt_mxm TyD (acc TyD qplus) TyD (mkSr qplus qtimes TyD) (MComp (Other x_NotLower))
    MERGE x_C_1 (OMat (Other x_mat)) (OMat (TheOutput (fun x => x))) ;;
  x_q <- meq x_C_2 x_answer ;;
  _ <- check x_q ;;
  x_C_3 <- lil_assign x_C_2 x_mat ;;
  x_C_4 <- t_opt_mxm TyD (acc TyD qplus) TyD (mkSr qplus qtimes TyD) (MComp (Other x_NotLower))
    MERGE x_C_3 (OMat (Other x_mat)) (OMat (Other x_mat)) ;;
  x_q_1 <- meq x_C_4 x_answer ;;
  _ <- check x_q_1 ;;
  x_answer2 <- mdense0 TyD [[3; 0; 0; 0]; [4; 11; 0; 0]; [2; 12; 25; 0]; [0; 6; 24; 29]]%Q 0%Q ;;
  x_C_5 <- lil_assign x_C_4 x_mat ;;
  x_C_6 <- t_opt_mxm TyD (acc TyD qplus) TyD (mkSr qplus qtimes TyD) (MComp (Other x_NotLower))
    REPLACE x_C_5 (OMat (Other x_mat)) (OMat (TheOutput (fun x => x))) ;;
  x_q_2 <- meq x_C_6 x_answer2 ;;
  _ <- check x_q_2 ;;
  Ok tt) = Ok tt.
Proof. vm_compute. reflexivity. Qed.

(** test_mxm_AB.cpp:2741-2782 *)
Example test_mxm_CompMask_Accum_AB_MCdup :
 (x_mat <- mdense0 TyD [[1; 1; 0; 0]; [1; 2; 2; 0]; [0; 2; 3; 3]; [0; 0; 3; 4]]%Q 0%Q ;;
  x_NotLower <- mdense0 TyD d_NotLower_4x4 0%Q ;;
  x_C <- mnew 4 4 ;;
  x_answer <- mdense0 TyD [[2; 1; 1; 1]; [3; 9; 1; 1]; [2; 10; 22; 1]; [0; 6; 21; 25]]%Q 0%Q ;;
  x_C_1 <- lil_assign x_C x_NotLower ;;
  x_C_2 <- t_mxm TyD (acc TyD qplus) (mkSr qplus qtimes TyD) (MComp x_C_1) MERGE x_C_1 (Mat x_mat)
    (Mat x_mat) ;;
  x_q <- meq x_C_2 x_answer ;;
  _ <- check x_q ;;
  x_answer2 <- mdense0 TyD [[2; 0; 0; 0]; [3; 9; 0; 0]; [2; 10; 22; 0]; [0; 6; 21; 25]]%Q 0%Q ;;
  x_C_3 <- lil_assign x_C_2 x_NotLower ;;
  x_C_4 <- t_mxm TyD (acc TyD qplus) (mkSr qplus qtimes TyD) (MComp x_C_3) REPLACE x_C_3 (Mat x_mat)
    (Mat x_mat) ;;
  x_q_1 <- meq x_C_4 x_answer2 ;;
  _ <- check x_q_1 ;;
  Ok tt) = Ok tt.
Proof. vm_compute. reflexivity. Qed.

(** test_mxm_AB.cpp:2741-2782, optimized_sequential platform *)
Example test_mxm_CompMask_Accum_AB_MCdup_opt :
 (x_mat <- mdense0 TyD [[1; 1; 0; 0]; [1; 2; 2; 0]; [0; 2; 3; 3]; [0; 0; 3; 4]]%Q 0%Q ;;
  x_NotLower <- mdense0 TyD d_NotLower_4x4 0%Q ;;
  x_C <- mnew 4 4 ;;
  x_answer <- mdense0 TyD [[2; 1; 1; 1]; [3; 9; 1; 1]; [2; 10; 22; 1]; [0; 6; 21; 25]]%Q 0%Q ;;
  x_C_1 <- lil_assign x_C x_NotLower ;;
  x_C_2 <- t_opt_mxm TyD (acc TyD qplus) TyD (mkSr qplus qtimes TyD) (MComp (TheOutput (fun x =>
    x))) MERGE x_C_1 (OMat (Other x_mat)) (OMat (Other x_mat)) ;;
  x_q <- meq x_C_2 x_answer ;;
  _ <- check x_q ;;
  x_answer2 <- mdense0 TyD [[2; 0; 0; 0]; [3; 9; 0; 0]; [2; 10; 22; 0]; [0; 6; 21; 25]]%Q 0%Q ;;
  x_C_3 <- lil_assign x_C_2 x_NotLower ;;
  x_C_4 <- t_opt_mxm TyD (acc TyD qplus) TyD (mkSr qplus qtimes TyD) (MComp (TheOutput (fun x =>
    x))) REPLACE x_C_3 (OMat (Other x_mat)) (OMat (Other x_mat)) ;;
  x_q_1 <- meq x_C_4 x_answer2 ;;
  _ <- check x_q_1 ;;
  Ok tt) = Ok tt.
Proof. vm_compute. reflexivity. Qed.

(** test_mxm_AB.cpp:2785-2806 *)
Example test_mxm_CompMask_Accum_AB_Replace_Cones_Mnlower :
 (x_A <- mdense0 TyD d_A_dense_3x3 0%Q ;;
  x_B <- mdense0 TyD d_B_dense_3x4 0%Q ;;
  x_M <- mdense0 TyD d_NotLower_3x4 0%Q ;;
  _ <- check (Qeq_bool (inject_Z (nvals x_M)) 6%Q) ;;
  x_result <- mdense0 TyD d_Ones_3x4 0%Q ;;
  x_answer <- mdense0 TyD [[114; 0; 0; 0]; [74; 97; 0; 0]; [119; 157; 112; 0]]%Q 0%Q ;;
  x_result_1 <- t_mxm TyD (acc TyD qsecond) (mkSr qplus qtimes TyD) (MComp x_M) REPLACE x_result
    (Mat x_A) (Mat x_B) ;;
  _ <- check (Qeq_bool (inject_Z (nvals x_result_1)) 6%Q) ;;
  x_q <- meq x_result_1 x_answer ;;
  _ <- check x_q ;;
  Ok tt) = Ok tt.
Proof. vm_compute. reflexivity. Qed.

(** test_mxm_AB.cpp:2785-2806, optimized_sequential platform *)
Example test_mxm_CompMask_Accum_AB_Replace_Cones_Mnlower_opt :
 (x_A <- mdense0 TyD d_A_dense_3x3 0%Q ;;
  x_B <- mdense0 TyD d_B_dense_3x4 0%Q ;;
  x_M <- mdense0 TyD d_NotLower_3x4 0%Q ;;
  _ <- check (Qeq_bool (inject_Z (nvals x_M)) 6%Q) ;;
  x_result <- mdense0 TyD d_Ones_3x4 0%Q ;;
  x_answer <- mdense0 TyD [[114; 0; 0; 0]; [74; 97; 0; 0]; [119; 157; 112; 0]]%Q 0%Q ;;
  x_result_1 <- t_opt_mxm TyD (acc TyD qsecond) TyD (mkSr qplus qtimes TyD) (MComp (Other x_M))
    REPLACE x_result (OMat (Other x_A)) (OMat (Other x_B)) ;;
  _ <- check (Qeq_bool (inject_Z (nvals x_result_1)) 6%Q) ;;
  x_q <- meq x_result_1 x_answer ;;
  _ <- check x_q ;;
  Ok tt) = Ok tt.
Proof. vm_compute. reflexivity. Qed.

(** test_mxm_AB.cpp:2809-2832 *)
Example test_mxm_CompMask_Accum_AB_Replace_Mstored_zero :
 (x_A <- mdense0 TyD d_A_dense_3x3 0%Q ;;
  x_B <- mdense0 TyD d_B_dense_3x4 0%Q ;;
  x_M <- mdense0 TyD d_NotLower_3x4 0%Q ;;
  x_M_1 <- lil_setElement x_M 0 0 (cast TyD 0%Q) ;;
  _ <- check (Qeq_bool (inject_Z (nvals x_M_1)) 7%Q) ;;
  x_result <- mdense0 TyD d_Ones_3x4 0%Q ;;
  x_answer <- mdense0 TyD [[114; 0; 0; 0]; [74; 97; 0; 0]; [119; 157; 112; 0]]%Q 0%Q ;;
  x_result_1 <- t_mxm TyD (acc TyD qsecond) (mkSr qplus qtimes TyD) (MComp x_M_1) REPLACE x_result
    (Mat x_A) (Mat x_B) ;;
  _ <- check (Qeq_bool (inject_Z (nvals x_result_1)) 6%Q) ;;
  x_q <- meq x_result_1 x_answer ;;
  _ <- check x_q ;;
  Ok tt) = Ok tt.
Proof. vm_compute. reflexivity. Qed.

(** test_mxm_AB.cpp:2809-2832, optimized_sequential platform *)
Example test_mxm_CompMask_Accum_AB_Replace_Mstored_zero_opt :
 (x_A <- mdense0 TyD d_A_dense_3x3 0%Q ;;
  x_B <- mdense0 TyD d_B_dense_3x4 0%Q ;;
  x_M <- mdense0 TyD d_NotLower_3x4 0%Q ;;
  x_M_1 <- lil_setElement x_M 0 0 (cast TyD 0%Q) ;;
  _ <- check (Qeq_bool (inject_Z (nvals x_M_1)) 7%Q) ;;
  x_result <- mdense0 TyD d_Ones_3x4 0%Q ;;
  x_answer <- mdense0 TyD [[114; 0; 0; 0]; [74; 97; 0; 0]; [119; 157; 112; 0]]%Q 0%Q ;;
  x_result_1 <- t_opt_mxm TyD (acc TyD qsecond) TyD (mkSr qplus qtimes TyD) (MComp (Other x_M_1))
    REPLACE x_result (OMat (Other x_A)) (OMat (Other x_B)) ;;
  _ <- check (Qeq_bool (inject_Z (nvals x_result_1)) 6%Q) ;;
  x_q <- meq x_result_1 x_answer ;;
  _ <- check x_q ;;
  Ok tt) = Ok tt.
Proof. vm_compute. reflexivity. Qed.

(** test_mxm_AB.cpp:2835-2855 *)
Example test_mxm_CompMask_Accum_AB_Merge :
 (x_A <- mdense0 TyD d_A_dense_3x3 0%Q ;;
  x_B <- mdense0 TyD d_B_dense_3x4 0%Q ;;
  x_M <- mdense0 TyD d_NotLower_3x4 0%Q ;;
  _ <- check (Qeq_bool (inject_Z (nvals x_M)) 6%Q) ;;
  x_result <- mdense0 TyD d_Ones_3x4 0%Q ;;
  x_answer <- mdense0 TyD [[114; 1; 1; 1]; [74; 97; 1; 1]; [119; 157; 112; 1]]%Q 0%Q ;;
  x_result_1 <- t_mxm TyD (acc TyD qsecond) (mkSr qplus qtimes TyD) (MComp x_M) MERGE x_result (Mat
    x_A) (Mat x_B) ;;
  _ <- check (Qeq_bool (inject_Z (nvals x_result_1)) 12%Q) ;;
  x_q <- meq x_result_1 x_answer ;;
  _ <- check x_q ;;
  Ok tt) = Ok tt.
Proof. vm_compute. reflexivity. Qed.

(** test_mxm_AB.cpp:2835-2855, optimized_sequential platform *)
Example test_mxm_CompMask_Accum_AB_Merge_opt :
 (x_A <- mdense0 TyD d_A_dense_3x3 0%Q ;;
  x_B <- mdense0 TyD d_B_dense_3x4 0%Q ;;
  x_M <- mdense0 TyD d_NotLower_3x4 0%Q ;;
  _ <- check (Qeq_bool (inject_Z (nvals x_M)) 6%Q) ;;
  x_result <- mdense0 TyD d_Ones_3x4 0%Q ;;
  x_answer <- mdense0 TyD [[114; 1; 1; 1]; [74; 97; 1; 1]; [119; 157; 112; 1]]%Q 0%Q ;;
  x_result_1 <- t_opt_mxm TyD (acc TyD qsecond) TyD (mkSr qplus qtimes TyD) (MComp (Other x_M))
    MERGE x_result (OMat (Other x_A)) (OMat (Other x_B)) ;;
  _ <- check (Qeq_bool (inject_Z (nvals x_result_1)) 12%Q) ;;
  x_q <- meq x_result_1 x_answer ;;
  _ <- check x_q ;;
  Ok tt) = Ok tt.
Proof. vm_compute. reflexivity. Qed.

(** test_mxm_AB.cpp:2858-2879 *)
Example test_mxm_CompMask_Accum_AB_Merge_Mstored_zero :
 (x_A <- mdense0 TyD d_A_dense_3x3 0%Q ;;
  x_B <- mdense0 TyD d_B_dense_3x4 0%Q ;;
  x_M <- mdense0 TyD d_NotLower_3x4 0%Q ;;
  x_M_1 <- lil_setElement x_M 0 0 (cast TyD 0%Q) ;;
  _ <- check (Qeq_bool (inject_Z (nvals x_M_1)) 7%Q) ;;
  x_result <- mdense0 TyD d_Ones_3x4 0%Q ;;
  x_answer <- mdense0 TyD [[114; 1; 1; 1]; [74; 97; 1; 1]; [119; 157; 112; 1]]%Q 0%Q ;;
  x_result_1 <- t_mxm TyD (acc TyD qsecond) (mkSr qplus qtimes TyD) (MComp x_M_1) MERGE x_result
    (Mat x_A) (Mat x_B) ;;
  _ <- check (Qeq_bool (inject_Z (nvals x_result_1)) 12%Q) ;;
  x_q <- meq x_result_1 x_answer ;;
  _ <- check x_q ;;
  Ok tt) = Ok tt.
Proof. vm_compute. reflexivity. Qed.

(** test_mxm_AB.cpp:2858-2879, optimized_sequential platform *)
Example test_mxm_CompMask_Accum_AB_Merge_Mstored_zero_opt :
 (x_A <- mdense0 TyD d_A_dense_3x3 0%Q ;;
  x_B <- mdense0 TyD d_B_dense_3x4 0%Q ;;
  x_M <- mdense0 TyD d_NotLower_3x4 0%Q ;;
  x_M_1 <- lil_setElement x_M 0 0 (cast TyD 0%Q) ;;
  _ <- check (Qeq_bool (inject_Z (nvals x_M_1)) 7%Q) ;;
  x_result <- mdense0 TyD d_Ones_3x4 0%Q ;;
  x_answer <- mdense0 TyD [[114; 1; 1; 1]; [74; 97; 1; 1]; [119; 157; 112; 1]]%Q 0%Q ;;
  x_result_1 <- t_opt_mxm TyD (acc TyD qsecond) TyD (mkSr qplus qtimes TyD) (MComp (Other x_M_1))
    MERGE x_result (OMat (Other x_A)) (OMat (Other x_B)) ;;
  _ <- check (Qeq_bool (inject_Z (nvals x_result_1)) 12%Q) ;;
  x_q <- meq x_result_1 x_answer ;;
  _ <- check x_q ;;
  Ok tt) = Ok tt.
Proof. vm_compute. reflexivity. Qed.

(** test_mxm_AB.cpp:2882-2907 *)
Example test_mxm_CompMask_Accum_AB_Merge_ABdup :
 (x_mat <- mdense0 TyD [[1; 1; 0; 0]; [1; 2; 2; 0]; [0; 2; 3; 3]; [0; 0; 3; 4]]%Q 0%Q ;;
  x_result <- mdense0 TyD d_Ones_4x4 0%Q ;;
  x_answer <- mdense0 TyD [[2; 1; 1; 1]; [3; 9; 1; 1]; [2; 10; 22; 1]; [0; 6; 21; 25]]%Q 0%Q ;;
  x_M <- mdense0 TyD d_NotLower_4x4 0%Q ;;
  x_result_1 <- t_mxm TyD noacc (mkSr qplus qtimes TyD) (MComp x_M) MERGE x_result (Mat x_mat) (Mat
    x_mat) ;;
  x_q <- meq x_result_1 x_answer ;;
  _ <- check x_q ;;
  Ok tt) = Ok tt.
Proof. vm_compute. reflexivity. Qed.

(** test_mxm_AB.cpp:2882-2907, optimized_sequential platform *)
Example test_mxm_CompMask_Accum_AB_Merge_ABdup_opt :
 (x_mat <- mdense0 TyD [[1; 1; 0; 0]; [1; 2; 2; 0]; [0; 2; 3; 3]; [0; 0; 3; 4]]%Q 0%Q ;;
  x_result <- mdense0 TyD d_Ones_4x4 0%Q ;;
  x_answer <- mdense0 TyD [[2; 1; 1; 1]; [3; 9; 1; 1]; [2; 10; 22; 1]; [0; 6; 21; 25]]%Q 0%Q ;;
  x_M <- mdense0 TyD d_NotLower_4x4 0%Q ;;
  x_result_1 <- t_opt_mxm TyD noacc TyD (mkSr qplus qtimes TyD) (MComp (Other x_M)) MERGE x_result
    (OMat (Other x_mat)) (OMat (Other x_mat)) ;;
  x_q <- meq x_result_1 x_answer ;;
  _ <- check x_q ;;
  Ok tt) = Ok tt.
Proof. vm_compute. reflexivity. Qed.

(** test_mxm_AB.cpp:2919-2996 *)
Example test_mxm_StructMask_NoAccum_AB :
 (x_A <- mdense0 TyD d_A_sparse_3x3 0%Q ;;
  x_Identity <- mdense0 TyD d_Identity_3x3 0%Q ;;
  x_Empty <- mnew 3 3 ;;
  x_Ones <- mdense0 TyD d_Ones_3x3 0%Q ;;
  x_C <- mnew 3 3 ;;
  x_MLower <- mdense0 TyD d_Lower_3x3 0%Q ;;
  x_MNotLower <- mdense0 TyD d_NotLower_3x3 0%Q ;;
  x_AFilled <- mdense0 TyD [[12; 7; 0]; [1; (-5); 1]; [7; 1; 9]]%Q 0%Q ;;
  x_C_1 <- lil_assign x_C x_Ones ;;
  x_Ones_1 <- lil_setElement x_Ones 0 0 (cast TyD 0%Q) ;;
  x_C_2 <- t_mxm TyD noacc (mkSr qplus qtimes TyD) (MStruct x_Ones_1) MERGE x_C_1 (Mat x_A) (Mat
    x_Identity) ;;
  x_q <- meq x_C_2 x_A ;;
  _ <- check x_q ;;
  x_Ones_2 <- lil_setElement x_Ones_1 0 0 (cast TyD 1%Q) ;;
  x_A_1 <- lil_setElement x_A 0 2 (cast TyD 0%Q) ;;
  x_AFilled_1 <- lil_setElement x_AFilled 0 2 (cast TyD 0%Q) ;;
  x_C_3 <- lil_assign x_C_2 x_Ones_2 ;;
  x_C_4 <- t_mxm TyD noacc (mkSr qplus qtimes TyD) (MStruct x_A_1) MERGE x_C_3 (Mat x_A_1) (Mat
    x_Identity) ;;
  x_q_1 <- meq x_C_4 x_AFilled_1 ;;
  _ <- check x_q_1 ;;
  x_C_5 <- lil_assign x_C_4 x_Ones_2 ;;
  x_MLower_1 <- lil_setElement x_MLower 2 0 (cast TyD 0%Q) ;;
  x_C_6 <- t_mxm TyD noacc (mkSr qplus qtimes TyD) (MStruct x_MLower_1) MERGE x_C_5 (Mat x_Ones_2)
    (Mat x_Identity) ;;
  x_q_2 <- meq x_C_6 x_Ones_2 ;;
  _ <- check x_q_2 ;;
  x_C_7 <- lil_assign x_C_6 x_Ones_2 ;;
  x_MNotLower_1 <- lil_setElement x_MNotLower 0 2 (cast TyD 0%Q) ;;
  x_C_8 <- t_mxm TyD noacc (mkSr qplus qtimes TyD) (MStruct x_MNotLower_1) MERGE x_C_7 (Mat
    x_Ones_2) (Mat x_Identity) ;;
  x_q_3 <- meq x_C_8 x_Ones_2 ;;
  _ <- check x_q_3 ;;
  x_C_9 <- lil_assign x_C_8 x_Ones_2 ;;
  x_Ones_3 <- lil_setElement x_Ones_2 0 0 (cast TyD 0%Q) ;;
  x_C_10 <- t_mxm TyD noacc (mkSr qplus qtimes TyD) (MStruct x_Ones_3) REPLACE x_C_9 (Mat x_A_1)
    (Mat x_Identity) ;;
  x_q_4 <- meq x_C_10 x_A_1 ;;
  _ <- check x_q_4 ;;
  x_Ones_4 <- lil_setElement x_Ones_3 0 0 (cast TyD 1%Q) ;;
  x_C_11 <- lil_assign x_C_10 x_Ones_4 ;;
  x_C_12 <- t_mxm TyD noacc (mkSr qplus qtimes TyD) (MStruct x_MLower_1) REPLACE x_C_11 (Mat
    x_Ones_4) (Mat x_Identity) ;;
  x_MLower_2 <- lil_setElement x_MLower_1 2 0 (cast TyD 1%Q) ;;
  x_q_5 <- meq x_C_12 x_MLower_2 ;;
  _ <- check x_q_5 ;;
  x_C_13 <- lil_assign x_C_12 x_Ones_4 ;;
  x_C_14 <- t_mxm TyD noacc (mkSr qplus qtimes TyD) (MStruct x_MNotLower_1) REPLACE x_C_13 (Mat
    x_Ones_4) (Mat x_Identity) ;;
  x_MNotLower_2 <- lil_setElement x_MNotLower_1 0 2 (cast TyD 1%Q) ;;
  x_q_6 <- meq x_C_14 x_MNotLower_2 ;;
  _ <- check x_q_6 ;;
  Ok tt) = Ok tt.
Proof. vm_compute. reflexivity. Qed.

(** test_mxm_AB.cpp:2919-2996, optimized_sequential platform *)
Example test_mxm_StructMask_NoAccum_AB_opt :
 (x_A <- mdense0 TyD d_A_sparse_3x3 0%Q ;;
  x_Identity <- mdense0 TyD d_Identity_3x3 0%Q ;;
  x_Empty <- mnew 3 3 ;;
  x_Ones <- mdense0 TyD d_Ones_3x3 0%Q ;;
  x_C <- mnew 3 3 ;;
  x_MLower <- mdense0 TyD d_Lower_3x3 0%Q ;;
  x_MNotLower <- mdense0 TyD d_NotLower_3x3 0%Q ;;
  x_AFilled <- mdense0 TyD [[12; 7; 0]; [1; (-5); 1]; [7; 1; 9]]%Q 0%Q ;;
  x_C_1 <- lil_assign x_C x_Ones ;;
  x_Ones_1 <- lil_setElement x_Ones 0 0 (cast TyD 0%Q) ;;
  x_C_2 <- t_opt_mxm TyD noacc TyD (mkSr qplus qtimes TyD) (MStruct (Other x_Ones_1)) MERGE x_C_1
    (OMat (Other x_A)) (OMat (Other x_Identity)) ;;
  x_q <- meq x_C_2 x_A ;;
  _ <- check x_q ;;
  x_Ones_2 <- lil_setElement x_Ones_1 0 0 (cast TyD 1%Q) ;;
  x_A_1 <- lil_setElement x_A 0 2 (cast TyD 0%Q) ;;
  x_AFilled_1 <- lil_setElement x_AFilled 0 2 (cast TyD 0%Q) ;;
  x_C_3 <- lil_assign x_C_2 x_Ones_2 ;;
  x_C_4 <- t_opt_mxm TyD noacc TyD (mkSr qplus qtimes TyD) (MStruct (Other x_A_1)) MERGE x_C_3 (OMat
    (Other x_A_1)) (OMat (Other x_Identity)) ;;
  x_q_1 <- meq x_C_4 x_AFilled_1 ;;
  _ <- check x_q_1 ;;
  x_C_5 <- lil_assign x_C_4 x_Ones_2 ;;
  x_MLower_1 <- lil_setElement x_MLower 2 0 (cast TyD 0%Q) ;;
  x_C_6 <- t_opt_mxm TyD noacc TyD (mkSr qplus qtimes TyD) (MStruct (Other x_MLower_1)) MERGE x_C_5
    (OMat (Other x_Ones_2)) (OMat (Other x_Identity)) ;;
  x_q_2 <- meq x_C_6 x_Ones_2 ;;
  _ <- check x_q_2 ;;
  x_C_7 <- lil_assign x_C_6 x_Ones_2 ;;
  x_MNotLower_1 <- lil_setElement x_MNotLower 0 2 (cast TyD 0%Q) ;;
  x_C_8 <- t_opt_mxm TyD noacc TyD (mkSr qplus qtimes TyD) (MStruct (Other x_MNotLower_1)) MERGE
    x_C_7 (OMat (Other x_Ones_2)) (OMat (Other x_Identity)) ;;
  x_q_3 <- meq x_C_8 x_Ones_2 ;;
  _ <- check x_q_3 ;;
  x_C_9 <- lil_assign x_C_8 x_Ones_2 ;;
  x_Ones_3 <- lil_setElement x_Ones_2 0 0 (cast TyD 0%Q) ;;
  x_C_10 <- t_opt_mxm TyD noacc TyD (mkSr qplus qtimes TyD) (MStruct (Other x_Ones_3)) REPLACE x_C_9
    (OMat (Other x_A_1)) (OMat (Other x_Identity)) ;;
  x_q_4 <- meq x_C_10 x_A_1 ;;
  _ <- check x_q_4 ;;
  x_Ones_4 <- lil_setElement x_Ones_3 0 0 (cast TyD 1%Q) ;;
  x_C_11 <- lil_assign x_C_10 x_Ones_4 ;;
  x_C_12 <- t_opt_mxm TyD noacc TyD (mkSr qplus qtimes TyD) (MStruct (Other x_MLower_1)) REPLACE
    x_C_11 (OMat (Other x_Ones_4)) (OMat (Other x_Identity)) ;;
  x_MLower_2 <- lil_setElement x_MLower_1 2 0 (cast TyD 1%Q) ;;
  x_q_5 <- meq x_C_12 x_MLower_2 ;;
  _ <- check x_q_5 ;;
  x_C_13 <- lil_assign x_C_12 x_Ones_4 ;;
  x_C_14 <- t_opt_mxm TyD noacc TyD (mkSr qplus qtimes TyD) (MStruct (Other x_MNotLower_1)) REPLACE
    x_C_13 (OMat (Other x_Ones_4)) (OMat (Other x_Identity)) ;;
  x_MNotLower_2 <- lil_setElement x_MNotLower_1 0 2 (cast TyD 1%Q) ;;
  x_q_6 <- meq x_C_14 x_MNotLower_2 ;;
  _ <- check x_q_6 ;;
  Ok tt) = Ok tt.
Proof. vm_compute. reflexivity. Qed.

(** test_mxm_AB.cpp:2999-3036 *)
Example test_mxm_StructMask_NoAccum_ABM_empty :
 (x_Empty <- mnew 3 3 ;;
  x_Ones <- mdense0 TyD d_Ones_3x3 0%Q ;;
  x_C <- mnew 3 3 ;;
  x_M <- mdense0 TyB d_LowerBool_3x3 0%Q ;;
  x_M_1 <- lil_setElement x_M 2 0 (cast TyB 0%Q) ;;
  x_mUpper <- mdense0 TyD d_NotLower_3x3 0%Q ;;
  x_C_1 <- lil_assign x_C x_Ones ;;
  x_C_2 <- t_mxm TyD noacc (mkSr qplus qtimes TyD) (MStruct x_M_1) MERGE x_C_1 (Mat x_Empty) (Mat
    x_Ones) ;;
  x_q <- meq x_C_2 x_mUpper ;;
  _ <- check x_q ;;
  x_C_3 <- lil_assign x_C_2 x_Ones ;;
  x_C_4 <- t_mxm TyD noacc (mkSr qplus qtimes TyD) (MStruct x_M_1) MERGE x_C_3 (Mat x_Ones) (Mat
    x_Empty) ;;
  x_q_1 <- meq x_C_4 x_mUpper ;;
  _ <- check x_q_1 ;;
  x_C_5 <- lil_assign x_C_4 x_Ones ;;
  x_C_6 <- t_mxm TyD noacc (mkSr qplus qtimes TyD) (MStruct x_M_1) REPLACE x_C_5 (Mat x_Empty) (Mat
    x_Ones) ;;
  x_q_2 <- meq x_C_6 x_Empty ;;
  _ <- check x_q_2 ;;
  x_C_7 <- lil_assign x_C_6 x_Ones ;;
  x_C_8 <- t_mxm TyD noacc (mkSr qplus qtimes TyD) (MStruct x_M_1) REPLACE x_C_7 (Mat x_Ones) (Mat
    x_Empty) ;;
  x_q_3 <- meq x_C_8 x_Empty ;;
  _ <- check x_q_3 ;;
  Ok tt) = Ok tt.
Proof. vm_compute. reflexivity. Qed.

(** test_mxm_AB.cpp:2999-3036, optimized_sequential platform *)
Example test_mxm_StructMask_NoAccum_ABM_empty_opt :
 (x_Empty <- mnew 3 3 ;;
  x_Ones <- mdense0 TyD d_Ones_3x3 0%Q ;;
  x_C <- mnew 3 3 ;;
  x_M <- mdense0 TyB d_LowerBool_3x3 0%Q ;;
  x_M_1 <- lil_setElement x_M 2 0 (cast TyB 0%Q) ;;
  x_mUpper <- mdense0 TyD d_NotLower_3x3 0%Q ;;
  x_C_1 <- lil_assign x_C x_Ones ;;
  x_C_2 <- t_opt_mxm TyD noacc TyD (mkSr qplus qtimes TyD) (MStruct (Other x_M_1)) MERGE x_C_1 (OMat
    (Other x_Empty)) (OMat (Other x_Ones)) ;;
  x_q <- meq x_C_2 x_mUpper ;;
  _ <- check x_q ;;
  x_C_3 <- lil_assign x_C_2 x_Ones ;;
  x_C_4 <- t_opt_mxm TyD noacc TyD (mkSr qplus qtimes TyD) (MStruct (Other x_M_1)) MERGE x_C_3 (OMat
    (Other x_Ones)) (OMat (Other x_Empty)) ;;
  x_q_1 <- meq x_C_4 x_mUpper ;;
  _ <- check x_q_1 ;;
  x_C_5 <- lil_assign x_C_4 x_Ones ;;
  x_C_6 <- t_opt_mxm TyD noacc TyD (mkSr qplus qtimes TyD) (MStruct (Other x_M_1)) REPLACE x_C_5
    (OMat (Other x_Empty)) (OMat (Other x_Ones)) ;;
  x_q_2 <- meq x_C_6 x_Empty ;;
  _ <- check x_q_2 ;;
  x_C_7 <- lil_assign x_C_6 x_Ones ;;
  x_C_8 <- t_opt_mxm TyD noacc TyD (mkSr qplus qtimes TyD) (MStruct (Other x_M_1)) REPLACE x_C_7
    (OMat (Other x_Ones)) (OMat (Other x_Empty)) ;;
  x_q_3 <- meq x_C_8 x_Empty ;;
  _ <- check x_q_3 ;;
  Ok tt) = Ok tt.
Proof. vm_compute. reflexivity. Qed.

(** test_mxm_AB.cpp:3039-3072 *)
Example test_mxm_StructMask_NoAccum_AB_Merge_full_mask :
 (x_A <- mnew 3 3 ;;
  x_A_1 <- mbuild TyD qsecond x_A [0; 0; 0; 1; 1; 1; 2; 2; 2] [0; 1; 2; 0; 1; 2; 0; 1; 2] [12; 7; 3;
    4; 5; 6; 7; 8; 9]%Q ;;
  x_B <- mnew 3 4 ;;
  x_B_1 <- mbuild TyD qsecond x_B [0; 0; 0; 0; 1; 1; 1; 2; 2; 2; 2] [0; 1; 2; 3; 0; 1; 2; 0; 1; 2;
    3] [5; 8; 1; 2; 6; 7; 3; 4; 5; 9; 1]%Q ;;
  x_result <- mnew 3 4 ;;
  x_answer <- mnew 3 4 ;;
  x_answer_1 <- mbuild TyD qsecond x_answer [0; 0; 0; 0; 1; 1; 1; 1; 2; 2; 2; 2] [0; 1; 2; 3; 0; 1;
    2; 3; 0; 1; 2; 3] [114; 160; 60; 27; 74; 97; 73; 14; 119; 157; 112; 23]%Q ;;
  x_mask <- mnew 3 4 ;;
  x_mask_1 <- mbuild (TyU 32) qsecond x_mask [0; 0; 0; 0; 1; 1; 1; 1; 2; 2; 2; 2] [0; 1; 2; 3; 0; 1;
    2; 3; 0; 1; 2; 3] [0; 0; 0; 0; 0; 0; 0; 0; 0; 0; 0; 0]%Q ;;
  x_result_1 <- t_mxm TyD noacc (mkSr qplus qtimes TyD) (MStruct x_mask_1) MERGE x_result (Mat
    x_A_1) (Mat x_B_1) ;;
  x_q <- meq x_result_1 x_answer_1 ;;
  _ <- check x_q ;;
  Ok tt) = Ok tt.
Proof. vm_compute. reflexivity. Qed.

(** test_mxm_AB.cpp:3039-3072, optimized_sequential platform *)
Example test_mxm_StructMask_NoAccum_AB_Merge_full_mask_opt :
 (x_A <- mnew 3 3 ;;
  x_A_1 <- mbuild TyD qsecond x_A [0; 0; 0; 1; 1; 1; 2; 2; 2] [0; 1; 2; 0; 1; 2; 0; 1; 2] [12; 7; 3;
    4; 5; 6; 7; 8; 9]%Q ;;
  x_B <- mnew 3 4 ;;
  x_B_1 <- mbuild TyD qsecond x_B [0; 0; 0; 0; 1; 1; 1; 2; 2; 2; 2] [0; 1; 2; 3; 0; 1; 2; 0; 1; 2;
    3] [5; 8; 1; 2; 6; 7; 3; 4; 5; 9; 1]%Q ;;
  x_result <- mnew 3 4 ;;
  x_answer <- mnew 3 4 ;;
  x_answer_1 <- mbuild TyD qsecond x_answer [0; 0; 0; 0; 1; 1; 1; 1; 2; 2; 2; 2] [0; 1; 2; 3; 0; 1;
    2; 3; 0; 1; 2; 3] [114; 160; 60; 27; 74; 97; 73; 14; 119; 157; 112; 23]%Q ;;
  x_mask <- mnew 3 4 ;;
  x_mask_1 <- mbuild (TyU 32) qsecond x_mask [0; 0; 0; 0; 1; 1; 1; 1; 2; 2; 2; 2] [0; 1; 2; 3; 0; 1;
    2; 3; 0; 1; 2; 3] [0; 0; 0; 0; 0; 0; 0; 0; 0; 0; 0; 0]%Q ;;
  x_result_1 <- t_opt_mxm TyD noacc TyD (mkSr qplus qtimes TyD) (MStruct (Other x_mask_1)) MERGE
    x_result (OMat (Other x_A_1)) (OMat (Other x_B_1)) ;;
  x_q <- meq x_result_1 x_answer_1 ;;
  _ <- check x_q ;;
  Ok tt) = Ok tt.
Proof. vm_compute. reflexivity. Qed.

(** test_mxm_AB.cpp:3076-3109 *)
Example test_mxm_StructMask_NoAccum_AB_mask_not_full :
 (x_A <- mnew 3 3 ;;
  x_A_1 <- mbuild TyD qsecond x_A [0; 0; 0; 1; 1; 1; 2; 2; 2] [0; 1; 2; 0; 1; 2; 0; 1; 2] [12; 7; 3;
    4; 5; 6; 7; 8; 9]%Q ;;
  x_B <- mnew 3 4 ;;
  x_B_1 <- mbuild TyD qsecond x_B [0; 0; 0; 0; 1; 1; 1; 2; 2; 2; 2] [0; 1; 2; 3; 0; 1; 2; 0; 1; 2;
    3] [5; 8; 1; 2; 6; 7; 3; 4; 5; 9; 1]%Q ;;
  x_result <- mnew 3 4 ;;
  x_answer <- mnew 3 4 ;;
  x_answer_1 <- mbuild TyD qsecond x_answer [0; 0; 0; 0; 1; 1; 1; 1; 2; 2; 2] [0; 1; 2; 3; 0; 1; 2;
    3; 0; 1; 2] [114; 160; 60; 27; 74; 97; 73; 14; 119; 157; 112]%Q ;;
  x_mask <- mnew 3 4 ;;
  x_mask_1 <- mbuild (TyU 32) qsecond x_mask [0; 0; 0; 0; 1; 1; 1; 1; 2; 2; 2] [0; 1; 2; 3; 0; 1; 2;
    3; 0; 1; 2] [0; 0; 0; 0; 0; 0; 0; 0; 0; 0; 0]%Q ;;
  x_result_1 <- t_mxm TyD noacc (mkSr qplus qtimes TyD) (MStruct x_mask_1) MERGE x_result (Mat
    x_A_1) (Mat x_B_1) ;;
  x_q <- meq x_result_1 x_answer_1 ;;
  _ <- check x_q ;;
  Ok tt) = Ok tt.
Proof. vm_compute. reflexivity. Qed.

(** test_mxm_AB.cpp:3076-3109, optimized_sequential platform *)
Example test_mxm_StructMask_NoAccum_AB_mask_not_full_opt :
 (x_A <- mnew 3 3 ;;
  x_A_1 <- mbuild TyD qsecond x_A [0; 0; 0; 1; 1; 1; 2; 2; 2] [0; 1; 2; 0; 1; 2; 0; 1; 2] [12; 7; 3;
    4; 5; 6; 7; 8; 9]%Q ;;
  x_B <- mnew 3 4 ;;
  x_B_1 <- mbuild TyD qsecond x_B [0; 0; 0; 0; 1; 1; 1; 2; 2; 2; 2] [0; 1; 2; 3; 0; 1; 2; 0; 1; 2;
    3] [5; 8; 1; 2; 6; 7; 3; 4; 5; 9; 1]%Q ;;
  x_result <- mnew 3 4 ;;
  x_answer <- mnew 3 4 ;;
  x_answer_1 <- mbuild TyD qsecond x_answer [0; 0; 0; 0; 1; 1; 1; 1; 2; 2; 2] [0; 1; 2; 3; 0; 1; 2;
    3; 0; 1; 2] [114; 160; 60; 27; 74; 97; 73; 14; 119; 157; 112]%Q ;;
  x_mask <- mnew 3 4 ;;
  x_mask_1 <- mbuild (TyU 32) qsecond x_mask [0; 0; 0; 0; 1; 1; 1; 1; 2; 2; 2] [0; 1; 2; 3; 0; 1; 2;
    3; 0; 1; 2] [0; 0; 0; 0; 0; 0; 0; 0; 0; 0; 0]%Q ;;
  x_result_1 <- t_opt_mxm TyD noacc TyD (mkSr qplus qtimes TyD) (MStruct (Other x_mask_1)) MERGE
    x_result (OMat (Other x_A_1)) (OMat (Other x_B_1)) ;;
  x_q <- meq x_result_1 x_answer_1 ;;
  _ <- check x_q ;;
  Ok tt) = Ok tt.
Proof. vm_compute. reflexivity. Qed.

(** test_mxm_AB.cpp:3112-3154 *)
Example test_mxm_StructMask_NoAccum_AB_emptyRowA_emptyColB :
 (x_A <- mdense0 TyD [[8; 1; 6]; [0; 0; 0]; [4; 9; 2]]%Q 0%Q ;;
  x_B <- mdense0 TyD [[0; 0; 0; 1]; [1; 0; 1; 1]; [0; 0; 1; 1]]%Q 0%Q ;;
  x_Lower <- mdense0 TyD d_Lower_3x4 0%Q ;;
  x_Lower_1 <- lil_setElement x_Lower 2 0 (cast TyD 0%Q) ;;
  x_Ones <- mdense0 TyD d_Ones_3x4 0%Q ;;
  x_C <- mnew 3 4 ;;
  x_answer <- mdense0 TyD [[1; 0; 0; 0]; [0; 0; 0; 0]; [9; 0; 11; 0]]%Q 0%Q ;;
  x_C_1 <- lil_assign x_C x_Ones ;;
  x_C_2 <- t_mxm TyD noacc (mkSr qplus qtimes TyD) (MStruct x_Lower_1) REPLACE x_C_1 (Mat x_A) (Mat
    x_B) ;;
  x_q <- meq x_C_2 x_answer ;;
  _ <- check x_q ;;
  x_answer2 <- mdense0 TyD [[1; 1; 1; 1]; [0; 0; 1; 1]; [9; 0; 11; 1]]%Q 0%Q ;;
  x_C_3 <- lil_assign x_C_2 x_Ones ;;
  x_C_4 <- t_mxm TyD noacc (mkSr qplus qtimes TyD) (MStruct x_Lower_1) MERGE x_C_3 (Mat x_A) (Mat
    x_B) ;;
  x_q_1 <- meq x_C_4 x_answer2 ;;
  _ <- check x_q_1 ;;
  Ok tt) = Ok tt.
Proof. vm_compute. reflexivity. Qed.

(** test_mxm_AB.cpp:3112-3154, optimized_sequential platform *)
Example test_mxm_StructMask_NoAccum_AB_emptyRowA_emptyColB_opt :
 (x_A <- mdense0 TyD [[8; 1; 6]; [0; 0; 0]; [4; 9; 2]]%Q 0%Q ;;
  x_B <- mdense0 TyD [[0; 0; 0; 1]; [1; 0; 1; 1]; [0; 0; 1; 1]]%Q 0%Q ;;
  x_Lower <- mdense0 TyD d_Lower_3x4 0%Q ;;
  x_Lower_1 <- lil_setElement x_Lower 2 0 (cast TyD 0%Q) ;;
  x_Ones <- mdense0 TyD d_Ones_3x4 0%Q ;;
  x_C <- mnew 3 4 ;;
  x_answer <- mdense0 TyD [[1; 0; 0; 0]; [0; 0; 0; 0]; [9; 0; 11; 0]]%Q 0%Q ;;
  x_C_1 <- lil_assign x_C x_Ones ;;
  x_C_2 <- t_opt_mxm TyD noacc TyD (mkSr qplus qtimes TyD) (MStruct (Other x_Lower_1)) REPLACE x_C_1
    (OMat (Other x_A)) (OMat (Other x_B)) ;;
  x_q <- meq x_C_2 x_answer ;;
  _ <- check x_q ;;
  x_answer2 <- mdense0 TyD [[1; 1; 1; 1]; [0; 0; 1; 1]; [9; 0; 11; 1]]%Q 0%Q ;;
  x_C_3 <- lil_assign x_C_2 x_Ones ;;
  x_C_4 <- t_opt_mxm TyD noacc TyD (mkSr qplus qtimes TyD) (MStruct (Other x_Lower_1)) MERGE x_C_3
    (OMat (Other x_A)) (OMat (Other x_B)) ;;
  x_q_1 <- meq x_C_4 x_answer2 ;;
  _ <- check x_q_1 ;;
  Ok tt) = Ok tt.
Proof. vm_compute. reflexivity. Qed.

(** test_mxm_AB.cpp:3157-3200 *)
Example test_mxm_StructMask_NoAccum_AB_emptyColA_emptyRowB :
 (x_A <- mdense0 TyD [[8; 0; 6]; [1; 0; 9]; [4; 0; 2]]%Q 0%Q ;;
  x_B <- mdense0 TyD [[0; 1; 0; 1]; [1; 0; 1; 1]; [0; 0; 0; 0]]%Q 0%Q ;;
  x_Lower <- mdense0 TyD d_Lower_3x4 0%Q ;;
  x_Lower_1 <- lil_setElement x_Lower 2 0 (cast TyD 0%Q) ;;
  x_Ones <- mdense0 TyD d_Ones_3x4 0%Q ;;
  x_C <- mnew 3 4 ;;
  x_answer <- mdense0 TyD [[0; 0; 0; 0]; [0; 1; 0; 0]; [0; 4; 0; 0]]%Q 0%Q ;;
  x_C_1 <- lil_assign x_C x_Ones ;;
  x_C_2 <- t_mxm TyD noacc (mkSr qplus qtimes TyD) (MStruct x_Lower_1) REPLACE x_C_1 (Mat x_A) (Mat
    x_B) ;;
  x_q <- meq x_C_2 x_answer ;;
  _ <- check x_q ;;
  x_answer2 <- mdense0 TyD [[0; 1; 1; 1]; [0; 1; 1; 1]; [0; 4; 0; 1]]%Q 0%Q ;;
  x_C_3 <- lil_assign x_C_2 x_Ones ;;
  x_C_4 <- t_mxm TyD noacc (mkSr qplus qtimes TyD) (MStruct x_Lower_1) MERGE x_C_3 (Mat x_A) (Mat
    x_B) ;;
  x_q_1 <- meq x_C_4 x_answer2 ;;
  _ <- check x_q_1 ;;
  Ok tt) = Ok tt.
Proof. vm_compute. reflexivity. Qed.

(** test_mxm_AB.cpp:3157-3200, optimized_sequential platform *)
Example test_mxm_StructMask_NoAccum_AB_emptyColA_emptyRowB_opt :
 (x_A <- mdense0 TyD [[8; 0; 6]; [1; 0; 9]; [4; 0; 2]]%Q 0%Q ;;
  x_B <- mdense0 TyD [[0; 1; 0; 1]; [1; 0; 1; 1]; [0; 0; 0; 0]]%Q 0%Q ;;
  x_Lower <- mdense0 TyD d_Lower_3x4 0%Q ;;
  x_Lower_1 <- lil_setElement x_Lower 2 0 (cast TyD 0%Q) ;;
  x_Ones <- mdense0 TyD d_Ones_3x4 0%Q ;;
  x_C <- mnew 3 4 ;;
  x_answer <- mdense0 TyD [[0; 0; 0; 0]; [0; 1; 0; 0]; [0; 4; 0; 0]]%Q 0%Q ;;
  x_C_1 <- lil_assign x_C x_Ones ;;
  x_C_2 <- t_opt_mxm TyD noacc TyD (mkSr qplus qtimes TyD) (MStruct (Other x_Lower_1)) REPLACE x_C_1
    (OMat (Other x_A)) (OMat (Other x_B)) ;;
  x_q <- meq x_C_2 x_answer ;;
  _ <- check x_q ;;
  x_answer2 <- mdense0 TyD [[0; 1; 1; 1]; [0; 1; 1; 1]; [0; 4; 0; 1]]%Q 0%Q ;;
  x_C_3 <- lil_assign x_C_2 x_Ones ;;
  x_C_4 <- t_opt_mxm TyD noacc TyD (mkSr qplus qtimes TyD) (MStruct (Other x_Lower_1)) MERGE x_C_3
    (OMat (Other x_A)) (OMat (Other x_B)) ;;
  x_q_1 <- meq x_C_4 x_answer2 ;;
  _ <- check x_q_1 ;;
  Ok tt) = Ok tt.
Proof. vm_compute. reflexivity. Qed.

(** test_mxm_AB.cpp:3203-3246 *)
Example test_mxm_StructMask_NoAccum_AB_emptyRowM :
 (x_A <- mdense0 TyD [[8; 1; 6]; [0; 0; 0]; [4; 9; 2]]%Q 0%Q ;;
  x_B <- mdense0 TyD [[0; 0; 0]; [1; 0; 1]; [0; 0; 1]]%Q 0%Q ;;
  x_NotLower <- mdense0 TyD d_NotLower_3x3 0%Q ;;
  x_NotLower_1 <- lil_setElement x_NotLower 0 2 (cast TyD 0%Q) ;;
  x_Ones <- mdense0 TyD d_Ones_3x3 0%Q ;;
  x_C <- mnew 3 3 ;;
  x_answer <- mdense0 TyD [[0; 0; 7]; [0; 0; 0]; [0; 0; 0]]%Q 0%Q ;;
  x_C_1 <- lil_assign x_C x_Ones ;;
  x_C_2 <- t_mxm TyD noacc (mkSr qplus qtimes TyD) (MStruct x_NotLower_1) REPLACE x_C_1 (Mat x_A)
    (Mat x_B) ;;
  x_q <- meq x_C_2 x_answer ;;
  _ <- check x_q ;;
  x_answer2 <- mdense0 TyD [[1; 0; 7]; [1; 1; 0]; [1; 1; 1]]%Q 0%Q ;;
  x_C_3 <- lil_assign x_C_2 x_Ones ;;
  x_C_4 <- t_mxm TyD noacc (mkSr qplus qtimes TyD) (MStruct x_NotLower_1) MERGE x_C_3 (Mat x_A) (Mat
    x_B) ;;
  x_q_1 <- meq x_C_4 x_answer2 ;;
  _ <- check x_q_1 ;;
  Ok tt) = Ok tt.
Proof. vm_compute. reflexivity. Qed.

(** test_mxm_AB.cpp:3203-3246, optimized_sequential platform *)
Example test_mxm_StructMask_NoAccum_AB_emptyRowM_opt :
 (x_A <- mdense0 TyD [[8; 1; 6]; [0; 0; 0]; [4; 9; 2]]%Q 0%Q ;;
  x_B <- mdense0 TyD [[0; 0; 0]; [1; 0; 1]; [0; 0; 1]]%Q 0%Q ;;
  x_NotLower <- mdense0 TyD d_NotLower_3x3 0%Q ;;
  x_NotLower_1 <- lil_setElement x_NotLower 0 2 (cast TyD 0%Q) ;;
  x_Ones <- mdense0 TyD d_Ones_3x3 0%Q ;;
  x_C <- mnew 3 3 ;;
  x_answer <- mdense0 TyD [[0; 0; 7]; [0; 0; 0]; [0; 0; 0]]%Q 0%Q ;;
  x_C_1 <- lil_assign x_C x_Ones ;;
  x_C_2 <- t_opt_mxm TyD noacc TyD (mkSr qplus qtimes TyD) (MStruct (Other x_NotLower_1)) REPLACE
    x_C_1 (OMat (Other x_A)) (OMat (Other x_B)) ;;
  x_q <- meq x_C_2 x_answer ;;
  _ <- check x_q ;;
  x_answer2 <- mdense0 TyD [[1; 0; 7]; [1; 1; 0]; [1; 1; 1]]%Q 0%Q ;;
  x_C_3 <- lil_assign x_C_2 x_Ones ;;
  x_C_4 <- t_opt_mxm TyD noacc TyD (mkSr qplus qtimes TyD) (MStruct (Other x_NotLower_1)) MERGE
    x_C_3 (OMat (Other x_A)) (OMat (Other x_B)) ;;
  x_q_1 <- meq x_C_4 x_answer2 ;;
  _ <- check x_q_1 ;;
  Ok tt) = Ok tt.
Proof. vm_compute. reflexivity. Qed.

(** test_mxm_AB.cpp:3249-3292 *)
Example test_mxm_StructMask_NoAccum_AB_ABdup :
 (x_mat <- mdense0 TyD [[1; 1; 0; 0]; [1; 2; 2; 0]; [0; 2; 3; 3]; [0; 0; 3; 4]]%Q 0%Q ;;
  x_Lower <- mdense0 TyD d_Lower_4x4 0%Q ;;
  x_Lower_1 <- lil_setElement x_Lower 0 0 (cast TyD 0%Q) ;;
  x_Ones <- mdense0 TyD d_Ones_4x4 0%Q ;;
  x_C <- mnew 4 4 ;;
  x_answer <- mdense0 TyD [[2; 1; 1; 1]; [3; 9; 1; 1]; [2; 10; 22; 1]; [0; 6; 21; 25]]%Q 0%Q ;;
  x_C_1 <- lil_assign x_C x_Ones ;;
  x_C_2 <- t_mxm TyD noacc (mkSr qplus qtimes TyD) (MStruct x_Lower_1) MERGE x_C_1 (Mat x_mat) (Mat
    x_mat) ;;
  x_q <- meq x_C_2 x_answer ;;
  _ <- check x_q ;;
  x_answer2 <- mdense0 TyD [[2; 0; 0; 0]; [3; 9; 0; 0]; [2; 10; 22; 0]; [0; 6; 21; 25]]%Q 0%Q ;;
  x_C_3 <- lil_assign x_C_2 x_Ones ;;
  x_C_4 <- t_mxm TyD noacc (mkSr qplus qtimes TyD) (MStruct x_Lower_1) REPLACE x_C_3 (Mat x_mat)
    (Mat x_mat) ;;
  x_q_1 <- meq x_C_4 x_answer2 ;;
  _ <- check x_q_1 ;;
  Ok tt) = Ok tt.
Proof. vm_compute. reflexivity. Qed.

(** test_mxm_AB.cpp:3249-3292, optimized_sequential platform *)
Example test_mxm_StructMask_NoAccum_AB_ABdup_opt :
 (x_mat <- mdense0 TyD [[1; 1; 0; 0]; [1; 2; 2; 0]; [0; 2; 3; 3]; [0; 0; 3; 4]]%Q 0%Q ;;
  x_Lower <- mdense0 TyD d_Lower_4x4 0%Q ;;
  x_Lower_1 <- lil_setElement x_Lower 0 0 (cast TyD 0%Q) ;;
  x_Ones <- mdense0 TyD d_Ones_4x4 0%Q ;;
  x_C <- mnew 4 4 ;;
  x_answer <- mdense0 TyD [[2; 1; 1; 1]; [3; 9; 1; 1]; [2; 10; 22; 1]; [0; 6; 21; 25]]%Q 0%Q ;;
  x_C_1 <- lil_assign x_C x_Ones ;;
  x_C_2 <- t_opt_mxm TyD noacc TyD (mkSr qplus qtimes TyD) (MStruct (Other x_Lower_1)) MERGE x_C_1
    (OMat (Other x_mat)) (OMat (Other x_mat)) ;;
  x_q <- meq x_C_2 x_answer ;;
  _ <- check x_q ;;
  x_answer2 <- mdense0 TyD [[2; 0; 0; 0]; [3; 9; 0; 0]; [2; 10; 22; 0]; [0; 6; 21; 25]]%Q 0%Q ;;
  x_C_3 <- lil_assign x_C_2 x_Ones ;;
  x_C_4 <- t_opt_mxm TyD noacc TyD (mkSr qplus qtimes TyD) (MStruct (Other x_Lower_1)) REPLACE x_C_3
    (OMat (Other x_mat)) (OMat (Other x_mat)) ;;
  x_q_1 <- meq x_C_4 x_answer2 ;;
  _ <- check x_q_1 ;;
  Ok tt) = Ok tt.
Proof. vm_compute. reflexivity. Qed.

(** test_mxm_AB.cpp:3295-3338 *)
Example test_mxm_StructMask_NoAccum_AB_ACdup :
 (x_mat <- mdense0 TyD [[1; 1; 0; 0]; [1; 2; 2; 0]; [0; 2; 3; 3]; [0; 0; 3; 4]]%Q 0%Q ;;
  x_Lower <- mdense0 TyD d_Lower_4x4 0%Q ;;
  x_Lower_1 <- lil_setElement x_Lower 0 0 (cast TyD 0%Q) ;;
  x_Ones <- mdense0 TyD d_Ones_4x4 0%Q ;;
  x_C <- mnew 4 4 ;;
  x_answer <- mdense0 TyD [[2; 1; 0; 0]; [3; 9; 2; 0]; [2; 10; 22; 3]; [0; 6; 21; 25]]%Q 0%Q ;;
  x_C_1 <- lil_assign x_C x_mat ;;
  x_C_2 <- t_mxm TyD noacc (mkSr qplus qtimes TyD) (MStruct x_Lower_1) MERGE x_C_1 (Mat x_C_1) (Mat
    x_mat) ;;
  x_q <- meq x_C_2 x_answer ;;
  _ <- check x_q ;;
  x_answer2 <- mdense0 TyD [[2; 0; 0; 0]; [3; 9; 0; 0]; [2; 10; 22; 0]; [0; 6; 21; 25]]%Q 0%Q ;;
  x_C_3 <- lil_assign x_C_2 x_mat ;;
  x_C_4 <- t_mxm TyD noacc (mkSr qplus qtimes TyD) (MStruct x_Lower_1) REPLACE x_C_3 (Mat x_C_3)
    (Mat x_mat) ;;
  x_q_1 <- meq x_C_4 x_answer2 ;;
  _ <- check x_q_1 ;;
  Ok tt) = Ok tt.
Proof. vm_compute. reflexivity. Qed.

(** test_mxm_AB.cpp:3295-3338, optimized_sequential platform *)
Example test_mxm_StructMask_NoAccum_AB_ACdup_opt :
 (x_mat <- mdense0 TyD [[1; 1; 0; 0]; [1; 2; 2; 0]; [0; 2; 3; 3]; [0; 0; 3; 4]]%Q 0%Q ;;
  x_Lower <- mdense0 TyD d_Lower_4x4 0%Q ;;
  x_Lower_1 <- lil_setElement x_Lower 0 0 (cast TyD 0%Q) ;;
  x_Ones <- mdense0 TyD d_Ones_4x4 0%Q ;;
  x_C <- mnew 4 4 ;;
  x_answer <- mdense0 TyD [[2; 1; 0; 0]; [3; 9; 2; 0]; [2; 10; 22; 3]; [0; 6; 21; 25]]%Q 0%Q ;;
  x_C_1 <- lil_assign x_C x_mat ;;
  x_C_2 <- t_opt_mxm TyD noacc TyD (mkSr qplus qtimes TyD) (MStruct (Other x_Lower_1)) MERGE x_C_1
    (OMat (TheOutput (fun x => x))) (OMat (Other x_mat)) ;;
  x_q <- meq x_C_2 x_answer ;;
  _ <- check x_q ;;
  x_answer2 <- mdense0 TyD [[2; 0; 0; 0]; [3; 9; 0; 0]; [2; 10; 22; 0]; [0; 6; 21; 25]]%Q 0%Q ;;
  x_C_3 <- lil_assign x_C_2 x_mat ;;
  x_C_4 <- t_opt_mxm TyD noacc TyD (mkSr qplus qtimes TyD) (MStruct (Other x_Lower_1)) REPLACE x_C_3
    (OMat (TheOutput (fun x => x))) (OMat (Other x_mat)) ;;
  x_q_1 <- meq x_C_4 x_answer2 ;;
  _ <- check x_q_1 ;;
  Ok tt) = Ok tt.
Proof. vm_compute. reflexivity. Qed.

(** test_mxm_AB.cpp:3341-3393 *)
Example test_mxm_StructMask_NoAccum_AB_BCdup :
 (x_mat <- mdense0 TyD [[1; 1; 0; 0]; [1; 2; 2; 0]; [0; 2; 3; 3]; [0; 0; 3; 4]]%Q 0%Q ;;
  x_Lower <- mdense0 TyD d_Lower_4x4 0%Q ;;
  x_Lower_1 <- lil_setElement x_Lower 0 0 (cast TyD 0%Q) ;;
  x_Ones <- mdense0 TyD d_Ones_4x4 0%Q ;;
  x_C <- mnew 4 4 ;;
  x_answer <- mdense0 TyD [[2; 1; 0; 0]; [3; 9; 2; 0]; [2; 10; 22; 3]; [0; 6; 21; 25]]%Q 0%Q ;;
  x_C_1 <- lil_assign x_C x_mat ;;
  x_C_2 <- t_mxm TyD noacc (mkSr qplus qtimes TyD) (MStruct x_Lower_1) MERGE x_C_1 (Mat x_mat) (Mat
    x_C_1) ;;
  x_q <- meq x_C_2 x_answer ;;
  _ <- check x_q ;;
  x_C_3 <- lil_assign x_C_2 x_mat ;;
  x_C_4 <- t_mxm TyD noacc (mkSr qplus qtimes TyD) (MStruct x_Lower_1) MERGE x_C_3 (Mat x_mat) (Mat
    x_mat) ;;
  x_q_1 <- meq x_C_4 x_answer ;;
  _ <- check x_q_1 ;;
  x_answer2 <- mdense0 TyD [[2; 0; 0; 0]; [3; 9; 0; 0]; [2; 10; 22; 0]; [0; 6; 21; 25]]%Q 0%Q ;;
  x_C_5 <- lil_assign x_C_4 x_mat ;;
  x_C_6 <- t_mxm TyD noacc (mkSr qplus qtimes TyD) (MStruct x_Lower_1) REPLACE x_C_5 (Mat x_mat)
    (Mat x_C_5) ;;
  x_q_2 <- meq x_C_6 x_answer2 ;;
  _ <- check x_q_2 ;;
  Ok tt) = Ok tt.
Proof. vm_compute. reflexivity. Qed.

(** test_mxm_AB.cpp:3341-3393, optimized_sequential platform *)
Example test_mxm_StructMask_NoAccum_AB_BCdup_opt :
 (x_mat <- mdense0 TyD [[1; 1; 0; 0]; [1; 2; 2; 0]; [0; 2; 3; 3]; [0; 0; 3; 4]]%Q 0%Q ;;
  x_Lower <- mdense0 TyD d_Lower_4x4 0%Q ;;
  x_Lower_1 <- lil_setElement x_Lower 0 0 (cast TyD 0%Q) ;;
  x_Ones <- mdense0 TyD d_Ones_4x4 0%Q ;;
  x_C <- mnew 4 4 ;;
  x_answer <- mdense0 TyD [[2; 1; 0; 0]; [3; 9; 2; 0]; [2; 10; 22; 3]; [0; 6; 21; 25]]%Q 0%Q ;;
  x_C_1 <- lil_assign x_C x_mat ;;
  x_C_2 <- t_opt_mxm TyD noacc TyD (mkSr qplus qtimes TyD) (MStruct (Other x_Lower_1)) MERGE x_C_1
    (OMat (Other x_mat)) (OMat (TheOutput (fun x => x))) ;;
  x_q <- meq x_C_2 x_answer ;;
  _ <- check x_q ;;
  x_C_3 <- lil_assign x_C_2 x_mat ;;
  x_C_4 <- t_opt_mxm TyD noacc TyD (mkSr qplus qtimes TyD) (MStruct (Other x_Lower_1)) MERGE x_C_3
    (OMat (Other x_mat)) (OMat (Other x_mat)) ;;
  x_q_1 <- meq x_C_4 x_answer ;;
  _ <- check x_q_1 ;;
  x_answer2 <- mdense0 TyD [[2; 0; 0; 0]; [3; 9; 0; 0]; [2; 10; 22; 0]; [0; 6; 21; 25]]%Q 0%Q ;;
  x_C_5 <- lil_assign x_C_4 x_mat ;;
  x_C_6 <- t_opt_mxm TyD noacc TyD (mkSr qplus qtimes TyD) (MStruct (Other x_Lower_1)) REPLACE x_C_5
    (OMat (Other x_mat)) (OMat (TheOutput (fun x => x))) ;;
  x_q_2 <- meq x_C_6 x_answer2 ;;
  _ <- check x_q_2 ;;
  Ok tt) = Ok tt.
Proof. vm_compute. reflexivity. Qed.

(** test_mxm_AB.cpp:3396-3439 *)
Example test_mxm_StructMask_NoAccum_AB_MCdup :
 (x_mat <- mdense0 TyD [[1; 1; 0; 0]; [1; 2; 2; 0]; [0; 2; 3; 3]; [0; 0; 3; 4]]%Q 0%Q ;;
  x_Lower <- mdense0 TyD d_Lower_4x4 0%Q ;;
  x_C <- mnew 4 4 ;;
  x_answer <- mdense0 TyD [[2; 0; 0; 0]; [3; 9; 0; 0]; [2; 10; 22; 0]; [0; 6; 21; 25]]%Q 0%Q ;;
  x_C_1 <- lil_assign x_C x_Lower ;;
  x_C_2 <- lil_setElement x_C_1 2 0 (cast TyD 0%Q) ;;
  x_C_3 <- t_mxm TyD noacc (mkSr qplus qtimes TyD) (MStruct x_C_2) MERGE x_C_2 (Mat x_mat) (Mat
    x_mat) ;;
  x_q <- meq x_C_3 x_answer ;;
  _ <- check x_q ;;
  x_answer2 <- mdense0 TyD [[2; 0; 0; 0]; [3; 9; 0; 0]; [2; 10; 22; 0]; [0; 6; 21; 25]]%Q 0%Q ;;
  x_C_4 <- lil_assign x_C_3 x_Lower ;;
  x_C_5 <- lil_setElement x_C_4 2 0 (cast TyD 0%Q) ;;
  x_C_6 <- t_mxm TyD noacc (mkSr qplus qtimes TyD) (MStruct x_C_5) REPLACE x_C_5 (Mat x_mat) (Mat
    x_mat) ;;
  x_q_1 <- meq x_C_6 x_answer2 ;;
  _ <- check x_q_1 ;;
  Ok tt) = Ok tt.
Proof. vm_compute. reflexivity. Qed.

(** test_mxm_AB.cpp:3396-3439, optimized_sequential platform *)
Example test_mxm_StructMask_NoAccum_AB_MCdup_opt :
 (x_mat <- mdense0 TyD [[1; 1; 0; 0]; [1; 2; 2; 0]; [0; 2; 3; 3]; [0; 0; 3; 4]]%Q 0%Q ;;
  x_Lower <- mdense0 TyD d_Lower_4x4 0%Q ;;
  x_C <- mnew 4 4 ;;
  x_answer <- mdense0 TyD [[2; 0; 0; 0]; [3; 9; 0; 0]; [2; 10; 22; 0]; [0; 6; 21; 25]]%Q 0%Q ;;
  x_C_1 <- lil_assign x_C x_Lower ;;
  x_C_2 <- lil_setElement x_C_1 2 0 (cast TyD 0%Q) ;;
  x_C_3 <- t_opt_mxm TyD noacc TyD (mkSr qplus qtimes TyD) (MStruct (TheOutput (fun x => x))) MERGE
    x_C_2 (OMat (Other x_mat)) (OMat (Other x_mat)) ;;
  x_q <- meq x_C_3 x_answer ;;
  _ <- check x_q ;;
  x_answer2 <- mdense0 TyD [[2; 0; 0; 0]; [3; 9; 0; 0]; [2; 10; 22; 0]; [0; 6; 21; 25]]%Q 0%Q ;;
  x_C_4 <- lil_assign x_C_3 x_Lower ;;
  x_C_5 <- lil_setElement x_C_4 2 0 (cast TyD 0%Q) ;;
  x_C_6 <- t_opt_mxm TyD noacc TyD (mkSr qplus qtimes TyD) (MStruct (TheOutput (fun x => x)))
    REPLACE x_C_5 (OMat (Other x_mat)) (OMat (Other x_mat)) ;;
  x_q_1 <- meq x_C_6 x_answer2 ;;
  _ <- check x_q_1 ;;
  Ok tt) = Ok tt.
Proof. vm_compute. reflexivity. Qed.

(** test_mxm_AB.cpp:3446-3548 *)
Example test_mxm_StructMask_Accum_AB :
 (x_A <- mdense0 TyD d_A_sparse_3x3 0%Q ;;
  x_Identity <- mdense0 TyD d_Identity_3x3 0%Q ;;
  x_Empty <- mnew 3 3 ;;
  x_Ones <- mdense0 TyD d_Ones_3x3 0%Q ;;
  x_C <- mnew 3 3 ;;
  x_MLower <- mdense0 TyD d_Lower_3x3 0%Q ;;
  x_MNotLower <- mdense0 TyD d_NotLower_3x3 0%Q ;;
  x_AFilled <- mdense0 TyD [[12; 7; 1]; [1; (-5); 1]; [7; 1; 9]]%Q 0%Q ;;
  x_C_1 <- lil_assign x_C x_Ones ;;
  x_Ones_1 <- lil_setElement x_Ones 0 0 (cast TyD 0%Q) ;;
  x_C_2 <- t_mxm TyD (acc TyD qplus) (mkSr qplus qtimes TyD) (MStruct x_Ones_1) MERGE x_C_1 (Mat
    x_A) (Mat x_Identity) ;;
  x_t <- mdense0 TyD [[13; 8; 1]; [1; (-4); 1]; [8; 1; 10]]%Q 0%Q ;;
  x_q <- meq x_C_2 x_t ;;
  _ <- check x_q ;;
  x_Ones_2 <- lil_setElement x_Ones_1 0 0 (cast TyD 1%Q) ;;
  x_C_3 <- lil_assign x_C_2 x_Ones_2 ;;
  x_MLower_1 <- lil_setElement x_MLower 2 0 (cast TyD 0%Q) ;;
  x_C_4 <- t_mxm TyD (acc TyD qplus) (mkSr qplus qtimes TyD) (MStruct x_MLower_1) MERGE x_C_3 (Mat
    x_Ones_2) (Mat x_Identity) ;;
  x_t_1 <- mdense0 TyD [[2; 1; 1]; [2; 2; 1]; [2; 2; 2]]%Q 0%Q ;;
  x_q_1 <- meq x_C_4 x_t_1 ;;
  _ <- check x_q_1 ;;
  x_C_5 <- lil_assign x_C_4 x_Ones_2 ;;
  x_MNotLower_1 <- lil_setElement x_MNotLower 0 2 (cast TyD 0%Q) ;;
  x_C_6 <- t_mxm TyD (acc TyD qplus) (mkSr qplus qtimes TyD) (MStruct x_MNotLower_1) MERGE x_C_5
    (Mat x_Ones_2) (Mat x_Identity) ;;
  x_t_2 <- mdense0 TyD [[1; 2; 2]; [1; 1; 2]; [1; 1; 1]]%Q 0%Q ;;
  x_q_2 <- meq x_C_6 x_t_2 ;;
  _ <- check x_q_2 ;;
  x_C_7 <- lil_assign x_C_6 x_Ones_2 ;;
  x_Ones_3 <- lil_setElement x_Ones_2 0 0 (cast TyD 0%Q) ;;
  x_C_8 <- t_mxm TyD (acc TyD qplus) (mkSr qplus qtimes TyD) (MStruct x_Ones_3) REPLACE x_C_7 (Mat
    x_A) (Mat x_Identity) ;;
  x_t_3 <- mdense0 TyD [[13; 8; 1]; [1; (-4); 1]; [8; 1; 10]]%Q 0%Q ;;
  x_q_3 <- meq x_C_8 x_t_3 ;;
  _ <- check x_q_3 ;;
  x_Ones_4 <- lil_setElement x_Ones_3 0 0 (cast TyD 1%Q) ;;
  x_C_9 <- lil_assign x_C_8 x_Ones_4 ;;
  x_C_10 <- t_mxm TyD (acc TyD qplus) (mkSr qplus qtimes TyD) (MStruct x_MLower_1) REPLACE x_C_9
    (Mat x_Ones_4) (Mat x_Identity) ;;
  x_t_4 <- mdense0 TyD [[2; 0; 0]; [2; 2; 0]; [2; 2; 2]]%Q 0%Q ;;
  x_q_4 <- meq x_C_10 x_t_4 ;;
  _ <- check x_q_4 ;;
  x_C_11 <- lil_assign x_C_10 x_Ones_4 ;;
  x_C_12 <- t_mxm TyD (acc TyD qplus) (mkSr qplus qtimes TyD) (MStruct x_MNotLower_1) REPLACE x_C_11
    (Mat x_Ones_4) (Mat x_Identity) ;;
  x_t_5 <- mdense0 TyD [[0; 2; 2]; [0; 0; 2]; [0; 0; 0]]%Q 0%Q ;;
  x_q_5 <- meq x_C_12 x_t_5 ;;
  _ <- check x_q_5 ;;
  Ok tt) = Ok tt.
Proof. vm_compute. reflexivity. Qed.

(** test_mxm_AB.cpp:3446-3548, optimized_sequential platform *)
Example test_mxm_StructMask_Accum_AB_opt :
 (x_A <- mdense0 TyD d_A_sparse_3x3 0%Q ;;
  x_Identity <- mdense0 TyD d_Identity_3x3 0%Q ;;
  x_Empty <- mnew 3 3 ;;
  x_Ones <- mdense0 TyD d_Ones_3x3 0%Q ;;
  x_C <- mnew 3 3 ;;
  x_MLower <- mdense0 TyD d_Lower_3x3 0%Q ;;
  x_MNotLower <- mdense0 TyD d_NotLower_3x3 0%Q ;;
  x_AFilled <- mdense0 TyD [[12; 7; 1]; [1; (-5); 1]; [7; 1; 9]]%Q 0%Q ;;
  x_C_1 <- lil_assign x_C x_Ones ;;
  x_Ones_1 <- lil_setElement x_Ones 0 0 (cast TyD 0%Q) ;;
  x_C_2 <- t_opt_mxm TyD (acc TyD qplus) TyD (mkSr qplus qtimes TyD) (MStruct (Other x_Ones_1))
    MERGE x_C_1 (OMat (Other x_A)) (OMat (Other x_Identity)) ;;
  x_t <- mdense0 TyD [[13; 8; 1]; [1; (-4); 1]; [8; 1; 10]]%Q 0%Q ;;
  x_q <- meq x_C_2 x_t ;;
  _ <- check x_q ;;
  x_Ones_2 <- lil_setElement x_Ones_1 0 0 (cast TyD 1%Q) ;;
  x_C_3 <- lil_assign x_C_2 x_Ones_2 ;;
  x_MLower_1 <- lil_setElement x_MLower 2 0 (cast TyD 0%Q) ;;
  x_C_4 <- t_opt_mxm TyD (acc TyD qplus) TyD (mkSr qplus qtimes TyD) (MStruct (Other x_MLower_1))
    MERGE x_C_3 (OMat (Other x_Ones_2)) (OMat (Other x_Identity)) ;;
  x_t_1 <- mdense0 TyD [[2; 1; 1]; [2; 2; 1]; [2; 2; 2]]%Q 0%Q ;;
  x_q_1 <- meq x_C_4 x_t_1 ;;
  _ <- check x_q_1 ;;
  x_C_5 <- lil_assign x_C_4 x_Ones_2 ;;
  x_MNotLower_1 <- lil_setElement x_MNotLower 0 2 (cast TyD 0%Q) ;;
  x_C_6 <- t_opt_mxm TyD (acc TyD qplus) TyD (mkSr qplus qtimes TyD) (MStruct (Other x_MNotLower_1))
    MERGE x_C_5 (OMat (Other x_Ones_2)) (OMat (Other x_Identity)) ;;
  x_t_2 <- mdense0 TyD [[1; 2; 2]; [1; 1; 2]; [1; 1; 1]]%Q 0%Q ;;
  x_q_2 <- meq x_C_6 x_t_2 ;;
  _ <- check x_q_2 ;;
  x_C_7 <- lil_assign x_C_6 x_Ones_2 ;;
  x_Ones_3 <- lil_setElement x_Ones_2 0 0 (cast TyD 0%Q) ;;
  x_C_8 <- t_opt_mxm TyD (acc TyD qplus) TyD (mkSr qplus qtimes TyD) (MStruct (Other x_Ones_3))
    REPLACE x_C_7 (OMat (Other x_A)) (OMat (Other x_Identity)) ;;
  x_t_3 <- mdense0 TyD [[13; 8; 1]; [1; (-4); 1]; [8; 1; 10]]%Q 0%Q ;;
  x_q_3 <- meq x_C_8 x_t_3 ;;
  _ <- check x_q_3 ;;
  x_Ones_4 <- lil_setElement x_Ones_3 0 0 (cast TyD 1%Q) ;;
  x_C_9 <- lil_assign x_C_8 x_Ones_4 ;;
  x_C_10 <- t_opt_mxm TyD (acc TyD qplus) TyD (mkSr qplus qtimes TyD) (MStruct (Other x_MLower_1))
    REPLACE x_C_9 (OMat (Other x_Ones_4)) (OMat (Other x_Identity)) ;;
  x_t_4 <- mdense0 TyD [[2; 0; 0]; [2; 2; 0]; [2; 2; 2]]%Q 0%Q ;;
  x_q_4 <- meq x_C_10 x_t_4 ;;
  _ <- check x_q_4 ;;
  x_C_11 <- lil_assign x_C_10 x_Ones_4 ;;
  x_C_12 <- t_opt_mxm TyD (acc TyD qplus) TyD (mkSr qplus qtimes TyD) (MStruct (Other
    x_MNotLower_1)) REPLACE x_C_11 (OMat (Other x_Ones_4)) (OMat (Other x_Identity)) ;;
  x_t_5 <- mdense0 TyD [[0; 2; 2]; [0; 0; 2]; [0; 0; 0]]%Q 0%Q ;;
  x_q_5 <- meq x_C_12 x_t_5 ;;
  _ <- check x_q_5 ;;
  Ok tt) = Ok tt.
Proof. vm_compute. reflexivity. Qed.

(** test_mxm_AB.cpp:3551-3587 *)
Example test_mxm_StructMask_Accum_ABMempty :
 (x_Empty <- mnew 3 3 ;;
  x_Ones <- mdense0 TyD d_Ones_3x3 0%Q ;;
  x_C <- mnew 3 3 ;;
  x_M <- mdense0 TyB d_LowerBool_3x3 0%Q ;;
  x_M_1 <- lil_setElement x_M 2 0 (cast TyB 0%Q) ;;
  x_C_1 <- lil_assign x_C x_Ones ;;
  x_C_2 <- t_mxm TyD (acc TyD qplus) (mkSr qplus qtimes TyD) (MStruct x_M_1) MERGE x_C_1 (Mat
    x_Empty) (Mat x_Ones) ;;
  x_q <- meq x_C_2 x_Ones ;;
  _ <- check x_q ;;
  x_C_3 <- lil_assign x_C_2 x_Ones ;;
  x_C_4 <- t_mxm TyD (acc TyD qplus) (mkSr qplus qtimes TyD) (MStruct x_M_1) MERGE x_C_3 (Mat
    x_Ones) (Mat x_Empty) ;;
  x_q_1 <- meq x_C_4 x_Ones ;;
  _ <- check x_q_1 ;;
  x_C_5 <- lil_assign x_C_4 x_Ones ;;
  x_C_6 <- t_mxm TyD (acc TyD qplus) (mkSr qplus qtimes TyD) (MStruct x_M_1) REPLACE x_C_5 (Mat
    x_Empty) (Mat x_Ones) ;;
  x_t <- mdense0 TyD d_Lower_3x3 0%Q ;;
  x_q_2 <- meq x_C_6 x_t ;;
  _ <- check x_q_2 ;;
  x_C_7 <- lil_assign x_C_6 x_Ones ;;
  x_C_8 <- t_mxm TyD (acc TyD qplus) (mkSr qplus qtimes TyD) (MStruct x_M_1) REPLACE x_C_7 (Mat
    x_Ones) (Mat x_Empty) ;;
  x_t_1 <- mdense0 TyD d_Lower_3x3 0%Q ;;
  x_q_3 <- meq x_C_8 x_t_1 ;;
  _ <- check x_q_3 ;;
  Ok tt) = Ok tt.
Proof. vm_compute. reflexivity. Qed.

(** test_mxm_AB.cpp:3551-3587, optimized_sequential platform *)
Example test_mxm_StructMask_Accum_ABMempty_opt :
 (x_Empty <- mnew 3 3 ;;
  x_Ones <- mdense0 TyD d_Ones_3x3 0%Q ;;
  x_C <- mnew 3 3 ;;
  x_M <- mdense0 TyB d_LowerBool_3x3 0%Q ;;
  x_M_1 <- lil_setElement x_M 2 0 (cast TyB 0%Q) ;;
  x_C_1 <- lil_assign x_C x_Ones ;;
  x_C_2 <- t_opt_mxm TyD (acc TyD qplus) TyD (mkSr qplus qtimes TyD) (MStruct (Other x_M_1)) MERGE
    x_C_1 (OMat (Other x_Empty)) (OMat (Other x_Ones)) ;;
  x_q <- meq x_C_2 x_Ones ;;
  _ <- check x_q ;;
  x_C_3 <- lil_assign x_C_2 x_Ones ;;
  x_C_4 <- t_opt_mxm TyD (acc TyD qplus) TyD (mkSr qplus qtimes TyD) (MStruct (Other x_M_1)) MERGE
    x_C_3 (OMat (Other x_Ones)) (OMat (Other x_Empty)) ;;
  x_q_1 <- meq x_C_4 x_Ones ;;
  _ <- check x_q_1 ;;
  x_C_5 <- lil_assign x_C_4 x_Ones ;;
  x_C_6 <- t_opt_mxm TyD (acc TyD qplus) TyD (mkSr qplus qtimes TyD) (MStruct (Other x_M_1)) REPLACE
    x_C_5 (OMat (Other x_Empty)) (OMat (Other x_Ones)) ;;
  x_t <- mdense0 TyD d_Lower_3x3 0%Q ;;
  x_q_2 <- meq x_C_6 x_t ;;
  _ <- check x_q_2 ;;
  x_C_7 <- lil_assign x_C_6 x_Ones ;;
  x_C_8 <- t_opt_mxm TyD (acc TyD qplus) TyD (mkSr qplus qtimes TyD) (MStruct (Other x_M_1)) REPLACE
    x_C_7 (OMat (Other x_Ones)) (OMat (Other x_Empty)) ;;
  x_t_1 <- mdense0 TyD d_Lower_3x3 0%Q ;;
  x_q_3 <- meq x_C_8 x_t_1 ;;
  _ <- check x_q_3 ;;
  Ok tt) = Ok tt.
Proof. vm_compute. reflexivity. Qed.

(** test_mxm_AB.cpp:3590-3632 *)
Example test_mxm_StructMask_Accum_AB_emptyRowA_emptyColB :
 (x_A <- mdense0 TyD [[8; 1; 6]; [0; 0; 0]; [4; 9; 2]]%Q 0%Q ;;
  x_B <- mdense0 TyD [[0; 0; 0; 1]; [1; 0; 1; 1]; [0; 0; 1; 1]]%Q 0%Q ;;
  x_Lower <- mdense0 TyD d_Lower_3x4 0%Q ;;
  x_Lower_1 <- lil_setElement x_Lower 2 0 (cast TyD 0%Q) ;;
  x_Ones <- mdense0 TyD d_Ones_3x4 0%Q ;;
  x_C <- mnew 3 4 ;;
  x_answer <- mdense0 TyD [[2; 0; 0; 0]; [1; 1; 0; 0]; [10; 1; 12; 0]]%Q 0%Q ;;
  x_C_1 <- lil_assign x_C x_Ones ;;
  x_C_2 <- t_mxm TyD (acc TyD qplus) (mkSr qplus qtimes TyD) (MStruct x_Lower_1) REPLACE x_C_1 (Mat
    x_A) (Mat x_B) ;;
  x_q <- meq x_C_2 x_answer ;;
  _ <- check x_q ;;
  x_answer2 <- mdense0 TyD [[2; 1; 1; 1]; [1; 1; 1; 1]; [10; 1; 12; 1]]%Q 0%Q ;;
  x_C_3 <- lil_assign x_C_2 x_Ones ;;
  x_C_4 <- t_mxm TyD (acc TyD qplus) (mkSr qplus qtimes TyD) (MStruct x_Lower_1) MERGE x_C_3 (Mat
    x_A) (Mat x_B) ;;
  x_q_1 <- meq x_C_4 x_answer2 ;;
  _ <- check x_q_1 ;;
  Ok tt) = Ok tt.
Proof. vm_compute. reflexivity. Qed.

(** test_mxm_AB.cpp:3590-3632, optimized_sequential platform *)
Example test_mxm_StructMask_Accum_AB_emptyRowA_emptyColB_opt :
 (x_A <- mdense0 TyD [[8; 1; 6]; [0; 0; 0]; [4; 9; 2]]%Q 0%Q ;;
  x_B <- mdense0 TyD [[0; 0; 0; 1]; [1; 0; 1; 1]; [0; 0; 1; 1]]%Q 0%Q ;;
  x_Lower <- mdense0 TyD d_Lower_3x4 0%Q ;;
  x_Lower_1 <- lil_setElement x_Lower 2 0 (cast TyD 0%Q) ;;
  x_Ones <- mdense0 TyD d_Ones_3x4 0%Q ;;
  x_C <- mnew 3 4 ;;
  x_answer <- mdense0 TyD [[2; 0; 0; 0]; [1; 1; 0; 0]; [10; 1; 12; 0]]%Q 0%Q ;;
  x_C_1 <- lil_assign x_C x_Ones ;;
  x_C_2 <- t_opt_mxm TyD (acc TyD qplus) TyD (mkSr qplus qtimes TyD) (MStruct (Other x_Lower_1))
    REPLACE x_C_1 (OMat (Other x_A)) (OMat (Other x_B)) ;;
  x_q <- meq x_C_2 x_answer ;;
  _ <- check x_q ;;
  x_answer2 <- mdense0 TyD [[2; 1; 1; 1]; [1; 1; 1; 1]; [10; 1; 12; 1]]%Q 0%Q ;;
  x_C_3 <- lil_assign x_C_2 x_Ones ;;
  x_C_4 <- t_opt_mxm TyD (acc TyD qplus) TyD (mkSr qplus qtimes TyD) (MStruct (Other x_Lower_1))
    MERGE x_C_3 (OMat (Other x_A)) (OMat (Other x_B)) ;;
  x_q_1 <- meq x_C_4 x_answer2 ;;
  _ <- check x_q_1 ;;
  Ok tt) = Ok tt.
Proof. vm_compute. reflexivity. Qed.

(** test_mxm_AB.cpp:3635-3678 *)
Example test_mxm_StructMask_Accum_AB_emptyColA_emptyRowB :
 (x_A <- mdense0 TyD [[8; 0; 6]; [1; 0; 9]; [4; 0; 2]]%Q 0%Q ;;
  x_B <- mdense0 TyD [[0; 1; 0; 1]; [1; 0; 1; 1]; [0; 0; 0; 0]]%Q 0%Q ;;
  x_Lower <- mdense0 TyD d_Lower_3x4 0%Q ;;
  x_Lower_1 <- lil_setElement x_Lower 2 0 (cast TyD 0%Q) ;;
  x_Ones <- mdense0 TyD d_Ones_3x4 0%Q ;;
  x_C <- mnew 3 4 ;;
  x_answer <- mdense0 TyD [[1; 0; 0; 0]; [1; 2; 0; 0]; [1; 5; 1; 0]]%Q 0%Q ;;
  x_C_1 <- lil_assign x_C x_Ones ;;
  x_C_2 <- t_mxm TyD (acc TyD qplus) (mkSr qplus qtimes TyD) (MStruct x_Lower_1) REPLACE x_C_1 (Mat
    x_A) (Mat x_B) ;;
  x_q <- meq x_C_2 x_answer ;;
  _ <- check x_q ;;
  x_answer2 <- mdense0 TyD [[1; 1; 1; 1]; [1; 2; 1; 1]; [1; 5; 1; 1]]%Q 0%Q ;;
  x_C_3 <- lil_assign x_C_2 x_Ones ;;
  x_C_4 <- t_mxm TyD (acc TyD qplus) (mkSr qplus qtimes TyD) (MStruct x_Lower_1) MERGE x_C_3 (Mat
    x_A) (Mat x_B) ;;
  x_q_1 <- meq x_C_4 x_answer2 ;;
  _ <- check x_q_1 ;;
  Ok tt) = Ok tt.
Proof. vm_compute. reflexivity. Qed.

(** test_mxm_AB.cpp:3635-3678, optimized_sequential platform *)
Example test_mxm_StructMask_Accum_AB_emptyColA_emptyRowB_opt :
 (x_A <- mdense0 TyD [[8; 0; 6]; [1; 0; 9]; [4; 0; 2]]%Q 0%Q ;;
  x_B <- mdense0 TyD [[0; 1; 0; 1]; [1; 0; 1; 1]; [0; 0; 0; 0]]%Q 0%Q ;;
  x_Lower <- mdense0 TyD d_Lower_3x4 0%Q ;;
  x_Lower_1 <- lil_setElement x_Lower 2 0 (cast TyD 0%Q) ;;
  x_Ones <- mdense0 TyD d_Ones_3x4 0%Q ;;
  x_C <- mnew 3 4 ;;
  x_answer <- mdense0 TyD [[1; 0; 0; 0]; [1; 2; 0; 0]; [1; 5; 1; 0]]%Q 0%Q ;;
  x_C_1 <- lil_assign x_C x_Ones ;;
  x_C_2 <- t_opt_mxm TyD (acc TyD qplus) TyD (mkSr qplus qtimes TyD) (MStruct (Other x_Lower_1))
    REPLACE x_C_1 (OMat (Other x_A)) (OMat (Other x_B)) ;;
  x_q <- meq x_C_2 x_answer ;;
  _ <- check x_q ;;
  x_answer2 <- mdense0 TyD [[1; 1; 1; 1]; [1; 2; 1; 1]; [1; 5; 1; 1]]%Q 0%Q ;;
  x_C_3 <- lil_assign x_C_2 x_Ones ;;
  x_C_4 <- t_opt_mxm TyD (acc TyD qplus) TyD (mkSr qplus qtimes TyD) (MStruct (Other x_Lower_1))
    MERGE x_C_3 (OMat (Other x_A)) (OMat (Other x_B)) ;;
  x_q_1 <- meq x_C_4 x_answer2 ;;
  _ <- check x_q_1 ;;
  Ok tt) = Ok tt.
Proof. vm_compute. reflexivity. Qed.

(** test_mxm_AB.cpp:3681-3724 *)
Example test_mxm_StructMask_Accum_AB_emptyRowM :
 (x_A <- mdense0 TyD [[8; 1; 6]; [0; 0; 0]; [4; 9; 2]]%Q 0%Q ;;
  x_B <- mdense0 TyD [[0; 0; 0]; [1; 0; 1]; [0; 0; 1]]%Q 0%Q ;;
  x_NotLower <- mdense0 TyD d_NotLower_3x3 0%Q ;;
  x_NotLower_1 <- lil_setElement x_NotLower 0 2 (cast TyD 0%Q) ;;
  x_Ones <- mdense0 TyD d_Ones_3x3 0%Q ;;
  x_C <- mnew 3 3 ;;
  x_answer <- mdense0 TyD [[0; 1; 8]; [0; 0; 1]; [0; 0; 0]]%Q 0%Q ;;
  x_C_1 <- lil_assign x_C x_Ones ;;
  x_C_2 <- t_mxm TyD (acc TyD qplus) (mkSr qplus qtimes TyD) (MStruct x_NotLower_1) REPLACE x_C_1
    (Mat x_A) (Mat x_B) ;;
  x_q <- meq x_C_2 x_answer ;;
  _ <- check x_q ;;
  x_answer2 <- mdense0 TyD [[1; 1; 8]; [1; 1; 1]; [1; 1; 1]]%Q 0%Q ;;
  x_C_3 <- lil_assign x_C_2 x_Ones ;;
  x_C_4 <- t_mxm TyD (acc TyD qplus) (mkSr qplus qtimes TyD) (MStruct x_NotLower_1) MERGE x_C_3 (Mat
    x_A) (Mat x_B) ;;
  x_q_1 <- meq x_C_4 x_answer2 ;;
  _ <- check x_q_1 ;;
  Ok tt) = Ok tt.
Proof. vm_compute. reflexivity. Qed.

(** test_mxm_AB.cpp:3681-3724, optimized_sequential platform *)
Example test_mxm_StructMask_Accum_AB_emptyRowM_opt :
 (x_A <- mdense0 TyD [[8; 1; 6]; [0; 0; 0]; [4; 9; 2]]%Q 0%Q ;;
  x_B <- mdense0 TyD [[0; 0; 0]; [1; 0; 1]; [0; 0; 1]]%Q 0%Q ;;
  x_NotLower <- mdense0 TyD d_NotLower_3x3 0%Q ;;
  x_NotLower_1 <- lil_setElement x_NotLower 0 2 (cast TyD 0%Q) ;;
  x_Ones <- mdense0 TyD d_Ones_3x3 0%Q ;;
  x_C <- mnew 3 3 ;;
  x_answer <- mdense0 TyD [[0; 1; 8]; [0; 0; 1]; [0; 0; 0]]%Q 0%Q ;;
  x_C_1 <- lil_assign x_C x_Ones ;;
  x_C_2 <- t_opt_mxm TyD (acc TyD qplus) TyD (mkSr qplus qtimes TyD) (MStruct (Other x_NotLower_1))
    REPLACE x_C_1 (OMat (Other x_A)) (OMat (Other x_B)) ;;
  x_q <- meq x_C_2 x_answer ;;
  _ <- check x_q ;;
  x_answer2 <- mdense0 TyD [[1; 1; 8]; [1; 1; 1]; [1; 1; 1]]%Q 0%Q ;;
  x_C_3 <- lil_assign x_C_2 x_Ones ;;
  x_C_4 <- t_opt_mxm TyD (acc TyD qplus) TyD (mkSr qplus qtimes TyD) (MStruct (Other x_NotLower_1))
    MERGE x_C_3 (OMat (Other x_A)) (OMat (Other x_B)) ;;
  x_q_1 <- meq x_C_4 x_answer2 ;;
  _ <- check x_q_1 ;;
  Ok tt) = Ok tt.
Proof. vm_compute. reflexivity. Qed.

(** test_mxm_AB.cpp:3727-3770 *)
Example test_mxm_StructMask_Accum_AB_ABdup :
 (x_mat <- mdense0 TyD [[1; 1; 0; 0]; [1; 2; 2; 0]; [0; 2; 3; 3]; [0; 0; 3; 4]]%Q 0%Q ;;
  x_Lower <- mdense0 TyD d_Lower_4x4 0%Q ;;
  x_Lower_1 <- lil_setElement x_Lower 0 0 (cast TyD 0%Q) ;;
  x_Ones <- mdense0 TyD d_Ones_4x4 0%Q ;;
  x_C <- mnew 4 4 ;;
  x_answer <- mdense0 TyD [[3; 1; 1; 1]; [4; 10; 1; 1]; [3; 11; 23; 1]; [1; 7; 22; 26]]%Q 0%Q ;;
  x_C_1 <- lil_assign x_C x_Ones ;;
  x_C_2 <- t_mxm TyD (acc TyD qplus) (mkSr qplus qtimes TyD) (MStruct x_Lower_1) MERGE x_C_1 (Mat
    x_mat) (Mat x_mat) ;;
  x_q <- meq x_C_2 x_answer ;;
  _ <- check x_q ;;
  x_answer2 <- mdense0 TyD [[3; 0; 0; 0]; [4; 10; 0; 0]; [3; 11; 23; 0]; [1; 7; 22; 26]]%Q 0%Q ;;
  x_C_3 <- lil_assign x_C_2 x_Ones ;;
  x_C_4 <- t_mxm TyD (acc TyD qplus) (mkSr qplus qtimes TyD) (MStruct x_Lower_1) REPLACE x_C_3 (Mat
    x_mat) (Mat x_mat) ;;
  x_q_1 <- meq x_C_4 x_answer2 ;;
  _ <- check x_q_1 ;;
  Ok tt) = Ok tt.
Proof. vm_compute. reflexivity. Qed.

(** test_mxm_AB.cpp:3727-3770, optimized_sequential platform *)
Example test_mxm_StructMask_Accum_AB_ABdup_opt :
 (x_mat <- mdense0 TyD [[1; 1; 0; 0]; [1; 2; 2; 0]; [0; 2; 3; 3]; [0; 0; 3; 4]]%Q 0%Q ;;
  x_Lower <- mdense0 TyD d_Lower_4x4 0%Q ;;
  x_Lower_1 <- lil_setElement x_Lower 0 0 (cast TyD 0%Q) ;;
  x_Ones <- mdense0 TyD d_Ones_4x4 0%Q ;;
  x_C <- mnew 4 4 ;;
  x_answer <- mdense0 TyD [[3; 1; 1; 1]; [4; 10; 1; 1]; [3; 11; 23; 1]; [1; 7; 22; 26]]%Q 0%Q ;;
  x_C_1 <- lil_assign x_C x_Ones ;;
  x_C_2 <- t_opt_mxm TyD (acc TyD qplus) TyD (mkSr qplus qtimes TyD) (MStruct (Other x_Lower_1))
    MERGE x_C_1 (OMat (Other x_mat)) (OMat (Other x_mat)) ;;
  x_q <- meq x_C_2 x_answer ;;
  _ <- check x_q ;;
  x_answer2 <- mdense0 TyD [[3; 0; 0; 0]; [4; 10; 0; 0]; [3; 11; 23; 0]; [1; 7; 22; 26]]%Q 0%Q ;;
  x_C_3 <- lil_assign x_C_2 x_Ones ;;
  x_C_4 <- t_opt_mxm TyD (acc TyD qplus) TyD (mkSr qplus qtimes TyD) (MStruct (Other x_Lower_1))
    REPLACE x_C_3 (OMat (Other x_mat)) (OMat (Other x_mat)) ;;
  x_q_1 <- meq x_C_4 x_answer2 ;;
  _ <- check x_q_1 ;;
  Ok tt) = Ok tt.
Proof. vm_compute. reflexivity. Qed.

(** test_mxm_AB.cpp:3773-3817 *)
Example test_mxm_StructMask_Accum_AB_ACdup :
 (x_mat <- mdense0 TyD [[1; 1; 0; 0]; [1; 2; 2; 0]; [0; 2; 3; 3]; [0; 0; 3; 4]]%Q 0%Q ;;
  x_Lower <- mdense0 TyD d_Lower_4x4 0%Q ;;
  x_Lower_1 <- lil_setElement x_Lower 0 0 (cast TyD 0%Q) ;;
  x_Ones <- mdense0 TyD d_Ones_4x4 0%Q ;;
  x_C <- mnew 4 4 ;;
  x_answer <- mdense0 TyD [[3; 1; 0; 0]; [4; 11; 2; 0]; [2; 12; 25; 3]; [0; 6; 24; 29]]%Q 0%Q ;;
  x_C_1 <- lil_assign x_C x_mat ;;
  x_C_2 <- t_mxm TyD (acc TyD qplus) (mkSr qplus qtimes TyD) (MStruct x_Lower_1) MERGE x_C_1 (Mat
    x_C_1) (Mat x_mat) ;;
  x_q <- meq x_C_2 x_answer ;;
  _ <- check x_q ;;
  x_answer2 <- mdense0 TyD [[3; 0; 0; 0]; [4; 11; 0; 0]; [2; 12; 25; 0]; [0; 6; 24; 29]]%Q 0%Q ;;
  x_C_3 <- lil_assign x_C_2 x_mat ;;
  x_C_4 <- t_mxm TyD (acc TyD qplus) (mkSr qplus qtimes TyD) (MStruct x_Lower_1) REPLACE x_C_3 (Mat
    x_C_3) (Mat x_mat) ;;
  x_q_1 <- meq x_C_4 x_answer2 ;;
  _ <- check x_q_1 ;;
  Ok tt) = Ok tt.
Proof. vm_compute. reflexivity. Qed.

(** test_mxm_AB.cpp:3773-3817, optimized_sequential platform *)
Example test_mxm_StructMask_Accum_AB_ACdup_opt :
 (x_mat <- mdense0 TyD [[1; 1; 0; 0]; [1; 2; 2; 0]; [0; 2; 3; 3]; [0; 0; 3; 4]]%Q 0%Q ;;
  x_Lower <- mdense0 TyD d_Lower_4x4 0%Q ;;
  x_Lower_1 <- lil_setElement x_Lower 0 0 (cast TyD 0%Q) ;;
  x_Ones <- mdense0 TyD d_Ones_4x4 0%Q ;;
  x_C <- mnew 4 4 ;;
  x_answer <- mdense0 TyD [[3; 1; 0; 0]; [4; 11; 2; 0]; [2; 12; 25; 3]; [0; 6; 24; 29]]%Q 0%Q ;;
  x_C_1 <- lil_assign x_C x_mat ;;
  x_C_2 <- t_opt_mxm TyD (acc TyD qplus) TyD (mkSr qplus qtimes TyD) (MStruct (Other x_Lower_1))
    MERGE x_C_1 (OMat (TheOutput (fun x => x))) (OMat (Other x_mat)) ;;
  x_q <- meq x_C_2 x_answer ;;
  _ <- check x_q ;;
  x_answer2 <- mdense0 TyD [[3; 0; 0; 0]; [4; 11; 0; 0]; [2; 12; 25; 0]; [0; 6; 24; 29]]%Q 0%Q ;;
  x_C_3 <- lil_assign x_C_2 x_mat ;;
  x_C_4 <- t_opt_mxm TyD (acc TyD qplus) TyD (mkSr qplus qtimes TyD) (MStruct (Other x_Lower_1))
    REPLACE x_C_3 (OMat (TheOutput (fun x => x))) (OMat (Other x_mat)) ;;
  x_q_1 <- meq x_C_4 x_answer2 ;;
  _ <- check x_q_1 ;;
  Ok tt) = Ok tt.
Proof. vm_compute. reflexivity. Qed.

(** test_mxm_AB.cpp:3820-3872 *)
Example test_mxm_StructMask_Accum_AB_BCdup :
 (x_mat <- mdense0 TyD [[1; 1; 0; 0]; [1; 2; 2; 0]; [0; 2; 3; 3]; [0; 0; 3; 4]]%Q 0%Q ;;
  x_Lower <- mdense0 TyD d_Lower_4x4 0%Q ;;
  x_Lower_1 <- lil_setElement x_Lower 0 0 (cast TyD 0%Q) ;;
  x_Ones <- mdense0 TyD d_Ones_4x4 0%Q ;;
  x_C <- mnew 4 4 ;;
  x_answer <- mdense0 TyD [[3; 1; 0; 0]; [4; 11; 2; 0]; [2; 12; 25; 3]; [0; 6; 24; 29]]%Q 0%Q ;;
  x_C_1 <- lil_assign x_C x_mat ;;
  x_C_2 <- t_mxm TyD (acc TyD qplus) (mkSr qplus qtimes TyD) (MStruct x_Lower_1) MERGE x_C_1 (Mat
    x_mat) (Mat x_C_1) ;;
  x_q <- meq x_C_2 x_answer ;;
  _ <- check x_q ;;
  x_C_3 <- lil_assign x_C_2 x_mat ;;
  x_C_4 <- t_mxm TyD (acc TyD qplus) (mkSr qplus qtimes TyD) (MStruct x_Lower_1) MERGE x_C_3 (Mat
    x_mat) (Mat x_mat) ;;
  x_q_1 <- meq x_C_4 x_answer ;;
  _ <- check x_q_1 ;;
  x_answer2 <- mdense0 TyD [[3; 0; 0; 0]; [4; 11; 0; 0]; [2; 12; 25; 0]; [0; 6; 24; 29]]%Q 0%Q ;;
  x_C_5 <- lil_assign x_C_4 x_mat ;;
  x_C_6 <- t_mxm TyD (acc TyD qplus) (mkSr qplus qtimes TyD) (MStruct x_Lower_1) REPLACE x_C_5 (Mat
    x_mat) (Mat x_C_5) ;;
  x_q_2 <- meq x_C_6 x_answer2 ;;
  _ <- check x_q_2 ;;
  Ok tt) = Ok tt.
Proof. vm_compute. reflexivity. Qed.

(** test_mxm_AB.cpp:3820-3872, optimized_sequential platform *)
Example test_mxm_StructMask_Accum_AB_BCdup_opt :
 (x_mat <- mdense0 TyD [[1; 1; 0; 0]; [1; 2; 2; 0]; [0; 2; 3; 3]; [0; 0; 3; 4]]%Q 0%Q ;;
  x_Lower <- mdense0 TyD d_Lower_4x4 0%Q ;;
  x_Lower_1 <- lil_setElement x_Lower 0 0 (cast TyD 0%Q) ;;
  x_Ones <- mdense0 TyD d_Ones_4x4 0%Q ;;
  x_C <- mnew 4 4 ;;
  x_answer <- mdense0 TyD [[3; 1; 0; 0]; [4; 11; 2; 0]; [2; 12; 25; 3]; [0; 6; 24; 29]]%Q 0%Q ;;
  x_C_1 <- lil_assign x_C x_mat ;;
  x_C_2 <- t_opt_mxm TyD (acc TyD qplus) TyD (mkSr qplus qtimes TyD) (MStruct (Other x_Lower_1))
    MERGE x_C_1 (OMat (Other x_mat)) (OMat (TheOutput (fun x => x))) ;;
  x_q <- meq x_C_2 x_answer ;;
  _ <- check x_q ;;
  x_C_3 <- lil_assign x_C_2 x_mat ;;
  x_C_4 <- t_opt_mxm TyD (acc TyD qplus) TyD (mkSr qplus qtimes TyD) (MStruct (Other x_Lower_1))
    MERGE x_C_3 (OMat (Other x_mat)) (OMat (Other x_mat)) ;;
  x_q_1 <- meq x_C_4 x_answer ;;
  _ <- check x_q_1 ;;
  x_answer2 <- mdense0 TyD [[3; 0; 0; 0]; [4; 11; 0; 0]; [2; 12; 25; 0]; [0; 6; 24; 29]]%Q 0%Q ;;
  x_C_5 <- lil_assign x_C_4 x_mat ;;
  x_C_6 <- t_opt_mxm TyD (acc TyD qplus) TyD (mkSr qplus qtimes TyD) (MStruct (Other x_Lower_1))
    REPLACE x_C_5 (OMat (Other x_mat)) (OMat (TheOutput (fun x => x))) ;;
  x_q_2 <- meq x_C_6 x_answer2 ;;
  _ <- check x_q_2 ;;
  Ok tt) = Ok tt.
Proof. vm_compute. reflexivity. Qed.

(** test_mxm_AB.cpp:3875-3918 *)
Example test_mxm_StructMask_Accum_AB_MCdup :
 (x_mat <- mdense0 TyD [[1; 1; 0; 0]; [1; 2; 2; 0]; [0; 2; 3; 3]; [0; 0; 3; 4]]%Q 0%Q ;;
  x_Lower <- mdense0 TyD d_Lower_4x4 0%Q ;;
  x_C <- mnew 4 4 ;;
  x_answer <- mdense0 TyD [[3; 0; 0; 0]; [4; 10; 0; 0]; [2; 11; 23; 0]; [1; 7; 22; 26]]%Q 0%Q ;;
  x_C_1 <- lil_assign x_C x_Lower ;;
  x_C_2 <- lil_setElement x_C_1 2 0 (cast TyD 0%Q) ;;
  x_C_3 <- t_mxm TyD (acc TyD qplus) (mkSr qplus qtimes TyD) (MStruct x_C_2) MERGE x_C_2 (Mat x_mat)
    (Mat x_mat) ;;
  x_q <- meq x_C_3 x_answer ;;
  _ <- check x_q ;;
  x_answer2 <- mdense0 TyD [[3; 0; 0; 0]; [4; 10; 0; 0]; [2; 11; 23; 0]; [1; 7; 22; 26]]%Q 0%Q ;;
  x_C_4 <- lil_assign x_C_3 x_Lower ;;
  x_C_5 <- lil_setElement x_C_4 2 0 (cast TyD 0%Q) ;;
  x_C_6 <- t_mxm TyD (acc TyD qplus) (mkSr qplus qtimes TyD) (MStruct x_C_5) REPLACE x_C_5 (Mat
    x_mat) (Mat x_mat) ;;
  x_q_1 <- meq x_C_6 x_answer2 ;;
  _ <- check x_q_1 ;;
  Ok tt) = Ok tt.
Proof. vm_compute. reflexivity. Qed.

(** test_mxm_AB.cpp:3875-3918, optimized_sequential platform *)
Example test_mxm_StructMask_Accum_AB_MCdup_opt :
 (x_mat <- mdense0 TyD [[1; 1; 0; 0]; [1; 2; 2; 0]; [0; 2; 3; 3]; [0; 0; 3; 4]]%Q 0%Q ;;
  x_Lower <- mdense0 TyD d_Lower_4x4 0%Q ;;
  x_C <- mnew 4 4 ;;
  x_answer <- mdense0 TyD [[3; 0; 0; 0]; [4; 10; 0; 0]; [2; 11; 23; 0]; [1; 7; 22; 26]]%Q 0%Q ;;
  x_C_1 <- lil_assign x_C x_Lower ;;
  x_C_2 <- lil_setElement x_C_1 2 0 (cast TyD 0%Q) ;;
  x_C_3 <- t_opt_mxm TyD (acc TyD qplus) TyD (mkSr qplus qtimes TyD) (MStruct (TheOutput (fun x =>
    x))) MERGE x_C_2 (OMat (Other x_mat)) (OMat (Other x_mat)) ;;
  x_q <- meq x_C_3 x_answer ;;
  _ <- check x_q ;;
  x_answer2 <- mdense0 TyD [[3; 0; 0; 0]; [4; 10; 0; 0]; [2; 11; 23; 0]; [1; 7; 22; 26]]%Q 0%Q ;;
  x_C_4 <- lil_assign x_C_3 x_Lower ;;
  x_C_5 <- lil_setElement x_C_4 2 0 (cast TyD 0%Q) ;;
  x_C_6 <- t_opt_mxm TyD (acc TyD qplus) TyD (mkSr qplus qtimes TyD) (MStruct (TheOutput (fun x =>
    x))) REPLACE x_C_5 (OMat (Other x_mat)) (OMat (Other x_mat)) ;;
  x_q_1 <- meq x_C_6 x_answer2 ;;
  _ <- check x_q_1 ;;
  Ok tt) = Ok tt.
Proof. vm_compute. reflexivity. Qed.

(** test_mxm_AB.cpp:3921-3944 *)
Example test_mxm_StructMask_Accum_AB_Replace_lower_mask_result_ones :
 (x_A <- mdense0 TyD d_A_dense_3x3 0%Q ;;
  x_B <- mdense0 TyD d_B_dense_3x4 0%Q ;;
  x_M <- mdense0 TyD d_LowerMask_3x4 0%Q ;;
  x_M_1 <- lil_setElement x_M 2 0 (cast TyD 0%Q) ;;
  _ <- check (Qeq_bool (inject_Z (nvals x_M_1)) 6%Q) ;;
  x_result <- mdense0 TyD d_Ones_3x4 0%Q ;;
  x_answer <- mdense0 TyD [[114; 0; 0; 0]; [74; 97; 0; 0]; [119; 157; 112; 0]]%Q 0%Q ;;
  x_result_1 <- t_mxm TyD (acc TyD qsecond) (mkSr qplus qtimes TyD) (MStruct x_M_1) REPLACE x_result
    (Mat x_A) (Mat x_B) ;;
  _ <- check (Qeq_bool (inject_Z (nvals x_result_1)) 6%Q) ;;
  x_q <- meq x_result_1 x_answer ;;
  _ <- check x_q ;;
  Ok tt) = Ok tt.
Proof. vm_compute. reflexivity. Qed.

(** test_mxm_AB.cpp:3921-3944, optimized_sequential platform *)
Example test_mxm_StructMask_Accum_AB_Replace_lower_mask_result_ones_opt :
 (x_A <- mdense0 TyD d_A_dense_3x3 0%Q ;;
  x_B <- mdense0 TyD d_B_dense_3x4 0%Q ;;
  x_M <- mdense0 TyD d_LowerMask_3x4 0%Q ;;
  x_M_1 <- lil_setElement x_M 2 0 (cast TyD 0%Q) ;;
  _ <- check (Qeq_bool (inject_Z (nvals x_M_1)) 6%Q) ;;
  x_result <- mdense0 TyD d_Ones_3x4 0%Q ;;
  x_answer <- mdense0 TyD [[114; 0; 0; 0]; [74; 97; 0; 0]; [119; 157; 112; 0]]%Q 0%Q ;;
  x_result_1 <- t_opt_mxm TyD (acc TyD qsecond) TyD (mkSr qplus qtimes TyD) (MStruct (Other x_M_1))
    REPLACE x_result (OMat (Other x_A)) (OMat (Other x_B)) ;;
  _ <- check (Qeq_bool (inject_Z (nvals x_result_1)) 6%Q) ;;
  x_q <- meq x_result_1 x_answer ;;
  _ <- check x_q ;;
  Ok tt) = Ok tt.
Proof. vm_compute. reflexivity. Qed.

(** test_mxm_AB.cpp:3947-3970 *)
Example test_mxm_StructMask_Accum_AB_Replace_bool_masked_result_ones :
 (x_A <- mdense0 TyD d_A_dense_3x3 0%Q ;;
  x_B <- mdense0 TyD d_B_dense_3x4 0%Q ;;
  x_M <- mdense0 TyB d_LowerBool_3x4 0%Q ;;
  x_M_1 <- lil_setElement x_M 2 0 (cast TyB 0%Q) ;;
  _ <- check (Qeq_bool (inject_Z (nvals x_M_1)) 6%Q) ;;
  x_result <- mdense0 TyD d_Ones_3x4 0%Q ;;
  x_answer <- mdense0 TyD [[114; 0; 0; 0]; [74; 97; 0; 0]; [119; 157; 112; 0]]%Q 0%Q ;;
  x_result_1 <- t_mxm TyD (acc TyD qsecond) (mkSr qplus qtimes TyD) (MStruct x_M_1) REPLACE x_result
    (Mat x_A) (Mat x_B) ;;
  _ <- check (Qeq_bool (inject_Z (nvals x_result_1)) 6%Q) ;;
  x_q <- meq x_result_1 x_answer ;;
  _ <- check x_q ;;
  Ok tt) = Ok tt.
Proof. vm_compute. reflexivity. Qed.

(** test_mxm_AB.cpp:3947-3970, optimized_sequential platform *)
Example test_mxm_StructMask_Accum_AB_Replace_bool_masked_result_ones_opt :
 (x_A <- mdense0 TyD d_A_dense_3x3 0%Q ;;
  x_B <- mdense0 TyD d_B_dense_3x4 0%Q ;;
  x_M <- mdense0 TyB d_LowerBool_3x4 0%Q ;;
  x_M_1 <- lil_setElement x_M 2 0 (cast TyB 0%Q) ;;
  _ <- check (Qeq_bool (inject_Z (nvals x_M_1)) 6%Q) ;;
  x_result <- mdense0 TyD d_Ones_3x4 0%Q ;;
  x_answer <- mdense0 TyD [[114; 0; 0; 0]; [74; 97; 0; 0]; [119; 157; 112; 0]]%Q 0%Q ;;
  x_result_1 <- t_opt_mxm TyD (acc TyD qsecond) TyD (mkSr qplus qtimes TyD) (MStruct (Other x_M_1))
    REPLACE x_result (OMat (Other x_A)) (OMat (Other x_B)) ;;
  _ <- check (Qeq_bool (inject_Z (nvals x_result_1)) 6%Q) ;;
  x_q <- meq x_result_1 x_answer ;;
  _ <- check x_q ;;
  Ok tt) = Ok tt.
Proof. vm_compute. reflexivity. Qed.

(** test_mxm_AB.cpp:3973-3998 *)
Example test_mxm_StructMask_Accum_AB_Merge_Cones_Mlower :
 (x_A <- mdense0 TyD d_A_dense_3x3 0%Q ;;
  x_B <- mdense0 TyD d_B_dense_3x4 0%Q ;;
  x_M <- mdense0 TyD [[1; 0; 0; 0]; [1; 1; 0; 0]; [1; 1; 1; 0]]%Q 0%Q ;;
  x_M_1 <- lil_setElement x_M 2 0 (cast TyD 0%Q) ;;
  _ <- check (Qeq_bool (inject_Z (nvals x_M_1)) 6%Q) ;;
  x_result <- mdense0 TyD d_Ones_3x4 0%Q ;;
  x_answer <- mdense0 TyD [[114; 1; 1; 1]; [74; 97; 1; 1]; [119; 157; 112; 1]]%Q 0%Q ;;
  x_result_1 <- t_mxm TyD (acc TyD qsecond) (mkSr qplus qtimes TyD) (MStruct x_M_1) MERGE x_result
    (Mat x_A) (Mat x_B) ;;
  _ <- check (Qeq_bool (inject_Z (nvals x_result_1)) 12%Q) ;;
  x_q <- meq x_result_1 x_answer ;;
  _ <- check x_q ;;
  Ok tt) = Ok tt.
Proof. vm_compute. reflexivity. Qed.

(** test_mxm_AB.cpp:3973-3998, optimized_sequential platform *)
Example test_mxm_StructMask_Accum_AB_Merge_Cones_Mlower_opt :
 (x_A <- mdense0 TyD d_A_dense_3x3 0%Q ;;
  x_B <- mdense0 TyD d_B_dense_3x4 0%Q ;;
  x_M <- mdense0 TyD [[1; 0; 0; 0]; [1; 1; 0; 0]; [1; 1; 1; 0]]%Q 0%Q ;;
  x_M_1 <- lil_setElement x_M 2 0 (cast TyD 0%Q) ;;
  _ <- check (Qeq_bool (inject_Z (nvals x_M_1)) 6%Q) ;;
  x_result <- mdense0 TyD d_Ones_3x4 0%Q ;;
  x_answer <- mdense0 TyD [[114; 1; 1; 1]; [74; 97; 1; 1]; [119; 157; 112; 1]]%Q 0%Q ;;
  x_result_1 <- t_opt_mxm TyD (acc TyD qsecond) TyD (mkSr qplus qtimes TyD) (MStruct (Other x_M_1))
    MERGE x_result (OMat (Other x_A)) (OMat (Other x_B)) ;;
  _ <- check (Qeq_bool (inject_Z (nvals x_result_1)) 12%Q) ;;
  x_q <- meq x_result_1 x_answer ;;
  _ <- check x_q ;;
  Ok tt) = Ok tt.
Proof. vm_compute. reflexivity. Qed.

(** test_mxm_AB.cpp:4005-4100 *)
Example test_mxm_CompStructMask_NoAccum_AB :
 (x_A <- mdense0 TyD d_A_sparse_3x3 0%Q ;;
  x_Identity <- mdense0 TyD d_Identity_3x3 0%Q ;;
  x_Empty <- mnew 3 3 ;;
  x_Ones <- mdense0 TyD d_Ones_3x3 0%Q ;;
  x_C <- mnew 3 3 ;;
  x_MLower <- mdense0 TyD d_Lower_3x3 0%Q ;;
  x_MLower_1 <- lil_setElement x_MLower 2 0 (cast TyD 0%Q) ;;
  x_MNotLower <- mdense0 TyD d_NotLower_3x3 0%Q ;;
  x_MNotLower_1 <- lil_setElement x_MNotLower 0 2 (cast TyD 0%Q) ;;
  x_NotA <- mdense0 TyD [[0; 0; 1]; [1; 0; 1]; [0; 1; 0]]%Q 0%Q ;;
  x_NotA_1 <- lil_setElement x_NotA 1 0 (cast TyD 0%Q) ;;
  x_AFilled <- mdense0 TyD [[12; 7; 1]; [1; (-5); 1]; [7; 1; 9]]%Q 0%Q ;;
  x_C_1 <- lil_assign x_C x_Ones ;;
  x_Ones_1 <- lil_setElement x_Ones 0 0 (cast TyD 0%Q) ;;
  x_C_2 <- t_mxm TyD noacc (mkSr qplus qtimes TyD) (MSComp x_Ones_1) MERGE x_C_1 (Mat x_A) (Mat
    x_Identity) ;;
  x_Ones_2 <- lil_setElement x_Ones_1 0 0 (cast TyD 1%Q) ;;
  x_q <- meq x_C_2 x_Ones_2 ;;
  _ <- check x_q ;;
  x_C_3 <- lil_assign x_C_2 x_Ones_2 ;;
  x_C_4 <- t_mxm TyD noacc (mkSr qplus qtimes TyD) (MSComp x_Empty) MERGE x_C_3 (Mat x_A) (Mat
    x_Identity) ;;
  x_q_1 <- meq x_C_4 x_A ;;
  _ <- check x_q_1 ;;
  x_C_5 <- lil_assign x_C_4 x_Ones_2 ;;
  x_C_6 <- t_mxm TyD noacc (mkSr qplus qtimes TyD) (MSComp x_NotA_1) MERGE x_C_5 (Mat x_A) (Mat
    x_Identity) ;;
  x_q_2 <- meq x_C_6 x_AFilled ;;
  _ <- check x_q_2 ;;
  x_C_7 <- lil_assign x_C_6 x_Ones_2 ;;
  x_C_8 <- t_mxm TyD noacc (mkSr qplus qtimes TyD) (MSComp x_MNotLower_1) MERGE x_C_7 (Mat x_Ones_2)
    (Mat x_Identity) ;;
  x_q_3 <- meq x_C_8 x_Ones_2 ;;
  _ <- check x_q_3 ;;
  x_C_9 <- lil_assign x_C_8 x_Ones_2 ;;
  x_C_10 <- t_mxm TyD noacc (mkSr qplus qtimes TyD) (MSComp x_MLower_1) MERGE x_C_9 (Mat x_Ones_2)
    (Mat x_Identity) ;;
  x_q_4 <- meq x_C_10 x_Ones_2 ;;
  _ <- check x_q_4 ;;
  x_C_11 <- lil_assign x_C_10 x_Ones_2 ;;
  x_Ones_3 <- lil_setElement x_Ones_2 0 0 (cast TyD 0%Q) ;;
  x_C_12 <- t_mxm TyD noacc (mkSr qplus qtimes TyD) (MSComp x_Ones_3) REPLACE x_C_11 (Mat x_A) (Mat
    x_Identity) ;;
  x_q_5 <- meq x_C_12 x_Empty ;;
  _ <- check x_q_5 ;;
  x_Ones_4 <- lil_setElement x_Ones_3 0 0 (cast TyD 1%Q) ;;
  x_C_13 <- lil_assign x_C_12 x_Ones_4 ;;
  x_C_14 <- t_mxm TyD noacc (mkSr qplus qtimes TyD) (MSComp x_Empty) REPLACE x_C_13 (Mat x_A) (Mat
    x_Identity) ;;
  x_q_6 <- meq x_C_14 x_A ;;
  _ <- check x_q_6 ;;
  x_C_15 <- lil_assign x_C_14 x_Ones_4 ;;
  x_C_16 <- t_mxm TyD noacc (mkSr qplus qtimes TyD) (MSComp x_MNotLower_1) REPLACE x_C_15 (Mat
    x_Ones_4) (Mat x_Identity) ;;
  x_MLower_2 <- lil_setElement x_MLower_1 2 0 (cast TyD 1%Q) ;;
  x_q_7 <- meq x_C_16 x_MLower_2 ;;
  _ <- check x_q_7 ;;
  x_C_17 <- lil_assign x_C_16 x_Ones_4 ;;
  x_MLower_3 <- lil_setElement x_MLower_2 2 0 (cast TyD 0%Q) ;;
  x_C_18 <- t_mxm TyD noacc (mkSr qplus qtimes TyD) (MSComp x_MLower_3) REPLACE x_C_17 (Mat
    x_Ones_4) (Mat x_Identity) ;;
  x_MNotLower_2 <- lil_setElement x_MNotLower_1 0 2 (cast TyD 1%Q) ;;
  x_q_8 <- meq x_C_18 x_MNotLower_2 ;;
  _ <- check x_q_8 ;;
  Ok tt) = Ok tt.
Proof. vm_compute. reflexivity. Qed.

(** test_mxm_AB.cpp:4005-4100, optimized_sequential platform *)
Example test_mxm_CompStructMask_NoAccum_AB_opt :
 (x_A <- mdense0 TyD d_A_sparse_3x3 0%Q ;;
  x_Identity <- mdense0 TyD d_Identity_3x3 0%Q ;;
  x_Empty <- mnew 3 3 ;;
  x_Ones <- mdense0 TyD d_Ones_3x3 0%Q ;;
  x_C <- mnew 3 3 ;;
  x_MLower <- mdense0 TyD d_Lower_3x3 0%Q ;;
  x_MLower_1 <- lil_setElement x_MLower 2 0 (cast TyD 0%Q) ;;
  x_MNotLower <- mdense0 TyD d_NotLower_3x3 0%Q ;;
  x_MNotLower_1 <- lil_setElement x_MNotLower 0 2 (cast TyD 0%Q) ;;
  x_NotA <- mdense0 TyD [[0; 0; 1]; [1; 0; 1]; [0; 1; 0]]%Q 0%Q ;;
  x_NotA_1 <- lil_setElement x_NotA 1 0 (cast TyD 0%Q) ;;
  x_AFilled <- mdense0 TyD [[12; 7; 1]; [1; (-5); 1]; [7; 1; 9]]%Q 0%Q ;;
  x_C_1 <- lil_assign x_C x_Ones ;;
  x_Ones_1 <- lil_setElement x_Ones 0 0 (cast TyD 0%Q) ;;
  x_C_2 <- t_opt_mxm TyD noacc TyD (mkSr qplus qtimes TyD) (MSComp (Other x_Ones_1)) MERGE x_C_1
    (OMat (Other x_A)) (OMat (Other x_Identity)) ;;
  x_Ones_2 <- lil_setElement x_Ones_1 0 0 (cast TyD 1%Q) ;;
  x_q <- meq x_C_2 x_Ones_2 ;;
  _ <- check x_q ;;
  x_C_3 <- lil_assign x_C_2 x_Ones_2 ;;
  x_C_4 <- t_opt_mxm TyD noacc TyD (mkSr qplus qtimes TyD) (MSComp (Other x_Empty)) MERGE x_C_3
    (OMat (Other x_A)) (OMat (Other x_Identity)) ;;
  x_q_1 <- meq x_C_4 x_A ;;
  _ <- check x_q_1 ;;
  x_C_5 <- lil_assign x_C_4 x_Ones_2 ;;
  x_C_6 <- t_opt_mxm TyD noacc TyD (mkSr qplus qtimes TyD) (MSComp (Other x_NotA_1)) MERGE x_C_5
    (OMat (Other x_A)) (OMat (Other x_Identity)) ;;
  x_q_2 <- meq x_C_6 x_AFilled ;;
  _ <- check x_q_2 ;;
  x_C_7 <- lil_assign x_C_6 x_Ones_2 ;;
  x_C_8 <- t_opt_mxm TyD noacc TyD (mkSr qplus qtimes TyD) (MSComp (Other x_MNotLower_1)) MERGE
    x_C_7 (OMat (Other x_Ones_2)) (OMat (Other x_Identity)) ;;
  x_q_3 <- meq x_C_8 x_Ones_2 ;;
  _ <- check x_q_3 ;;
  x_C_9 <- lil_assign x_C_8 x_Ones_2 ;;
  x_C_10 <- t_opt_mxm TyD noacc TyD (mkSr qplus qtimes TyD) (MSComp (Other x_MLower_1)) MERGE x_C_9
    (OMat (Other x_Ones_2)) (OMat (Other x_Identity)) ;;
  x_q_4 <- meq x_C_10 x_Ones_2 ;;
  _ <- check x_q_4 ;;
  x_C_11 <- lil_assign x_C_10 x_Ones_2 ;;
  x_Ones_3 <- lil_setElement x_Ones_2 0 0 (cast TyD 0%Q) ;;
  x_C_12 <- t_opt_mxm TyD noacc TyD (mkSr qplus qtimes TyD) (MSComp (Other x_Ones_3)) REPLACE x_C_11
    (OMat (Other x_A)) (OMat (Other x_Identity)) ;;
  x_q_5 <- meq x_C_12 x_Empty ;;
  _ <- check x_q_5 ;;
  x_Ones_4 <- lil_setElement x_Ones_3 0 0 (cast TyD 1%Q) ;;
  x_C_13 <- lil_assign x_C_12 x_Ones_4 ;;
  x_C_14 <- t_opt_mxm TyD noacc TyD (mkSr qplus qtimes TyD) (MSComp (Other x_Empty)) REPLACE x_C_13
    (OMat (Other x_A)) (OMat (Other x_Identity)) ;;
  x_q_6 <- meq x_C_14 x_A ;;
  _ <- check x_q_6 ;;
  x_C_15 <- lil_assign x_C_14 x_Ones_4 ;;
  x_C_16 <- t_opt_mxm TyD noacc TyD (mkSr qplus qtimes TyD) (MSComp (Other x_MNotLower_1)) REPLACE
    x_C_15 (OMat (Other x_Ones_4)) (OMat (Other x_Identity)) ;;
  x_MLower_2 <- lil_setElement x_MLower_1 2 0 (cast TyD 1%Q) ;;
  x_q_7 <- meq x_C_16 x_MLower_2 ;;
  _ <- check x_q_7 ;;
  x_C_17 <- lil_assign x_C_16 x_Ones_4 ;;
  x_MLower_3 <- lil_setElement x_MLower_2 2 0 (cast TyD 0%Q) ;;
  x_C_18 <- t_opt_mxm TyD noacc TyD (mkSr qplus qtimes TyD) (MSComp (Other x_MLower_3)) REPLACE
    x_C_17 (OMat (Other x_Ones_4)) (OMat (Other x_Identity)) ;;
  x_MNotLower_2 <- lil_setElement x_MNotLower_1 0 2 (cast TyD 1%Q) ;;
  x_q_8 <- meq x_C_18 x_MNotLower_2 ;;
  _ <- check x_q_8 ;;
  Ok tt) = Ok tt.
Proof. vm_compute. reflexivity. Qed.

(** test_mxm_AB.cpp:4103-4168 *)
Example test_mxm_CompStructMask_NoAccum_AB_empty :
 (x_Empty <- mnew 3 3 ;;
  x_Ones <- mdense0 TyD d_Ones_3x3 0%Q ;;
  x_Identity <- mdense0 TyD d_Identity_3x3 0%Q ;;
  x_C <- mnew 3 3 ;;
  x_M <- mdense0 TyB d_LowerBool_3x3 0%Q ;;
  x_M_1 <- lil_setElement x_M 2 0 (cast TyB 0%Q) ;;
  x_mUpper <- mdense0 TyD d_NotLower_3x3 0%Q ;;
  x_mUpper_1 <- lil_setElement x_mUpper 0 2 (cast TyD 0%Q) ;;
  x_C_1 <- lil_assign x_C x_Ones ;;
  x_C_2 <- t_mxm TyD noacc (mkSr qplus qtimes TyD) (MSComp x_mUpper_1) MERGE x_C_1 (Mat x_Empty)
    (Mat x_Ones) ;;
  x_mUpper_2 <- lil_setElement x_mUpper_1 0 2 (cast TyD 1%Q) ;;
  x_q <- meq x_C_2 x_mUpper_2 ;;
  _ <- check x_q ;;
  x_C_3 <- lil_assign x_C_2 x_Ones ;;
  x_mUpper_3 <- lil_setElement x_mUpper_2 0 2 (cast TyD 0%Q) ;;
  x_C_4 <- t_mxm TyD noacc (mkSr qplus qtimes TyD) (MSComp x_mUpper_3) MERGE x_C_3 (Mat x_Ones) (Mat
    x_Empty) ;;
  x_mUpper_4 <- lil_setElement x_mUpper_3 0 2 (cast TyD 1%Q) ;;
  x_q_1 <- meq x_C_4 x_mUpper_4 ;;
  _ <- check x_q_1 ;;
  x_C_5 <- lil_assign x_C_4 x_Ones ;;
  x_C_6 <- t_mxm TyD noacc (mkSr qplus qtimes TyD) (MSComp x_Ones) MERGE x_C_5 (Mat x_Ones) (Mat
    x_Empty) ;;
  x_q_2 <- meq x_C_6 x_Ones ;;
  _ <- check x_q_2 ;;
  x_C_7 <- lil_assign x_C_6 x_Empty ;;
  x_C_8 <- t_mxm TyD noacc (mkSr qplus qtimes TyD) (MSComp x_Empty) MERGE x_C_7 (Mat x_Ones) (Mat
    x_Identity) ;;
  x_q_3 <- meq x_C_8 x_Ones ;;
  _ <- check x_q_3 ;;
  x_C_9 <- lil_assign x_C_8 x_Ones ;;
  x_C_10 <- t_mxm TyD noacc (mkSr qplus qtimes TyD) (MSComp x_mUpper_4) REPLACE x_C_9 (Mat x_Empty)
    (Mat x_Ones) ;;
  x_q_4 <- meq x_C_10 x_Empty ;;
  _ <- check x_q_4 ;;
  x_C_11 <- lil_assign x_C_10 x_Ones ;;
  x_C_12 <- t_mxm TyD noacc (mkSr qplus qtimes TyD) (MSComp x_mUpper_4) REPLACE x_C_11 (Mat x_Ones)
    (Mat x_Empty) ;;
  x_q_5 <- meq x_C_12 x_Empty ;;
  _ <- check x_q_5 ;;
  x_C_13 <- lil_assign x_C_12 x_Ones ;;
  x_C_14 <- t_mxm TyD noacc (mkSr qplus qtimes TyD) (MSComp x_Ones) REPLACE x_C_13 (Mat x_Ones) (Mat
    x_Empty) ;;
  x_q_6 <- meq x_C_14 x_Empty ;;
  _ <- check x_q_6 ;;
  x_C_15 <- lil_assign x_C_14 x_Empty ;;
  x_C_16 <- t_mxm TyD noacc (mkSr qplus qtimes TyD) (MSComp x_Empty) REPLACE x_C_15 (Mat x_Ones)
    (Mat x_Identity) ;;
  x_q_7 <- meq x_C_16 x_Ones ;;
  _ <- check x_q_7 ;;
  Ok tt) = Ok tt.
Proof. vm_compute. reflexivity. Qed.

(** test_mxm_AB.cpp:4103-4168, optimized_sequential platform *)
Example test_mxm_CompStructMask_NoAccum_AB_empty_opt :
 (x_Empty <- mnew 3 3 ;;
  x_Ones <- mdense0 TyD d_Ones_3x3 0%Q ;;
  x_Identity <- mdense0 TyD d_Identity_3x3 0%Q ;;
  x_C <- mnew 3 3 ;;
  x_M <- mdense0 TyB d_LowerBool_3x3 0%Q ;;
  x_M_1 <- lil_setElement x_M 2 0 (cast TyB 0%Q) ;;
  x_mUpper <- mdense0 TyD d_NotLower_3x3 0%Q ;;
  x_mUpper_1 <- lil_setElement x_mUpper 0 2 (cast TyD 0%Q) ;;
  x_C_1 <- lil_assign x_C x_Ones ;;
  x_C_2 <- t_opt_mxm TyD noacc TyD (mkSr qplus qtimes TyD) (MSComp (Other x_mUpper_1)) MERGE x_C_1
    (OMat (Other x_Empty)) (OMat (Other x_Ones)) ;;
  x_mUpper_2 <- lil_setElement x_mUpper_1 0 2 (cast TyD 1%Q) ;;
  x_q <- meq x_C_2 x_mUpper_2 ;;
  _ <- check x_q ;;
  x_C_3 <- lil_assign x_C_2 x_Ones ;;
  x_mUpper_3 <- lil_setElement x_mUpper_2 0 2 (cast TyD 0%Q) ;;
  x_C_4 <- t_opt_mxm TyD noacc TyD (mkSr qplus qtimes TyD) (MSComp (Other x_mUpper_3)) MERGE x_C_3
    (OMat (Other x_Ones)) (OMat (Other x_Empty)) ;;
  x_mUpper_4 <- lil_setElement x_mUpper_3 0 2 (cast TyD 1%Q) ;;
  x_q_1 <- meq x_C_4 x_mUpper_4 ;;
  _ <- check x_q_1 ;;
  x_C_5 <- lil_assign x_C_4 x_Ones ;;
  x_C_6 <- t_opt_mxm TyD noacc TyD (mkSr qplus qtimes TyD) (MSComp (Other x_Ones)) MERGE x_C_5 (OMat
    (Other x_Ones)) (OMat (Other x_Empty)) ;;
  x_q_2 <- meq x_C_6 x_Ones ;;
  _ <- check x_q_2 ;;
  x_C_7 <- lil_assign x_C_6 x_Empty ;;
  x_C_8 <- t_opt_mxm TyD noacc TyD (mkSr qplus qtimes TyD) (MSComp (Other x_Empty)) MERGE x_C_7
    (OMat (Other x_Ones)) (OMat (Other x_Identity)) ;;
  x_q_3 <- meq x_C_8 x_Ones ;;
  _ <- check x_q_3 ;;
  x_C_9 <- lil_assign x_C_8 x_Ones ;;
  x_C_10 <- t_opt_mxm TyD noacc TyD (mkSr qplus qtimes TyD) (MSComp (Other x_mUpper_4)) REPLACE
    x_C_9 (OMat (Other x_Empty)) (OMat (Other x_Ones)) ;;
  x_q_4 <- meq x_C_10 x_Empty ;;
  _ <- check x_q_4 ;;
  x_C_11 <- lil_assign x_C_10 x_Ones ;;
  x_C_12 <- t_opt_mxm TyD noacc TyD (mkSr qplus qtimes TyD) (MSComp (Other x_mUpper_4)) REPLACE
    x_C_11 (OMat (Other x_Ones)) (OMat (Other x_Empty)) ;;
  x_q_5 <- meq x_C_12 x_Empty ;;
  _ <- check x_q_5 ;;
  x_C_13 <- lil_assign x_C_12 x_Ones ;;
  x_C_14 <- t_opt_mxm TyD noacc TyD (mkSr qplus qtimes TyD) (MSComp (Other x_Ones)) REPLACE x_C_13
    (OMat (Other x_Ones)) (OMat (Other x_Empty)) ;;
  x_q_6 <- meq x_C_14 x_Empty ;;
  _ <- check x_q_6 ;;
  x_C_15 <- lil_assign x_C_14 x_Empty ;;
  x_C_16 <- t_opt_mxm TyD noacc TyD (mkSr qplus qtimes TyD) (MSComp (Other x_Empty)) REPLACE x_C_15
    (OMat (Other x_Ones)) (OMat (Other x_Identity)) ;;
  x_q_7 <- meq x_C_16 x_Ones ;;
  _ <- check x_q_7 ;;
  Ok tt) = Ok tt.
Proof. vm_compute. reflexivity. Qed.

(** test_mxm_AB.cpp:4171-4213 *)
Example test_mxm_CompStructMask_NoAccum_AB_emptyRowA_emptyColB :
 (x_A <- mdense0 TyD [[8; 1; 6]; [0; 0; 0]; [4; 9; 2]]%Q 0%Q ;;
  x_B <- mdense0 TyD [[0; 0; 0; 1]; [1; 0; 1; 1]; [0; 0; 1; 1]]%Q 0%Q ;;
  x_NotLower <- mdense0 TyD d_NotLower_3x4 0%Q ;;
  x_NotLower_1 <- lil_setElement x_NotLower 0 2 (cast TyD 0%Q) ;;
  x_Ones <- mdense0 TyD d_Ones_3x4 0%Q ;;
  x_C <- mnew 3 4 ;;
  x_answer <- mdense0 TyD [[1; 0; 0; 0]; [0; 0; 0; 0]; [9; 0; 11; 0]]%Q 0%Q ;;
  x_C_1 <- lil_assign x_C x_Ones ;;
  x_C_2 <- t_mxm TyD noacc (mkSr qplus qtimes TyD) (MSComp x_NotLower_1) REPLACE x_C_1 (Mat x_A)
    (Mat x_B) ;;
  x_q <- meq x_C_2 x_answer ;;
  _ <- check x_q ;;
  x_answer2 <- mdense0 TyD [[1; 1; 1; 1]; [0; 0; 1; 1]; [9; 0; 11; 1]]%Q 0%Q ;;
  x_C_3 <- lil_assign x_C_2 x_Ones ;;
  x_C_4 <- t_mxm TyD noacc (mkSr qplus qtimes TyD) (MSComp x_NotLower_1) MERGE x_C_3 (Mat x_A) (Mat
    x_B) ;;
  x_q_1 <- meq x_C_4 x_answer2 ;;
  _ <- check x_q_1 ;;
  Ok tt) = Ok tt.
Proof. vm_compute. reflexivity. Qed.

(** test_mxm_AB.cpp:4171-4213, optimized_sequential platform *)
Example test_mxm_CompStructMask_NoAccum_AB_emptyRowA_emptyColB_opt :
 (x_A <- mdense0 TyD [[8; 1; 6]; [0; 0; 0]; [4; 9; 2]]%Q 0%Q ;;
  x_B <- mdense0 TyD [[0; 0; 0; 1]; [1; 0; 1; 1]; [0; 0; 1; 1]]%Q 0%Q ;;
  x_NotLower <- mdense0 TyD d_NotLower_3x4 0%Q ;;
  x_NotLower_1 <- lil_setElement x_NotLower 0 2 (cast TyD 0%Q) ;;
  x_Ones <- mdense0 TyD d_Ones_3x4 0%Q ;;
  x_C <- mnew 3 4 ;;
  x_answer <- mdense0 TyD [[1; 0; 0; 0]; [0; 0; 0; 0]; [9; 0; 11; 0]]%Q 0%Q ;;
  x_C_1 <- lil_assign x_C x_Ones ;;
  x_C_2 <- t_opt_mxm TyD noacc TyD (mkSr qplus qtimes TyD) (MSComp (Other x_NotLower_1)) REPLACE
    x_C_1 (OMat (Other x_A)) (OMat (Other x_B)) ;;
  x_q <- meq x_C_2 x_answer ;;
  _ <- check x_q ;;
  x_answer2 <- mdense0 TyD [[1; 1; 1; 1]; [0; 0; 1; 1]; [9; 0; 11; 1]]%Q 0%Q ;;
  x_C_3 <- lil_assign x_C_2 x_Ones ;;
  x_C_4 <- t_opt_mxm TyD noacc TyD (mkSr qplus qtimes TyD) (MSComp (Other x_NotLower_1)) MERGE x_C_3
    (OMat (Other x_A)) (OMat (Other x_B)) ;;
  x_q_1 <- meq x_C_4 x_answer2 ;;
  _ <- check x_q_1 ;;
  Ok tt) = Ok tt.
Proof. vm_compute. reflexivity. Qed.

(** test_mxm_AB.cpp:4216-4258 *)
Example test_mxm_CompStructMask_NoAccum_AB_emptyColA_emptyRowB :
 (x_A <- mdense0 TyD [[8; 0; 6]; [1; 0; 9]; [4; 0; 2]]%Q 0%Q ;;
  x_B <- mdense0 TyD [[0; 1; 0; 1]; [1; 0; 1; 1]; [0; 0; 0; 0]]%Q 0%Q ;;
  x_NotLower <- mdense0 TyD d_NotLower_3x4 0%Q ;;
  x_NotLower_1 <- lil_setElement x_NotLower 0 2 (cast TyD 0%Q) ;;
  x_Ones <- mdense0 TyD d_Ones_3x4 0%Q ;;
  x_C <- mnew 3 4 ;;
  x_answer <- mdense0 TyD [[0; 0; 0; 0]; [0; 1; 0; 0]; [0; 4; 0; 0]]%Q 0%Q ;;
  x_C_1 <- lil_assign x_C x_Ones ;;
  x_C_2 <- t_mxm TyD noacc (mkSr qplus qtimes TyD) (MSComp x_NotLower_1) REPLACE x_C_1 (Mat x_A)
    (Mat x_B) ;;
  x_q <- meq x_C_2 x_answer ;;
  _ <- check x_q ;;
  x_answer2 <- mdense0 TyD [[0; 1; 1; 1]; [0; 1; 1; 1]; [0; 4; 0; 1]]%Q 0%Q ;;
  x_C_3 <- lil_assign x_C_2 x_Ones ;;
  x_C_4 <- t_mxm TyD noacc (mkSr qplus qtimes TyD) (MSComp x_NotLower_1) MERGE x_C_3 (Mat x_A) (Mat
    x_B) ;;
  x_q_1 <- meq x_C_4 x_answer2 ;;
  _ <- check x_q_1 ;;
  Ok tt) = Ok tt.
Proof. vm_compute. reflexivity. Qed.

(** test_mxm_AB.cpp:4216-4258, optimized_sequential platform *)
Example test_mxm_CompStructMask_NoAccum_AB_emptyColA_emptyRowB_opt :
 (x_A <- mdense0 TyD [[8; 0; 6]; [1; 0; 9]; [4; 0; 2]]%Q 0%Q ;;
  x_B <- mdense0 TyD [[0; 1; 0; 1]; [1; 0; 1; 1]; [0; 0; 0; 0]]%Q 0%Q ;;
  x_NotLower <- mdense0 TyD d_NotLower_3x4 0%Q ;;
  x_NotLower_1 <- lil_setElement x_NotLower 0 2 (cast TyD 0%Q) ;;
  x_Ones <- mdense0 TyD d_Ones_3x4 0%Q ;;
  x_C <- mnew 3 4 ;;
  x_answer <- mdense0 TyD [[0; 0; 0; 0]; [0; 1; 0; 0]; [0; 4; 0; 0]]%Q 0%Q ;;
  x_C_1 <- lil_assign x_C x_Ones ;;
  x_C_2 <- t_opt_mxm TyD noacc TyD (mkSr qplus qtimes TyD) (MSComp (Other x_NotLower_1)) REPLACE
    x_C_1 (OMat (Other x_A)) (OMat (Other x_B)) ;;
  x_q <- meq x_C_2 x_answer ;;
  _ <- check x_q ;;
  x_answer2 <- mdense0 TyD [[0; 1; 1; 1]; [0; 1; 1; 1]; [0; 4; 0; 1]]%Q 0%Q ;;
  x_C_3 <- lil_assign x_C_2 x_Ones ;;
  x_C_4 <- t_opt_mxm TyD noacc TyD (mkSr qplus qtimes TyD) (MSComp (Other x_NotLower_1)) MERGE x_C_3
    (OMat (Other x_A)) (OMat (Other x_B)) ;;
  x_q_1 <- meq x_C_4 x_answer2 ;;
  _ <- check x_q_1 ;;
  Ok tt) = Ok tt.
Proof. vm_compute. reflexivity. Qed.

(** test_mxm_AB.cpp:4261-4303 *)
Example test_mxm_CompStructMask_NoAccum_AB_emptyRowM :
 (x_A <- mdense0 TyD [[8; 1; 6]; [0; 0; 0]; [4; 9; 2]]%Q 0%Q ;;
  x_B <- mdense0 TyD [[0; 0; 0]; [1; 0; 1]; [0; 0; 1]]%Q 0%Q ;;
  x_Lower <- mdense0 TyD d_Lower_3x3 0%Q ;;
  x_Lower_1 <- lil_setElement x_Lower 2 0 (cast TyD 0%Q) ;;
  x_Ones <- mdense0 TyD d_Ones_3x3 0%Q ;;
  x_C <- mnew 3 3 ;;
  x_answer <- mdense0 TyD [[0; 0; 7]; [0; 0; 0]; [0; 0; 0]]%Q 0%Q ;;
  x_C_1 <- lil_assign x_C x_Ones ;;
  x_C_2 <- t_mxm TyD noacc (mkSr qplus qtimes TyD) (MSComp x_Lower_1) REPLACE x_C_1 (Mat x_A) (Mat
    x_B) ;;
  x_q <- meq x_C_2 x_answer ;;
  _ <- check x_q ;;
  x_answer2 <- mdense0 TyD [[1; 0; 7]; [1; 1; 0]; [1; 1; 1]]%Q 0%Q ;;
  x_C_3 <- lil_assign x_C_2 x_Ones ;;
  x_C_4 <- t_mxm TyD noacc (mkSr qplus qtimes TyD) (MSComp x_Lower_1) MERGE x_C_3 (Mat x_A) (Mat
    x_B) ;;
  x_q_1 <- meq x_C_4 x_answer2 ;;
  _ <- check x_q_1 ;;
  Ok tt) = Ok tt.
Proof. vm_compute. reflexivity. Qed.

(** test_mxm_AB.cpp:4261-4303, optimized_sequential platform *)
Example test_mxm_CompStructMask_NoAccum_AB_emptyRowM_opt :
 (x_A <- mdense0 TyD [[8; 1; 6]; [0; 0; 0]; [4; 9; 2]]%Q 0%Q ;;
  x_B <- mdense0 TyD [[0; 0; 0]; [1; 0; 1]; [0; 0; 1]]%Q 0%Q ;;
  x_Lower <- mdense0 TyD d_Lower_3x3 0%Q ;;
  x_Lower_1 <- lil_setElement x_Lower 2 0 (cast TyD 0%Q) ;;
  x_Ones <- mdense0 TyD d_Ones_3x3 0%Q ;;
  x_C <- mnew 3 3 ;;
  x_answer <- mdense0 TyD [[0; 0; 7]; [0; 0; 0]; [0; 0; 0]]%Q 0%Q ;;
  x_C_1 <- lil_assign x_C x_Ones ;;
  x_C_2 <- t_opt_mxm TyD noacc TyD (mkSr qplus qtimes TyD) (MSComp (Other x_Lower_1)) REPLACE x_C_1
    (OMat (Other x_A)) (OMat (Other x_B)) ;;
  x_q <- meq x_C_2 x_answer ;;
  _ <- check x_q ;;
  x_answer2 <- mdense0 TyD [[1; 0; 7]; [1; 1; 0]; [1; 1; 1]]%Q 0%Q ;;
  x_C_3 <- lil_assign x_C_2 x_Ones ;;
  x_C_4 <- t_opt_mxm TyD noacc TyD (mkSr qplus qtimes TyD) (MSComp (Other x_Lower_1)) MERGE x_C_3
    (OMat (Other x_A)) (OMat (Other x_B)) ;;
  x_q_1 <- meq x_C_4 x_answer2 ;;
  _ <- check x_q_1 ;;
  Ok tt) = Ok tt.
Proof. vm_compute. reflexivity. Qed.

(** test_mxm_AB.cpp:4306-4345 *)
Example test_mxm_CompStructMask_NoAccum_AB_ABdup :
 (x_mat <- mdense0 TyD d_Symmetric_4x4 0%Q ;;
  x_NotLower <- mdense0 TyD d_NotLower_4x4 0%Q ;;
  x_NotLower_1 <- lil_setElement x_NotLower 0 1 (cast TyD 0%Q) ;;
  x_Ones <- mdense0 TyD d_Ones_4x4 0%Q ;;
  x_C <- mnew 4 4 ;;
  x_answer <- mdense0 TyD [[2; 1; 1; 1]; [3; 9; 1; 1]; [2; 10; 22; 1]; [0; 6; 21; 25]]%Q 0%Q ;;
  x_C_1 <- lil_assign x_C x_Ones ;;
  x_C_2 <- t_mxm TyD noacc (mkSr qplus qtimes TyD) (MSComp x_NotLower_1) MERGE x_C_1 (Mat x_mat)
    (Mat x_mat) ;;
  x_q <- meq x_C_2 x_answer ;;
  _ <- check x_q ;;
  x_answer2 <- mdense0 TyD [[2; 0; 0; 0]; [3; 9; 0; 0]; [2; 10; 22; 0]; [0; 6; 21; 25]]%Q 0%Q ;;
  x_C_3 <- lil_assign x_C_2 x_Ones ;;
  x_C_4 <- t_mxm TyD noacc (mkSr qplus qtimes TyD) (MSComp x_NotLower_1) REPLACE x_C_3 (Mat x_mat)
    (Mat x_mat) ;;
  x_q_1 <- meq x_C_4 x_answer2 ;;
  _ <- check x_q_1 ;;
  Ok tt) = Ok tt.
Proof. vm_compute. reflexivity. Qed.

(** test_mxm_AB.cpp:4306-4345, optimized_sequential platform *)
Example test_mxm_CompStructMask_NoAccum_AB_ABdup_opt :
 (x_mat <- mdense0 TyD d_Symmetric_4x4 0%Q ;;
  x_NotLower <- mdense0 TyD d_NotLower_4x4 0%Q ;;
  x_NotLower_1 <- lil_setElement x_NotLower 0 1 (cast TyD 0%Q) ;;
  x_Ones <- mdense0 TyD d_Ones_4x4 0%Q ;;
  x_C <- mnew 4 4 ;;
  x_answer <- mdense0 TyD [[2; 1; 1; 1]; [3; 9; 1; 1]; [2; 10; 22; 1]; [0; 6; 21; 25]]%Q 0%Q ;;
  x_C_1 <- lil_assign x_C x_Ones ;;
  x_C_2 <- t_opt_mxm TyD noacc TyD (mkSr qplus qtimes TyD) (MSComp (Other x_NotLower_1)) MERGE x_C_1
    (OMat (Other x_mat)) (OMat (Other x_mat)) ;;
  x_q <- meq x_C_2 x_answer ;;
  _ <- check x_q ;;
  x_answer2 <- mdense0 TyD [[2; 0; 0; 0]; [3; 9; 0; 0]; [2; 10; 22; 0]; [0; 6; 21; 25]]%Q 0%Q ;;
  x_C_3 <- lil_assign x_C_2 x_Ones ;;
  x_C_4 <- t_opt_mxm TyD noacc TyD (mkSr qplus qtimes TyD) (MSComp (Other x_NotLower_1)) REPLACE
    x_C_3 (OMat (Other x_mat)) (OMat (Other x_mat)) ;;
  x_q_1 <- meq x_C_4 x_answer2 ;;
  _ <- check x_q_1 ;;
  Ok tt) = Ok tt.
Proof. vm_compute. reflexivity. Qed.

(** test_mxm_AB.cpp:4348-4387 *)
Example test_mxm_CompStructMask_NoAccum_AB_ACdup :
 (x_mat <- mdense0 TyD d_Symmetric_4x4 0%Q ;;
  x_NotLower <- mdense0 TyD d_NotLower_4x4 0%Q ;;
  x_NotLower_1 <- lil_setElement x_NotLower 0 1 (cast TyD 0%Q) ;;
  x_Ones <- mdense0 TyD d_Ones_4x4 0%Q ;;
  x_C <- mnew 4 4 ;;
  x_answer <- mdense0 TyD [[2; 1; 0; 0]; [3; 9; 2; 0]; [2; 10; 22; 3]; [0; 6; 21; 25]]%Q 0%Q ;;
  x_C_1 <- lil_assign x_C x_mat ;;
  x_C_2 <- t_mxm TyD noacc (mkSr qplus qtimes TyD) (MSComp x_NotLower_1) MERGE x_C_1 (Mat x_C_1)
    (Mat x_mat) ;;
  x_q <- meq x_C_2 x_answer ;;
  _ <- check x_q ;;
  x_answer2 <- mdense0 TyD [[2; 0; 0; 0]; [3; 9; 0; 0]; [2; 10; 22; 0]; [0; 6; 21; 25]]%Q 0%Q ;;
  x_C_3 <- lil_assign x_C_2 x_mat ;;
  x_C_4 <- t_mxm TyD noacc (mkSr qplus qtimes TyD) (MSComp x_NotLower_1) REPLACE x_C_3 (Mat x_C_3)
    (Mat x_mat) ;;
  x_q_1 <- meq x_C_4 x_answer2 ;;
  _ <- check x_q_1 ;;
  Ok tt) = Ok tt.
Proof. vm_compute. reflexivity. Qed.

(** test_mxm_AB.cpp:4348-4387, optimized_sequential platform *)
Example test_mxm_CompStructMask_NoAccum_AB_ACdup_opt :
 (x_mat <- mdense0 TyD d_Symmetric_4x4 0%Q ;;
  x_NotLower <- mdense0 TyD d_NotLower_4x4 0%Q ;;
  x_NotLower_1 <- lil_setElement x_NotLower 0 1 (cast TyD 0%Q) ;;
  x_Ones <- mdense0 TyD d_Ones_4x4 0%Q ;;
  x_C <- mnew 4 4 ;;
  x_answer <- mdense0 TyD [[2; 1; 0; 0]; [3; 9; 2; 0]; [2; 10; 22; 3]; [0; 6; 21; 25]]%Q 0%Q ;;
  x_C_1 <- lil_assign x_C x_mat ;;
  x_C_2 <- t_opt_mxm TyD noacc TyD (mkSr qplus qtimes TyD) (MSComp (Other x_NotLower_1)) MERGE x_C_1
    (OMat (TheOutput (fun x => x))) (OMat (Other x_mat)) ;;
  x_q <- meq x_C_2 x_answer ;;
  _ <- check x_q ;;
  x_answer2 <- mdense0 TyD [[2; 0; 0; 0]; [3; 9; 0; 0]; [2; 10; 22; 0]; [0; 6; 21; 25]]%Q 0%Q ;;
  x_C_3 <- lil_assign x_C_2 x_mat ;;
  x_C_4 <- t_opt_mxm TyD noacc TyD (mkSr qplus qtimes TyD) (MSComp (Other x_NotLower_1)) REPLACE
    x_C_3 (OMat (TheOutput (fun x => x))) (OMat (Other x_mat)) ;;
  x_q_1 <- meq x_C_4 x_answer2 ;;
  _ <- check x_q_1 ;;
  Ok tt) = Ok tt.
Proof. vm_compute. reflexivity. Qed.

(** test_mxm_AB.cpp:4390-4438 *)
Example test_mxm_CompStructMask_NoAccum_AB_BCdup :
 (x_mat <- mdense0 TyD d_Symmetric_4x4 0%Q ;;
  x_NotLower <- mdense0 TyD d_NotLower_4x4 0%Q ;;
  x_NotLower_1 <- lil_setElement x_NotLower 0 1 (cast TyD 0%Q) ;;
  x_Ones <- mdense0 TyD d_Ones_4x4 0%Q ;;
  x_C <- mnew 4 4 ;;
  x_answer <- mdense0 TyD [[2; 1; 0; 0]; [3; 9; 2; 0]; [2; 10; 22; 3]; [0; 6; 21; 25]]%Q 0%Q ;;
  x_C_1 <- lil_assign x_C x_mat ;;
  x_C_2 <- t_mxm TyD noacc (mkSr qplus qtimes TyD) (MSComp x_NotLower_1) MERGE x_C_1 (Mat x_mat)
    (Mat x_C_1) ;;
  x_q <- meq x_C_2 x_answer ;;
  _ <- check x_q ;;
  x_C_3 <- lil_assign x_C_2 x_mat ;;
  x_C_4 <- t_mxm TyD noacc (mkSr qplus qtimes TyD) (MSComp x_NotLower_1) MERGE x_C_3 (Mat x_mat)
    (Mat x_mat) ;;
  x_q_1 <- meq x_C_4 x_answer ;;
  _ <- check x_q_1 ;;
  x_answer2 <- mdense0 TyD [[2; 0; 0; 0]; [3; 9; 0; 0]; [2; 10; 22; 0]; [0; 6; 21; 25]]%Q 0%Q ;;
  x_C_5 <- lil_assign x_C_4 x_mat ;;
  x_C_6 <- t_mxm TyD noacc (mkSr qplus qtimes TyD) (MSComp x_NotLower_1) REPLACE x_C_5 (Mat x_mat)
    (Mat x_C_5) ;;
  x_q_2 <- meq x_C_6 x_answer2 ;;
  _ <- check x_q_2 ;;
  Ok tt) = Ok tt.
Proof. vm_compute. reflexivity. Qed.

(** test_mxm_AB.cpp:4390-4438, optimized_sequential platform *)
Example test_mxm_CompStructMask_NoAccum_AB_BCdup_opt :
 (x_mat <- mdense0 TyD d_Symmetric_4x4 0%Q ;;
  x_NotLower <- mdense0 TyD d_NotLower_4x4 0%Q ;;
  x_NotLower_1 <- lil_setElement x_NotLower 0 1 (cast TyD 0%Q) ;;
  x_Ones <- mdense0 TyD d_Ones_4x4 0%Q ;;
  x_C <- mnew 4 4 ;;
  x_answer <- mdense0 TyD [[2; 1; 0; 0]; [3; 9; 2; 0]; [2; 10; 22; 3]; [0; 6; 21; 25]]%Q 0%Q ;;
  x_C_1 <- lil_assign x_C x_mat ;;
  x_C_2 <- t_opt_mxm TyD noacc TyD (mkSr qplus qtimes TyD) (MSComp (Other x_NotLower_1)) MERGE x_C_1
    (OMat (Other x_mat)) (OMat (TheOutput (fun x => x))) ;;
  x_q <- meq x_C_2 x_answer ;;
  _ <- check x_q ;;
  x_C_3 <- lil_assign x_C_2 x_mat ;;
  x_C_4 <- t_opt_mxm TyD noacc TyD (mkSr qplus qtimes TyD) (MSComp (Other x_NotLower_1)) MERGE x_C_3
    (OMat (Other x_mat)) (OMat (Other x_mat)) ;;
  x_q_1 <- meq x_C_4 x_answer ;;
  _ <- check x_q_1 ;;
  x_answer2 <- mdense0 TyD [[2; 0; 0; 0]; [3; 9; 0; 0]; [2; 10; 22; 0]; [0; 6; 21; 25]]%Q 0%Q ;;
  x_C_5 <- lil_assign x_C_4 x_mat ;;
  x_C_6 <- t_opt_mxm TyD noacc TyD (mkSr qplus qtimes TyD) (MSComp (Other x_NotLower_1)) REPLACE
    x_C_5 (OMat (Other x_mat)) (OMat (TheOutput (fun x => x))) ;;
  x_q_2 <- meq x_C_6 x_answer2 ;;
  _ <- check x_q_2 ;;
  Ok tt) = Ok tt.
Proof. vm_compute. reflexivity. Qed.

(** test_mxm_AB.cpp:4441-4463 *)
Example test_mxm_CompStructMask_NoAccum_AB_Replace_ABdup :
 (x_mat <- mdense0 TyD d_Symmetric_4x4 0%Q ;;
  x_result <- mdense0 TyD d_Ones_4x4 0%Q ;;
  x_answer <- mdense0 TyD [[2; 0; 0; 0]; [3; 9; 0; 0]; [2; 10; 22; 0]; [0; 6; 21; 25]]%Q 0%Q ;;
  x_M <- mdense0 TyD d_NotLower_4x4 0%Q ;;
  x_M_1 <- lil_setElement x_M 0 1 (cast TyD 0%Q) ;;
  x_result_1 <- t_mxm TyD noacc (mkSr qplus qtimes TyD) (MSComp x_M_1) REPLACE x_result (Mat x_mat)
    (Mat x_mat) ;;
  x_q <- meq x_result_1 x_answer ;;
  _ <- check x_q ;;
  Ok tt) = Ok tt.
Proof. vm_compute. reflexivity. Qed.

(** test_mxm_AB.cpp:4441-4463, optimized_sequential platform *)
Example test_mxm_CompStructMask_NoAccum_AB_Replace_ABdup_opt :
 (x_mat <- mdense0 TyD d_Symmetric_4x4 0%Q ;;
  x_result <- mdense0 TyD d_Ones_4x4 0%Q ;;
  x_answer <- mdense0 TyD [[2; 0; 0; 0]; [3; 9; 0; 0]; [2; 10; 22; 0]; [0; 6; 21; 25]]%Q 0%Q ;;
  x_M <- mdense0 TyD d_NotLower_4x4 0%Q ;;
  x_M_1 <- lil_setElement x_M 0 1 (cast TyD 0%Q) ;;
  x_result_1 <- t_opt_mxm TyD noacc TyD (mkSr qplus qtimes TyD) (MSComp (Other x_M_1)) REPLACE
    x_result (OMat (Other x_mat)) (OMat (Other x_mat)) ;;
  x_q <- meq x_result_1 x_answer ;;
  _ <- check x_q ;;
  Ok tt) = Ok tt.
Proof. vm_compute. reflexivity. Qed.

(** test_mxm_AB.cpp:4470-4591 *)
Example test_mxm_CompStructMask_Accum_AB :
 (x_A <- mdense0 TyD d_A_sparse_3x3 0%Q ;;
  x_Identity <- mdense0 TyD d_Identity_3x3 0%Q ;;
  x_Empty <- mnew 3 3 ;;
  x_Ones <- mdense0 TyD d_Ones_3x3 0%Q ;;
  x_C <- mnew 3 3 ;;
  x_MLower <- mdense0 TyD d_Lower_3x3 0%Q ;;
  x_MLower_1 <- lil_setElement x_MLower 2 0 (cast TyD 0%Q) ;;
  x_MNotLower <- mdense0 TyD d_NotLower_3x3 0%Q ;;
  x_MNotLower_1 <- lil_setElement x_MNotLower 0 2 (cast TyD 0%Q) ;;
  x_AFilled <- mdense0 TyD [[12; 7; 1]; [1; (-5); 1]; [7; 1; 9]]%Q 0%Q ;;
  x_NotA <- mdense0 TyD [[0; 0; 1]; [1; 0; 1]; [0; 1; 0]]%Q 0%Q ;;
  x_NotA_1 <- lil_setElement x_NotA 0 2 (cast TyD 0%Q) ;;
  x_C_1 <- lil_assign x_C x_Ones ;;
  x_Ones_1 <- lil_setElement x_Ones 0 0 (cast TyD 0%Q) ;;
  x_C_2 <- t_mxm TyD (acc TyD qplus) (mkSr qplus qtimes TyD) (MSComp x_Ones_1) MERGE x_C_1 (Mat x_A)
    (Mat x_Identity) ;;
  x_Ones_2 <- lil_setElement x_Ones_1 0 0 (cast TyD 1%Q) ;;
  x_q <- meq x_C_2 x_Ones_2 ;;
  _ <- check x_q ;;
  x_C_3 <- lil_assign x_C_2 x_Ones_2 ;;
  x_C_4 <- t_mxm TyD (acc TyD qplus) (mkSr qplus qtimes TyD) (MSComp x_NotA_1) MERGE x_C_3 (Mat x_A)
    (Mat x_Identity) ;;
  x_t <- mdense0 TyD [[13; 8; 1]; [1; (-4); 1]; [8; 1; 10]]%Q 0%Q ;;
  x_q_1 <- meq x_C_4 x_t ;;
  _ <- check x_q_1 ;;
  x_C_5 <- lil_assign x_C_4 x_Ones_2 ;;
  x_C_6 <- t_mxm TyD (acc TyD qplus) (mkSr qplus qtimes TyD) (MSComp x_MNotLower_1) MERGE x_C_5 (Mat
    x_Ones_2) (Mat x_Identity) ;;
  x_t_1 <- mdense0 TyD [[2; 1; 1]; [2; 2; 1]; [2; 2; 2]]%Q 0%Q ;;
  x_q_2 <- meq x_C_6 x_t_1 ;;
  _ <- check x_q_2 ;;
  x_C_7 <- lil_assign x_C_6 x_Ones_2 ;;
  x_C_8 <- t_mxm TyD (acc TyD qplus) (mkSr qplus qtimes TyD) (MSComp x_MLower_1) MERGE x_C_7 (Mat
    x_Ones_2) (Mat x_Identity) ;;
  x_t_2 <- mdense0 TyD [[1; 2; 2]; [1; 1; 2]; [1; 1; 1]]%Q 0%Q ;;
  x_q_3 <- meq x_C_8 x_t_2 ;;
  _ <- check x_q_3 ;;
  x_C_9 <- lil_assign x_C_8 x_Ones_2 ;;
  x_Ones_3 <- lil_setElement x_Ones_2 0 0 (cast TyD 0%Q) ;;
  x_C_10 <- t_mxm TyD (acc TyD qplus) (mkSr qplus qtimes TyD) (MSComp x_Ones_3) REPLACE x_C_9 (Mat
    x_A) (Mat x_Identity) ;;
  x_Ones_4 <- lil_setElement x_Ones_3 0 0 (cast TyD 1%Q) ;;
  x_q_4 <- meq x_C_10 x_Empty ;;
  _ <- check x_q_4 ;;
  x_C_11 <- lil_assign x_C_10 x_Ones_4 ;;
  x_C_12 <- t_mxm TyD (acc TyD qplus) (mkSr qplus qtimes TyD) (MSComp x_Empty) REPLACE x_C_11 (Mat
    x_A) (Mat x_Identity) ;;
  x_t_3 <- mdense0 TyD [[13; 8; 1]; [1; (-4); 1]; [8; 1; 10]]%Q 0%Q ;;
  x_q_5 <- meq x_C_12 x_t_3 ;;
  _ <- check x_q_5 ;;
  x_C_13 <- lil_assign x_C_12 x_Ones_4 ;;
  x_C_14 <- t_mxm TyD (acc TyD qplus) (mkSr qplus qtimes TyD) (MSComp x_MNotLower_1) REPLACE x_C_13
    (Mat x_Ones_4) (Mat x_Identity) ;;
  x_t_4 <- mdense0 TyD [[2; 0; 0]; [2; 2; 0]; [2; 2; 2]]%Q 0%Q ;;
  x_q_6 <- meq x_C_14 x_t_4 ;;
  _ <- check x_q_6 ;;
  x_C_15 <- lil_assign x_C_14 x_Ones_4 ;;
  x_C_16 <- t_mxm TyD (acc TyD qplus) (mkSr qplus qtimes TyD) (MSComp x_MLower_1) REPLACE x_C_15
    (Mat x_Ones_4) (Mat x_Identity) ;;
  x_t_5 <- mdense0 TyD [[0; 2; 2]; [0; 0; 2]; [0; 0; 0]]%Q 0%Q ;;
  x_q_7 <- meq x_C_16 x_t_5 ;;
  _ <- check x_q_7 ;;
  Ok tt) = Ok tt.
Proof. vm_compute. reflexivity. Qed.

(** test_mxm_AB.cpp:4470-4591, optimized_sequential platform *)
Example test_mxm_CompStructMask_Accum_AB_opt :
 (x_A <- mdense0 TyD d_A_sparse_3x3 0%Q ;;
  x_Identity <- mdense0 TyD d_Identity_3x3 0%Q ;;
  x_Empty <- mnew 3 3 ;;
  x_Ones <- mdense0 TyD d_Ones_3x3 0%Q ;;
  x_C <- mnew 3 3 ;;
  x_MLower <- mdense0 TyD d_Lower_3x3 0%Q ;;
  x_MLower_1 <- lil_setElement x_MLower 2 0 (cast TyD 0%Q) ;;
  x_MNotLower <- mdense0 TyD d_NotLower_3x3 0%Q ;;
  x_MNotLower_1 <- lil_setElement x_MNotLower 0 2 (cast TyD 0%Q) ;;
  x_AFilled <- mdense0 TyD [[12; 7; 1]; [1; (-5); 1]; [7; 1; 9]]%Q 0%Q ;;
  x_NotA <- mdense0 TyD [[0; 0; 1]; [1; 0; 1]; [0; 1; 0]]%Q 0%Q ;;
  x_NotA_1 <- lil_setElement x_NotA 0 2 (cast TyD 0%Q) ;;
  x_C_1 <- lil_assign x_C x_Ones ;;
  x_Ones_1 <- lil_setElement x_Ones 0 0 (cast TyD 0%Q) ;;
  x_C_2 <- t_opt_mxm TyD (acc TyD qplus) TyD (mkSr qplus qtimes TyD) (MSComp (Other x_Ones_1)) MERGE
    x_C_1 (OMat (Other x_A)) (OMat (Other x_Identity)) ;;
  x_Ones_2 <- lil_setElement x_Ones_1 0 0 (cast TyD 1%Q) ;;
  x_q <- meq x_C_2 x_Ones_2 ;;
  _ <- check x_q ;;
  x_C_3 <- lil_assign x_C_2 x_Ones_2 ;;
  x_C_4 <- t_opt_mxm TyD (acc TyD qplus) TyD (mkSr qplus qtimes TyD) (MSComp (Other x_NotA_1)) MERGE
    x_C_3 (OMat (Other x_A)) (OMat (Other x_Identity)) ;;
  x_t <- mdense0 TyD [[13; 8; 1]; [1; (-4); 1]; [8; 1; 10]]%Q 0%Q ;;
  x_q_1 <- meq x_C_4 x_t ;;
  _ <- check x_q_1 ;;
  x_C_5 <- lil_assign x_C_4 x_Ones_2 ;;
  x_C_6 <- t_opt_mxm TyD (acc TyD qplus) TyD (mkSr qplus qtimes TyD) (MSComp (Other x_MNotLower_1))
    MERGE x_C_5 (OMat (Other x_Ones_2)) (OMat (Other x_Identity)) ;;
  x_t_1 <- mdense0 TyD [[2; 1; 1]; [2; 2; 1]; [2; 2; 2]]%Q 0%Q ;;
  x_q_2 <- meq x_C_6 x_t_1 ;;
  _ <- check x_q_2 ;;
  x_C_7 <- lil_assign x_C_6 x_Ones_2 ;;
  x_C_8 <- t_opt_mxm TyD (acc TyD qplus) TyD (mkSr qplus qtimes TyD) (MSComp (Other x_MLower_1))
    MERGE x_C_7 (OMat (Other x_Ones_2)) (OMat (Other x_Identity)) ;;
  x_t_2 <- mdense0 TyD [[1; 2; 2]; [1; 1; 2]; [1; 1; 1]]%Q 0%Q ;;
  x_q_3 <- meq x_C_8 x_t_2 ;;
  _ <- check x_q_3 ;;
  x_C_9 <- lil_assign x_C_8 x_Ones_2 ;;
  x_Ones_3 <- lil_setElement x_Ones_2 0 0 (cast TyD 0%Q) ;;
  x_C_10 <- t_opt_mxm TyD (acc TyD qplus) TyD (mkSr qplus qtimes TyD) (MSComp (Other x_Ones_3))
    REPLACE x_C_9 (OMat (Other x_A)) (OMat (Other x_Identity)) ;;
  x_Ones_4 <- lil_setElement x_Ones_3 0 0 (cast TyD 1%Q) ;;
  x_q_4 <- meq x_C_10 x_Empty ;;
  _ <- check x_q_4 ;;
  x_C_11 <- lil_assign x_C_10 x_Ones_4 ;;
  x_C_12 <- t_opt_mxm TyD (acc TyD qplus) TyD (mkSr qplus qtimes TyD) (MSComp (Other x_Empty))
    REPLACE x_C_11 (OMat (Other x_A)) (OMat (Other x_Identity)) ;;
  x_t_3 <- mdense0 TyD [[13; 8; 1]; [1; (-4); 1]; [8; 1; 10]]%Q 0%Q ;;
  x_q_5 <- meq x_C_12 x_t_3 ;;
  _ <- check x_q_5 ;;
  x_C_13 <- lil_assign x_C_12 x_Ones_4 ;;
  x_C_14 <- t_opt_mxm TyD (acc TyD qplus) TyD (mkSr qplus qtimes TyD) (MSComp (Other x_MNotLower_1))
    REPLACE x_C_13 (OMat (Other x_Ones_4)) (OMat (Other x_Identity)) ;;
  x_t_4 <- mdense0 TyD [[2; 0; 0]; [2; 2; 0]; [2; 2; 2]]%Q 0%Q ;;
  x_q_6 <- meq x_C_14 x_t_4 ;;
  _ <- check x_q_6 ;;
  x_C_15 <- lil_assign x_C_14 x_Ones_4 ;;
  x_C_16 <- t_opt_mxm TyD (acc TyD qplus) TyD (mkSr qplus qtimes TyD) (MSComp (Other x_MLower_1))
    REPLACE x_C_15 (OMat (Other x_Ones_4)) (OMat (Other x_Identity)) ;;
  x_t_5 <- mdense0 TyD [[0; 2; 2]; [0; 0; 2]; [0; 0; 0]]%Q 0%Q ;;
  x_q_7 <- meq x_C_16 x_t_5 ;;
  _ <- check x_q_7 ;;
  Ok tt) = Ok tt.
Proof. vm_compute. reflexivity. Qed.

(** test_mxm_AB.cpp:4594-4645 *)
Example test_mxm_CompStructMask_Accum_ABM_empty :
 (x_Empty <- mnew 3 3 ;;
  x_Ones <- mdense0 TyD d_Ones_3x3 0%Q ;;
  x_C <- mnew 3 3 ;;
  x_MNotLower <- mdense0 TyB d_NotLowerBool_3x3 0%Q ;;
  x_MNotLower_1 <- lil_setElement x_MNotLower 0 2 (cast TyB 0%Q) ;;
  x_C_1 <- lil_assign x_C x_Ones ;;
  x_C_2 <- t_mxm TyD (acc TyD qplus) (mkSr qplus qtimes TyD) (MSComp x_MNotLower_1) MERGE x_C_1 (Mat
    x_Empty) (Mat x_Ones) ;;
  x_q <- meq x_C_2 x_Ones ;;
  _ <- check x_q ;;
  x_C_3 <- lil_assign x_C_2 x_Ones ;;
  x_C_4 <- t_mxm TyD (acc TyD qplus) (mkSr qplus qtimes TyD) (MSComp x_MNotLower_1) MERGE x_C_3 (Mat
    x_Ones) (Mat x_Empty) ;;
  x_q_1 <- meq x_C_4 x_Ones ;;
  _ <- check x_q_1 ;;
  x_C_5 <- lil_assign x_C_4 x_Ones ;;
  x_Ones_1 <- lil_setElement x_Ones 0 2 (cast TyD 0%Q) ;;
  x_C_6 <- t_mxm TyD (acc TyD qplus) (mkSr qplus qtimes TyD) (MSComp x_Ones_1) MERGE x_C_5 (Mat
    x_Ones_1) (Mat x_Ones_1) ;;
  x_Ones_2 <- lil_setElement x_Ones_1 0 2 (cast TyD 1%Q) ;;
  x_q_2 <- meq x_C_6 x_Ones_2 ;;
  _ <- check x_q_2 ;;
  x_C_7 <- lil_assign x_C_6 x_Ones_2 ;;
  x_C_8 <- t_mxm TyD (acc TyD qplus) (mkSr qplus qtimes TyD) (MSComp x_MNotLower_1) REPLACE x_C_7
    (Mat x_Empty) (Mat x_Ones_2) ;;
  x_t <- mdense0 TyD d_Lower_3x3 0%Q ;;
  x_q_3 <- meq x_C_8 x_t ;;
  _ <- check x_q_3 ;;
  x_C_9 <- lil_assign x_C_8 x_Ones_2 ;;
  x_C_10 <- t_mxm TyD (acc TyD qplus) (mkSr qplus qtimes TyD) (MSComp x_MNotLower_1) REPLACE x_C_9
    (Mat x_Ones_2) (Mat x_Empty) ;;
  x_t_1 <- mdense0 TyD d_Lower_3x3 0%Q ;;
  x_q_4 <- meq x_C_10 x_t_1 ;;
  _ <- check x_q_4 ;;
  x_C_11 <- lil_assign x_C_10 x_Ones_2 ;;
  x_Ones_3 <- lil_setElement x_Ones_2 0 2 (cast TyD 0%Q) ;;
  x_C_12 <- t_mxm TyD (acc TyD qplus) (mkSr qplus qtimes TyD) (MSComp x_Ones_3) REPLACE x_C_11 (Mat
    x_Ones_3) (Mat x_Empty) ;;
  x_q_5 <- meq x_C_12 x_Empty ;;
  _ <- check x_q_5 ;;
  Ok tt) = Ok tt.
Proof. vm_compute. reflexivity. Qed.

(** test_mxm_AB.cpp:4594-4645, optimized_sequential platform *)
Example test_mxm_CompStructMask_Accum_ABM_empty_opt :
 (x_Empty <- mnew 3 3 ;;
  x_Ones <- mdense0 TyD d_Ones_3x3 0%Q ;;
  x_C <- mnew 3 3 ;;
  x_MNotLower <- mdense0 TyB d_NotLowerBool_3x3 0%Q ;;
  x_MNotLower_1 <- lil_setElement x_MNotLower 0 2 (cast TyB 0%Q) ;;
  x_C_1 <- lil_assign x_C x_Ones ;;
  x_C_2 <- t_opt_mxm TyD (acc TyD qplus) TyD (mkSr qplus qtimes TyD) (MSComp (Other x_MNotLower_1))
    MERGE x_C_1 (OMat (Other x_Empty)) (OMat (Other x_Ones)) ;;
  x_q <- meq x_C_2 x_Ones ;;
  _ <- check x_q ;;
  x_C_3 <- lil_assign x_C_2 x_Ones ;;
  x_C_4 <- t_opt_mxm TyD (acc TyD qplus) TyD (mkSr qplus qtimes TyD) (MSComp (Other x_MNotLower_1))
    MERGE x_C_3 (OMat (Other x_Ones)) (OMat (Other x_Empty)) ;;
  x_q_1 <- meq x_C_4 x_Ones ;;
  _ <- check x_q_1 ;;
  x_C_5 <- lil_assign x_C_4 x_Ones ;;
  x_Ones_1 <- lil_setElement x_Ones 0 2 (cast TyD 0%Q) ;;
  x_C_6 <- t_opt_mxm TyD (acc TyD qplus) TyD (mkSr qplus qtimes TyD) (MSComp (Other x_Ones_1)) MERGE
    x_C_5 (OMat (Other x_Ones_1)) (OMat (Other x_Ones_1)) ;;
  x_Ones_2 <- lil_setElement x_Ones_1 0 2 (cast TyD 1%Q) ;;
  x_q_2 <- meq x_C_6 x_Ones_2 ;;
  _ <- check x_q_2 ;;
  x_C_7 <- lil_assign x_C_6 x_Ones_2 ;;
  x_C_8 <- t_opt_mxm TyD (acc TyD qplus) TyD (mkSr qplus qtimes TyD) (MSComp (Other x_MNotLower_1))
    REPLACE x_C_7 (OMat (Other x_Empty)) (OMat (Other x_Ones_2)) ;;
  x_t <- mdense0 TyD d_Lower_3x3 0%Q ;;
  x_q_3 <- meq x_C_8 x_t ;;
  _ <- check x_q_3 ;;
  x_C_9 <- lil_assign x_C_8 x_Ones_2 ;;
  x_C_10 <- t_opt_mxm TyD (acc TyD qplus) TyD (mkSr qplus qtimes TyD) (MSComp (Other x_MNotLower_1))
    REPLACE x_C_9 (OMat (Other x_Ones_2)) (OMat (Other x_Empty)) ;;
  x_t_1 <- mdense0 TyD d_Lower_3x3 0%Q ;;
  x_q_4 <- meq x_C_10 x_t_1 ;;
  _ <- check x_q_4 ;;
  x_C_11 <- lil_assign x_C_10 x_Ones_2 ;;
  x_Ones_3 <- lil_setElement x_Ones_2 0 2 (cast TyD 0%Q) ;;
  x_C_12 <- t_opt_mxm TyD (acc TyD qplus) TyD (mkSr qplus qtimes TyD) (MSComp (Other x_Ones_3))
    REPLACE x_C_11 (OMat (Other x_Ones_3)) (OMat (Other x_Empty)) ;;
  x_q_5 <- meq x_C_12 x_Empty ;;
  _ <- check x_q_5 ;;
  Ok tt) = Ok tt.
Proof. vm_compute. reflexivity. Qed.

(** test_mxm_AB.cpp:4648-4690 *)
Example test_mxm_CompStructMask_Accum_AB_emptyRowA_emptyColB :
 (x_A <- mdense0 TyD [[8; 1; 6]; [0; 0; 0]; [4; 9; 2]]%Q 0%Q ;;
  x_B <- mdense0 TyD [[0; 0; 0; 1]; [1; 0; 1; 1]; [0; 0; 1; 1]]%Q 0%Q ;;
  x_MNotLower <- mdense0 TyD d_NotLower_3x4 0%Q ;;
  x_MNotLower_1 <- lil_setElement x_MNotLower 0 2 (cast TyD 0%Q) ;;
  x_Ones <- mdense0 TyD d_Ones_3x4 0%Q ;;
  x_C <- mnew 3 4 ;;
  x_answer <- mdense0 TyD [[2; 0; 0; 0]; [1; 1; 0; 0]; [10; 1; 12; 0]]%Q 0%Q ;;
  x_C_1 <- lil_assign x_C x_Ones ;;
  x_C_2 <- t_mxm TyD (acc TyD qplus) (mkSr qplus qtimes TyD) (MSComp x_MNotLower_1) REPLACE x_C_1
    (Mat x_A) (Mat x_B) ;;
  x_q <- meq x_C_2 x_answer ;;
  _ <- check x_q ;;
  x_answer2 <- mdense0 TyD [[2; 1; 1; 1]; [1; 1; 1; 1]; [10; 1; 12; 1]]%Q 0%Q ;;
  x_C_3 <- lil_assign x_C_2 x_Ones ;;
  x_C_4 <- t_mxm TyD (acc TyD qplus) (mkSr qplus qtimes TyD) (MSComp x_MNotLower_1) MERGE x_C_3 (Mat
    x_A) (Mat x_B) ;;
  x_q_1 <- meq x_C_4 x_answer2 ;;
  _ <- check x_q_1 ;;
  Ok tt) = Ok tt.
Proof. vm_compute. reflexivity. Qed.

(** test_mxm_AB.cpp:4648-4690, optimized_sequential platform *)
Example test_mxm_CompStructMask_Accum_AB_emptyRowA_emptyColB_opt :
 (x_A <- mdense0 TyD [[8; 1; 6]; [0; 0; 0]; [4; 9; 2]]%Q 0%Q ;;
  x_B <- mdense0 TyD [[0; 0; 0; 1]; [1; 0; 1; 1]; [0; 0; 1; 1]]%Q 0%Q ;;
  x_MNotLower <- mdense0 TyD d_NotLower_3x4 0%Q ;;
  x_MNotLower_1 <- lil_setElement x_MNotLower 0 2 (cast TyD 0%Q) ;;
  x_Ones <- mdense0 TyD d_Ones_3x4 0%Q ;;
  x_C <- mnew 3 4 ;;
  x_answer <- mdense0 TyD [[2; 0; 0; 0]; [1; 1; 0; 0]; [10; 1; 12; 0]]%Q 0%Q ;;
  x_C_1 <- lil_assign x_C x_Ones ;;
  x_C_2 <- t_opt_mxm TyD (acc TyD qplus) TyD (mkSr qplus qtimes TyD) (MSComp (Other x_MNotLower_1))
    REPLACE x_C_1 (OMat (Other x_A)) (OMat (Other x_B)) ;;
  x_q <- meq x_C_2 x_answer ;;
  _ <- check x_q ;;
  x_answer2 <- mdense0 TyD [[2; 1; 1; 1]; [1; 1; 1; 1]; [10; 1; 12; 1]]%Q 0%Q ;;
  x_C_3 <- lil_assign x_C_2 x_Ones ;;
  x_C_4 <- t_opt_mxm TyD (acc TyD qplus) TyD (mkSr qplus qtimes TyD) (MSComp (Other x_MNotLower_1))
    MERGE x_C_3 (OMat (Other x_A)) (OMat (Other x_B)) ;;
  x_q_1 <- meq x_C_4 x_answer2 ;;
  _ <- check x_q_1 ;;
  Ok tt) = Ok tt.
Proof. vm_compute. reflexivity. Qed.

(** test_mxm_AB.cpp:4693-4735 *)
Example test_mxm_CompStructMask_Accum_AB_emptyColA_emptyRowB :
 (x_A <- mdense0 TyD [[8; 0; 6]; [1; 0; 9]; [4; 0; 2]]%Q 0%Q ;;
  x_B <- mdense0 TyD [[0; 1; 0; 1]; [1; 0; 1; 1]; [0; 0; 0; 0]]%Q 0%Q ;;
  x_NotLower <- mdense0 TyD d_NotLower_3x4 0%Q ;;
  x_NotLower_1 <- lil_setElement x_NotLower 0 2 (cast TyD 0%Q) ;;
  x_Ones <- mdense0 TyD d_Ones_3x4 0%Q ;;
  x_C <- mnew 3 4 ;;
  x_answer <- mdense0 TyD [[1; 0; 0; 0]; [1; 2; 0; 0]; [1; 5; 1; 0]]%Q 0%Q ;;
  x_C_1 <- lil_assign x_C x_Ones ;;
  x_C_2 <- t_mxm TyD (acc TyD qplus) (mkSr qplus qtimes TyD) (MSComp x_NotLower_1) REPLACE x_C_1
    (Mat x_A) (Mat x_B) ;;
  x_q <- meq x_C_2 x_answer ;;
  _ <- check x_q ;;
  x_answer2 <- mdense0 TyD [[1; 1; 1; 1]; [1; 2; 1; 1]; [1; 5; 1; 1]]%Q 0%Q ;;
  x_C_3 <- lil_assign x_C_2 x_Ones ;;
  x_C_4 <- t_mxm TyD (acc TyD qplus) (mkSr qplus qtimes TyD) (MSComp x_NotLower_1) MERGE x_C_3 (Mat
    x_A) (Mat x_B) ;;
  x_q_1 <- meq x_C_4 x_answer2 ;;
  _ <- check x_q_1 ;;
  Ok tt) = Ok tt.
Proof. vm_compute. reflexivity. Qed.

(** test_mxm_AB.cpp:4693-4735, optimized_sequential platform *)
Example test_mxm_CompStructMask_Accum_AB_emptyColA_emptyRowB_opt :
 (x_A <- mdense0 TyD [[8; 0; 6]; [1; 0; 9]; [4; 0; 2]]%Q 0%Q ;;
  x_B <- mdense0 TyD [[0; 1; 0; 1]; [1; 0; 1; 1]; [0; 0; 0; 0]]%Q 0%Q ;;
  x_NotLower <- mdense0 TyD d_NotLower_3x4 0%Q ;;
  x_NotLower_1 <- lil_setElement x_NotLower 0 2 (cast TyD 0%Q) ;;
  x_Ones <- mdense0 TyD d_Ones_3x4 0%Q ;;
  x_C <- mnew 3 4 ;;
  x_answer <- mdense0 TyD [[1; 0; 0; 0]; [1; 2; 0; 0]; [1; 5; 1; 0]]%Q 0%Q ;;
  x_C_1 <- lil_assign x_C x_Ones ;;
  x_C_2 <- t_opt_mxm TyD (acc TyD qplus) TyD (mkSr qplus qtimes TyD) (MSComp (Other x_NotLower_1))
    REPLACE x_C_1 (OMat (Other x_A)) (OMat (Other x_B)) ;;
  x_q <- meq x_C_2 x_answer ;;
  _ <- check x_q ;;
  x_answer2 <- mdense0 TyD [[1; 1; 1; 1]; [1; 2; 1; 1]; [1; 5; 1; 1]]%Q 0%Q ;;
  x_C_3 <- lil_assign x_C_2 x_Ones ;;
  x_C_4 <- t_opt_mxm TyD (acc TyD qplus) TyD (mkSr qplus qtimes TyD) (MSComp (Other x_NotLower_1))
    MERGE x_C_3 (OMat (Other x_A)) (OMat (Other x_B)) ;;
  x_q_1 <- meq x_C_4 x_answer2 ;;
  _ <- check x_q_1 ;;
  Ok tt) = Ok tt.
Proof. vm_compute. reflexivity. Qed.

(** test_mxm_AB.cpp:4738-4781 *)
Example test_mxm_CompStructMask_Accum_AB_ABdup :
 (x_mat <- mdense0 TyD [[1; 1; 0; 0]; [1; 2; 2; 0]; [0; 2; 3; 3]; [0; 0; 3; 4]]%Q 0%Q ;;
  x_NotLower <- mdense0 TyD d_NotLower_4x4 0%Q ;;
  x_NotLower_1 <- lil_setElement x_NotLower 0 1 (cast TyD 0%Q) ;;
  x_Ones <- mdense0 TyD d_Ones_4x4 0%Q ;;
  x_C <- mnew 4 4 ;;
  x_answer <- mdense0 TyD [[3; 1; 1; 1]; [4; 10; 1; 1]; [3; 11; 23; 1]; [1; 7; 22; 26]]%Q 0%Q ;;
  x_C_1 <- lil_assign x_C x_Ones ;;
  x_C_2 <- t_mxm TyD (acc TyD qplus) (mkSr qplus qtimes TyD) (MSComp x_NotLower_1) MERGE x_C_1 (Mat
    x_mat) (Mat x_mat) ;;
  x_q <- meq x_C_2 x_answer ;;
  _ <- check x_q ;;
  x_answer2 <- mdense0 TyD [[3; 0; 0; 0]; [4; 10; 0; 0]; [3; 11; 23; 0]; [1; 7; 22; 26]]%Q 0%Q ;;
  x_C_3 <- lil_assign x_C_2 x_Ones ;;
  x_C_4 <- t_mxm TyD (acc TyD qplus) (mkSr qplus qtimes TyD) (MSComp x_NotLower_1) REPLACE x_C_3
    (Mat x_mat) (Mat x_mat) ;;
  x_q_1 <- meq x_C_4 x_answer2 ;;
  _ <- check x_q_1 ;;
  Ok tt) = Ok tt.
Proof. vm_compute. reflexivity. Qed.

(** test_mxm_AB.cpp:4738-4781, optimized_sequential platform *)
Example test_mxm_CompStructMask_Accum_AB_ABdup_opt :
 (x_mat <- mdense0 TyD [[1; 1; 0; 0]; [1; 2; 2; 0]; [0; 2; 3; 3]; [0; 0; 3; 4]]%Q 0%Q ;;
  x_NotLower <- mdense0 TyD d_NotLower_4x4 0%Q ;;
  x_NotLower_1 <- lil_setElement x_NotLower 0 1 (cast TyD 0%Q) ;;
  x_Ones <- mdense0 TyD d_Ones_4x4 0%Q ;;
  x_C <- mnew 4 4 ;;
  x_answer <- mdense0 TyD [[3; 1; 1; 1]; [4; 10; 1; 1]; [3; 11; 23; 1]; [1; 7; 22; 26]]%Q 0%Q ;;
  x_C_1 <- lil_assign x_C x_Ones ;;
  x_C_2 <- t_opt_mxm TyD (acc TyD qplus) TyD (mkSr qplus qtimes TyD) (MSComp (Other x_NotLower_1))
    MERGE x_C_1 (OMat (Other x_mat)) (OMat (Other x_mat)) ;;
  x_q <- meq x_C_2 x_answer ;;
  _ <- check x_q ;;
  x_answer2 <- mdense0 TyD [[3; 0; 0; 0]; [4; 10; 0; 0]; [3; 11; 23; 0]; [1; 7; 22; 26]]%Q 0%Q ;;
  x_C_3 <- lil_assign x_C_2 x_Ones ;;
  x_C_4 <- t_opt_mxm TyD (acc TyD qplus) TyD (mkSr qplus qtimes TyD) (MSComp (Other x_NotLower_1))
    REPLACE x_C_3 (OMat (Other x_mat)) (OMat (Other x_mat)) ;;
  x_q_1 <- meq x_C_4 x_answer2 ;;
  _ <- check x_q_1 ;;
  Ok tt) = Ok tt.
Proof. vm_compute. reflexivity. Qed.

(** test_mxm_AB.cpp:4784-4828 *)
Example test_mxm_CompStructMask_Accum_AB_ACdup :
 (x_mat <- mdense0 TyD [[1; 1; 0; 0]; [1; 2; 2; 0]; [0; 2; 3; 3]; [0; 0; 3; 4]]%Q 0%Q ;;
  x_NotLower <- mdense0 TyD d_NotLower_4x4 0%Q ;;
  x_NotLower_1 <- lil_setElement x_NotLower 0 1 (cast TyD 0%Q) ;;
  x_Ones <- mdense0 TyD d_Ones_4x4 0%Q ;;
  x_C <- mnew 4 4 ;;
  x_answer <- mdense0 TyD [[3; 1; 0; 0]; [4; 11; 2; 0]; [2; 12; 25; 3]; [0; 6; 24; 29]]%Q 0%Q ;;
  x_C_1 <- lil_assign x_C x_mat ;;
  x_C_2 <- t_mxm TyD (acc TyD qplus) (mkSr qplus qtimes TyD) (MSComp x_NotLower_1) MERGE x_C_1 (Mat
    x_C_1) (Mat x_mat) ;;
  x_q <- meq x_C_2 x_answer ;;
  _ <- check x_q ;;
  x_answer2 <- mdense0 TyD [[3; 0; 0; 0]; [4; 11; 0; 0]; [2; 12; 25; 0]; [0; 6; 24; 29]]%Q 0%Q ;;
  x_C_3 <- lil_assign x_C_2 x_mat ;;
  x_C_4 <- t_mxm TyD (acc TyD qplus) (mkSr qplus qtimes TyD) (MSComp x_NotLower_1) REPLACE x_C_3
    (Mat x_C_3) (Mat x_mat) ;;
  x_q_1 <- meq x_C_4 x_answer2 ;;
  _ <- check x_q_1 ;;
  Ok tt) = Ok tt.
Proof. vm_compute. reflexivity. Qed.

(** test_mxm_AB.cpp:4784-4828, optimized_sequential platform *)
Example test_mxm_CompStructMask_Accum_AB_ACdup_opt :
 (x_mat <- mdense0 TyD [[1; 1; 0; 0]; [1; 2; 2; 0]; [0; 2; 3; 3]; [0; 0; 3; 4]]%Q 0%Q ;;
  x_NotLower <- mdense0 TyD d_NotLower_4x4 0%Q ;;
  x_NotLower_1 <- lil_setElement x_NotLower 0 1 (cast TyD 0%Q) ;;
  x_Ones <- mdense0 TyD d_Ones_4x4 0%Q ;;
  x_C <- mnew 4 4 ;;
  x_answer <- mdense0 TyD [[3; 1; 0; 0]; [4; 11; 2; 0]; [2; 12; 25; 3]; [0; 6; 24; 29]]%Q 0%Q ;;
  x_C_1 <- lil_assign x_C x_mat ;;
  x_C_2 <- t_opt_mxm TyD (acc TyD qplus) TyD (mkSr qplus qtimes TyD) (MSComp (Other x_NotLower_1))
    MERGE x_C_1 (OMat (TheOutput (fun x => x))) (OMat (Other x_mat)) ;;
  x_q <- meq x_C_2 x_answer ;;
  _ <- check x_q ;;
  x_answer2 <- mdense0 TyD [[3; 0; 0; 0]; [4; 11; 0; 0]; [2; 12; 25; 0]; [0; 6; 24; 29]]%Q 0%Q ;;
  x_C_3 <- lil_assign x_C_2 x_mat ;;
  x_C_4 <- t_opt_mxm TyD (acc TyD qplus) TyD (mkSr qplus qtimes TyD) (MSComp (Other x_NotLower_1))
    REPLACE x_C_3 (OMat (TheOutput (fun x => x))) (OMat (Other x_mat)) ;;
  x_q_1 <- meq x_C_4 x_answer2 ;;
  _ <- check x_q_1 ;;
  Ok tt) = Ok tt.
Proof. vm_compute. reflexivity. Qed.

(** test_mxm_AB.cpp:4831-4883 *)
Example test_mxm_CompStructMask_Accum_AB_BCdup :
 (x_mat <- mdense0 TyD [[1; 1; 0; 0]; [1; 2; 2; 0]; [0; 2; 3; 3]; [0; 0; 3; 4]]%Q 0%Q ;;
  x_NotLower <- mdense0 TyD d_NotLower_4x4 0%Q ;;
  x_NotLower_1 <- lil_setElement x_NotLower 0 1 (cast TyD 0%Q) ;;
  x_Ones <- mdense0 TyD d_Ones_4x4 0%Q ;;
  x_C <- mnew 4 4 ;;
  x_answer <- mdense0 TyD [[3; 1; 0; 0]; [4; 11; 2; 0]; [2; 12; 25; 3]; [0; 6; 24; 29]]%Q 0%Q ;;
  x_C_1 <- lil_assign x_C x_mat ;;
  x_C_2 <- t_mxm TyD (acc TyD qplus) (mkSr qplus qtimes TyD) (MSComp x_NotLower_1) MERGE x_C_1 (Mat
    x_mat) (Mat x_C_1) ;;
  x_q <- meq x_C_2 x_answer ;;
  _ <- check x_q ;;
  x_C_3 <- lil_assign x_C_2 x_mat ;;
  x_C_4 <- t_mxm TyD (acc TyD qplus) (mkSr qplus qtimes TyD) (MSComp x_NotLower_1) MERGE x_C_3 (Mat
    x_mat) (Mat x_mat) ;;
  x_q_1 <- meq x_C_4 x_answer ;;
  _ <- check x_q_1 ;;
  x_answer2 <- mdense0 TyD [[3; 0; 0; 0]; [4; 11; 0; 0]; [2; 12; 25; 0]; [0; 6; 24; 29]]%Q 0%Q ;;
  x_C_5 <- lil_assign x_C_4 x_mat ;;
  x_C_6 <- t_mxm TyD (acc TyD qplus) (mkSr qplus qtimes TyD) (MSComp x_NotLower_1) REPLACE x_C_5
    (Mat x_mat) (Mat x_C_5) ;;
  x_q_2 <- meq x_C_6 x_answer2 ;;
  _ <- check x_q_2 ;;
  Ok tt) = Ok tt.
Proof. vm_compute. reflexivity. Qed.

(** test_mxm_AB.cpp:4831-4883, optimized_sequential platform *)
Example test_mxm_CompStructMask_Accum_AB_BCdup_opt :
 (x_mat <- mdense0 TyD [[1; 1; 0; 0]; [1; 2; 2; 0]; [0; 2; 3; 3]; [0; 0; 3; 4]]%Q 0%Q ;;
  x_NotLower <- mdense0 TyD d_NotLower_4x4 0%Q ;;
  x_NotLower_1 <- lil_setElement x_NotLower 0 1 (cast TyD 0%Q) ;;
  x_Ones <- mdense0 TyD d_Ones_4x4 0%Q ;;
  x_C <- mnew 4 4 ;;
  x_answer <- mdense0 TyD [[3; 1; 0; 0]; [4; 11; 2; 0]; [2; 12; 25; 3]; [0; 6; 24; 29]]%Q 0%Q ;;
  x_C_1 <- lil_assign x_C x_mat ;;
  x_C_2 <- t_opt_mxm TyD (acc TyD qplus) TyD (mkSr qplus qtimes TyD) (MSComp (Other x_NotLower_1))
    MERGE x_C_1 (OMat (Other x_mat)) (OMat (TheOutput (fun x => x))) ;;
  x_q <- meq x_C_2 x_answer ;;
  _ <- check x_q ;;
  x_C_3 <- lil_assign x_C_2 x_mat ;;
  x_C_4 <- t_opt_mxm TyD (acc TyD qplus) TyD (mkSr qplus qtimes TyD) (MSComp (Other x_NotLower_1))
    MERGE x_C_3 (OMat (Other x_mat)) (OMat (Other x_mat)) ;;
  x_q_1 <- meq x_C_4 x_answer ;;
  _ <- check x_q_1 ;;
  x_answer2 <- mdense0 TyD [[3; 0; 0; 0]; [4; 11; 0; 0]; [2; 12; 25; 0]; [0; 6; 24; 29]]%Q 0%Q ;;
  x_C_5 <- lil_assign x_C_4 x_mat ;;
  x_C_6 <- t_opt_mxm TyD (acc TyD qplus) TyD (mkSr qplus qtimes TyD) (MSComp (Other x_NotLower_1))
    REPLACE x_C_5 (OMat (Other x_mat)) (OMat (TheOutput (fun x => x))) ;;
  x_q_2 <- meq x_C_6 x_answer2 ;;
  _ <- check x_q_2 ;;
  Ok tt) = Ok tt.
Proof. vm_compute. reflexivity. Qed.

(** test_mxm_AB.cpp:4886-4926 *)
Example test_mxm_CompStructMask_Accum_AB_MCdup :
 (x_mat <- mdense0 TyD d_Symmetric_4x4 0%Q ;;
  x_NotLower <- mdense0 TyD d_NotLower_4x4 0%Q ;;
  x_NotLower_1 <- lil_setElement x_NotLower 0 1 (cast TyD 0%Q) ;;
  x_C <- mnew 4 4 ;;
  x_answer <- mdense0 TyD [[2; 0; 1; 1]; [3; 9; 1; 1]; [2; 10; 22; 1]; [99; 6; 21; 25]]%Q 99%Q ;;
  x_C_1 <- lil_assign x_C x_NotLower_1 ;;
  x_NotLower_2 <- lil_setElement x_NotLower_1 0 1 (cast TyD 0%Q) ;;
  x_C_2 <- t_mxm TyD (acc TyD qplus) (mkSr qplus qtimes TyD) (MSComp x_C_1) MERGE x_C_1 (Mat x_mat)
    (Mat x_mat) ;;
  x_NotLower_3 <- lil_setElement x_NotLower_2 0 1 (cast TyD 1%Q) ;;
  x_q <- meq x_C_2 x_answer ;;
  _ <- check x_q ;;
  x_answer2 <- mdense0 TyD [[2; 0; 0; 0]; [3; 9; 0; 0]; [2; 10; 22; 0]; [0; 6; 21; 25]]%Q 0%Q ;;
  x_C_3 <- lil_assign x_C_2 x_NotLower_3 ;;
  x_C_4 <- t_mxm TyD (acc TyD qplus) (mkSr qplus qtimes TyD) (MSComp x_C_3) REPLACE x_C_3 (Mat
    x_mat) (Mat x_mat) ;;
  x_q_1 <- meq x_C_4 x_answer2 ;;
  _ <- check x_q_1 ;;
  Ok tt) = Ok tt.
Proof. vm_compute. reflexivity. Qed.

(** test_mxm_AB.cpp:4886-4926, optimized_sequential platform *)
Example test_mxm_CompStructMask_Accum_AB_MCdup_opt :
 (x_mat <- mdense0 TyD d_Symmetric_4x4 0%Q ;;
  x_NotLower <- mdense0 TyD d_NotLower_4x4 0%Q ;;
  x_NotLower_1 <- lil_setElement x_NotLower 0 1 (cast TyD 0%Q) ;;
  x_C <- mnew 4 4 ;;
  x_answer <- mdense0 TyD [[2; 0; 1; 1]; [3; 9; 1; 1]; [2; 10; 22; 1]; [99; 6; 21; 25]]%Q 99%Q ;;
  x_C_1 <- lil_assign x_C x_NotLower_1 ;;
  x_NotLower_2 <- lil_setElement x_NotLower_1 0 1 (cast TyD 0%Q) ;;
  x_C_2 <- t_opt_mxm TyD (acc TyD qplus) TyD (mkSr qplus qtimes TyD) (MSComp (TheOutput (fun x =>
    x))) MERGE x_C_1 (OMat (Other x_mat)) (OMat (Other x_mat)) ;;
  x_NotLower_3 <- lil_setElement x_NotLower_2 0 1 (cast TyD 1%Q) ;;
  x_q <- meq x_C_2 x_answer ;;
  _ <- check x_q ;;
  x_answer2 <- mdense0 TyD [[2; 0; 0; 0]; [3; 9; 0; 0]; [2; 10; 22; 0]; [0; 6; 21; 25]]%Q 0%Q ;;
  x_C_3 <- lil_assign x_C_2 x_NotLower_3 ;;
  x_C_4 <- t_opt_mxm TyD (acc TyD qplus) TyD (mkSr qplus qtimes TyD) (MSComp (TheOutput (fun x =>
    x))) REPLACE x_C_3 (OMat (Other x_mat)) (OMat (Other x_mat)) ;;
  x_q_1 <- meq x_C_4 x_answer2 ;;
  _ <- check x_q_1 ;;
  Ok tt) = Ok tt.
Proof. vm_compute. reflexivity. Qed.

(** test_mxm_AB.cpp:4929-4951 *)
Example test_mxm_CompStructMask_Accum_AB_Replace_Cones_Mnlower :
 (x_A <- mdense0 TyD d_A_dense_3x3 0%Q ;;
  x_B <- mdense0 TyD d_B_dense_3x4 0%Q ;;
  x_M <- mdense0 TyD d_NotLower_3x4 0%Q ;;
  x_M_1 <- lil_setElement x_M 0 1 (cast TyD 0%Q) ;;
  _ <- check (Qeq_bool (inject_Z (nvals x_M_1)) 6%Q) ;;
  x_result <- mdense0 TyD d_Ones_3x4 0%Q ;;
  x_answer <- mdense0 TyD [[114; 0; 0; 0]; [74; 97; 0; 0]; [119; 157; 112; 0]]%Q 0%Q ;;
  x_result_1 <- t_mxm TyD (acc TyD qsecond) (mkSr qplus qtimes TyD) (MSComp x_M_1) REPLACE x_result
    (Mat x_A) (Mat x_B) ;;
  _ <- check (Qeq_bool (inject_Z (nvals x_result_1)) 6%Q) ;;
  x_q <- meq x_result_1 x_answer ;;
  _ <- check x_q ;;
  Ok tt) = Ok tt.
Proof. vm_compute. reflexivity. Qed.

(** test_mxm_AB.cpp:4929-4951, optimized_sequential platform *)
Example test_mxm_CompStructMask_Accum_AB_Replace_Cones_Mnlower_opt :
 (x_A <- mdense0 TyD d_A_dense_3x3 0%Q ;;
  x_B <- mdense0 TyD d_B_dense_3x4 0%Q ;;
  x_M <- mdense0 TyD d_NotLower_3x4 0%Q ;;
  x_M_1 <- lil_setElement x_M 0 1 (cast TyD 0%Q) ;;
  _ <- check (Qeq_bool (inject_Z (nvals x_M_1)) 6%Q) ;;
  x_result <- mdense0 TyD d_Ones_3x4 0%Q ;;
  x_answer <- mdense0 TyD [[114; 0; 0; 0]; [74; 97; 0; 0]; [119; 157; 112; 0]]%Q 0%Q ;;
  x_result_1 <- t_opt_mxm TyD (acc TyD qsecond) TyD (mkSr qplus qtimes TyD) (MSComp (Other x_M_1))
    REPLACE x_result (OMat (Other x_A)) (OMat (Other x_B)) ;;
  _ <- check (Qeq_bool (inject_Z (nvals x_result_1)) 6%Q) ;;
  x_q <- meq x_result_1 x_answer ;;
  _ <- check x_q ;;
  Ok tt) = Ok tt.
Proof. vm_compute. reflexivity. Qed.

(** test_mxm_AB.cpp:4954-4975 *)
Example test_mxm_CompStructMask_Accum_AB_Merge :
 (x_A <- mdense0 TyD d_A_dense_3x3 0%Q ;;
  x_B <- mdense0 TyD d_B_dense_3x4 0%Q ;;
  x_M <- mdense0 TyD d_NotLower_3x4 0%Q ;;
  x_M_1 <- lil_setElement x_M 0 1 (cast TyD 0%Q) ;;
  _ <- check (Qeq_bool (inject_Z (nvals x_M_1)) 6%Q) ;;
  x_result <- mdense0 TyD d_Ones_3x4 0%Q ;;
  x_answer <- mdense0 TyD [[114; 1; 1; 1]; [74; 97; 1; 1]; [119; 157; 112; 1]]%Q 0%Q ;;
  x_result_1 <- t_mxm TyD (acc TyD qsecond) (mkSr qplus qtimes TyD) (MSComp x_M_1) MERGE x_result
    (Mat x_A) (Mat x_B) ;;
  _ <- check (Qeq_bool (inject_Z (nvals x_result_1)) 12%Q) ;;
  x_q <- meq x_result_1 x_answer ;;
  _ <- check x_q ;;
  Ok tt) = Ok tt.
Proof. vm_compute. reflexivity. Qed.

(** test_mxm_AB.cpp:4954-4975, optimized_sequential platform *)
Example test_mxm_CompStructMask_Accum_AB_Merge_opt :
 (x_A <- mdense0 TyD d_A_dense_3x3 0%Q ;;
  x_B <- mdense0 TyD d_B_dense_3x4 0%Q ;;
  x_M <- mdense0 TyD d_NotLower_3x4 0%Q ;;
  x_M_1 <- lil_setElement x_M 0 1 (cast TyD 0%Q) ;;
  _ <- check (Qeq_bool (inject_Z (nvals x_M_1)) 6%Q) ;;
  x_result <- mdense0 TyD d_Ones_3x4 0%Q ;;
  x_answer <- mdense0 TyD [[114; 1; 1; 1]; [74; 97; 1; 1]; [119; 157; 112; 1]]%Q 0%Q ;;
  x_result_1 <- t_opt_mxm TyD (acc TyD qsecond) TyD (mkSr qplus qtimes TyD) (MSComp (Other x_M_1))
    MERGE x_result (OMat (Other x_A)) (OMat (Other x_B)) ;;
  _ <- check (Qeq_bool (inject_Z (nvals x_result_1)) 12%Q) ;;
  x_q <- meq x_result_1 x_answer ;;
  _ <- check x_q ;;
  Ok tt) = Ok tt.
Proof. vm_compute. reflexivity. Qed.

(** test_mxm_AB.cpp:4978-5004 *)
Example test_mxm_CompStructMask_Accum_AB_Merge_ABdup :
 (x_mat <- mdense0 TyD [[1; 1; 0; 0]; [1; 2; 2; 0]; [0; 2; 3; 3]; [0; 0; 3; 4]]%Q 0%Q ;;
  x_result <- mdense0 TyD d_Ones_4x4 0%Q ;;
  x_answer <- mdense0 TyD [[2; 1; 1; 1]; [3; 9; 1; 1]; [2; 10; 22; 1]; [0; 6; 21; 25]]%Q 0%Q ;;
  x_M <- mdense0 TyD d_NotLower_4x4 0%Q ;;
  x_M_1 <- lil_setElement x_M 0 1 (cast TyD 0%Q) ;;
  x_result_1 <- t_mxm TyD noacc (mkSr qplus qtimes TyD) (MSComp x_M_1) MERGE x_result (Mat x_mat)
    (Mat x_mat) ;;
  x_q <- meq x_result_1 x_answer ;;
  _ <- check x_q ;;
  Ok tt) = Ok tt.
Proof. vm_compute. reflexivity. Qed.

(** test_mxm_AB.cpp:4978-5004, optimized_sequential platform *)
Example test_mxm_CompStructMask_Accum_AB_Merge_ABdup_opt :
 (x_mat <- mdense0 TyD [[1; 1; 0; 0]; [1; 2; 2; 0]; [0; 2; 3; 3]; [0; 0; 3; 4]]%Q 0%Q ;;
  x_result <- mdense0 TyD d_Ones_4x4 0%Q ;;
  x_answer <- mdense0 TyD [[2; 1; 1; 1]; [3; 9; 1; 1]; [2; 10; 22; 1]; [0; 6; 21; 25]]%Q 0%Q ;;
  x_M <- mdense0 TyD d_NotLower_4x4 0%Q ;;
  x_M_1 <- lil_setElement x_M 0 1 (cast TyD 0%Q) ;;
  x_result_1 <- t_opt_mxm TyD noacc TyD (mkSr qplus qtimes TyD) (MSComp (Other x_M_1)) MERGE
    x_result (OMat (Other x_mat)) (OMat (Other x_mat)) ;;
  x_q <- meq x_result_1 x_answer ;;
  _ <- check x_q ;;
  Ok tt) = Ok tt.
Proof. vm_compute. reflexivity. Qed.
