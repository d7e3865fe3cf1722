(** The tests of /repo/src/test/test_mxm.cpp, run on the model.  Generated translation. *)
From Verif Require Import TestRun.

Definition d_mA_dense_3x3 : list (list Q) :=
  [[12; 7; 3];
   [4; 5; 6];
   [7; 8; 9]]%Q.
Definition d_mAT_dense_3x3 : list (list Q) :=
  [[12; 4; 7];
   [7; 5; 8];
   [3; 6; 9]]%Q.
Definition d_mB_dense_3x4 : list (list Q) :=
  [[5; 8; 1; 2];
   [6; 7; 3; 0];
   [4; 5; 9; 1]]%Q.
Definition d_mAnswer_dense : list (list Q) :=
  [[114; 160; 60; 27];
   [74; 97; 73; 14];
   [119; 157; 112; 23]]%Q.
Definition d_mAnswer_plus1_dense : list (list Q) :=
  [[115; 161; 61; 28];
   [75; 98; 74; 15];
   [120; 158; 113; 24]]%Q.
Definition d_mA_sparse_3x3 : list (list Q) :=
  [[(123 # 10); (15 # 2); 0];
   [0; (-26 # 5); 0];
   [7; 0; 9]]%Q.
Definition d_mB_sparse_3x4 : list (list Q) :=
  [[5; (17 # 2); 0; (-21 # 10)];
   [0; (-7); (19 # 5); 0];
   [4; 0; 0; (13 # 10)]]%Q.
Definition d_mAmA_answer_sparse : list (list Q) :=
  [[(15129 # 100); (213 # 4); 0];
   [0; (676 # 25); 0];
   [(1491 # 10); (105 # 2); 81]]%Q.
Definition d_mAnswer_sparse : list (list Q) :=
  [[(123 # 2); (1041 # 20); (57 # 2); (-2583 # 100)];
   [0; (182 # 5); (-494 # 25); 0];
   [71; (119 # 2); 0; (-3)]]%Q.
Definition d_mOnes_4x4 : list (list Q) :=
  [[1; 1; 1; 1];
   [1; 1; 1; 1];
   [1; 1; 1; 1];
   [1; 1; 1; 1]]%Q.
Definition d_mOnes_3x4 : list (list Q) :=
  [[1; 1; 1; 1];
   [1; 1; 1; 1];
   [1; 1; 1; 1]]%Q.
Definition d_mOnes_3x3 : list (list Q) :=
  [[1; 1; 1];
   [1; 1; 1];
   [1; 1; 1]]%Q.
Definition d_mIdentity_3x3 : list (list Q) :=
  [[1; 0; 0];
   [0; 1; 0];
   [0; 0; 1]]%Q.
Definition d_mLowerMask_3x4 : list (list Q) :=
  [[1; 0; 0; 0];
   [1; (1 # 2); 0; 0];
   [1; (-1); (3 # 2); 0]]%Q.
Definition d_mLowerBoolMask_3x4 : list (list Q) :=
  [[1; 0; 0; 0];
   [1; 1; 0; 0];
   [1; 1; 1; 0]]%Q.
Definition d_mLowerBoolMask_3x3 : list (list Q) :=
  [[1; 0; 0];
   [1; 1; 0];
   [1; 1; 1]]%Q.

(** test_mxm.cpp:159-273 *)
Example test_mxm_bad_dimensions :
 (x_mA <- mdense0 TyD d_mA_dense_3x3 0%Q ;;
  x_mB <- mdense0 TyD d_mB_dense_3x4 0%Q ;;
  x_result3x4 <- mnew 3 4 ;;
  x_result3x3 <- mnew 3 3 ;;
  x_ones3x4 <- mdense0 TyD d_mOnes_3x4 0%Q ;;
  x_mMask <- mdense0 TyD [[1; 0; 0]; [1; 1; 0]; [1; 1; 1]]%Q 0%Q ;;
  _ <- check (Qeq_bool (inject_Z (nvals x_mMask)) 6%Q) ;;
  _ <- throws DimensionException (t_mxm TyD noacc (mkSr qplus qtimes TyD) NoMask MERGE x_result3x4
    (Mat x_mB) (Mat x_mA)) ;;
  _ <- throws DimensionException (t_mxm TyD noacc (mkSr qplus qtimes TyD) NoMask MERGE x_result3x3
    (Mat x_mA) (Mat x_mB)) ;;
  _ <- throws DimensionException (t_mxm TyD (acc TyD qsecond) (mkSr qplus qtimes TyD) NoMask MERGE
    x_result3x4 (Mat x_mB) (Mat x_mA)) ;;
  _ <- throws DimensionException (t_mxm TyD (acc TyD qsecond) (mkSr qplus qtimes TyD) NoMask MERGE
    x_result3x3 (Mat x_mA) (Mat x_mB)) ;;
  _ <- throws DimensionException (t_mxm TyD noacc (mkSr qplus qtimes TyD) (MVal x_mMask) REPLACE
    x_ones3x4 (Mat x_mA) (Mat x_mB)) ;;
  _ <- throws DimensionException (t_mxm TyD (acc TyD qsecond) (mkSr qplus qtimes TyD) (MVal x_mMask)
    REPLACE x_ones3x4 (Mat x_mA) (Mat x_mB)) ;;
  _ <- throws DimensionException (t_mxm TyD (acc TyD qsecond) (mkSr qplus qtimes TyD) (MVal x_mMask)
    MERGE x_ones3x4 (Mat x_mA) (Mat x_mB)) ;;
  _ <- throws DimensionException (t_mxm TyD noacc (mkSr qplus qtimes TyD) (MComp x_mMask) REPLACE
    x_ones3x4 (Mat x_mA) (Mat x_mB)) ;;
  _ <- throws DimensionException (t_mxm TyD noacc (mkSr qplus qtimes TyD) (MComp x_mMask) MERGE
    x_result3x4 (Mat x_mA) (Mat x_mB)) ;;
  _ <- throws DimensionException (t_mxm TyD (acc TyD qsecond) (mkSr qplus qtimes TyD) (MComp
    x_mMask) REPLACE x_ones3x4 (Mat x_mA) (Mat x_mB)) ;;
  _ <- throws DimensionException (t_mxm TyD (acc TyD qsecond) (mkSr qplus qtimes TyD) (MComp
    x_mMask) MERGE x_result3x4 (Mat x_mA) (Mat x_mB)) ;;
  Ok tt) = Ok tt.
Proof. vm_compute. reflexivity. Qed.

(** test_mxm.cpp:159-273, optimized_sequential platform *)
Example test_mxm_bad_dimensions_opt :
 (x_mA <- mdense0 TyD d_mA_dense_3x3 0%Q ;;
  x_mB <- mdense0 TyD d_mB_dense_3x4 0%Q ;;
  x_result3x4 <- mnew 3 4 ;;
  x_result3x3 <- mnew 3 3 ;;
  x_ones3x4 <- mdense0 TyD d_mOnes_3x4 0%Q ;;
  x_mMask <- mdense0 TyD [[1; 0; 0]; [1; 1; 0]; [1; 1; 1]]%Q 0%Q ;;
  _ <- check (Qeq_bool (inject_Z (nvals x_mMask)) 6%Q) ;;
  _ <- throws DimensionException (t_opt_mxm TyD noacc TyD (mkSr qplus qtimes TyD) NoMask MERGE
    x_result3x4 (OMat (Other x_mB)) (OMat (Other x_mA))) ;;
  _ <- throws DimensionException (t_opt_mxm TyD noacc TyD (mkSr qplus qtimes TyD) NoMask MERGE
    x_result3x3 (OMat (Other x_mA)) (OMat (Other x_mB))) ;;
  _ <- throws DimensionException (t_opt_mxm TyD (acc TyD qsecond) TyD (mkSr qplus qtimes TyD) NoMask
    MERGE x_result3x4 (OMat (Other x_mB)) (OMat (Other x_mA))) ;;
  _ <- throws DimensionException (t_opt_mxm TyD (acc TyD qsecond) TyD (mkSr qplus qtimes TyD) NoMask
    MERGE x_result3x3 (OMat (Other x_mA)) (OMat (Other x_mB))) ;;
  _ <- throws DimensionException (t_opt_mxm TyD noacc TyD (mkSr qplus qtimes TyD) (MVal (Other
    x_mMask)) REPLACE x_ones3x4 (OMat (Other x_mA)) (OMat (Other x_mB))) ;;
  _ <- throws DimensionException (t_opt_mxm TyD (acc TyD qsecond) TyD (mkSr qplus qtimes TyD) (MVal
    (Other x_mMask)) REPLACE x_ones3x4 (OMat (Other x_mA)) (OMat (Other x_mB))) ;;
  _ <- throws DimensionException (t_opt_mxm TyD (acc TyD qsecond) TyD (mkSr qplus qtimes TyD) (MVal
    (Other x_mMask)) MERGE x_ones3x4 (OMat (Other x_mA)) (OMat (Other x_mB))) ;;
  _ <- throws DimensionException (t_opt_mxm TyD noacc TyD (mkSr qplus qtimes TyD) (MComp (Other
    x_mMask)) REPLACE x_ones3x4 (OMat (Other x_mA)) (OMat (Other x_mB))) ;;
  _ <- throws DimensionException (t_opt_mxm TyD noacc TyD (mkSr qplus qtimes TyD) (MComp (Other
    x_mMask)) MERGE x_result3x4 (OMat (Other x_mA)) (OMat (Other x_mB))) ;;
  _ <- throws DimensionException (t_opt_mxm TyD (acc TyD qsecond) TyD (mkSr qplus qtimes TyD) (MComp
    (Other x_mMask)) REPLACE x_ones3x4 (OMat (Other x_mA)) (OMat (Other x_mB))) ;;
  _ <- throws DimensionException (t_opt_mxm TyD (acc TyD qsecond) TyD (mkSr qplus qtimes TyD) (MComp
    (Other x_mMask)) MERGE x_result3x4 (OMat (Other x_mA)) (OMat (Other x_mB))) ;;
  Ok tt) = Ok tt.
Proof. vm_compute. reflexivity. Qed.

(** test_mxm.cpp:307-323 *)
Example test_mxm_NoMask_NoAccum_AB_empty :
 (x_mZero <- mnew 3 3 ;;
  x_mOnes <- mdense0 TyD d_mOnes_3x3 0%Q ;;
  x_mC <- mdense0 TyD d_mOnes_3x3 0%Q ;;
  x_mD <- mdense0 TyD d_mOnes_3x3 0%Q ;;
  x_mC_1 <- t_mxm TyD noacc (mkSr qplus qtimes TyD) NoMask MERGE x_mC (Mat x_mZero) (Mat x_mOnes) ;;
  x_q <- meq x_mC_1 x_mZero ;;
  _ <- check x_q ;;
  x_mD_1 <- t_mxm TyD noacc (mkSr qplus qtimes TyD) NoMask MERGE x_mD (Mat x_mOnes) (Mat x_mZero) ;;
  x_q_1 <- meq x_mD_1 x_mZero ;;
  _ <- check x_q_1 ;;
  Ok tt) = Ok tt.
Proof. vm_compute. reflexivity. Qed.

(** test_mxm.cpp:307-323, optimized_sequential platform *)
Example test_mxm_NoMask_NoAccum_AB_empty_opt :
 (x_mZero <- mnew 3 3 ;;
  x_mOnes <- mdense0 TyD d_mOnes_3x3 0%Q ;;
  x_mC <- mdense0 TyD d_mOnes_3x3 0%Q ;;
  x_mD <- mdense0 TyD d_mOnes_3x3 0%Q ;;
  x_mC_1 <- t_opt_mxm TyD noacc TyD (mkSr qplus qtimes TyD) NoMask MERGE x_mC (OMat (Other x_mZero))
    (OMat (Other x_mOnes)) ;;
  x_q <- meq x_mC_1 x_mZero ;;
  _ <- check x_q ;;
  x_mD_1 <- t_opt_mxm TyD noacc TyD (mkSr qplus qtimes TyD) NoMask MERGE x_mD (OMat (Other x_mOnes))
    (OMat (Other x_mZero)) ;;
  x_q_1 <- meq x_mD_1 x_mZero ;;
  _ <- check x_q_1 ;;
  Ok tt) = Ok tt.
Proof. vm_compute. reflexivity. Qed.

(** test_mxm.cpp:326-355 *)
Example test_mxm_NoMask_NoAccum_AB_dense :
 (x_mA <- mnew 3 3 ;;
  x_mA_1 <- mbuild TyD qsecond x_mA [0; 0; 0; 1; 1; 1; 2; 2; 2] [0; 1; 2; 0; 1; 2; 0; 1; 2] [12; 7;
    3; 4; 5; 6; 7; 8; 9]%Q ;;
  x_mB <- mnew 3 4 ;;
  x_mB_1 <- mbuild TyD qsecond x_mB [0; 0; 0; 0; 1; 1; 1; 2; 2; 2; 2] [0; 1; 2; 3; 0; 1; 2; 0; 1; 2;
    3] [5; 8; 1; 2; 6; 7; 3; 4; 5; 9; 1]%Q ;;
  x_result <- mnew 3 4 ;;
  x_answer <- mnew 3 4 ;;
  x_answer_1 <- mbuild TyD qsecond x_answer [0; 0; 0; 0; 1; 1; 1; 1; 2; 2; 2; 2] [0; 1; 2; 3; 0; 1;
    2; 3; 0; 1; 2; 3] [114; 160; 60; 27; 74; 97; 73; 14; 119; 157; 112; 23]%Q ;;
  x_result_1 <- t_mxm TyD noacc (mkSr qplus qtimes TyD) NoMask MERGE x_result (Mat x_mA_1) (Mat
    x_mB_1) ;;
  x_q <- meq x_result_1 x_answer_1 ;;
  _ <- check x_q ;;
  Ok tt) = Ok tt.
Proof. vm_compute. reflexivity. Qed.

(** test_mxm.cpp:326-355, optimized_sequential platform *)
Example test_mxm_NoMask_NoAccum_AB_dense_opt :
 (x_mA <- mnew 3 3 ;;
  x_mA_1 <- mbuild TyD qsecond x_mA [0; 0; 0; 1; 1; 1; 2; 2; 2] [0; 1; 2; 0; 1; 2; 0; 1; 2] [12; 7;
    3; 4; 5; 6; 7; 8; 9]%Q ;;
  x_mB <- mnew 3 4 ;;
  x_mB_1 <- mbuild TyD qsecond x_mB [0; 0; 0; 0; 1; 1; 1; 2; 2; 2; 2] [0; 1; 2; 3; 0; 1; 2; 0; 1; 2;
    3] [5; 8; 1; 2; 6; 7; 3; 4; 5; 9; 1]%Q ;;
  x_result <- mnew 3 4 ;;
  x_answer <- mnew 3 4 ;;
  x_answer_1 <- mbuild TyD qsecond x_answer [0; 0; 0; 0; 1; 1; 1; 1; 2; 2; 2; 2] [0; 1; 2; 3; 0; 1;
    2; 3; 0; 1; 2; 3] [114; 160; 60; 27; 74; 97; 73; 14; 119; 157; 112; 23]%Q ;;
  x_result_1 <- t_opt_mxm TyD noacc TyD (mkSr qplus qtimes TyD) NoMask MERGE x_result (OMat (Other
    x_mA_1)) (OMat (Other x_mB_1)) ;;
  x_q <- meq x_result_1 x_answer_1 ;;
  _ <- check x_q ;;
  Ok tt) = Ok tt.
Proof. vm_compute. reflexivity. Qed.

(** test_mxm.cpp:358-382 *)
Example test_mxm_NoMask_NoAccum_AB_emptyRowA_emptyColB :
 (x_mA <- mdense0 TyD [[8; 1; 6]; [0; 0; 0]; [4; 9; 2]]%Q 0%Q ;;
  x_mB <- mdense0 TyD [[0; 0; 0; 1]; [1; 0; 1; 1]; [0; 0; 1; 1]]%Q 0%Q ;;
  x_result <- mnew 3 4 ;;
  x_answer <- mdense0 TyD [[1; 0; 7; 15]; [0; 0; 0; 0]; [9; 0; 11; 15]]%Q 0%Q ;;
  x_result_1 <- t_mxm TyD noacc (mkSr qplus qtimes TyD) NoMask MERGE x_result (Mat x_mA) (Mat x_mB)
    ;;
  x_q <- meq x_result_1 x_answer ;;
  _ <- check x_q ;;
  Ok tt) = Ok tt.
Proof. vm_compute. reflexivity. Qed.

(** test_mxm.cpp:358-382, optimized_sequential platform *)
Example test_mxm_NoMask_NoAccum_AB_emptyRowA_emptyColB_opt :
 (x_mA <- mdense0 TyD [[8; 1; 6]; [0; 0; 0]; [4; 9; 2]]%Q 0%Q ;;
  x_mB <- mdense0 TyD [[0; 0; 0; 1]; [1; 0; 1; 1]; [0; 0; 1; 1]]%Q 0%Q ;;
  x_result <- mnew 3 4 ;;
  x_answer <- mdense0 TyD [[1; 0; 7; 15]; [0; 0; 0; 0]; [9; 0; 11; 15]]%Q 0%Q ;;
  x_result_1 <- t_opt_mxm TyD noacc TyD (mkSr qplus qtimes TyD) NoMask MERGE x_result (OMat (Other
    x_mA)) (OMat (Other x_mB)) ;;
  x_q <- meq x_result_1 x_answer ;;
  _ <- check x_q ;;
  Ok tt) = Ok tt.
Proof. vm_compute. reflexivity. Qed.

(** test_mxm.cpp:385-409 *)
Example test_mxm_NoMask_NoAccum_AB_emptyColA_emptyRowB :
 (x_mA <- mdense0 TyD [[8; 0; 6]; [1; 0; 9]; [4; 0; 2]]%Q 0%Q ;;
  x_mB <- mdense0 TyD [[0; 1; 0; 1]; [1; 0; 1; 1]; [0; 0; 0; 0]]%Q 0%Q ;;
  x_result <- mnew 3 4 ;;
  x_answer <- mdense0 TyD [[0; 8; 0; 8]; [0; 1; 0; 1]; [0; 4; 0; 4]]%Q 0%Q ;;
  x_result_1 <- t_mxm TyD noacc (mkSr qplus qtimes TyD) NoMask MERGE x_result (Mat x_mA) (Mat x_mB)
    ;;
  x_q <- meq x_result_1 x_answer ;;
  _ <- check x_q ;;
  Ok tt) = Ok tt.
Proof. vm_compute. reflexivity. Qed.

(** test_mxm.cpp:385-409, optimized_sequential platform *)
Example test_mxm_NoMask_NoAccum_AB_emptyColA_emptyRowB_opt :
 (x_mA <- mdense0 TyD [[8; 0; 6]; [1; 0; 9]; [4; 0; 2]]%Q 0%Q ;;
  x_mB <- mdense0 TyD [[0; 1; 0; 1]; [1; 0; 1; 1]; [0; 0; 0; 0]]%Q 0%Q ;;
  x_result <- mnew 3 4 ;;
  x_answer <- mdense0 TyD [[0; 8; 0; 8]; [0; 1; 0; 1]; [0; 4; 0; 4]]%Q 0%Q ;;
  x_result_1 <- t_opt_mxm TyD noacc TyD (mkSr qplus qtimes TyD) NoMask MERGE x_result (OMat (Other
    x_mA)) (OMat (Other x_mB)) ;;
  x_q <- meq x_result_1 x_answer ;;
  _ <- check x_q ;;
  Ok tt) = Ok tt.
Proof. vm_compute. reflexivity. Qed.

(** test_mxm.cpp:412-435 *)
Example test_mxm_NoMask_NoAccum_AB_ABdup :
 (x_mat <- mnew 4 4 ;;
  x_mat_1 <- mbuild TyD qsecond x_mat [0; 0; 1; 1; 1; 2; 2; 2; 3; 3] [0; 1; 0; 1; 2; 1; 2; 3; 2; 3]
    [1; 1; 1; 2; 2; 2; 3; 3; 3; 4]%Q ;;
  x_m3 <- mnew 4 4 ;;
  x_answer <- mnew 4 4 ;;
  x_answer_1 <- mbuild TyD qsecond x_answer [0; 0; 0; 1; 1; 1; 1; 2; 2; 2; 2; 3; 3; 3] [0; 1; 2; 0;
    1; 2; 3; 0; 1; 2; 3; 1; 2; 3] [2; 3; 2; 3; 9; 10; 6; 2; 10; 22; 21; 6; 21; 25]%Q ;;
  x_m3_1 <- t_mxm TyD noacc (mkSr qplus qtimes TyD) NoMask MERGE x_m3 (Mat x_mat_1) (Mat x_mat_1) ;;
  x_q <- meq x_m3_1 x_answer_1 ;;
  _ <- check x_q ;;
  Ok tt) = Ok tt.
Proof. vm_compute. reflexivity. Qed.

(** test_mxm.cpp:412-435, optimized_sequential platform *)
Example test_mxm_NoMask_NoAccum_AB_ABdup_opt :
 (x_mat <- mnew 4 4 ;;
  x_mat_1 <- mbuild TyD qsecond x_mat [0; 0; 1; 1; 1; 2; 2; 2; 3; 3] [0; 1; 0; 1; 2; 1; 2; 3; 2; 3]
    [1; 1; 1; 2; 2; 2; 3; 3; 3; 4]%Q ;;
  x_m3 <- mnew 4 4 ;;
  x_answer <- mnew 4 4 ;;
  x_answer_1 <- mbuild TyD qsecond x_answer [0; 0; 0; 1; 1; 1; 1; 2; 2; 2; 2; 3; 3; 3] [0; 1; 2; 0;
    1; 2; 3; 0; 1; 2; 3; 1; 2; 3] [2; 3; 2; 3; 9; 10; 6; 2; 10; 22; 21; 6; 21; 25]%Q ;;
  x_m3_1 <- t_opt_mxm TyD noacc TyD (mkSr qplus qtimes TyD) NoMask MERGE x_m3 (OMat (Other x_mat_1))
    (OMat (Other x_mat_1)) ;;
  x_q <- meq x_m3_1 x_answer_1 ;;
  _ <- check x_q ;;
  Ok tt) = Ok tt.
Proof. vm_compute. reflexivity. Qed.

(** test_mxm.cpp:438-451 *)
Example test_mxm_NoMask_NoAccum_AB_ACdup :
 (x_mC <- mdense0 TyD d_mA_sparse_3x3 0%Q ;;
  x_mB <- mdense0 TyD d_mA_sparse_3x3 0%Q ;;
  x_answer <- mdense0 TyD d_mAmA_answer_sparse 0%Q ;;
  x_mC_1 <- t_mxm TyD noacc (mkSr qplus qtimes TyD) NoMask MERGE x_mC (Mat x_mC) (Mat x_mB) ;;
  x_q <- meq x_mC_1 x_answer ;;
  _ <- check x_q ;;
  Ok tt) = Ok tt.
Proof. vm_compute. reflexivity. Qed.

(** test_mxm.cpp:438-451, optimized_sequential platform *)
Example test_mxm_NoMask_NoAccum_AB_ACdup_opt :
 (x_mC <- mdense0 TyD d_mA_sparse_3x3 0%Q ;;
  x_mB <- mdense0 TyD d_mA_sparse_3x3 0%Q ;;
  x_answer <- mdense0 TyD d_mAmA_answer_sparse 0%Q ;;
  x_mC_1 <- t_opt_mxm TyD noacc TyD (mkSr qplus qtimes TyD) NoMask MERGE x_mC (OMat (TheOutput (fun
    x => x))) (OMat (Other x_mB)) ;;
  x_q <- meq x_mC_1 x_answer ;;
  _ <- check x_q ;;
  Ok tt) = Ok tt.
Proof. vm_compute. reflexivity. Qed.

(** test_mxm.cpp:454-467 *)
Example test_mxm_NoMask_NoAccum_AB_BCdup :
 (x_mC <- mdense0 TyD d_mA_sparse_3x3 0%Q ;;
  x_mA <- mdense0 TyD d_mA_sparse_3x3 0%Q ;;
  x_answer <- mdense0 TyD d_mAmA_answer_sparse 0%Q ;;
  x_mC_1 <- t_mxm TyD noacc (mkSr qplus qtimes TyD) NoMask MERGE x_mC (Mat x_mA) (Mat x_mC) ;;
  x_q <- meq x_mC_1 x_answer ;;
  _ <- check x_q ;;
  Ok tt) = Ok tt.
Proof. vm_compute. reflexivity. Qed.

(** test_mxm.cpp:454-467, optimized_sequential platform *)
Example test_mxm_NoMask_NoAccum_AB_BCdup_opt :
 (x_mC <- mdense0 TyD d_mA_sparse_3x3 0%Q ;;
  x_mA <- mdense0 TyD d_mA_sparse_3x3 0%Q ;;
  x_answer <- mdense0 TyD d_mAmA_answer_sparse 0%Q ;;
  x_mC_1 <- t_opt_mxm TyD noacc TyD (mkSr qplus qtimes TyD) NoMask MERGE x_mC (OMat (Other x_mA))
    (OMat (TheOutput (fun x => x))) ;;
  x_q <- meq x_mC_1 x_answer ;;
  _ <- check x_q ;;
  Ok tt) = Ok tt.
Proof. vm_compute. reflexivity. Qed.

(** test_mxm.cpp:470-499 *)
Example test_mxm_NoMask_NoAccum_ATB :
 (x_mA <- mnew 3 3 ;;
  x_mA_1 <- mbuild TyD qsecond x_mA [0; 0; 0; 1; 1; 1; 2; 2; 2] [0; 1; 2; 0; 1; 2; 0; 1; 2] [12; 7;
    3; 4; 5; 6; 7; 8; 9]%Q ;;
  x_mB <- mnew 3 4 ;;
  x_mB_1 <- mbuild TyD qsecond x_mB [0; 0; 0; 0; 1; 1; 1; 2; 2; 2; 2] [0; 1; 2; 3; 0; 1; 2; 0; 1; 2;
    3] [5; 8; 1; 2; 6; 7; 3; 4; 5; 9; 1]%Q ;;
  x_result <- mnew 3 4 ;;
  x_answer <- mnew 3 4 ;;
  x_answer_1 <- mbuild TyD qsecond x_answer [0; 0; 0; 0; 1; 1; 1; 1; 2; 2; 2; 2] [0; 1; 2; 3; 0; 1;
    2; 3; 0; 1; 2; 3] [112; 159; 87; 31; 97; 131; 94; 22; 87; 111; 102; 15]%Q ;;
  x_result_1 <- t_mxm TyD noacc (mkSr qplus qtimes TyD) NoMask MERGE x_result (Trn x_mA_1) (Mat
    x_mB_1) ;;
  x_q <- meq x_result_1 x_answer_1 ;;
  _ <- check x_q ;;
  Ok tt) = Ok tt.
Proof. vm_compute. reflexivity. Qed.

(** test_mxm.cpp:470-499, optimized_sequential platform *)
Example test_mxm_NoMask_NoAccum_ATB_opt :
 (x_mA <- mnew 3 3 ;;
  x_mA_1 <- mbuild TyD qsecond x_mA [0; 0; 0; 1; 1; 1; 2; 2; 2] [0; 1; 2; 0; 1; 2; 0; 1; 2] [12; 7;
    3; 4; 5; 6; 7; 8; 9]%Q ;;
  x_mB <- mnew 3 4 ;;
  x_mB_1 <- mbuild TyD qsecond x_mB [0; 0; 0; 0; 1; 1; 1; 2; 2; 2; 2] [0; 1; 2; 3; 0; 1; 2; 0; 1; 2;
    3] [5; 8; 1; 2; 6; 7; 3; 4; 5; 9; 1]%Q ;;
  x_result <- mnew 3 4 ;;
  x_answer <- mnew 3 4 ;;
  x_answer_1 <- mbuild TyD qsecond x_answer [0; 0; 0; 0; 1; 1; 1; 1; 2; 2; 2; 2] [0; 1; 2; 3; 0; 1;
    2; 3; 0; 1; 2; 3] [112; 159; 87; 31; 97; 131; 94; 22; 87; 111; 102; 15]%Q ;;
  x_result_1 <- t_opt_mxm TyD noacc TyD (mkSr qplus qtimes TyD) NoMask MERGE x_result (OTrn (Other
    x_mA_1)) (OMat (Other x_mB_1)) ;;
  x_q <- meq x_result_1 x_answer_1 ;;
  _ <- check x_q ;;
  Ok tt) = Ok tt.
Proof. vm_compute. reflexivity. Qed.

(** test_mxm.cpp:502-518 *)
Example test_mxm_NoMask_NoAccum_ATB_empty :
 (x_mZero <- mnew 3 3 ;;
  x_mOnes <- mdense0 TyD d_mOnes_3x3 0%Q ;;
  x_mC <- mdense0 TyD d_mOnes_3x3 0%Q ;;
  x_mD <- mdense0 TyD d_mOnes_3x3 0%Q ;;
  x_mC_1 <- t_mxm TyD noacc (mkSr qplus qtimes TyD) NoMask MERGE x_mC (Trn x_mZero) (Mat x_mOnes) ;;
  x_q <- meq x_mC_1 x_mZero ;;
  _ <- check x_q ;;
  x_mD_1 <- t_mxm TyD noacc (mkSr qplus qtimes TyD) NoMask MERGE x_mD (Trn x_mOnes) (Mat x_mZero) ;;
  x_q_1 <- meq x_mD_1 x_mZero ;;
  _ <- check x_q_1 ;;
  Ok tt) = Ok tt.
Proof. vm_compute. reflexivity. Qed.

(** test_mxm.cpp:502-518, optimized_sequential platform *)
Example test_mxm_NoMask_NoAccum_ATB_empty_opt :
 (x_mZero <- mnew 3 3 ;;
  x_mOnes <- mdense0 TyD d_mOnes_3x3 0%Q ;;
  x_mC <- mdense0 TyD d_mOnes_3x3 0%Q ;;
  x_mD <- mdense0 TyD d_mOnes_3x3 0%Q ;;
  x_mC_1 <- t_opt_mxm TyD noacc TyD (mkSr qplus qtimes TyD) NoMask MERGE x_mC (OTrn (Other x_mZero))
    (OMat (Other x_mOnes)) ;;
  x_q <- meq x_mC_1 x_mZero ;;
  _ <- check x_q ;;
  x_mD_1 <- t_opt_mxm TyD noacc TyD (mkSr qplus qtimes TyD) NoMask MERGE x_mD (OTrn (Other x_mOnes))
    (OMat (Other x_mZero)) ;;
  x_q_1 <- meq x_mD_1 x_mZero ;;
  _ <- check x_q_1 ;;
  Ok tt) = Ok tt.
Proof. vm_compute. reflexivity. Qed.

(** test_mxm.cpp:521-549 *)
Example test_mxm_NoMask_NoAccum_ATB_identity_B :
 (x_mA <- mnew 3 3 ;;
  x_mA_1 <- mbuild TyD qsecond x_mA [0; 0; 0; 1; 1; 1; 2; 2; 2] [0; 1; 2; 0; 1; 2; 0; 1; 2] [12; 7;
    3; 4; 5; 6; 7; 8; 9]%Q ;;
  x_mB <- mnew 3 3 ;;
  x_mB_1 <- mbuild TyD qsecond x_mB [0; 0; 0; 1; 1; 1; 2; 2; 2] [0; 1; 2; 0; 1; 2; 0; 1; 2] [1; 0;
    0; 0; 1; 0; 0; 0; 1]%Q ;;
  x_result <- mnew 3 3 ;;
  x_answer <- mnew 3 3 ;;
  x_answer_1 <- mbuild TyD qsecond x_answer [0; 0; 0; 1; 1; 1; 2; 2; 2] [0; 1; 2; 0; 1; 2; 0; 1; 2]
    [12; 4; 7; 7; 5; 8; 3; 6; 9]%Q ;;
  x_result_1 <- t_mxm TyD noacc (mkSr qplus qtimes TyD) NoMask MERGE x_result (Trn x_mA_1) (Mat
    x_mB_1) ;;
  x_q <- meq x_result_1 x_answer_1 ;;
  _ <- check x_q ;;
  Ok tt) = Ok tt.
Proof. vm_compute. reflexivity. Qed.

(** test_mxm.cpp:521-549, optimized_sequential platform *)
Example test_mxm_NoMask_NoAccum_ATB_identity_B_opt :
 (x_mA <- mnew 3 3 ;;
  x_mA_1 <- mbuild TyD qsecond x_mA [0; 0; 0; 1; 1; 1; 2; 2; 2] [0; 1; 2; 0; 1; 2; 0; 1; 2] [12; 7;
    3; 4; 5; 6; 7; 8; 9]%Q ;;
  x_mB <- mnew 3 3 ;;
  x_mB_1 <- mbuild TyD qsecond x_mB [0; 0; 0; 1; 1; 1; 2; 2; 2] [0; 1; 2; 0; 1; 2; 0; 1; 2] [1; 0;
    0; 0; 1; 0; 0; 0; 1]%Q ;;
  x_result <- mnew 3 3 ;;
  x_answer <- mnew 3 3 ;;
  x_answer_1 <- mbuild TyD qsecond x_answer [0; 0; 0; 1; 1; 1; 2; 2; 2] [0; 1; 2; 0; 1; 2; 0; 1; 2]
    [12; 4; 7; 7; 5; 8; 3; 6; 9]%Q ;;
  x_result_1 <- t_opt_mxm TyD noacc TyD (mkSr qplus qtimes TyD) NoMask MERGE x_result (OTrn (Other
    x_mA_1)) (OMat (Other x_mB_1)) ;;
  x_q <- meq x_result_1 x_answer_1 ;;
  _ <- check x_q ;;
  Ok tt) = Ok tt.
Proof. vm_compute. reflexivity. Qed.

(** test_mxm.cpp:552-576 *)
Example test_mxm_NoMask_NoAccum_ATB_emptyRowA_emptyColB :
 (x_mA <- mdense0 TyD [[8; 1; 6]; [0; 0; 0]; [4; 9; 2]]%Q 0%Q ;;
  x_mB <- mdense0 TyD [[1; 0; 0]; [1; 0; 1]; [0; 0; 1]]%Q 0%Q ;;
  x_result <- mnew 3 3 ;;
  x_answer <- mdense0 TyD [[8; 0; 4]; [1; 0; 9]; [6; 0; 2]]%Q 0%Q ;;
  x_result_1 <- t_mxm TyD noacc (mkSr qplus qtimes TyD) NoMask MERGE x_result (Trn x_mA) (Mat x_mB)
    ;;
  x_q <- meq x_result_1 x_answer ;;
  _ <- check x_q ;;
  Ok tt) = Ok tt.
Proof. vm_compute. reflexivity. Qed.

(** test_mxm.cpp:552-576, optimized_sequential platform *)
Example test_mxm_NoMask_NoAccum_ATB_emptyRowA_emptyColB_opt :
 (x_mA <- mdense0 TyD [[8; 1; 6]; [0; 0; 0]; [4; 9; 2]]%Q 0%Q ;;
  x_mB <- mdense0 TyD [[1; 0; 0]; [1; 0; 1]; [0; 0; 1]]%Q 0%Q ;;
  x_result <- mnew 3 3 ;;
  x_answer <- mdense0 TyD [[8; 0; 4]; [1; 0; 9]; [6; 0; 2]]%Q 0%Q ;;
  x_result_1 <- t_opt_mxm TyD noacc TyD (mkSr qplus qtimes TyD) NoMask MERGE x_result (OTrn (Other
    x_mA)) (OMat (Other x_mB)) ;;
  x_q <- meq x_result_1 x_answer ;;
  _ <- check x_q ;;
  Ok tt) = Ok tt.
Proof. vm_compute. reflexivity. Qed.

(** test_mxm.cpp:579-603 *)
Example test_mxm_NoMask_NoAccum_ATB_emptyColA_emptyRowB :
 (x_mA <- mdense0 TyD [[8; 0; 6]; [1; 0; 9]; [4; 0; 2]]%Q 0%Q ;;
  x_mB <- mdense0 TyD [[0; 1; 0]; [1; 0; 1]; [0; 0; 0]]%Q 0%Q ;;
  x_result <- mnew 3 3 ;;
  x_answer <- mdense0 TyD [[1; 8; 1]; [0; 0; 0]; [9; 6; 9]]%Q 0%Q ;;
  x_result_1 <- t_mxm TyD noacc (mkSr qplus qtimes TyD) NoMask MERGE x_result (Trn x_mA) (Mat x_mB)
    ;;
  x_q <- meq x_result_1 x_answer ;;
  _ <- check x_q ;;
  Ok tt) = Ok tt.
Proof. vm_compute. reflexivity. Qed.

(** test_mxm.cpp:579-603, optimized_sequential platform *)
Example test_mxm_NoMask_NoAccum_ATB_emptyColA_emptyRowB_opt :
 (x_mA <- mdense0 TyD [[8; 0; 6]; [1; 0; 9]; [4; 0; 2]]%Q 0%Q ;;
  x_mB <- mdense0 TyD [[0; 1; 0]; [1; 0; 1]; [0; 0; 0]]%Q 0%Q ;;
  x_result <- mnew 3 3 ;;
  x_answer <- mdense0 TyD [[1; 8; 1]; [0; 0; 0]; [9; 6; 9]]%Q 0%Q ;;
  x_result_1 <- t_opt_mxm TyD noacc TyD (mkSr qplus qtimes TyD) NoMask MERGE x_result (OTrn (Other
    x_mA)) (OMat (Other x_mB)) ;;
  x_q <- meq x_result_1 x_answer ;;
  _ <- check x_q ;;
  Ok tt) = Ok tt.
Proof. vm_compute. reflexivity. Qed.

(** test_mxm.cpp:606-627 *)
Example test_mxm_NoMask_NoAccum_ATB_ABdup :
 (x_mat <- mdense0 TyD [[1; 0; 0]; [1; 2; 0]; [0; 2; 3]]%Q 0%Q ;;
  x_res <- mnew 3 3 ;;
  x_answer <- mdense0 TyD [[2; 2; 0]; [2; 8; 6]; [0; 6; 9]]%Q 0%Q ;;
  x_res_1 <- t_mxm TyD noacc (mkSr qplus qtimes TyD) NoMask MERGE x_res (Trn x_mat) (Mat x_mat) ;;
  x_q <- meq x_res_1 x_answer ;;
  _ <- check x_q ;;
  Ok tt) = Ok tt.
Proof. vm_compute. reflexivity. Qed.

(** test_mxm.cpp:606-627, optimized_sequential platform *)
Example test_mxm_NoMask_NoAccum_ATB_ABdup_opt :
 (x_mat <- mdense0 TyD [[1; 0; 0]; [1; 2; 0]; [0; 2; 3]]%Q 0%Q ;;
  x_res <- mnew 3 3 ;;
  x_answer <- mdense0 TyD [[2; 2; 0]; [2; 8; 6]; [0; 6; 9]]%Q 0%Q ;;
  x_res_1 <- t_opt_mxm TyD noacc TyD (mkSr qplus qtimes TyD) NoMask MERGE x_res (OTrn (Other x_mat))
    (OMat (Other x_mat)) ;;
  x_q <- meq x_res_1 x_answer ;;
  _ <- check x_q ;;
  Ok tt) = Ok tt.
Proof. vm_compute. reflexivity. Qed.

(** test_mxm.cpp:630-650 *)
Example test_mxm_NoMask_NoAccum_ATB_ACdup :
 (x_mC <- mdense0 TyD [[1; 0; 0]; [1; 2; 0]; [0; 2; 3]]%Q 0%Q ;;
  x_mB <- mdense0 TyD [[1; 0; 0]; [1; 2; 0]; [0; 2; 3]]%Q 0%Q ;;
  x_answer <- mdense0 TyD [[2; 2; 0]; [2; 8; 6]; [0; 6; 9]]%Q 0%Q ;;
  x_mC_1 <- t_mxm TyD noacc (mkSr qplus qtimes TyD) NoMask MERGE x_mC (Trn x_mC) (Mat x_mB) ;;
  x_q <- meq x_mC_1 x_answer ;;
  _ <- check x_q ;;
  Ok tt) = Ok tt.
Proof. vm_compute. reflexivity. Qed.

(** test_mxm.cpp:630-650, optimized_sequential platform *)
Example test_mxm_NoMask_NoAccum_ATB_ACdup_opt :
 (x_mC <- mdense0 TyD [[1; 0; 0]; [1; 2; 0]; [0; 2; 3]]%Q 0%Q ;;
  x_mB <- mdense0 TyD [[1; 0; 0]; [1; 2; 0]; [0; 2; 3]]%Q 0%Q ;;
  x_answer <- mdense0 TyD [[2; 2; 0]; [2; 8; 6]; [0; 6; 9]]%Q 0%Q ;;
  x_mC_1 <- t_opt_mxm TyD noacc TyD (mkSr qplus qtimes TyD) NoMask MERGE x_mC (OTrn (TheOutput (fun
    x => x))) (OMat (Other x_mB)) ;;
  x_q <- meq x_mC_1 x_answer ;;
  _ <- check x_q ;;
  Ok tt) = Ok tt.
Proof. vm_compute. reflexivity. Qed.

(** test_mxm.cpp:653-671 *)
Example test_mxm_NoMask_NoAccum_ATB_BCdup :
 (x_mA <- mdense0 TyD [[1; 0; 0]; [1; 2; 0]; [0; 2; 3]]%Q 0%Q ;;
  x_mC <- mdense0 TyD [[1; 0; 0]; [1; 2; 0]; [0; 2; 3]]%Q 0%Q ;;
  x_answer <- mdense0 TyD [[2; 2; 0]; [2; 8; 6]; [0; 6; 9]]%Q 0%Q ;;
  x_mC_1 <- t_mxm TyD noacc (mkSr qplus qtimes TyD) NoMask MERGE x_mC (Trn x_mA) (Mat x_mC) ;;
  x_q <- meq x_mC_1 x_answer ;;
  _ <- check x_q ;;
  Ok tt) = Ok tt.
Proof. vm_compute. reflexivity. Qed.

(** test_mxm.cpp:653-671, optimized_sequential platform *)
Example test_mxm_NoMask_NoAccum_ATB_BCdup_opt :
 (x_mA <- mdense0 TyD [[1; 0; 0]; [1; 2; 0]; [0; 2; 3]]%Q 0%Q ;;
  x_mC <- mdense0 TyD [[1; 0; 0]; [1; 2; 0]; [0; 2; 3]]%Q 0%Q ;;
  x_answer <- mdense0 TyD [[2; 2; 0]; [2; 8; 6]; [0; 6; 9]]%Q 0%Q ;;
  x_mC_1 <- t_opt_mxm TyD noacc TyD (mkSr qplus qtimes TyD) NoMask MERGE x_mC (OTrn (Other x_mA))
    (OMat (TheOutput (fun x => x))) ;;
  x_q <- meq x_mC_1 x_answer ;;
  _ <- check x_q ;;
  Ok tt) = Ok tt.
Proof. vm_compute. reflexivity. Qed.

(** test_mxm.cpp:674-702 *)
Example test_mxm_NoMask_NoAccum_ABT :
 (x_mA <- mnew 3 3 ;;
  x_mA_1 <- mbuild TyD qsecond x_mA [0; 0; 0; 1; 1; 1; 2; 2; 2] [0; 1; 2; 0; 1; 2; 0; 1; 2] [12; 7;
    3; 4; 5; 6; 7; 8; 9]%Q ;;
  x_mB <- mnew 3 3 ;;
  x_mB_1 <- mbuild TyD qsecond x_mB [0; 0; 0; 1; 1; 1; 2; 2; 2] [0; 1; 2; 0; 1; 2; 0; 1; 2] [5; 8;
    1; 2; 6; 7; 3; 4; 5]%Q ;;
  x_result <- mnew 3 3 ;;
  x_answer <- mnew 3 3 ;;
  x_answer_1 <- mbuild TyD qsecond x_answer [0; 0; 0; 1; 1; 1; 2; 2; 2] [0; 1; 2; 0; 1; 2; 0; 1; 2]
    [119; 87; 79; 66; 80; 62; 108; 125; 98]%Q ;;
  x_result_1 <- t_mxm TyD noacc (mkSr qplus qtimes TyD) NoMask MERGE x_result (Mat x_mA_1) (Trn
    x_mB_1) ;;
  x_q <- meq x_result_1 x_answer_1 ;;
  _ <- check x_q ;;
  Ok tt) = Ok tt.
Proof. vm_compute. reflexivity. Qed.

(** test_mxm.cpp:674-702, optimized_sequential platform *)
Example test_mxm_NoMask_NoAccum_ABT_opt :
 (x_mA <- mnew 3 3 ;;
  x_mA_1 <- mbuild TyD qsecond x_mA [0; 0; 0; 1; 1; 1; 2; 2; 2] [0; 1; 2; 0; 1; 2; 0; 1; 2] [12; 7;
    3; 4; 5; 6; 7; 8; 9]%Q ;;
  x_mB <- mnew 3 3 ;;
  x_mB_1 <- mbuild TyD qsecond x_mB [0; 0; 0; 1; 1; 1; 2; 2; 2] [0; 1; 2; 0; 1; 2; 0; 1; 2] [5; 8;
    1; 2; 6; 7; 3; 4; 5]%Q ;;
  x_result <- mnew 3 3 ;;
  x_answer <- mnew 3 3 ;;
  x_answer_1 <- mbuild TyD qsecond x_answer [0; 0; 0; 1; 1; 1; 2; 2; 2] [0; 1; 2; 0; 1; 2; 0; 1; 2]
    [119; 87; 79; 66; 80; 62; 108; 125; 98]%Q ;;
  x_result_1 <- t_opt_mxm TyD noacc TyD (mkSr qplus qtimes TyD) NoMask MERGE x_result (OMat (Other
    x_mA_1)) (OTrn (Other x_mB_1)) ;;
  x_q <- meq x_result_1 x_answer_1 ;;
  _ <- check x_q ;;
  Ok tt) = Ok tt.
Proof. vm_compute. reflexivity. Qed.

(** test_mxm.cpp:705-721 *)
Example test_mxm_NoMask_NoAccum_ABT_empty :
 (x_mZero <- mnew 3 3 ;;
  x_mOnes <- mdense0 TyD d_mOnes_3x3 0%Q ;;
  x_mC <- mdense0 TyD d_mOnes_3x3 0%Q ;;
  x_mD <- mdense0 TyD d_mOnes_3x3 0%Q ;;
  x_mC_1 <- t_mxm TyD noacc (mkSr qplus qtimes TyD) NoMask MERGE x_mC (Mat x_mOnes) (Trn x_mZero) ;;
  x_q <- meq x_mC_1 x_mZero ;;
  _ <- check x_q ;;
  x_mD_1 <- t_mxm TyD noacc (mkSr qplus qtimes TyD) NoMask MERGE x_mD (Mat x_mZero) (Trn x_mOnes) ;;
  x_q_1 <- meq x_mD_1 x_mZero ;;
  _ <- check x_q_1 ;;
  Ok tt) = Ok tt.
Proof. vm_compute. reflexivity. Qed.

(** test_mxm.cpp:705-721, optimized_sequential platform *)
Example test_mxm_NoMask_NoAccum_ABT_empty_opt :
 (x_mZero <- mnew 3 3 ;;
  x_mOnes <- mdense0 TyD d_mOnes_3x3 0%Q ;;
  x_mC <- mdense0 TyD d_mOnes_3x3 0%Q ;;
  x_mD <- mdense0 TyD d_mOnes_3x3 0%Q ;;
  x_mC_1 <- t_opt_mxm TyD noacc TyD (mkSr qplus qtimes TyD) NoMask MERGE x_mC (OMat (Other x_mOnes))
    (OTrn (Other x_mZero)) ;;
  x_q <- meq x_mC_1 x_mZero ;;
  _ <- check x_q ;;
  x_mD_1 <- t_opt_mxm TyD noacc TyD (mkSr qplus qtimes TyD) NoMask MERGE x_mD (OMat (Other x_mZero))
    (OTrn (Other x_mOnes)) ;;
  x_q_1 <- meq x_mD_1 x_mZero ;;
  _ <- check x_q_1 ;;
  Ok tt) = Ok tt.
Proof. vm_compute. reflexivity. Qed.

(** test_mxm.cpp:724-748 *)
Example test_mxm_NoMask_NoAccum_ABT_emptyRowA_emptyColB :
 (x_mA <- mdense0 TyD [[8; 1; 6]; [0; 0; 0]; [4; 9; 2]]%Q 0%Q ;;
  x_mB <- mdense0 TyD [[1; 0; 0]; [1; 0; 1]; [0; 0; 1]]%Q 0%Q ;;
  x_result <- mnew 3 3 ;;
  x_answer <- mdense0 TyD [[8; 14; 6]; [0; 0; 0]; [4; 6; 2]]%Q 0%Q ;;
  x_result_1 <- t_mxm TyD noacc (mkSr qplus qtimes TyD) NoMask MERGE x_result (Mat x_mA) (Trn x_mB)
    ;;
  x_q <- meq x_result_1 x_answer ;;
  _ <- check x_q ;;
  Ok tt) = Ok tt.
Proof. vm_compute. reflexivity. Qed.

(** test_mxm.cpp:724-748, optimized_sequential platform *)
Example test_mxm_NoMask_NoAccum_ABT_emptyRowA_emptyColB_opt :
 (x_mA <- mdense0 TyD [[8; 1; 6]; [0; 0; 0]; [4; 9; 2]]%Q 0%Q ;;
  x_mB <- mdense0 TyD [[1; 0; 0]; [1; 0; 1]; [0; 0; 1]]%Q 0%Q ;;
  x_result <- mnew 3 3 ;;
  x_answer <- mdense0 TyD [[8; 14; 6]; [0; 0; 0]; [4; 6; 2]]%Q 0%Q ;;
  x_result_1 <- t_opt_mxm TyD noacc TyD (mkSr qplus qtimes TyD) NoMask MERGE x_result (OMat (Other
    x_mA)) (OTrn (Other x_mB)) ;;
  x_q <- meq x_result_1 x_answer ;;
  _ <- check x_q ;;
  Ok tt) = Ok tt.
Proof. vm_compute. reflexivity. Qed.

(** test_mxm.cpp:751-775 *)
Example test_mxm_NoMask_NoAccum_ABT_emptyColA_emptyRowB :
 (x_mA <- mdense0 TyD [[8; 0; 6]; [1; 0; 9]; [4; 0; 2]]%Q 0%Q ;;
  x_mB <- mdense0 TyD [[0; 1; 0]; [1; 0; 1]; [0; 0; 0]]%Q 0%Q ;;
  x_result <- mnew 3 3 ;;
  x_answer <- mdense0 TyD [[0; 14; 0]; [0; 10; 0]; [0; 6; 0]]%Q 0%Q ;;
  x_result_1 <- t_mxm TyD noacc (mkSr qplus qtimes TyD) NoMask MERGE x_result (Mat x_mA) (Trn x_mB)
    ;;
  x_q <- meq x_result_1 x_answer ;;
  _ <- check x_q ;;
  Ok tt) = Ok tt.
Proof. vm_compute. reflexivity. Qed.

(** test_mxm.cpp:751-775, optimized_sequential platform *)
Example test_mxm_NoMask_NoAccum_ABT_emptyColA_emptyRowB_opt :
 (x_mA <- mdense0 TyD [[8; 0; 6]; [1; 0; 9]; [4; 0; 2]]%Q 0%Q ;;
  x_mB <- mdense0 TyD [[0; 1; 0]; [1; 0; 1]; [0; 0; 0]]%Q 0%Q ;;
  x_result <- mnew 3 3 ;;
  x_answer <- mdense0 TyD [[0; 14; 0]; [0; 10; 0]; [0; 6; 0]]%Q 0%Q ;;
  x_result_1 <- t_opt_mxm TyD noacc TyD (mkSr qplus qtimes TyD) NoMask MERGE x_result (OMat (Other
    x_mA)) (OTrn (Other x_mB)) ;;
  x_q <- meq x_result_1 x_answer ;;
  _ <- check x_q ;;
  Ok tt) = Ok tt.
Proof. vm_compute. reflexivity. Qed.

(** test_mxm.cpp:777-798 *)
Example test_mxm_NoMask_NoAccum_ABT_ABdup :
 (x_mat <- mdense0 TyD [[1; 0; 0]; [1; 2; 0]; [0; 2; 3]]%Q 0%Q ;;
  x_res <- mnew 3 3 ;;
  x_answer <- mdense0 TyD [[1; 1; 0]; [1; 5; 4]; [0; 4; 13]]%Q 0%Q ;;
  x_res_1 <- t_mxm TyD noacc (mkSr qplus qtimes TyD) NoMask MERGE x_res (Mat x_mat) (Trn x_mat) ;;
  x_q <- meq x_res_1 x_answer ;;
  _ <- check x_q ;;
  Ok tt) = Ok tt.
Proof. vm_compute. reflexivity. Qed.

(** test_mxm.cpp:777-798, optimized_sequential platform *)
Example test_mxm_NoMask_NoAccum_ABT_ABdup_opt :
 (x_mat <- mdense0 TyD [[1; 0; 0]; [1; 2; 0]; [0; 2; 3]]%Q 0%Q ;;
  x_res <- mnew 3 3 ;;
  x_answer <- mdense0 TyD [[1; 1; 0]; [1; 5; 4]; [0; 4; 13]]%Q 0%Q ;;
  x_res_1 <- t_opt_mxm TyD noacc TyD (mkSr qplus qtimes TyD) NoMask MERGE x_res (OMat (Other x_mat))
    (OTrn (Other x_mat)) ;;
  x_q <- meq x_res_1 x_answer ;;
  _ <- check x_q ;;
  Ok tt) = Ok tt.
Proof. vm_compute. reflexivity. Qed.

(** test_mxm.cpp:801-821 *)
Example test_mxm_NoMask_NoAccum_ABT_ACdup :
 (x_mC <- mdense0 TyD [[1; 0; 0]; [1; 2; 0]; [0; 2; 3]]%Q 0%Q ;;
  x_mB <- mdense0 TyD [[1; 0; 0]; [1; 2; 0]; [0; 2; 3]]%Q 0%Q ;;
  x_answer <- mdense0 TyD [[1; 1; 0]; [1; 5; 4]; [0; 4; 13]]%Q 0%Q ;;
  x_mC_1 <- t_mxm TyD noacc (mkSr qplus qtimes TyD) NoMask MERGE x_mC (Mat x_mC) (Trn x_mB) ;;
  x_q <- meq x_mC_1 x_answer ;;
  _ <- check x_q ;;
  Ok tt) = Ok tt.
Proof. vm_compute. reflexivity. Qed.

(** test_mxm.cpp:801-821, optimized_sequential platform *)
Example test_mxm_NoMask_NoAccum_ABT_ACdup_opt :
 (x_mC <- mdense0 TyD [[1; 0; 0]; [1; 2; 0]; [0; 2; 3]]%Q 0%Q ;;
  x_mB <- mdense0 TyD [[1; 0; 0]; [1; 2; 0]; [0; 2; 3]]%Q 0%Q ;;
  x_answer <- mdense0 TyD [[1; 1; 0]; [1; 5; 4]; [0; 4; 13]]%Q 0%Q ;;
  x_mC_1 <- t_opt_mxm TyD noacc TyD (mkSr qplus qtimes TyD) NoMask MERGE x_mC (OMat (TheOutput (fun
    x => x))) (OTrn (Other x_mB)) ;;
  x_q <- meq x_mC_1 x_answer ;;
  _ <- check x_q ;;
  Ok tt) = Ok tt.
Proof. vm_compute. reflexivity. Qed.

(** test_mxm.cpp:824-842 *)
Example test_mxm_NoMask_NoAccum_ABT_BCdup :
 (x_mA <- mdense0 TyD [[1; 0; 0]; [1; 2; 0]; [0; 2; 3]]%Q 0%Q ;;
  x_mC <- mdense0 TyD [[1; 0; 0]; [1; 2; 0]; [0; 2; 3]]%Q 0%Q ;;
  x_answer <- mdense0 TyD [[1; 1; 0]; [1; 5; 4]; [0; 4; 13]]%Q 0%Q ;;
  x_mC_1 <- t_mxm TyD noacc (mkSr qplus qtimes TyD) NoMask MERGE x_mC (Mat x_mA) (Trn x_mC) ;;
  x_q <- meq x_mC_1 x_answer ;;
  _ <- check x_q ;;
  Ok tt) = Ok tt.
Proof. vm_compute. reflexivity. Qed.

(** test_mxm.cpp:824-842, optimized_sequential platform *)
Example test_mxm_NoMask_NoAccum_ABT_BCdup_opt :
 (x_mA <- mdense0 TyD [[1; 0; 0]; [1; 2; 0]; [0; 2; 3]]%Q 0%Q ;;
  x_mC <- mdense0 TyD [[1; 0; 0]; [1; 2; 0]; [0; 2; 3]]%Q 0%Q ;;
  x_answer <- mdense0 TyD [[1; 1; 0]; [1; 5; 4]; [0; 4; 13]]%Q 0%Q ;;
  x_mC_1 <- t_opt_mxm TyD noacc TyD (mkSr qplus qtimes TyD) NoMask MERGE x_mC (OMat (Other x_mA))
    (OTrn (TheOutput (fun x => x))) ;;
  x_q <- meq x_mC_1 x_answer ;;
  _ <- check x_q ;;
  Ok tt) = Ok tt.
Proof. vm_compute. reflexivity. Qed.

(** test_mxm.cpp:845-873 *)
Example test_mxm_NoMask_NoAccum_ATBT :
 (x_mA <- mnew 3 3 ;;
  x_mA_1 <- mbuild TyD qsecond x_mA [0; 0; 0; 1; 1; 1; 2; 2; 2] [0; 1; 2; 0; 1; 2; 0; 1; 2] [12; 7;
    3; 4; 5; 6; 7; 8; 9]%Q ;;
  x_mB <- mnew 3 3 ;;
  x_mB_1 <- mbuild TyD qsecond x_mB [0; 0; 0; 1; 1; 1; 2; 2; 2] [0; 1; 2; 0; 1; 2; 0; 1; 2] [5; 8;
    1; 2; 6; 7; 3; 4; 5]%Q ;;
  x_result <- mnew 3 3 ;;
  x_answer <- mnew 3 3 ;;
  x_answer_1 <- mbuild TyD qsecond x_answer [0; 0; 0; 1; 1; 1; 2; 2; 2] [0; 1; 2; 0; 1; 2; 0; 1; 2]
    [99; 97; 87; 83; 100; 81; 72; 105; 78]%Q ;;
  x_result_1 <- t_mxm TyD noacc (mkSr qplus qtimes TyD) NoMask MERGE x_result (Trn x_mA_1) (Trn
    x_mB_1) ;;
  x_q <- meq x_result_1 x_answer_1 ;;
  _ <- check x_q ;;
  Ok tt) = Ok tt.
Proof. vm_compute. reflexivity. Qed.

(** test_mxm.cpp:845-873, optimized_sequential platform *)
Example test_mxm_NoMask_NoAccum_ATBT_opt :
 (x_mA <- mnew 3 3 ;;
  x_mA_1 <- mbuild TyD qsecond x_mA [0; 0; 0; 1; 1; 1; 2; 2; 2] [0; 1; 2; 0; 1; 2; 0; 1; 2] [12; 7;
    3; 4; 5; 6; 7; 8; 9]%Q ;;
  x_mB <- mnew 3 3 ;;
  x_mB_1 <- mbuild TyD qsecond x_mB [0; 0; 0; 1; 1; 1; 2; 2; 2] [0; 1; 2; 0; 1; 2; 0; 1; 2] [5; 8;
    1; 2; 6; 7; 3; 4; 5]%Q ;;
  x_result <- mnew 3 3 ;;
  x_answer <- mnew 3 3 ;;
  x_answer_1 <- mbuild TyD qsecond x_answer [0; 0; 0; 1; 1; 1; 2; 2; 2] [0; 1; 2; 0; 1; 2; 0; 1; 2]
    [99; 97; 87; 83; 100; 81; 72; 105; 78]%Q ;;
  x_result_1 <- t_opt_mxm TyD noacc TyD (mkSr qplus qtimes TyD) NoMask MERGE x_result (OTrn (Other
    x_mA_1)) (OTrn (Other x_mB_1)) ;;
  x_q <- meq x_result_1 x_answer_1 ;;
  _ <- check x_q ;;
  Ok tt) = Ok tt.
Proof. vm_compute. reflexivity. Qed.

(** test_mxm.cpp:876-894 *)
Example test_mxm_NoMask_NoAccum_ATBT_empty :
 (x_mZero <- mnew 3 3 ;;
  x_mOnes <- mdense0 TyD d_mOnes_3x3 0%Q ;;
  x_mC <- mdense0 TyD d_mOnes_3x3 0%Q ;;
  x_mD <- mdense0 TyD d_mOnes_3x3 0%Q ;;
  x_mC_1 <- t_mxm TyD noacc (mkSr qplus qtimes TyD) NoMask MERGE x_mC (Trn x_mOnes) (Trn x_mZero) ;;
  x_q <- meq x_mC_1 x_mZero ;;
  _ <- check x_q ;;
  x_mD_1 <- t_mxm TyD noacc (mkSr qplus qtimes TyD) NoMask MERGE x_mD (Trn x_mZero) (Trn x_mOnes) ;;
  x_q_1 <- meq x_mD_1 x_mZero ;;
  _ <- check x_q_1 ;;
  Ok tt) = Ok tt.
Proof. vm_compute. reflexivity. Qed.

(** test_mxm.cpp:876-894, optimized_sequential platform *)
Example test_mxm_NoMask_NoAccum_ATBT_empty_opt :
 (x_mZero <- mnew 3 3 ;;
  x_mOnes <- mdense0 TyD d_mOnes_3x3 0%Q ;;
  x_mC <- mdense0 TyD d_mOnes_3x3 0%Q ;;
  x_mD <- mdense0 TyD d_mOnes_3x3 0%Q ;;
  x_mC_1 <- t_opt_mxm TyD noacc TyD (mkSr qplus qtimes TyD) NoMask MERGE x_mC (OTrn (Other x_mOnes))
    (OTrn (Other x_mZero)) ;;
  x_q <- meq x_mC_1 x_mZero ;;
  _ <- check x_q ;;
  x_mD_1 <- t_opt_mxm TyD noacc TyD (mkSr qplus qtimes TyD) NoMask MERGE x_mD (OTrn (Other x_mZero))
    (OTrn (Other x_mOnes)) ;;
  x_q_1 <- meq x_mD_1 x_mZero ;;
  _ <- check x_q_1 ;;
  Ok tt) = Ok tt.
Proof. vm_compute. reflexivity. Qed.

(** test_mxm.cpp:897-922 *)
Example test_mxm_NoMask_NoAccum_ATBT_emptyRowA_emptyColB :
 (x_mA <- mdense0 TyD [[8; 1; 6]; [0; 0; 0]; [4; 9; 2]]%Q 0%Q ;;
  x_mB <- mdense0 TyD [[1; 0; 0]; [1; 0; 1]; [0; 0; 1]]%Q 0%Q ;;
  x_result <- mnew 3 3 ;;
  x_answer <- mdense0 TyD [[8; 12; 4]; [1; 10; 9]; [6; 8; 2]]%Q 0%Q ;;
  x_result_1 <- t_mxm TyD noacc (mkSr qplus qtimes TyD) NoMask MERGE x_result (Trn x_mA) (Trn x_mB)
    ;;
  x_q <- meq x_result_1 x_answer ;;
  _ <- check x_q ;;
  Ok tt) = Ok tt.
Proof. vm_compute. reflexivity. Qed.

(** test_mxm.cpp:897-922, optimized_sequential platform *)
Example test_mxm_NoMask_NoAccum_ATBT_emptyRowA_emptyColB_opt :
 (x_mA <- mdense0 TyD [[8; 1; 6]; [0; 0; 0]; [4; 9; 2]]%Q 0%Q ;;
  x_mB <- mdense0 TyD [[1; 0; 0]; [1; 0; 1]; [0; 0; 1]]%Q 0%Q ;;
  x_result <- mnew 3 3 ;;
  x_answer <- mdense0 TyD [[8; 12; 4]; [1; 10; 9]; [6; 8; 2]]%Q 0%Q ;;
  x_result_1 <- t_opt_mxm TyD noacc TyD (mkSr qplus qtimes TyD) NoMask MERGE x_result (OTrn (Other
    x_mA)) (OTrn (Other x_mB)) ;;
  x_q <- meq x_result_1 x_answer ;;
  _ <- check x_q ;;
  Ok tt) = Ok tt.
Proof. vm_compute. reflexivity. Qed.

(** test_mxm.cpp:925-950 *)
Example test_mxm_NoMask_NoAccum_ATBT_emptyColA_emptyRowB :
 (x_mA <- mdense0 TyD [[8; 0; 6]; [1; 0; 9]; [4; 0; 2]]%Q 0%Q ;;
  x_mB <- mdense0 TyD [[0; 1; 0]; [1; 0; 1]; [0; 0; 0]]%Q 0%Q ;;
  x_result <- mnew 3 3 ;;
  x_answer <- mdense0 TyD [[1; 12; 0]; [0; 0; 0]; [9; 8; 0]]%Q 0%Q ;;
  x_result_1 <- t_mxm TyD noacc (mkSr qplus qtimes TyD) NoMask MERGE x_result (Trn x_mA) (Trn x_mB)
    ;;
  x_q <- meq x_result_1 x_answer ;;
  _ <- check x_q ;;
  Ok tt) = Ok tt.
Proof. vm_compute. reflexivity. Qed.

(** test_mxm.cpp:925-950, optimized_sequential platform *)
Example test_mxm_NoMask_NoAccum_ATBT_emptyColA_emptyRowB_opt :
 (x_mA <- mdense0 TyD [[8; 0; 6]; [1; 0; 9]; [4; 0; 2]]%Q 0%Q ;;
  x_mB <- mdense0 TyD [[0; 1; 0]; [1; 0; 1]; [0; 0; 0]]%Q 0%Q ;;
  x_result <- mnew 3 3 ;;
  x_answer <- mdense0 TyD [[1; 12; 0]; [0; 0; 0]; [9; 8; 0]]%Q 0%Q ;;
  x_result_1 <- t_opt_mxm TyD noacc TyD (mkSr qplus qtimes TyD) NoMask MERGE x_result (OTrn (Other
    x_mA)) (OTrn (Other x_mB)) ;;
  x_q <- meq x_result_1 x_answer ;;
  _ <- check x_q ;;
  Ok tt) = Ok tt.
Proof. vm_compute. reflexivity. Qed.

(** test_mxm.cpp:952-973 *)
Example test_mxm_NoMask_NoAccum_ATBT_ABdup :
 (x_mat <- mdense0 TyD [[1; 0; 0]; [1; 2; 0]; [0; 2; 3]]%Q 0%Q ;;
  x_res <- mnew 3 3 ;;
  x_answer <- mdense0 TyD [[1; 3; 2]; [0; 4; 10]; [0; 0; 9]]%Q 0%Q ;;
  x_res_1 <- t_mxm TyD noacc (mkSr qplus qtimes TyD) NoMask MERGE x_res (Trn x_mat) (Trn x_mat) ;;
  x_q <- meq x_res_1 x_answer ;;
  _ <- check x_q ;;
  Ok tt) = Ok tt.
Proof. vm_compute. reflexivity. Qed.

(** test_mxm.cpp:952-973, optimized_sequential platform *)
Example test_mxm_NoMask_NoAccum_ATBT_ABdup_opt :
 (x_mat <- mdense0 TyD [[1; 0; 0]; [1; 2; 0]; [0; 2; 3]]%Q 0%Q ;;
  x_res <- mnew 3 3 ;;
  x_answer <- mdense0 TyD [[1; 3; 2]; [0; 4; 10]; [0; 0; 9]]%Q 0%Q ;;
  x_res_1 <- t_opt_mxm TyD noacc TyD (mkSr qplus qtimes TyD) NoMask MERGE x_res (OTrn (Other x_mat))
    (OTrn (Other x_mat)) ;;
  x_q <- meq x_res_1 x_answer ;;
  _ <- check x_q ;;
  Ok tt) = Ok tt.
Proof. vm_compute. reflexivity. Qed.

(** test_mxm.cpp:976-997 *)
Example test_mxm_NoMask_NoAccum_ATBT_ACdup :
 (x_mC <- mdense0 TyD [[1; 0; 0]; [1; 2; 0]; [0; 2; 3]]%Q 0%Q ;;
  x_mB <- mdense0 TyD [[1; 0; 0]; [1; 2; 0]; [0; 2; 3]]%Q 0%Q ;;
  x_answer <- mdense0 TyD [[1; 3; 2]; [0; 4; 10]; [0; 0; 9]]%Q 0%Q ;;
  x_mC_1 <- t_mxm TyD noacc (mkSr qplus qtimes TyD) NoMask MERGE x_mC (Trn x_mC) (Trn x_mB) ;;
  x_q <- meq x_mC_1 x_answer ;;
  _ <- check x_q ;;
  Ok tt) = Ok tt.
Proof. vm_compute. reflexivity. Qed.

(** test_mxm.cpp:976-997, optimized_sequential platform *)
Example test_mxm_NoMask_NoAccum_ATBT_ACdup_opt :
 (x_mC <- mdense0 TyD [[1; 0; 0]; [1; 2; 0]; [0; 2; 3]]%Q 0%Q ;;
  x_mB <- mdense0 TyD [[1; 0; 0]; [1; 2; 0]; [0; 2; 3]]%Q 0%Q ;;
  x_answer <- mdense0 TyD [[1; 3; 2]; [0; 4; 10]; [0; 0; 9]]%Q 0%Q ;;
  x_mC_1 <- t_opt_mxm TyD noacc TyD (mkSr qplus qtimes TyD) NoMask MERGE x_mC (OTrn (TheOutput (fun
    x => x))) (OTrn (Other x_mB)) ;;
  x_q <- meq x_mC_1 x_answer ;;
  _ <- check x_q ;;
  Ok tt) = Ok tt.
Proof. vm_compute. reflexivity. Qed.

(** test_mxm.cpp:1000-1019 *)
Example test_mxm_NoMask_NoAccum_ATBT_BCdup :
 (x_mA <- mdense0 TyD [[1; 0; 0]; [1; 2; 0]; [0; 2; 3]]%Q 0%Q ;;
  x_mC <- mdense0 TyD [[1; 0; 0]; [1; 2; 0]; [0; 2; 3]]%Q 0%Q ;;
  x_answer <- mdense0 TyD [[1; 3; 2]; [0; 4; 10]; [0; 0; 9]]%Q 0%Q ;;
  x_mC_1 <- t_mxm TyD noacc (mkSr qplus qtimes TyD) NoMask MERGE x_mC (Trn x_mA) (Trn x_mC) ;;
  x_q <- meq x_mC_1 x_answer ;;
  _ <- check x_q ;;
  Ok tt) = Ok tt.
Proof. vm_compute. reflexivity. Qed.

(** test_mxm.cpp:1000-1019, optimized_sequential platform *)
Example test_mxm_NoMask_NoAccum_ATBT_BCdup_opt :
 (x_mA <- mdense0 TyD [[1; 0; 0]; [1; 2; 0]; [0; 2; 3]]%Q 0%Q ;;
  x_mC <- mdense0 TyD [[1; 0; 0]; [1; 2; 0]; [0; 2; 3]]%Q 0%Q ;;
  x_answer <- mdense0 TyD [[1; 3; 2]; [0; 4; 10]; [0; 0; 9]]%Q 0%Q ;;
  x_mC_1 <- t_opt_mxm TyD noacc TyD (mkSr qplus qtimes TyD) NoMask MERGE x_mC (OTrn (Other x_mA))
    (OTrn (TheOutput (fun x => x))) ;;
  x_q <- meq x_mC_1 x_answer ;;
  _ <- check x_q ;;
  Ok tt) = Ok tt.
Proof. vm_compute. reflexivity. Qed.

(** test_mxm.cpp:1026-1038 *)
Example test_mxm_NoMask_Accum_AB :
 (x_mA <- mdense0 TyD d_mA_dense_3x3 0%Q ;;
  x_mB <- mdense0 TyD d_mB_dense_3x4 0%Q ;;
  x_result <- mnew 3 4 ;;
  x_answer <- mdense0 TyD d_mAnswer_dense 0%Q ;;
  x_result_1 <- t_mxm TyD (acc TyD qsecond) (mkSr qplus qtimes TyD) NoMask MERGE x_result (Mat x_mA)
    (Mat x_mB) ;;
  x_q <- meq x_result_1 x_answer ;;
  _ <- check x_q ;;
  Ok tt) = Ok tt.
Proof. vm_compute. reflexivity. Qed.

(** test_mxm.cpp:1026-1038, optimized_sequential platform *)
Example test_mxm_NoMask_Accum_AB_opt :
 (x_mA <- mdense0 TyD d_mA_dense_3x3 0%Q ;;
  x_mB <- mdense0 TyD d_mB_dense_3x4 0%Q ;;
  x_result <- mnew 3 4 ;;
  x_answer <- mdense0 TyD d_mAnswer_dense 0%Q ;;
  x_result_1 <- t_opt_mxm TyD (acc TyD qsecond) TyD (mkSr qplus qtimes TyD) NoMask MERGE x_result
    (OMat (Other x_mA)) (OMat (Other x_mB)) ;;
  x_q <- meq x_result_1 x_answer ;;
  _ <- check x_q ;;
  Ok tt) = Ok tt.
Proof. vm_compute. reflexivity. Qed.

(** test_mxm.cpp:1041-1057 *)
Example test_mxm_NoMask_Accum_AB_empty :
 (x_mZero <- mnew 3 3 ;;
  x_mOnes <- mdense0 TyD d_mOnes_3x3 0%Q ;;
  x_mC <- mdense0 TyD d_mOnes_3x3 0%Q ;;
  x_mD <- mdense0 TyD d_mOnes_3x3 0%Q ;;
  x_mC_1 <- t_mxm TyD (acc TyD qplus) (mkSr qplus qtimes TyD) NoMask MERGE x_mC (Mat x_mZero) (Mat
    x_mOnes) ;;
  x_q <- meq x_mC_1 x_mOnes ;;
  _ <- check x_q ;;
  x_mD_1 <- t_mxm TyD (acc TyD qplus) (mkSr qplus qtimes TyD) NoMask MERGE x_mD (Mat x_mOnes) (Mat
    x_mZero) ;;
  x_q_1 <- meq x_mD_1 x_mOnes ;;
  _ <- check x_q_1 ;;
  Ok tt) = Ok tt.
Proof. vm_compute. reflexivity. Qed.

(** test_mxm.cpp:1041-1057, optimized_sequential platform *)
Example test_mxm_NoMask_Accum_AB_empty_opt :
 (x_mZero <- mnew 3 3 ;;
  x_mOnes <- mdense0 TyD d_mOnes_3x3 0%Q ;;
  x_mC <- mdense0 TyD d_mOnes_3x3 0%Q ;;
  x_mD <- mdense0 TyD d_mOnes_3x3 0%Q ;;
  x_mC_1 <- t_opt_mxm TyD (acc TyD qplus) TyD (mkSr qplus qtimes TyD) NoMask MERGE x_mC (OMat (Other
    x_mZero)) (OMat (Other x_mOnes)) ;;
  x_q <- meq x_mC_1 x_mOnes ;;
  _ <- check x_q ;;
  x_mD_1 <- t_opt_mxm TyD (acc TyD qplus) TyD (mkSr qplus qtimes TyD) NoMask MERGE x_mD (OMat (Other
    x_mOnes)) (OMat (Other x_mZero)) ;;
  x_q_1 <- meq x_mD_1 x_mOnes ;;
  _ <- check x_q_1 ;;
  Ok tt) = Ok tt.
Proof. vm_compute. reflexivity. Qed.

(** test_mxm.cpp:1060-1089 *)
Example test_mxm_NoMask_Accum_AB_stored_zero_result :
 (x_mA <- mdense0 TyI [[1; 1; 0; 0]; [1; 2; 2; 0]; [0; 2; 3; 3]; [0; 0; 3; 4]]%Q 0%Q ;;
  x_mB <- mdense0 TyI [[1; (-2); 0; 0]; [(-1); 1; 0; 0]; [0; 0; 3; (-4)]; [0; 0; (-3); 3]]%Q 0%Q ;;
  x_result <- mnew 4 4 ;;
  x_answer <- mdense0 TyI [[0; (-1); 666; 666]; [(-1); 0; 6; (-8)]; [(-2); 2; 0; (-3)]; [666; 666;
    (-3); 0]]%Q 666%Q ;;
  x_result_1 <- t_mxm TyI (acc TyI (op3 TyI TyI TyI qsecond)) (mkSr (op3 TyI TyI TyI qplus) (op3 TyI
    TyI TyI qtimes) TyI) NoMask MERGE x_result (Mat x_mA) (Mat x_mB) ;;
  x_q <- meq x_result_1 x_answer ;;
  _ <- check x_q ;;
  _ <- check (Qeq_bool (inject_Z (nvals x_result_1)) 12%Q) ;;
  Ok tt) = Ok tt.
Proof. vm_compute. reflexivity. Qed.

(** test_mxm.cpp:1060-1089, optimized_sequential platform *)
Example test_mxm_NoMask_Accum_AB_stored_zero_result_opt :
 (x_mA <- mdense0 TyI [[1; 1; 0; 0]; [1; 2; 2; 0]; [0; 2; 3; 3]; [0; 0; 3; 4]]%Q 0%Q ;;
  x_mB <- mdense0 TyI [[1; (-2); 0; 0]; [(-1); 1; 0; 0]; [0; 0; 3; (-4)]; [0; 0; (-3); 3]]%Q 0%Q ;;
  x_result <- mnew 4 4 ;;
  x_answer <- mdense0 TyI [[0; (-1); 666; 666]; [(-1); 0; 6; (-8)]; [(-2); 2; 0; (-3)]; [666; 666;
    (-3); 0]]%Q 666%Q ;;
  x_result_1 <- t_opt_mxm TyI (acc TyI (op3 TyI TyI TyI qsecond)) TyI (mkSr (op3 TyI TyI TyI qplus)
    (op3 TyI TyI TyI qtimes) TyI) NoMask MERGE x_result (OMat (Other x_mA)) (OMat (Other x_mB)) ;;
  x_q <- meq x_result_1 x_answer ;;
  _ <- check x_q ;;
  _ <- check (Qeq_bool (inject_Z (nvals x_result_1)) 12%Q) ;;
  Ok tt) = Ok tt.
Proof. vm_compute. reflexivity. Qed.

(** test_mxm.cpp:1092-1115 *)
Example test_mxm_NoMask_Accum_AB_ABdup_Cempty :
 (x_mat <- mdense0 TyD [[1; 1; 0; 0]; [1; 2; 2; 0]; [0; 2; 3; 3]; [0; 0; 3; 4]]%Q 0%Q ;;
  x_result <- mnew 4 4 ;;
  x_answer <- mdense0 TyD [[2; 3; 2; 0]; [3; 9; 10; 6]; [2; 10; 22; 21]; [0; 6; 21; 25]]%Q 0%Q ;;
  x_result_1 <- t_mxm TyD (acc TyD qsecond) (mkSr qplus qtimes TyD) NoMask MERGE x_result (Mat
    x_mat) (Mat x_mat) ;;
  x_q <- meq x_result_1 x_answer ;;
  _ <- check x_q ;;
  Ok tt) = Ok tt.
Proof. vm_compute. reflexivity. Qed.

(** test_mxm.cpp:1092-1115, optimized_sequential platform *)
Example test_mxm_NoMask_Accum_AB_ABdup_Cempty_opt :
 (x_mat <- mdense0 TyD [[1; 1; 0; 0]; [1; 2; 2; 0]; [0; 2; 3; 3]; [0; 0; 3; 4]]%Q 0%Q ;;
  x_result <- mnew 4 4 ;;
  x_answer <- mdense0 TyD [[2; 3; 2; 0]; [3; 9; 10; 6]; [2; 10; 22; 21]; [0; 6; 21; 25]]%Q 0%Q ;;
  x_result_1 <- t_opt_mxm TyD (acc TyD qsecond) TyD (mkSr qplus qtimes TyD) NoMask MERGE x_result
    (OMat (Other x_mat)) (OMat (Other x_mat)) ;;
  x_q <- meq x_result_1 x_answer ;;
  _ <- check x_q ;;
  Ok tt) = Ok tt.
Proof. vm_compute. reflexivity. Qed.

(** test_mxm.cpp:1118-1138 *)
Example test_mxm_NoMask_Accum_ATB :
 (x_mA <- mdense0 TyD d_mAT_dense_3x3 0%Q ;;
  x_mB <- mdense0 TyD d_mB_dense_3x4 0%Q ;;
  x_result <- mnew 3 4 ;;
  x_answer <- mdense0 TyD d_mAnswer_dense 0%Q ;;
  x_answerp1 <- mdense0 TyD d_mAnswer_plus1_dense 0%Q ;;
  x_result_1 <- t_mxm TyD (acc TyD qplus) (mkSr qplus qtimes TyD) NoMask MERGE x_result (Trn x_mA)
    (Mat x_mB) ;;
  x_q <- meq x_result_1 x_answer ;;
  _ <- check x_q ;;
  x_res1 <- mdense0 TyD d_mOnes_3x4 0%Q ;;
  x_res1_1 <- t_mxm TyD (acc TyD qplus) (mkSr qplus qtimes TyD) NoMask MERGE x_res1 (Trn x_mA) (Mat
    x_mB) ;;
  x_q_1 <- meq x_res1_1 x_answerp1 ;;
  _ <- check x_q_1 ;;
  Ok tt) = Ok tt.
Proof. vm_compute. reflexivity. Qed.

(** test_mxm.cpp:1118-1138, optimized_sequential platform *)
Example test_mxm_NoMask_Accum_ATB_opt :
 (x_mA <- mdense0 TyD d_mAT_dense_3x3 0%Q ;;
  x_mB <- mdense0 TyD d_mB_dense_3x4 0%Q ;;
  x_result <- mnew 3 4 ;;
  x_answer <- mdense0 TyD d_mAnswer_dense 0%Q ;;
  x_answerp1 <- mdense0 TyD d_mAnswer_plus1_dense 0%Q ;;
  x_result_1 <- t_opt_mxm TyD (acc TyD qplus) TyD (mkSr qplus qtimes TyD) NoMask MERGE x_result
    (OTrn (Other x_mA)) (OMat (Other x_mB)) ;;
  x_q <- meq x_result_1 x_answer ;;
  _ <- check x_q ;;
  x_res1 <- mdense0 TyD d_mOnes_3x4 0%Q ;;
  x_res1_1 <- t_opt_mxm TyD (acc TyD qplus) TyD (mkSr qplus qtimes TyD) NoMask MERGE x_res1 (OTrn
    (Other x_mA)) (OMat (Other x_mB)) ;;
  x_q_1 <- meq x_res1_1 x_answerp1 ;;
  _ <- check x_q_1 ;;
  Ok tt) = Ok tt.
Proof. vm_compute. reflexivity. Qed.

(** test_mxm.cpp:1141-1159 *)
Example test_mxm_NoMask_Accum_ATB_empty :
 (x_mZero <- mnew 3 3 ;;
  x_mOnes <- mdense0 TyD d_mOnes_3x3 0%Q ;;
  x_mC <- mdense0 TyD d_mOnes_3x3 0%Q ;;
  x_mD <- mdense0 TyD d_mOnes_3x3 0%Q ;;
  x_mC_1 <- t_mxm TyD (acc TyD qplus) (mkSr qplus qtimes TyD) NoMask MERGE x_mC (Trn x_mZero) (Mat
    x_mOnes) ;;
  x_q <- meq x_mC_1 x_mOnes ;;
  _ <- check x_q ;;
  x_mD_1 <- t_mxm TyD (acc TyD qplus) (mkSr qplus qtimes TyD) NoMask MERGE x_mD (Trn x_mOnes) (Mat
    x_mZero) ;;
  x_q_1 <- meq x_mD_1 x_mOnes ;;
  _ <- check x_q_1 ;;
  Ok tt) = Ok tt.
Proof. vm_compute. reflexivity. Qed.

(** test_mxm.cpp:1141-1159, optimized_sequential platform *)
Example test_mxm_NoMask_Accum_ATB_empty_opt :
 (x_mZero <- mnew 3 3 ;;
  x_mOnes <- mdense0 TyD d_mOnes_3x3 0%Q ;;
  x_mC <- mdense0 TyD d_mOnes_3x3 0%Q ;;
  x_mD <- mdense0 TyD d_mOnes_3x3 0%Q ;;
  x_mC_1 <- t_opt_mxm TyD (acc TyD qplus) TyD (mkSr qplus qtimes TyD) NoMask MERGE x_mC (OTrn (Other
    x_mZero)) (OMat (Other x_mOnes)) ;;
  x_q <- meq x_mC_1 x_mOnes ;;
  _ <- check x_q ;;
  x_mD_1 <- t_opt_mxm TyD (acc TyD qplus) TyD (mkSr qplus qtimes TyD) NoMask MERGE x_mD (OTrn (Other
    x_mOnes)) (OMat (Other x_mZero)) ;;
  x_q_1 <- meq x_mD_1 x_mOnes ;;
  _ <- check x_q_1 ;;
  Ok tt) = Ok tt.
Proof. vm_compute. reflexivity. Qed.

(** test_mxm.cpp:1162-1181 *)
Example test_mxm_NoMask_Accum_ATB_Bidentity_Cempty :
 (x_mA <- mdense0 TyD d_mA_dense_3x3 0%Q ;;
  x_mB <- mdense0 TyD d_mIdentity_3x3 0%Q ;;
  x_result <- mnew 3 3 ;;
  x_answer <- mdense0 TyD [[12; 4; 7]; [7; 5; 8]; [3; 6; 9]]%Q 0%Q ;;
  x_result_1 <- t_mxm TyD (acc TyD qsecond) (mkSr qplus qtimes TyD) NoMask MERGE x_result (Trn x_mA)
    (Mat x_mB) ;;
  x_q <- meq x_result_1 x_answer ;;
  _ <- check x_q ;;
  Ok tt) = Ok tt.
Proof. vm_compute. reflexivity. Qed.

(** test_mxm.cpp:1162-1181, optimized_sequential platform *)
Example test_mxm_NoMask_Accum_ATB_Bidentity_Cempty_opt :
 (x_mA <- mdense0 TyD d_mA_dense_3x3 0%Q ;;
  x_mB <- mdense0 TyD d_mIdentity_3x3 0%Q ;;
  x_result <- mnew 3 3 ;;
  x_answer <- mdense0 TyD [[12; 4; 7]; [7; 5; 8]; [3; 6; 9]]%Q 0%Q ;;
  x_result_1 <- t_opt_mxm TyD (acc TyD qsecond) TyD (mkSr qplus qtimes TyD) NoMask MERGE x_result
    (OTrn (Other x_mA)) (OMat (Other x_mB)) ;;
  x_q <- meq x_result_1 x_answer ;;
  _ <- check x_q ;;
  Ok tt) = Ok tt.
Proof. vm_compute. reflexivity. Qed.

(** test_mxm.cpp:1184-1220 *)
Example test_mxm_NoMask_Accum_ABT :
 (x_mA <- mdense0 TyD d_mA_dense_3x3 0%Q ;;
  x_mB <- mdense0 TyD [[5; 8; 1]; [2; 6; 7]; [3; 4; 5]]%Q 0%Q ;;
  x_result <- mnew 3 3 ;;
  x_answer <- mdense0 TyD [[119; 87; 79]; [66; 80; 62]; [108; 125; 98]]%Q 0%Q ;;
  x_result_1 <- t_mxm TyD (acc TyD qplus) (mkSr qplus qtimes TyD) NoMask MERGE x_result (Mat x_mA)
    (Trn x_mB) ;;
  x_q <- meq x_result_1 x_answer ;;
  _ <- check x_q ;;
  x_res1 <- mdense0 TyD d_mOnes_3x3 0%Q ;;
  x_answer1 <- mdense0 TyD [[120; 88; 80]; [67; 81; 63]; [109; 126; 99]]%Q 0%Q ;;
  x_res1_1 <- t_mxm TyD (acc TyD qplus) (mkSr qplus qtimes TyD) NoMask MERGE x_res1 (Mat x_mA) (Trn
    x_mB) ;;
  x_q_1 <- meq x_res1_1 x_answer1 ;;
  _ <- check x_q_1 ;;
  Ok tt) = Ok tt.
Proof. vm_compute. reflexivity. Qed.

(** test_mxm.cpp:1184-1220, optimized_sequential platform *)
Example test_mxm_NoMask_Accum_ABT_opt :
 (x_mA <- mdense0 TyD d_mA_dense_3x3 0%Q ;;
  x_mB <- mdense0 TyD [[5; 8; 1]; [2; 6; 7]; [3; 4; 5]]%Q 0%Q ;;
  x_result <- mnew 3 3 ;;
  x_answer <- mdense0 TyD [[119; 87; 79]; [66; 80; 62]; [108; 125; 98]]%Q 0%Q ;;
  x_result_1 <- t_opt_mxm TyD (acc TyD qplus) TyD (mkSr qplus qtimes TyD) NoMask MERGE x_result
    (OMat (Other x_mA)) (OTrn (Other x_mB)) ;;
  x_q <- meq x_result_1 x_answer ;;
  _ <- check x_q ;;
  x_res1 <- mdense0 TyD d_mOnes_3x3 0%Q ;;
  x_answer1 <- mdense0 TyD [[120; 88; 80]; [67; 81; 63]; [109; 126; 99]]%Q 0%Q ;;
  x_res1_1 <- t_opt_mxm TyD (acc TyD qplus) TyD (mkSr qplus qtimes TyD) NoMask MERGE x_res1 (OMat
    (Other x_mA)) (OTrn (Other x_mB)) ;;
  x_q_1 <- meq x_res1_1 x_answer1 ;;
  _ <- check x_q_1 ;;
  Ok tt) = Ok tt.
Proof. vm_compute. reflexivity. Qed.

(** test_mxm.cpp:1223-1241 *)
Example test_mxm_NoMask_Accum_ABT_empty :
 (x_mZero <- mnew 3 3 ;;
  x_mOnes <- mdense0 TyD d_mOnes_3x3 0%Q ;;
  x_mC <- mdense0 TyD d_mOnes_3x3 0%Q ;;
  x_mD <- mdense0 TyD d_mOnes_3x3 0%Q ;;
  x_mC_1 <- t_mxm TyD (acc TyD qplus) (mkSr qplus qtimes TyD) NoMask MERGE x_mC (Mat x_mOnes) (Trn
    x_mZero) ;;
  x_q <- meq x_mC_1 x_mOnes ;;
  _ <- check x_q ;;
  x_mD_1 <- t_mxm TyD (acc TyD qplus) (mkSr qplus qtimes TyD) NoMask MERGE x_mD (Mat x_mZero) (Trn
    x_mOnes) ;;
  x_q_1 <- meq x_mD_1 x_mOnes ;;
  _ <- check x_q_1 ;;
  Ok tt) = Ok tt.
Proof. vm_compute. reflexivity. Qed.

(** test_mxm.cpp:1223-1241, optimized_sequential platform *)
Example test_mxm_NoMask_Accum_ABT_empty_opt :
 (x_mZero <- mnew 3 3 ;;
  x_mOnes <- mdense0 TyD d_mOnes_3x3 0%Q ;;
  x_mC <- mdense0 TyD d_mOnes_3x3 0%Q ;;
  x_mD <- mdense0 TyD d_mOnes_3x3 0%Q ;;
  x_mC_1 <- t_opt_mxm TyD (acc TyD qplus) TyD (mkSr qplus qtimes TyD) NoMask MERGE x_mC (OMat (Other
    x_mOnes)) (OTrn (Other x_mZero)) ;;
  x_q <- meq x_mC_1 x_mOnes ;;
  _ <- check x_q ;;
  x_mD_1 <- t_opt_mxm TyD (acc TyD qplus) TyD (mkSr qplus qtimes TyD) NoMask MERGE x_mD (OMat (Other
    x_mZero)) (OTrn (Other x_mOnes)) ;;
  x_q_1 <- meq x_mD_1 x_mOnes ;;
  _ <- check x_q_1 ;;
  Ok tt) = Ok tt.
Proof. vm_compute. reflexivity. Qed.

(** test_mxm.cpp:1244-1283 *)
Example test_mxm_NoMask_Accum_ATBT :
 (x_mA <- mdense0 TyD d_mA_dense_3x3 0%Q ;;
  x_mB <- mdense0 TyD [[5; 8; 1]; [2; 6; 7]; [3; 4; 5]]%Q 0%Q ;;
  x_result <- mnew 3 3 ;;
  x_answer <- mdense0 TyD [[99; 97; 87]; [83; 100; 81]; [72; 105; 78]]%Q 0%Q ;;
  x_result_1 <- t_mxm TyD (acc TyD qsecond) (mkSr qplus qtimes TyD) NoMask MERGE x_result (Trn x_mA)
    (Trn x_mB) ;;
  x_q <- meq x_result_1 x_answer ;;
  _ <- check x_q ;;
  x_res1 <- mdense0 TyD d_mOnes_3x3 0%Q ;;
  x_answer1 <- mdense0 TyD [[100; 98; 88]; [84; 101; 82]; [73; 106; 79]]%Q 0%Q ;;
  x_res1_1 <- t_mxm TyD (acc TyD qplus) (mkSr qplus qtimes TyD) NoMask MERGE x_res1 (Trn x_mA) (Trn
    x_mB) ;;
  x_q_1 <- meq x_res1_1 x_answer1 ;;
  _ <- check x_q_1 ;;
  Ok tt) = Ok tt.
Proof. vm_compute. reflexivity. Qed.

(** test_mxm.cpp:1244-1283, optimized_sequential platform *)
Example test_mxm_NoMask_Accum_ATBT_opt :
 (x_mA <- mdense0 TyD d_mA_dense_3x3 0%Q ;;
  x_mB <- mdense0 TyD [[5; 8; 1]; [2; 6; 7]; [3; 4; 5]]%Q 0%Q ;;
  x_result <- mnew 3 3 ;;
  x_answer <- mdense0 TyD [[99; 97; 87]; [83; 100; 81]; [72; 105; 78]]%Q 0%Q ;;
  x_result_1 <- t_opt_mxm TyD (acc TyD qsecond) TyD (mkSr qplus qtimes TyD) NoMask MERGE x_result
    (OTrn (Other x_mA)) (OTrn (Other x_mB)) ;;
  x_q <- meq x_result_1 x_answer ;;
  _ <- check x_q ;;
  x_res1 <- mdense0 TyD d_mOnes_3x3 0%Q ;;
  x_answer1 <- mdense0 TyD [[100; 98; 88]; [84; 101; 82]; [73; 106; 79]]%Q 0%Q ;;
  x_res1_1 <- t_opt_mxm TyD (acc TyD qplus) TyD (mkSr qplus qtimes TyD) NoMask MERGE x_res1 (OTrn
    (Other x_mA)) (OTrn (Other x_mB)) ;;
  x_q_1 <- meq x_res1_1 x_answer1 ;;
  _ <- check x_q_1 ;;
  Ok tt) = Ok tt.
Proof. vm_compute. reflexivity. Qed.

(** test_mxm.cpp:1286-1304 *)
Example test_mxm_NoMask_Accum_ATBT_empty :
 (x_mZero <- mnew 3 3 ;;
  x_mOnes <- mdense0 TyD d_mOnes_3x3 0%Q ;;
  x_mC <- mdense0 TyD d_mOnes_3x3 0%Q ;;
  x_mD <- mdense0 TyD d_mOnes_3x3 0%Q ;;
  x_mC_1 <- t_mxm TyD (acc TyD qplus) (mkSr qplus qtimes TyD) NoMask MERGE x_mC (Trn x_mOnes) (Trn
    x_mZero) ;;
  x_q <- meq x_mC_1 x_mOnes ;;
  _ <- check x_q ;;
  x_mD_1 <- t_mxm TyD (acc TyD qplus) (mkSr qplus qtimes TyD) NoMask MERGE x_mD (Trn x_mZero) (Trn
    x_mOnes) ;;
  x_q_1 <- meq x_mD_1 x_mOnes ;;
  _ <- check x_q_1 ;;
  Ok tt) = Ok tt.
Proof. vm_compute. reflexivity. Qed.

(** test_mxm.cpp:1286-1304, optimized_sequential platform *)
Example test_mxm_NoMask_Accum_ATBT_empty_opt :
 (x_mZero <- mnew 3 3 ;;
  x_mOnes <- mdense0 TyD d_mOnes_3x3 0%Q ;;
  x_mC <- mdense0 TyD d_mOnes_3x3 0%Q ;;
  x_mD <- mdense0 TyD d_mOnes_3x3 0%Q ;;
  x_mC_1 <- t_opt_mxm TyD (acc TyD qplus) TyD (mkSr qplus qtimes TyD) NoMask MERGE x_mC (OTrn (Other
    x_mOnes)) (OTrn (Other x_mZero)) ;;
  x_q <- meq x_mC_1 x_mOnes ;;
  _ <- check x_q ;;
  x_mD_1 <- t_opt_mxm TyD (acc TyD qplus) TyD (mkSr qplus qtimes TyD) NoMask MERGE x_mD (OTrn (Other
    x_mZero)) (OTrn (Other x_mOnes)) ;;
  x_q_1 <- meq x_mD_1 x_mOnes ;;
  _ <- check x_q_1 ;;
  Ok tt) = Ok tt.
Proof. vm_compute. reflexivity. Qed.

(** test_mxm.cpp:1310-1349 *)
Example test_mxm_Mask_NoAccum_AB_empty :
 (x_mZero <- mnew 3 3 ;;
  x_mOnes <- mdense0 TyD d_mOnes_3x3 0%Q ;;
  x_mC <- mnew 3 3 ;;
  x_mMask <- mdense0 TyB d_mLowerBoolMask_3x3 0%Q ;;
  x_mUpper <- mdense0 TyD [[0; 1; 1]; [0; 0; 1]; [0; 0; 0]]%Q 0%Q ;;
  x_mC_1 <- lil_assign x_mC x_mOnes ;;
  x_mC_2 <- t_mxm TyD noacc (mkSr qplus qtimes TyD) (MVal x_mMask) MERGE x_mC_1 (Mat x_mZero) (Mat
    x_mOnes) ;;
  x_q <- meq x_mC_2 x_mUpper ;;
  _ <- check x_q ;;
  x_mC_3 <- lil_assign x_mC_2 x_mOnes ;;
  x_mC_4 <- t_mxm TyD noacc (mkSr qplus qtimes TyD) (MVal x_mMask) MERGE x_mC_3 (Mat x_mOnes) (Mat
    x_mZero) ;;
  x_q_1 <- meq x_mC_4 x_mUpper ;;
  _ <- check x_q_1 ;;
  x_mC_5 <- lil_assign x_mC_4 x_mOnes ;;
  x_mC_6 <- t_mxm TyD noacc (mkSr qplus qtimes TyD) (MVal x_mMask) REPLACE x_mC_5 (Mat x_mZero) (Mat
    x_mOnes) ;;
  x_q_2 <- meq x_mC_6 x_mZero ;;
  _ <- check x_q_2 ;;
  x_mC_7 <- lil_assign x_mC_6 x_mOnes ;;
  x_mC_8 <- t_mxm TyD noacc (mkSr qplus qtimes TyD) (MVal x_mMask) REPLACE x_mC_7 (Mat x_mOnes) (Mat
    x_mZero) ;;
  x_q_3 <- meq x_mC_8 x_mZero ;;
  _ <- check x_q_3 ;;
  Ok tt) = Ok tt.
Proof. vm_compute. reflexivity. Qed.

(** test_mxm.cpp:1310-1349, optimized_sequential platform *)
Example test_mxm_Mask_NoAccum_AB_empty_opt :
 (x_mZero <- mnew 3 3 ;;
  x_mOnes <- mdense0 TyD d_mOnes_3x3 0%Q ;;
  x_mC <- mnew 3 3 ;;
  x_mMask <- mdense0 TyB d_mLowerBoolMask_3x3 0%Q ;;
  x_mUpper <- mdense0 TyD [[0; 1; 1]; [0; 0; 1]; [0; 0; 0]]%Q 0%Q ;;
  x_mC_1 <- lil_assign x_mC x_mOnes ;;
  x_mC_2 <- t_opt_mxm TyD noacc TyD (mkSr qplus qtimes TyD) (MVal (Other x_mMask)) MERGE x_mC_1
    (OMat (Other x_mZero)) (OMat (Other x_mOnes)) ;;
  x_q <- meq x_mC_2 x_mUpper ;;
  _ <- check x_q ;;
  x_mC_3 <- lil_assign x_mC_2 x_mOnes ;;
  x_mC_4 <- t_opt_mxm TyD noacc TyD (mkSr qplus qtimes TyD) (MVal (Other x_mMask)) MERGE x_mC_3
    (OMat (Other x_mOnes)) (OMat (Other x_mZero)) ;;
  x_q_1 <- meq x_mC_4 x_mUpper ;;
  _ <- check x_q_1 ;;
  x_mC_5 <- lil_assign x_mC_4 x_mOnes ;;
  x_mC_6 <- t_opt_mxm TyD noacc TyD (mkSr qplus qtimes TyD) (MVal (Other x_mMask)) REPLACE x_mC_5
    (OMat (Other x_mZero)) (OMat (Other x_mOnes)) ;;
  x_q_2 <- meq x_mC_6 x_mZero ;;
  _ <- check x_q_2 ;;
  x_mC_7 <- lil_assign x_mC_6 x_mOnes ;;
  x_mC_8 <- t_opt_mxm TyD noacc TyD (mkSr qplus qtimes TyD) (MVal (Other x_mMask)) REPLACE x_mC_7
    (OMat (Other x_mOnes)) (OMat (Other x_mZero)) ;;
  x_q_3 <- meq x_mC_8 x_mZero ;;
  _ <- check x_q_3 ;;
  Ok tt) = Ok tt.
Proof. vm_compute. reflexivity. Qed.

(** test_mxm.cpp:1352-1385 *)
Example test_mxm_Mask_NoAccum_AB_Merge_full_mask :
 (x_mA <- mnew 3 3 ;;
  x_mA_1 <- mbuild TyD qsecond x_mA [0; 0; 0; 1; 1; 1; 2; 2; 2] [0; 1; 2; 0; 1; 2; 0; 1; 2] [12; 7;
    3; 4; 5; 6; 7; 8; 9]%Q ;;
  x_mB <- mnew 3 4 ;;
  x_mB_1 <- mbuild TyD qsecond x_mB [0; 0; 0; 0; 1; 1; 1; 2; 2; 2; 2] [0; 1; 2; 3; 0; 1; 2; 0; 1; 2;
    3] [5; 8; 1; 2; 6; 7; 3; 4; 5; 9; 1]%Q ;;
  x_result <- mnew 3 4 ;;
  x_answer <- mnew 3 4 ;;
  x_answer_1 <- mbuild TyD qsecond x_answer [0; 0; 0; 0; 1; 1; 1; 1; 2; 2; 2; 2] [0; 1; 2; 3; 0; 1;
    2; 3; 0; 1; 2; 3] [114; 160; 60; 27; 74; 97; 73; 14; 119; 157; 112; 23]%Q ;;
  x_mask <- mnew 3 4 ;;
  x_mask_1 <- mbuild (TyU 32) qsecond x_mask [0; 0; 0; 0; 1; 1; 1; 1; 2; 2; 2; 2] [0; 1; 2; 3; 0; 1;
    2; 3; 0; 1; 2; 3] [1; 1; 1; 1; 1; 1; 1; 1; 1; 1; 1; 1]%Q ;;
  x_result_1 <- t_mxm TyD noacc (mkSr qplus qtimes TyD) (MVal x_mask_1) MERGE x_result (Mat x_mA_1)
    (Mat x_mB_1) ;;
  x_q <- meq x_result_1 x_answer_1 ;;
  _ <- check x_q ;;
  Ok tt) = Ok tt.
Proof. vm_compute. reflexivity. Qed.

(** test_mxm.cpp:1352-1385, optimized_sequential platform *)
Example test_mxm_Mask_NoAccum_AB_Merge_full_mask_opt :
 (x_mA <- mnew 3 3 ;;
  x_mA_1 <- mbuild TyD qsecond x_mA [0; 0; 0; 1; 1; 1; 2; 2; 2] [0; 1; 2; 0; 1; 2; 0; 1; 2] [12; 7;
    3; 4; 5; 6; 7; 8; 9]%Q ;;
  x_mB <- mnew 3 4 ;;
  x_mB_1 <- mbuild TyD qsecond x_mB [0; 0; 0; 0; 1; 1; 1; 2; 2; 2; 2] [0; 1; 2; 3; 0; 1; 2; 0; 1; 2;
    3] [5; 8; 1; 2; 6; 7; 3; 4; 5; 9; 1]%Q ;;
  x_result <- mnew 3 4 ;;
  x_answer <- mnew 3 4 ;;
  x_answer_1 <- mbuild TyD qsecond x_answer [0; 0; 0; 0; 1; 1; 1; 1; 2; 2; 2; 2] [0; 1; 2; 3; 0; 1;
    2; 3; 0; 1; 2; 3] [114; 160; 60; 27; 74; 97; 73; 14; 119; 157; 112; 23]%Q ;;
  x_mask <- mnew 3 4 ;;
  x_mask_1 <- mbuild (TyU 32) qsecond x_mask [0; 0; 0; 0; 1; 1; 1; 1; 2; 2; 2; 2] [0; 1; 2; 3; 0; 1;
    2; 3; 0; 1; 2; 3] [1; 1; 1; 1; 1; 1; 1; 1; 1; 1; 1; 1]%Q ;;
  x_result_1 <- t_opt_mxm TyD noacc TyD (mkSr qplus qtimes TyD) (MVal (Other x_mask_1)) MERGE
    x_result (OMat (Other x_mA_1)) (OMat (Other x_mB_1)) ;;
  x_q <- meq x_result_1 x_answer_1 ;;
  _ <- check x_q ;;
  Ok tt) = Ok tt.
Proof. vm_compute. reflexivity. Qed.

(** test_mxm.cpp:1389-1422 *)
Example test_mxm_Mask_NoAccum_AB_mask_not_full :
 (x_mA <- mnew 3 3 ;;
  x_mA_1 <- mbuild TyD qsecond x_mA [0; 0; 0; 1; 1; 1; 2; 2; 2] [0; 1; 2; 0; 1; 2; 0; 1; 2] [12; 7;
    3; 4; 5; 6; 7; 8; 9]%Q ;;
  x_mB <- mnew 3 4 ;;
  x_mB_1 <- mbuild TyD qsecond x_mB [0; 0; 0; 0; 1; 1; 1; 2; 2; 2; 2] [0; 1; 2; 3; 0; 1; 2; 0; 1; 2;
    3] [5; 8; 1; 2; 6; 7; 3; 4; 5; 9; 1]%Q ;;
  x_result <- mnew 3 4 ;;
  x_answer <- mnew 3 4 ;;
  x_answer_1 <- mbuild TyD qsecond x_answer [0; 0; 0; 0; 1; 1; 1; 1; 2; 2; 2] [0; 1; 2; 3; 0; 1; 2;
    3; 0; 1; 2] [114; 160; 60; 27; 74; 97; 73; 14; 119; 157; 112]%Q ;;
  x_mask <- mnew 3 4 ;;
  x_mask_1 <- mbuild (TyU 32) qsecond x_mask [0; 0; 0; 0; 1; 1; 1; 1; 2; 2; 2] [0; 1; 2; 3; 0; 1; 2;
    3; 0; 1; 2] [1; 1; 1; 1; 1; 1; 1; 1; 1; 1; 1]%Q ;;
  x_result_1 <- t_mxm TyD noacc (mkSr qplus qtimes TyD) (MVal x_mask_1) MERGE x_result (Mat x_mA_1)
    (Mat x_mB_1) ;;
  x_q <- meq x_result_1 x_answer_1 ;;
  _ <- check x_q ;;
  Ok tt) = Ok tt.
Proof. vm_compute. reflexivity. Qed.

(** test_mxm.cpp:1389-1422, optimized_sequential platform *)
Example test_mxm_Mask_NoAccum_AB_mask_not_full_opt :
 (x_mA <- mnew 3 3 ;;
  x_mA_1 <- mbuild TyD qsecond x_mA [0; 0; 0; 1; 1; 1; 2; 2; 2] [0; 1; 2; 0; 1; 2; 0; 1; 2] [12; 7;
    3; 4; 5; 6; 7; 8; 9]%Q ;;
  x_mB <- mnew 3 4 ;;
  x_mB_1 <- mbuild TyD qsecond x_mB [0; 0; 0; 0; 1; 1; 1; 2; 2; 2; 2] [0; 1; 2; 3; 0; 1; 2; 0; 1; 2;
    3] [5; 8; 1; 2; 6; 7; 3; 4; 5; 9; 1]%Q ;;
  x_result <- mnew 3 4 ;;
  x_answer <- mnew 3 4 ;;
  x_answer_1 <- mbuild TyD qsecond x_answer [0; 0; 0; 0; 1; 1; 1; 1; 2; 2; 2] [0; 1; 2; 3; 0; 1; 2;
    3; 0; 1; 2] [114; 160; 60; 27; 74; 97; 73; 14; 119; 157; 112]%Q ;;
  x_mask <- mnew 3 4 ;;
  x_mask_1 <- mbuild (TyU 32) qsecond x_mask [0; 0; 0; 0; 1; 1; 1; 1; 2; 2; 2] [0; 1; 2; 3; 0; 1; 2;
    3; 0; 1; 2] [1; 1; 1; 1; 1; 1; 1; 1; 1; 1; 1]%Q ;;
  x_result_1 <- t_opt_mxm TyD noacc TyD (mkSr qplus qtimes TyD) (MVal (Other x_mask_1)) MERGE
    x_result (OMat (Other x_mA_1)) (OMat (Other x_mB_1)) ;;
  x_q <- meq x_result_1 x_answer_1 ;;
  _ <- check x_q ;;
  Ok tt) = Ok tt.
Proof. vm_compute. reflexivity. Qed.

(** test_mxm.cpp:1425-1451 *)
Example test_mxm_Mask_NoAccum_AB_Merge_Cones_Mlower_stored_zero :
 (x_mA <- mdense0 TyD d_mA_dense_3x3 0%Q ;;
  x_mB <- mdense0 TyD d_mB_dense_3x4 0%Q ;;
  x_mMask <- mdense0 TyD [[1; 0; 0; 0]; [1; 1; 0; 0]; [1; 1; 1; 0]]%Q 0%Q ;;
  x_mMask_1 <- lil_setElement x_mMask 0 1 (cast TyD 0%Q) ;;
  _ <- check (Qeq_bool (inject_Z (nvals x_mMask_1)) 7%Q) ;;
  x_result <- mdense0 TyD d_mOnes_3x4 0%Q ;;
  x_answer <- mdense0 TyD [[114; 1; 1; 1]; [74; 97; 1; 1]; [119; 157; 112; 1]]%Q 0%Q ;;
  x_result_1 <- t_mxm TyD noacc (mkSr qplus qtimes TyD) (MVal x_mMask_1) MERGE x_result (Mat x_mA)
    (Mat x_mB) ;;
  _ <- check (Qeq_bool (inject_Z (nvals x_result_1)) 12%Q) ;;
  x_q <- meq x_result_1 x_answer ;;
  _ <- check x_q ;;
  Ok tt) = Ok tt.
Proof. vm_compute. reflexivity. Qed.

(** test_mxm.cpp:1425-1451, optimized_sequential platform *)
Example test_mxm_Mask_NoAccum_AB_Merge_Cones_Mlower_stored_zero_opt :
 (x_mA <- mdense0 TyD d_mA_dense_3x3 0%Q ;;
  x_mB <- mdense0 TyD d_mB_dense_3x4 0%Q ;;
  x_mMask <- mdense0 TyD [[1; 0; 0; 0]; [1; 1; 0; 0]; [1; 1; 1; 0]]%Q 0%Q ;;
  x_mMask_1 <- lil_setElement x_mMask 0 1 (cast TyD 0%Q) ;;
  _ <- check (Qeq_bool (inject_Z (nvals x_mMask_1)) 7%Q) ;;
  x_result <- mdense0 TyD d_mOnes_3x4 0%Q ;;
  x_answer <- mdense0 TyD [[114; 1; 1; 1]; [74; 97; 1; 1]; [119; 157; 112; 1]]%Q 0%Q ;;
  x_result_1 <- t_opt_mxm TyD noacc TyD (mkSr qplus qtimes TyD) (MVal (Other x_mMask_1)) MERGE
    x_result (OMat (Other x_mA)) (OMat (Other x_mB)) ;;
  _ <- check (Qeq_bool (inject_Z (nvals x_result_1)) 12%Q) ;;
  x_q <- meq x_result_1 x_answer ;;
  _ <- check x_q ;;
  Ok tt) = Ok tt.
Proof. vm_compute. reflexivity. Qed.

(** test_mxm.cpp:1454-1483 *)
Example test_mxm_Mask_NoAccum_AB_Merge_Cones_ABdup :
 (x_mat <- mdense0 TyD [[1; 1; 0; 0]; [1; 2; 2; 0]; [0; 2; 3; 3]; [0; 0; 3; 4]]%Q 0%Q ;;
  x_result <- mdense0 TyD d_mOnes_4x4 0%Q ;;
  x_answer <- mdense0 TyD [[2; 1; 1; 1]; [3; 9; 1; 1]; [2; 10; 22; 1]; [0; 6; 21; 25]]%Q 0%Q ;;
  x_mMask <- mdense0 TyD [[1; 0; 0; 0]; [1; 1; 0; 0]; [1; 1; 1; 0]; [1; 1; 1; 1]]%Q 0%Q ;;
  x_result_1 <- t_mxm TyD noacc (mkSr qplus qtimes TyD) (MVal x_mMask) MERGE x_result (Mat x_mat)
    (Mat x_mat) ;;
  x_q <- meq x_result_1 x_answer ;;
  _ <- check x_q ;;
  Ok tt) = Ok tt.
Proof. vm_compute. reflexivity. Qed.

(** test_mxm.cpp:1454-1483, optimized_sequential platform *)
Example test_mxm_Mask_NoAccum_AB_Merge_Cones_ABdup_opt :
 (x_mat <- mdense0 TyD [[1; 1; 0; 0]; [1; 2; 2; 0]; [0; 2; 3; 3]; [0; 0; 3; 4]]%Q 0%Q ;;
  x_result <- mdense0 TyD d_mOnes_4x4 0%Q ;;
  x_answer <- mdense0 TyD [[2; 1; 1; 1]; [3; 9; 1; 1]; [2; 10; 22; 1]; [0; 6; 21; 25]]%Q 0%Q ;;
  x_mMask <- mdense0 TyD [[1; 0; 0; 0]; [1; 1; 0; 0]; [1; 1; 1; 0]; [1; 1; 1; 1]]%Q 0%Q ;;
  x_result_1 <- t_opt_mxm TyD noacc TyD (mkSr qplus qtimes TyD) (MVal (Other x_mMask)) MERGE
    x_result (OMat (Other x_mat)) (OMat (Other x_mat)) ;;
  x_q <- meq x_result_1 x_answer ;;
  _ <- check x_q ;;
  Ok tt) = Ok tt.
Proof. vm_compute. reflexivity. Qed.

(** test_mxm.cpp:1486-1516 *)
Example test_mxm_Mask_NoAccum_AB_Replace_ABdup_result_ones :
 (x_mat <- mdense0 TyD [[1; 1; 0; 0]; [1; 2; 2; 0]; [0; 2; 3; 3]; [0; 0; 3; 4]]%Q 0%Q ;;
  x_result <- mdense0 TyD d_mOnes_4x4 0%Q ;;
  x_answer <- mdense0 TyD [[2; 0; 0; 0]; [3; 9; 0; 0]; [2; 10; 22; 0]; [0; 6; 21; 25]]%Q 0%Q ;;
  x_mMask <- mdense0 TyD [[1; 0; 0; 0]; [1; 1; 0; 0]; [1; 1; 1; 0]; [1; 1; 1; 1]]%Q 0%Q ;;
  x_result_1 <- t_mxm TyD noacc (mkSr qplus qtimes TyD) (MVal x_mMask) REPLACE x_result (Mat x_mat)
    (Mat x_mat) ;;
  x_q <- meq x_result_1 x_answer ;;
  _ <- check x_q ;;
  Ok tt) = Ok tt.
Proof. vm_compute. reflexivity. Qed.

(** test_mxm.cpp:1486-1516, optimized_sequential platform *)
Example test_mxm_Mask_NoAccum_AB_Replace_ABdup_result_ones_opt :
 (x_mat <- mdense0 TyD [[1; 1; 0; 0]; [1; 2; 2; 0]; [0; 2; 3; 3]; [0; 0; 3; 4]]%Q 0%Q ;;
  x_result <- mdense0 TyD d_mOnes_4x4 0%Q ;;
  x_answer <- mdense0 TyD [[2; 0; 0; 0]; [3; 9; 0; 0]; [2; 10; 22; 0]; [0; 6; 21; 25]]%Q 0%Q ;;
  x_mMask <- mdense0 TyD [[1; 0; 0; 0]; [1; 1; 0; 0]; [1; 1; 1; 0]; [1; 1; 1; 1]]%Q 0%Q ;;
  x_result_1 <- t_opt_mxm TyD noacc TyD (mkSr qplus qtimes TyD) (MVal (Other x_mMask)) REPLACE
    x_result (OMat (Other x_mat)) (OMat (Other x_mat)) ;;
  x_q <- meq x_result_1 x_answer ;;
  _ <- check x_q ;;
  Ok tt) = Ok tt.
Proof. vm_compute. reflexivity. Qed.

(** test_mxm.cpp:1519-1543 *)
Example test_mxm_Mask_Accum_AB_Replace_lower_mask_result_ones :
 (x_mA <- mdense0 TyD d_mA_dense_3x3 0%Q ;;
  x_mB <- mdense0 TyD d_mB_dense_3x4 0%Q ;;
  x_mMask <- mdense0 TyD d_mLowerMask_3x4 0%Q ;;
  _ <- check (Qeq_bool (inject_Z (nvals x_mMask)) 6%Q) ;;
  x_result <- mdense0 TyD d_mOnes_3x4 0%Q ;;
  x_answer <- mdense0 TyD [[114; 0; 0; 0]; [74; 97; 0; 0]; [119; 157; 112; 0]]%Q 0%Q ;;
  x_result_1 <- t_mxm TyD (acc TyD qsecond) (mkSr qplus qtimes TyD) (MVal x_mMask) REPLACE x_result
    (Mat x_mA) (Mat x_mB) ;;
  _ <- check (Qeq_bool (inject_Z (nvals x_result_1)) 6%Q) ;;
  x_q <- meq x_result_1 x_answer ;;
  _ <- check x_q ;;
  Ok tt) = Ok tt.
Proof. vm_compute. reflexivity. Qed.

(** test_mxm.cpp:1519-1543, optimized_sequential platform *)
Example test_mxm_Mask_Accum_AB_Replace_lower_mask_result_ones_opt :
 (x_mA <- mdense0 TyD d_mA_dense_3x3 0%Q ;;
  x_mB <- mdense0 TyD d_mB_dense_3x4 0%Q ;;
  x_mMask <- mdense0 TyD d_mLowerMask_3x4 0%Q ;;
  _ <- check (Qeq_bool (inject_Z (nvals x_mMask)) 6%Q) ;;
  x_result <- mdense0 TyD d_mOnes_3x4 0%Q ;;
  x_answer <- mdense0 TyD [[114; 0; 0; 0]; [74; 97; 0; 0]; [119; 157; 112; 0]]%Q 0%Q ;;
  x_result_1 <- t_opt_mxm TyD (acc TyD qsecond) TyD (mkSr qplus qtimes TyD) (MVal (Other x_mMask))
    REPLACE x_result (OMat (Other x_mA)) (OMat (Other x_mB)) ;;
  _ <- check (Qeq_bool (inject_Z (nvals x_result_1)) 6%Q) ;;
  x_q <- meq x_result_1 x_answer ;;
  _ <- check x_q ;;
  Ok tt) = Ok tt.
Proof. vm_compute. reflexivity. Qed.

(** test_mxm.cpp:1546-1569 *)
Example test_mxm_Mask_Accum_AB_Replace_bool_masked_result_ones :
 (x_mA <- mdense0 TyD d_mA_dense_3x3 0%Q ;;
  x_mB <- mdense0 TyD d_mB_dense_3x4 0%Q ;;
  x_mMask <- mdense0 TyB d_mLowerBoolMask_3x4 0%Q ;;
  _ <- check (Qeq_bool (inject_Z (nvals x_mMask)) 6%Q) ;;
  x_result <- mdense0 TyD d_mOnes_3x4 0%Q ;;
  x_answer <- mdense0 TyD [[114; 0; 0; 0]; [74; 97; 0; 0]; [119; 157; 112; 0]]%Q 0%Q ;;
  x_result_1 <- t_mxm TyD (acc TyD qsecond) (mkSr qplus qtimes TyD) (MVal x_mMask) REPLACE x_result
    (Mat x_mA) (Mat x_mB) ;;
  _ <- check (Qeq_bool (inject_Z (nvals x_result_1)) 6%Q) ;;
  x_q <- meq x_result_1 x_answer ;;
  _ <- check x_q ;;
  Ok tt) = Ok tt.
Proof. vm_compute. reflexivity. Qed.

(** test_mxm.cpp:1546-1569, optimized_sequential platform *)
Example test_mxm_Mask_Accum_AB_Replace_bool_masked_result_ones_opt :
 (x_mA <- mdense0 TyD d_mA_dense_3x3 0%Q ;;
  x_mB <- mdense0 TyD d_mB_dense_3x4 0%Q ;;
  x_mMask <- mdense0 TyB d_mLowerBoolMask_3x4 0%Q ;;
  _ <- check (Qeq_bool (inject_Z (nvals x_mMask)) 6%Q) ;;
  x_result <- mdense0 TyD d_mOnes_3x4 0%Q ;;
  x_answer <- mdense0 TyD [[114; 0; 0; 0]; [74; 97; 0; 0]; [119; 157; 112; 0]]%Q 0%Q ;;
  x_result_1 <- t_opt_mxm TyD (acc TyD qsecond) TyD (mkSr qplus qtimes TyD) (MVal (Other x_mMask))
    REPLACE x_result (OMat (Other x_mA)) (OMat (Other x_mB)) ;;
  _ <- check (Qeq_bool (inject_Z (nvals x_result_1)) 6%Q) ;;
  x_q <- meq x_result_1 x_answer ;;
  _ <- check x_q ;;
  Ok tt) = Ok tt.
Proof. vm_compute. reflexivity. Qed.

(** test_mxm.cpp:1572-1598 *)
Example test_mxm_Mask_Accum_AB_Replace_mask_stored_zero_result_ones :
 (x_mA <- mdense0 TyD d_mA_dense_3x3 0%Q ;;
  x_mB <- mdense0 TyD d_mB_dense_3x4 0%Q ;;
  x_mMask <- mdense0 TyD [[1; 0; 0; 0]; [1; 1; 0; 0]; [1; 1; 1; 0]]%Q 0%Q ;;
  x_mMask_1 <- lil_setElement x_mMask 0 1 (cast TyD 0%Q) ;;
  _ <- check (Qeq_bool (inject_Z (nvals x_mMask_1)) 7%Q) ;;
  x_result <- mdense0 TyD d_mOnes_3x4 0%Q ;;
  x_answer <- mdense0 TyD [[114; 0; 0; 0]; [74; 97; 0; 0]; [119; 157; 112; 0]]%Q 0%Q ;;
  x_result_1 <- t_mxm TyD (acc TyD qsecond) (mkSr qplus qtimes TyD) (MVal x_mMask_1) REPLACE
    x_result (Mat x_mA) (Mat x_mB) ;;
  _ <- check (Qeq_bool (inject_Z (nvals x_result_1)) 6%Q) ;;
  x_q <- meq x_result_1 x_answer ;;
  _ <- check x_q ;;
  Ok tt) = Ok tt.
Proof. vm_compute. reflexivity. Qed.

(** test_mxm.cpp:1572-1598, optimized_sequential platform *)
Example test_mxm_Mask_Accum_AB_Replace_mask_stored_zero_result_ones_opt :
 (x_mA <- mdense0 TyD d_mA_dense_3x3 0%Q ;;
  x_mB <- mdense0 TyD d_mB_dense_3x4 0%Q ;;
  x_mMask <- mdense0 TyD [[1; 0; 0; 0]; [1; 1; 0; 0]; [1; 1; 1; 0]]%Q 0%Q ;;
  x_mMask_1 <- lil_setElement x_mMask 0 1 (cast TyD 0%Q) ;;
  _ <- check (Qeq_bool (inject_Z (nvals x_mMask_1)) 7%Q) ;;
  x_result <- mdense0 TyD d_mOnes_3x4 0%Q ;;
  x_answer <- mdense0 TyD [[114; 0; 0; 0]; [74; 97; 0; 0]; [119; 157; 112; 0]]%Q 0%Q ;;
  x_result_1 <- t_opt_mxm TyD (acc TyD qsecond) TyD (mkSr qplus qtimes TyD) (MVal (Other x_mMask_1))
    REPLACE x_result (OMat (Other x_mA)) (OMat (Other x_mB)) ;;
  _ <- check (Qeq_bool (inject_Z (nvals x_result_1)) 6%Q) ;;
  x_q <- meq x_result_1 x_answer ;;
  _ <- check x_q ;;
  Ok tt) = Ok tt.
Proof. vm_compute. reflexivity. Qed.

(** test_mxm.cpp:1601-1625 *)
Example test_mxm_Mask_Accum_AB_Merge_Cones_Mlower :
 (x_mA <- mdense0 TyD d_mA_dense_3x3 0%Q ;;
  x_mB <- mdense0 TyD d_mB_dense_3x4 0%Q ;;
  x_mMask <- mdense0 TyD [[1; 0; 0; 0]; [1; 1; 0; 0]; [1; 1; 1; 0]]%Q 0%Q ;;
  _ <- check (Qeq_bool (inject_Z (nvals x_mMask)) 6%Q) ;;
  x_result <- mdense0 TyD d_mOnes_3x4 0%Q ;;
  x_answer <- mdense0 TyD [[114; 1; 1; 1]; [74; 97; 1; 1]; [119; 157; 112; 1]]%Q 0%Q ;;
  x_result_1 <- t_mxm TyD (acc TyD qsecond) (mkSr qplus qtimes TyD) (MVal x_mMask) MERGE x_result
    (Mat x_mA) (Mat x_mB) ;;
  _ <- check (Qeq_bool (inject_Z (nvals x_result_1)) 12%Q) ;;
  x_q <- meq x_result_1 x_answer ;;
  _ <- check x_q ;;
  Ok tt) = Ok tt.
Proof. vm_compute. reflexivity. Qed.

(** test_mxm.cpp:1601-1625, optimized_sequential platform *)
Example test_mxm_Mask_Accum_AB_Merge_Cones_Mlower_opt :
 (x_mA <- mdense0 TyD d_mA_dense_3x3 0%Q ;;
  x_mB <- mdense0 TyD d_mB_dense_3x4 0%Q ;;
  x_mMask <- mdense0 TyD [[1; 0; 0; 0]; [1; 1; 0; 0]; [1; 1; 1; 0]]%Q 0%Q ;;
  _ <- check (Qeq_bool (inject_Z (nvals x_mMask)) 6%Q) ;;
  x_result <- mdense0 TyD d_mOnes_3x4 0%Q ;;
  x_answer <- mdense0 TyD [[114; 1; 1; 1]; [74; 97; 1; 1]; [119; 157; 112; 1]]%Q 0%Q ;;
  x_result_1 <- t_opt_mxm TyD (acc TyD qsecond) TyD (mkSr qplus qtimes TyD) (MVal (Other x_mMask))
    MERGE x_result (OMat (Other x_mA)) (OMat (Other x_mB)) ;;
  _ <- check (Qeq_bool (inject_Z (nvals x_result_1)) 12%Q) ;;
  x_q <- meq x_result_1 x_answer ;;
  _ <- check x_q ;;
  Ok tt) = Ok tt.
Proof. vm_compute. reflexivity. Qed.

(** test_mxm.cpp:1628-1652 *)
Example test_mxm_Mask_Accum_ATB_Replace_Mlower_Cones :
 (x_mA <- mdense0 TyD d_mA_dense_3x3 0%Q ;;
  x_mB <- mdense0 TyD d_mB_dense_3x4 0%Q ;;
  x_result <- mdense0 TyD d_mOnes_3x4 0%Q ;;
  x_mMask <- mdense0 TyD [[1; 0; 0; 0]; [1; 1; 0; 0]; [1; 1; 1; 0]]%Q 0%Q ;;
  x_answer <- mdense0 TyD [[112; 0; 0; 0]; [97; 131; 0; 0]; [87; 111; 102; 0]]%Q 0%Q ;;
  x_result_1 <- t_mxm TyD (acc TyD qsecond) (mkSr qplus qtimes TyD) (MVal x_mMask) REPLACE x_result
    (Trn x_mA) (Mat x_mB) ;;
  x_q <- meq x_result_1 x_answer ;;
  _ <- check x_q ;;
  Ok tt) = Ok tt.
Proof. vm_compute. reflexivity. Qed.

(** test_mxm.cpp:1628-1652, optimized_sequential platform *)
Example test_mxm_Mask_Accum_ATB_Replace_Mlower_Cones_opt :
 (x_mA <- mdense0 TyD d_mA_dense_3x3 0%Q ;;
  x_mB <- mdense0 TyD d_mB_dense_3x4 0%Q ;;
  x_result <- mdense0 TyD d_mOnes_3x4 0%Q ;;
  x_mMask <- mdense0 TyD [[1; 0; 0; 0]; [1; 1; 0; 0]; [1; 1; 1; 0]]%Q 0%Q ;;
  x_answer <- mdense0 TyD [[112; 0; 0; 0]; [97; 131; 0; 0]; [87; 111; 102; 0]]%Q 0%Q ;;
  x_result_1 <- t_opt_mxm TyD (acc TyD qsecond) TyD (mkSr qplus qtimes TyD) (MVal (Other x_mMask))
    REPLACE x_result (OTrn (Other x_mA)) (OMat (Other x_mB)) ;;
  x_q <- meq x_result_1 x_answer ;;
  _ <- check x_q ;;
  Ok tt) = Ok tt.
Proof. vm_compute. reflexivity. Qed.

(** test_mxm.cpp:1655-1680 *)
Example test_mxm_Mask_Accum_ATB_Replace_Mlower_Cones_Bidentity :
 (x_mA <- mdense0 TyD d_mA_dense_3x3 0%Q ;;
  x_mB <- mdense0 TyD d_mIdentity_3x3 0%Q ;;
  x_result <- mdense0 TyD d_mOnes_3x3 0%Q ;;
  x_mMask <- mdense0 TyD [[1; 0; 0]; [1; 1; 0]; [1; 1; 1]]%Q 0%Q ;;
  x_answer <- mdense0 TyD [[12; 0; 0]; [7; 5; 0]; [3; 6; 9]]%Q 0%Q ;;
  x_result_1 <- t_mxm TyD (acc TyD qsecond) (mkSr qplus qtimes TyD) (MVal x_mMask) REPLACE x_result
    (Trn x_mA) (Mat x_mB) ;;
  x_q <- meq x_result_1 x_answer ;;
  _ <- check x_q ;;
  Ok tt) = Ok tt.
Proof. vm_compute. reflexivity. Qed.

(** test_mxm.cpp:1655-1680, optimized_sequential platform *)
Example test_mxm_Mask_Accum_ATB_Replace_Mlower_Cones_Bidentity_opt :
 (x_mA <- mdense0 TyD d_mA_dense_3x3 0%Q ;;
  x_mB <- mdense0 TyD d_mIdentity_3x3 0%Q ;;
  x_result <- mdense0 TyD d_mOnes_3x3 0%Q ;;
  x_mMask <- mdense0 TyD [[1; 0; 0]; [1; 1; 0]; [1; 1; 1]]%Q 0%Q ;;
  x_answer <- mdense0 TyD [[12; 0; 0]; [7; 5; 0]; [3; 6; 9]]%Q 0%Q ;;
  x_result_1 <- t_opt_mxm TyD (acc TyD qsecond) TyD (mkSr qplus qtimes TyD) (MVal (Other x_mMask))
    REPLACE x_result (OTrn (Other x_mA)) (OMat (Other x_mB)) ;;
  x_q <- meq x_result_1 x_answer ;;
  _ <- check x_q ;;
  Ok tt) = Ok tt.
Proof. vm_compute. reflexivity. Qed.

(** test_mxm.cpp:1683-1710 *)
Example test_mxm_Mask_Accum_ATB_Merge_Cones_Mlower :
 (x_mA <- mdense0 TyD d_mA_dense_3x3 0%Q ;;
  x_mB <- mdense0 TyD [[5; 8; 1]; [2; 6; 7]; [3; 4; 5]]%Q 0%Q ;;
  x_result <- mdense0 TyD d_mOnes_3x3 0%Q ;;
  x_mMask <- mdense0 TyD [[1; 0; 0]; [1; 1; 0]; [1; 1; 1]]%Q 0%Q ;;
  x_answer <- mdense0 TyD [[119; 1; 1]; [66; 80; 1]; [108; 125; 98]]%Q 0%Q ;;
  x_result_1 <- t_mxm TyD (acc TyD qsecond) (mkSr qplus qtimes TyD) (MVal x_mMask) MERGE x_result
    (Mat x_mA) (Trn x_mB) ;;
  x_q <- meq x_result_1 x_answer ;;
  _ <- check x_q ;;
  Ok tt) = Ok tt.
Proof. vm_compute. reflexivity. Qed.

(** test_mxm.cpp:1683-1710, optimized_sequential platform *)
Example test_mxm_Mask_Accum_ATB_Merge_Cones_Mlower_opt :
 (x_mA <- mdense0 TyD d_mA_dense_3x3 0%Q ;;
  x_mB <- mdense0 TyD [[5; 8; 1]; [2; 6; 7]; [3; 4; 5]]%Q 0%Q ;;
  x_result <- mdense0 TyD d_mOnes_3x3 0%Q ;;
  x_mMask <- mdense0 TyD [[1; 0; 0]; [1; 1; 0]; [1; 1; 1]]%Q 0%Q ;;
  x_answer <- mdense0 TyD [[119; 1; 1]; [66; 80; 1]; [108; 125; 98]]%Q 0%Q ;;
  x_result_1 <- t_opt_mxm TyD (acc TyD qsecond) TyD (mkSr qplus qtimes TyD) (MVal (Other x_mMask))
    MERGE x_result (OMat (Other x_mA)) (OTrn (Other x_mB)) ;;
  x_q <- meq x_result_1 x_answer ;;
  _ <- check x_q ;;
  Ok tt) = Ok tt.
Proof. vm_compute. reflexivity. Qed.

(** test_mxm.cpp:1713-1737 *)
Example test_mxm_Mask_Accum_ATB_Merge_Cones_Mmasked_Bidentity :
 (x_mA <- mdense0 TyD d_mA_dense_3x3 0%Q ;;
  x_mB <- mdense0 TyD d_mIdentity_3x3 0%Q ;;
  x_result <- mdense0 TyD d_mOnes_3x3 0%Q ;;
  x_mMask <- mdense0 TyD [[1; 0; 0]; [1; 1; 0]; [1; 1; 1]]%Q 0%Q ;;
  x_answer <- mdense0 TyD [[12; 1; 1]; [7; 5; 1]; [3; 6; 9]]%Q 0%Q ;;
  x_result_1 <- t_mxm TyD (acc TyD qsecond) (mkSr qplus qtimes TyD) (MVal x_mMask) MERGE x_result
    (Trn x_mA) (Mat x_mB) ;;
  x_q <- meq x_result_1 x_answer ;;
  _ <- check x_q ;;
  Ok tt) = Ok tt.
Proof. vm_compute. reflexivity. Qed.

(** test_mxm.cpp:1713-1737, optimized_sequential platform *)
Example test_mxm_Mask_Accum_ATB_Merge_Cones_Mmasked_Bidentity_opt :
 (x_mA <- mdense0 TyD d_mA_dense_3x3 0%Q ;;
  x_mB <- mdense0 TyD d_mIdentity_3x3 0%Q ;;
  x_result <- mdense0 TyD d_mOnes_3x3 0%Q ;;
  x_mMask <- mdense0 TyD [[1; 0; 0]; [1; 1; 0]; [1; 1; 1]]%Q 0%Q ;;
  x_answer <- mdense0 TyD [[12; 1; 1]; [7; 5; 1]; [3; 6; 9]]%Q 0%Q ;;
  x_result_1 <- t_opt_mxm TyD (acc TyD qsecond) TyD (mkSr qplus qtimes TyD) (MVal (Other x_mMask))
    MERGE x_result (OTrn (Other x_mA)) (OMat (Other x_mB)) ;;
  x_q <- meq x_result_1 x_answer ;;
  _ <- check x_q ;;
  Ok tt) = Ok tt.
Proof. vm_compute. reflexivity. Qed.

(** test_mxm.cpp:1740-1763 *)
Example test_mxm_Mask_Accum_ATB_Cones_Mlower :
 (x_mA <- mdense0 TyD d_mA_dense_3x3 0%Q ;;
  x_mB <- mdense0 TyD d_mB_dense_3x4 0%Q ;;
  x_result <- mdense0 TyD d_mOnes_3x4 0%Q ;;
  x_mMask <- mdense0 TyD [[1; 0; 0; 0]; [1; 1; 0; 0]; [1; 1; 1; 0]]%Q 0%Q ;;
  x_answer <- mdense0 TyD [[112; 1; 1; 1]; [97; 131; 1; 1]; [87; 111; 102; 1]]%Q 0%Q ;;
  x_result_1 <- t_mxm TyD (acc TyD qsecond) (mkSr qplus qtimes TyD) (MVal x_mMask) MERGE x_result
    (Trn x_mA) (Mat x_mB) ;;
  x_q <- meq x_result_1 x_answer ;;
  _ <- check x_q ;;
  Ok tt) = Ok tt.
Proof. vm_compute. reflexivity. Qed.

(** test_mxm.cpp:1740-1763, optimized_sequential platform *)
Example test_mxm_Mask_Accum_ATB_Cones_Mlower_opt :
 (x_mA <- mdense0 TyD d_mA_dense_3x3 0%Q ;;
  x_mB <- mdense0 TyD d_mB_dense_3x4 0%Q ;;
  x_result <- mdense0 TyD d_mOnes_3x4 0%Q ;;
  x_mMask <- mdense0 TyD [[1; 0; 0; 0]; [1; 1; 0; 0]; [1; 1; 1; 0]]%Q 0%Q ;;
  x_answer <- mdense0 TyD [[112; 1; 1; 1]; [97; 131; 1; 1]; [87; 111; 102; 1]]%Q 0%Q ;;
  x_result_1 <- t_opt_mxm TyD (acc TyD qsecond) TyD (mkSr qplus qtimes TyD) (MVal (Other x_mMask))
    MERGE x_result (OTrn (Other x_mA)) (OMat (Other x_mB)) ;;
  x_q <- meq x_result_1 x_answer ;;
  _ <- check x_q ;;
  Ok tt) = Ok tt.
Proof. vm_compute. reflexivity. Qed.

(** test_mxm.cpp:1766-1794 *)
Example test_mxm_Mask_Accum_ABT_Mlower_Cones :
 (x_mA <- mdense0 TyD d_mA_dense_3x3 0%Q ;;
  x_mB <- mdense0 TyD [[5; 8; 1]; [2; 6; 7]; [3; 4; 5]]%Q 0%Q ;;
  x_result <- mdense0 TyD d_mOnes_3x3 0%Q ;;
  x_mMask <- mdense0 TyD [[1; 0; 0]; [1; 1; 0]; [1; 1; 1]]%Q 0%Q ;;
  x_answer <- mdense0 TyD [[119; 0; 0]; [66; 80; 0]; [108; 125; 98]]%Q 0%Q ;;
  x_result_1 <- t_mxm TyD (acc TyD qsecond) (mkSr qplus qtimes TyD) (MVal x_mMask) REPLACE x_result
    (Mat x_mA) (Trn x_mB) ;;
  x_q <- meq x_result_1 x_answer ;;
  _ <- check x_q ;;
  Ok tt) = Ok tt.
Proof. vm_compute. reflexivity. Qed.

(** test_mxm.cpp:1766-1794, optimized_sequential platform *)
Example test_mxm_Mask_Accum_ABT_Mlower_Cones_opt :
 (x_mA <- mdense0 TyD d_mA_dense_3x3 0%Q ;;
  x_mB <- mdense0 TyD [[5; 8; 1]; [2; 6; 7]; [3; 4; 5]]%Q 0%Q ;;
  x_result <- mdense0 TyD d_mOnes_3x3 0%Q ;;
  x_mMask <- mdense0 TyD [[1; 0; 0]; [1; 1; 0]; [1; 1; 1]]%Q 0%Q ;;
  x_answer <- mdense0 TyD [[119; 0; 0]; [66; 80; 0]; [108; 125; 98]]%Q 0%Q ;;
  x_result_1 <- t_opt_mxm TyD (acc TyD qsecond) TyD (mkSr qplus qtimes TyD) (MVal (Other x_mMask))
    REPLACE x_result (OMat (Other x_mA)) (OTrn (Other x_mB)) ;;
  x_q <- meq x_result_1 x_answer ;;
  _ <- check x_q ;;
  Ok tt) = Ok tt.
Proof. vm_compute. reflexivity. Qed.

(** test_mxm.cpp:1797-1824 *)
Example test_mxm_Mask_Accum_ATBT_Mlower_Cones :
 (x_mA <- mdense0 TyD d_mA_dense_3x3 0%Q ;;
  x_mB <- mdense0 TyD [[5; 8; 1]; [2; 6; 7]; [3; 4; 5]]%Q 0%Q ;;
  x_result <- mdense0 TyD d_mOnes_3x3 0%Q ;;
  x_mMask <- mdense0 TyD [[1; 0; 0]; [1; 1; 0]; [1; 1; 1]]%Q 0%Q ;;
  x_answer <- mdense0 TyD [[99; 0; 0]; [83; 100; 0]; [72; 105; 78]]%Q 0%Q ;;
  x_result_1 <- t_mxm TyD (acc TyD qsecond) (mkSr qplus qtimes TyD) (MVal x_mMask) REPLACE x_result
    (Trn x_mA) (Trn x_mB) ;;
  x_q <- meq x_result_1 x_answer ;;
  _ <- check x_q ;;
  Ok tt) = Ok tt.
Proof. vm_compute. reflexivity. Qed.

(** test_mxm.cpp:1797-1824, optimized_sequential platform *)
Example test_mxm_Mask_Accum_ATBT_Mlower_Cones_opt :
 (x_mA <- mdense0 TyD d_mA_dense_3x3 0%Q ;;
  x_mB <- mdense0 TyD [[5; 8; 1]; [2; 6; 7]; [3; 4; 5]]%Q 0%Q ;;
  x_result <- mdense0 TyD d_mOnes_3x3 0%Q ;;
  x_mMask <- mdense0 TyD [[1; 0; 0]; [1; 1; 0]; [1; 1; 1]]%Q 0%Q ;;
  x_answer <- mdense0 TyD [[99; 0; 0]; [83; 100; 0]; [72; 105; 78]]%Q 0%Q ;;
  x_result_1 <- t_opt_mxm TyD (acc TyD qsecond) TyD (mkSr qplus qtimes TyD) (MVal (Other x_mMask))
    REPLACE x_result (OTrn (Other x_mA)) (OTrn (Other x_mB)) ;;
  x_q <- meq x_result_1 x_answer ;;
  _ <- check x_q ;;
  Ok tt) = Ok tt.
Proof. vm_compute. reflexivity. Qed.

(** test_mxm.cpp:1827-1853 *)
Example test_mxm_Mask_Accum_ATBT_Merge_Cones_Mlower :
 (x_mA <- mdense0 TyD d_mA_dense_3x3 0%Q ;;
  x_mB <- mdense0 TyD [[5; 8; 1]; [2; 6; 7]; [3; 4; 5]]%Q 0%Q ;;
  x_result <- mdense0 TyD d_mOnes_3x3 0%Q ;;
  x_mMask <- mdense0 TyD [[1; 0; 0]; [1; 1; 0]; [1; 1; 1]]%Q 0%Q ;;
  x_answer <- mdense0 TyD [[99; 1; 1]; [83; 100; 1]; [72; 105; 78]]%Q 0%Q ;;
  x_result_1 <- t_mxm TyD (acc TyD qsecond) (mkSr qplus qtimes TyD) (MVal x_mMask) MERGE x_result
    (Trn x_mA) (Trn x_mB) ;;
  x_q <- meq x_result_1 x_answer ;;
  _ <- check x_q ;;
  Ok tt) = Ok tt.
Proof. vm_compute. reflexivity. Qed.

(** test_mxm.cpp:1827-1853, optimized_sequential platform *)
Example test_mxm_Mask_Accum_ATBT_Merge_Cones_Mlower_opt :
 (x_mA <- mdense0 TyD d_mA_dense_3x3 0%Q ;;
  x_mB <- mdense0 TyD [[5; 8; 1]; [2; 6; 7]; [3; 4; 5]]%Q 0%Q ;;
  x_result <- mdense0 TyD d_mOnes_3x3 0%Q ;;
  x_mMask <- mdense0 TyD [[1; 0; 0]; [1; 1; 0]; [1; 1; 1]]%Q 0%Q ;;
  x_answer <- mdense0 TyD [[99; 1; 1]; [83; 100; 1]; [72; 105; 78]]%Q 0%Q ;;
  x_result_1 <- t_opt_mxm TyD (acc TyD qsecond) TyD (mkSr qplus qtimes TyD) (MVal (Other x_mMask))
    MERGE x_result (OTrn (Other x_mA)) (OTrn (Other x_mB)) ;;
  x_q <- meq x_result_1 x_answer ;;
  _ <- check x_q ;;
  Ok tt) = Ok tt.
Proof. vm_compute. reflexivity. Qed.

(** test_mxm.cpp:1859-1889 *)
Example test_mxm_CompMask_NoAccum_AB_Replace_ABdup :
 (x_mat <- mdense0 TyD [[1; 1; 0; 0]; [1; 2; 2; 0]; [0; 2; 3; 3]; [0; 0; 3; 4]]%Q 0%Q ;;
  x_result <- mdense0 TyD d_mOnes_4x4 0%Q ;;
  x_answer <- mdense0 TyD [[2; 0; 0; 0]; [3; 9; 0; 0]; [2; 10; 22; 0]; [0; 6; 21; 25]]%Q 0%Q ;;
  x_mMask <- mdense0 TyD [[0; 1; 1; 1]; [0; 0; 1; 1]; [0; 0; 0; 1]; [0; 0; 0; 0]]%Q 0%Q ;;
  x_result_1 <- t_mxm TyD noacc (mkSr qplus qtimes TyD) (MComp x_mMask) REPLACE x_result (Mat x_mat)
    (Mat x_mat) ;;
  x_q <- meq x_result_1 x_answer ;;
  _ <- check x_q ;;
  Ok tt) = Ok tt.
Proof. vm_compute. reflexivity. Qed.

(** test_mxm.cpp:1859-1889, optimized_sequential platform *)
Example test_mxm_CompMask_NoAccum_AB_Replace_ABdup_opt :
 (x_mat <- mdense0 TyD [[1; 1; 0; 0]; [1; 2; 2; 0]; [0; 2; 3; 3]; [0; 0; 3; 4]]%Q 0%Q ;;
  x_result <- mdense0 TyD d_mOnes_4x4 0%Q ;;
  x_answer <- mdense0 TyD [[2; 0; 0; 0]; [3; 9; 0; 0]; [2; 10; 22; 0]; [0; 6; 21; 25]]%Q 0%Q ;;
  x_mMask <- mdense0 TyD [[0; 1; 1; 1]; [0; 0; 1; 1]; [0; 0; 0; 1]; [0; 0; 0; 0]]%Q 0%Q ;;
  x_result_1 <- t_opt_mxm TyD noacc TyD (mkSr qplus qtimes TyD) (MComp (Other x_mMask)) REPLACE
    x_result (OMat (Other x_mat)) (OMat (Other x_mat)) ;;
  x_q <- meq x_result_1 x_answer ;;
  _ <- check x_q ;;
  Ok tt) = Ok tt.
Proof. vm_compute. reflexivity. Qed.

(** test_mxm.cpp:1892-1917 *)
Example test_mxm_CompMask_Accum_AB_Replace_Cones_Mnlower :
 (x_mA <- mdense0 TyD d_mA_dense_3x3 0%Q ;;
  x_mB <- mdense0 TyD d_mB_dense_3x4 0%Q ;;
  x_mMask <- mdense0 TyD [[0; 1; 1; 1]; [0; 0; 1; 1]; [0; 0; 0; 1]]%Q 0%Q ;;
  _ <- check (Qeq_bool (inject_Z (nvals x_mMask)) 6%Q) ;;
  x_result <- mdense0 TyD d_mOnes_3x4 0%Q ;;
  x_answer <- mdense0 TyD [[114; 0; 0; 0]; [74; 97; 0; 0]; [119; 157; 112; 0]]%Q 0%Q ;;
  x_result_1 <- t_mxm TyD (acc TyD qsecond) (mkSr qplus qtimes TyD) (MComp x_mMask) REPLACE x_result
    (Mat x_mA) (Mat x_mB) ;;
  _ <- check (Qeq_bool (inject_Z (nvals x_result_1)) 6%Q) ;;
  x_q <- meq x_result_1 x_answer ;;
  _ <- check x_q ;;
  Ok tt) = Ok tt.
Proof. vm_compute. reflexivity. Qed.

(** test_mxm.cpp:1892-1917, optimized_sequential platform *)
Example test_mxm_CompMask_Accum_AB_Replace_Cones_Mnlower_opt :
 (x_mA <- mdense0 TyD d_mA_dense_3x3 0%Q ;;
  x_mB <- mdense0 TyD d_mB_dense_3x4 0%Q ;;
  x_mMask <- mdense0 TyD [[0; 1; 1; 1]; [0; 0; 1; 1]; [0; 0; 0; 1]]%Q 0%Q ;;
  _ <- check (Qeq_bool (inject_Z (nvals x_mMask)) 6%Q) ;;
  x_result <- mdense0 TyD d_mOnes_3x4 0%Q ;;
  x_answer <- mdense0 TyD [[114; 0; 0; 0]; [74; 97; 0; 0]; [119; 157; 112; 0]]%Q 0%Q ;;
  x_result_1 <- t_opt_mxm TyD (acc TyD qsecond) TyD (mkSr qplus qtimes TyD) (MComp (Other x_mMask))
    REPLACE x_result (OMat (Other x_mA)) (OMat (Other x_mB)) ;;
  _ <- check (Qeq_bool (inject_Z (nvals x_result_1)) 6%Q) ;;
  x_q <- meq x_result_1 x_answer ;;
  _ <- check x_q ;;
  Ok tt) = Ok tt.
Proof. vm_compute. reflexivity. Qed.

(** test_mxm.cpp:1920-1946 *)
Example test_mxm_CompMask_Accum_AB_Replace_Mstored_zero :
 (x_mA <- mdense0 TyD d_mA_dense_3x3 0%Q ;;
  x_mB <- mdense0 TyD d_mB_dense_3x4 0%Q ;;
  x_mMask <- mdense0 TyD [[0; 1; 1; 1]; [0; 0; 1; 1]; [0; 0; 0; 1]]%Q 0%Q ;;
  x_mMask_1 <- lil_setElement x_mMask 0 0 (cast TyD 0%Q) ;;
  _ <- check (Qeq_bool (inject_Z (nvals x_mMask_1)) 7%Q) ;;
  x_result <- mdense0 TyD d_mOnes_3x4 0%Q ;;
  x_answer <- mdense0 TyD [[114; 0; 0; 0]; [74; 97; 0; 0]; [119; 157; 112; 0]]%Q 0%Q ;;
  x_result_1 <- t_mxm TyD (acc TyD qsecond) (mkSr qplus qtimes TyD) (MComp x_mMask_1) REPLACE
    x_result (Mat x_mA) (Mat x_mB) ;;
  _ <- check (Qeq_bool (inject_Z (nvals x_result_1)) 6%Q) ;;
  x_q <- meq x_result_1 x_answer ;;
  _ <- check x_q ;;
  Ok tt) = Ok tt.
Proof. vm_compute. reflexivity. Qed.

(** test_mxm.cpp:1920-1946, optimized_sequential platform *)
Example test_mxm_CompMask_Accum_AB_Replace_Mstored_zero_opt :
 (x_mA <- mdense0 TyD d_mA_dense_3x3 0%Q ;;
  x_mB <- mdense0 TyD d_mB_dense_3x4 0%Q ;;
  x_mMask <- mdense0 TyD [[0; 1; 1; 1]; [0; 0; 1; 1]; [0; 0; 0; 1]]%Q 0%Q ;;
  x_mMask_1 <- lil_setElement x_mMask 0 0 (cast TyD 0%Q) ;;
  _ <- check (Qeq_bool (inject_Z (nvals x_mMask_1)) 7%Q) ;;
  x_result <- mdense0 TyD d_mOnes_3x4 0%Q ;;
  x_answer <- mdense0 TyD [[114; 0; 0; 0]; [74; 97; 0; 0]; [119; 157; 112; 0]]%Q 0%Q ;;
  x_result_1 <- t_opt_mxm TyD (acc TyD qsecond) TyD (mkSr qplus qtimes TyD) (MComp (Other
    x_mMask_1)) REPLACE x_result (OMat (Other x_mA)) (OMat (Other x_mB)) ;;
  _ <- check (Qeq_bool (inject_Z (nvals x_result_1)) 6%Q) ;;
  x_q <- meq x_result_1 x_answer ;;
  _ <- check x_q ;;
  Ok tt) = Ok tt.
Proof. vm_compute. reflexivity. Qed.

(** test_mxm.cpp:1949-1973 *)
Example test_mxm_CompMask_Accum_AB_Merge :
 (x_mA <- mdense0 TyD d_mA_dense_3x3 0%Q ;;
  x_mB <- mdense0 TyD d_mB_dense_3x4 0%Q ;;
  x_mMask <- mdense0 TyD [[0; 1; 1; 1]; [0; 0; 1; 1]; [0; 0; 0; 1]]%Q 0%Q ;;
  _ <- check (Qeq_bool (inject_Z (nvals x_mMask)) 6%Q) ;;
  x_result <- mdense0 TyD d_mOnes_3x4 0%Q ;;
  x_answer <- mdense0 TyD [[114; 1; 1; 1]; [74; 97; 1; 1]; [119; 157; 112; 1]]%Q 0%Q ;;
  x_result_1 <- t_mxm TyD (acc TyD qsecond) (mkSr qplus qtimes TyD) (MComp x_mMask) MERGE x_result
    (Mat x_mA) (Mat x_mB) ;;
  _ <- check (Qeq_bool (inject_Z (nvals x_result_1)) 12%Q) ;;
  x_q <- meq x_result_1 x_answer ;;
  _ <- check x_q ;;
  Ok tt) = Ok tt.
Proof. vm_compute. reflexivity. Qed.

(** test_mxm.cpp:1949-1973, optimized_sequential platform *)
Example test_mxm_CompMask_Accum_AB_Merge_opt :
 (x_mA <- mdense0 TyD d_mA_dense_3x3 0%Q ;;
  x_mB <- mdense0 TyD d_mB_dense_3x4 0%Q ;;
  x_mMask <- mdense0 TyD [[0; 1; 1; 1]; [0; 0; 1; 1]; [0; 0; 0; 1]]%Q 0%Q ;;
  _ <- check (Qeq_bool (inject_Z (nvals x_mMask)) 6%Q) ;;
  x_result <- mdense0 TyD d_mOnes_3x4 0%Q ;;
  x_answer <- mdense0 TyD [[114; 1; 1; 1]; [74; 97; 1; 1]; [119; 157; 112; 1]]%Q 0%Q ;;
  x_result_1 <- t_opt_mxm TyD (acc TyD qsecond) TyD (mkSr qplus qtimes TyD) (MComp (Other x_mMask))
    MERGE x_result (OMat (Other x_mA)) (OMat (Other x_mB)) ;;
  _ <- check (Qeq_bool (inject_Z (nvals x_result_1)) 12%Q) ;;
  x_q <- meq x_result_1 x_answer ;;
  _ <- check x_q ;;
  Ok tt) = Ok tt.
Proof. vm_compute. reflexivity. Qed.

(** test_mxm.cpp:1976-2001 *)
Example test_mxm_CompMask_Accum_AB_Merge_Mstored_zero :
 (x_mA <- mdense0 TyD d_mA_dense_3x3 0%Q ;;
  x_mB <- mdense0 TyD d_mB_dense_3x4 0%Q ;;
  x_mMask <- mdense0 TyD [[0; 1; 1; 1]; [0; 0; 1; 1]; [0; 0; 0; 1]]%Q 0%Q ;;
  x_mMask_1 <- lil_setElement x_mMask 0 0 (cast TyD 0%Q) ;;
  _ <- check (Qeq_bool (inject_Z (nvals x_mMask_1)) 7%Q) ;;
  x_result <- mdense0 TyD d_mOnes_3x4 0%Q ;;
  x_answer <- mdense0 TyD [[114; 1; 1; 1]; [74; 97; 1; 1]; [119; 157; 112; 1]]%Q 0%Q ;;
  x_result_1 <- t_mxm TyD (acc TyD qsecond) (mkSr qplus qtimes TyD) (MComp x_mMask_1) MERGE x_result
    (Mat x_mA) (Mat x_mB) ;;
  _ <- check (Qeq_bool (inject_Z (nvals x_result_1)) 12%Q) ;;
  x_q <- meq x_result_1 x_answer ;;
  _ <- check x_q ;;
  Ok tt) = Ok tt.
Proof. vm_compute. reflexivity. Qed.

(** test_mxm.cpp:1976-2001, optimized_sequential platform *)
Example test_mxm_CompMask_Accum_AB_Merge_Mstored_zero_opt :
 (x_mA <- mdense0 TyD d_mA_dense_3x3 0%Q ;;
  x_mB <- mdense0 TyD d_mB_dense_3x4 0%Q ;;
  x_mMask <- mdense0 TyD [[0; 1; 1; 1]; [0; 0; 1; 1]; [0; 0; 0; 1]]%Q 0%Q ;;
  x_mMask_1 <- lil_setElement x_mMask 0 0 (cast TyD 0%Q) ;;
  _ <- check (Qeq_bool (inject_Z (nvals x_mMask_1)) 7%Q) ;;
  x_result <- mdense0 TyD d_mOnes_3x4 0%Q ;;
  x_answer <- mdense0 TyD [[114; 1; 1; 1]; [74; 97; 1; 1]; [119; 157; 112; 1]]%Q 0%Q ;;
  x_result_1 <- t_opt_mxm TyD (acc TyD qsecond) TyD (mkSr qplus qtimes TyD) (MComp (Other
    x_mMask_1)) MERGE x_result (OMat (Other x_mA)) (OMat (Other x_mB)) ;;
  _ <- check (Qeq_bool (inject_Z (nvals x_result_1)) 12%Q) ;;
  x_q <- meq x_result_1 x_answer ;;
  _ <- check x_q ;;
  Ok tt) = Ok tt.
Proof. vm_compute. reflexivity. Qed.

(** test_mxm.cpp:2004-2033 *)
Example test_mxm_CompMask_Accum_AB_Merge_ABdup :
 (x_mat <- mdense0 TyD [[1; 1; 0; 0]; [1; 2; 2; 0]; [0; 2; 3; 3]; [0; 0; 3; 4]]%Q 0%Q ;;
  x_result <- mdense0 TyD d_mOnes_4x4 0%Q ;;
  x_answer <- mdense0 TyD [[2; 1; 1; 1]; [3; 9; 1; 1]; [2; 10; 22; 1]; [0; 6; 21; 25]]%Q 0%Q ;;
  x_mMask <- mdense0 TyD [[0; 1; 1; 1]; [0; 0; 1; 1]; [0; 0; 0; 1]; [0; 0; 0; 0]]%Q 0%Q ;;
  x_result_1 <- t_mxm TyD noacc (mkSr qplus qtimes TyD) (MComp x_mMask) MERGE x_result (Mat x_mat)
    (Mat x_mat) ;;
  x_q <- meq x_result_1 x_answer ;;
  _ <- check x_q ;;
  Ok tt) = Ok tt.
Proof. vm_compute. reflexivity. Qed.

(** test_mxm.cpp:2004-2033, optimized_sequential platform *)
Example test_mxm_CompMask_Accum_AB_Merge_ABdup_opt :
 (x_mat <- mdense0 TyD [[1; 1; 0; 0]; [1; 2; 2; 0]; [0; 2; 3; 3]; [0; 0; 3; 4]]%Q 0%Q ;;
  x_result <- mdense0 TyD d_mOnes_4x4 0%Q ;;
  x_answer <- mdense0 TyD [[2; 1; 1; 1]; [3; 9; 1; 1]; [2; 10; 22; 1]; [0; 6; 21; 25]]%Q 0%Q ;;
  x_mMask <- mdense0 TyD [[0; 1; 1; 1]; [0; 0; 1; 1]; [0; 0; 0; 1]; [0; 0; 0; 0]]%Q 0%Q ;;
  x_result_1 <- t_opt_mxm TyD noacc TyD (mkSr qplus qtimes TyD) (MComp (Other x_mMask)) MERGE
    x_result (OMat (Other x_mat)) (OMat (Other x_mat)) ;;
  x_q <- meq x_result_1 x_answer ;;
  _ <- check x_q ;;
  Ok tt) = Ok tt.
Proof. vm_compute. reflexivity. Qed.

(** test_mxm.cpp:2036-2060 *)
Example test_mxm_CompMask_Accum_ATB_Replace :
 (x_mA <- mdense0 TyD d_mA_dense_3x3 0%Q ;;
  x_mB <- mdense0 TyD d_mB_dense_3x4 0%Q ;;
  x_result <- mdense0 TyD d_mOnes_3x4 0%Q ;;
  x_mMask <- mdense0 TyD [[0; 1; 1; 1]; [0; 0; 1; 1]; [0; 0; 0; 1]]%Q 0%Q ;;
  x_answer <- mdense0 TyD [[112; 0; 0; 0]; [97; 131; 0; 0]; [87; 111; 102; 0]]%Q 0%Q ;;
  x_result_1 <- t_mxm TyD (acc TyD qsecond) (mkSr qplus qtimes TyD) (MComp x_mMask) REPLACE x_result
    (Trn x_mA) (Mat x_mB) ;;
  x_q <- meq x_result_1 x_answer ;;
  _ <- check x_q ;;
  Ok tt) = Ok tt.
Proof. vm_compute. reflexivity. Qed.

(** test_mxm.cpp:2036-2060, optimized_sequential platform *)
Example test_mxm_CompMask_Accum_ATB_Replace_opt :
 (x_mA <- mdense0 TyD d_mA_dense_3x3 0%Q ;;
  x_mB <- mdense0 TyD d_mB_dense_3x4 0%Q ;;
  x_result <- mdense0 TyD d_mOnes_3x4 0%Q ;;
  x_mMask <- mdense0 TyD [[0; 1; 1; 1]; [0; 0; 1; 1]; [0; 0; 0; 1]]%Q 0%Q ;;
  x_answer <- mdense0 TyD [[112; 0; 0; 0]; [97; 131; 0; 0]; [87; 111; 102; 0]]%Q 0%Q ;;
  x_result_1 <- t_opt_mxm TyD (acc TyD qsecond) TyD (mkSr qplus qtimes TyD) (MComp (Other x_mMask))
    REPLACE x_result (OTrn (Other x_mA)) (OMat (Other x_mB)) ;;
  x_q <- meq x_result_1 x_answer ;;
  _ <- check x_q ;;
  Ok tt) = Ok tt.
Proof. vm_compute. reflexivity. Qed.

(** test_mxm.cpp:2063-2088 *)
Example test_mxm_CompMask_Accum_ATB_Replace_Bidentity :
 (x_mA <- mdense0 TyD d_mA_dense_3x3 0%Q ;;
  x_mB <- mdense0 TyD d_mIdentity_3x3 0%Q ;;
  x_result <- mdense0 TyD d_mOnes_3x3 0%Q ;;
  x_mMask <- mdense0 TyD [[0; 1; 1]; [0; 0; 1]; [0; 0; 0]]%Q 0%Q ;;
  x_answer <- mdense0 TyD [[12; 0; 0]; [7; 5; 0]; [3; 6; 9]]%Q 0%Q ;;
  x_result_1 <- t_mxm TyD (acc TyD qsecond) (mkSr qplus qtimes TyD) (MComp x_mMask) REPLACE x_result
    (Trn x_mA) (Mat x_mB) ;;
  x_q <- meq x_result_1 x_answer ;;
  _ <- check x_q ;;
  Ok tt) = Ok tt.
Proof. vm_compute. reflexivity. Qed.

(** test_mxm.cpp:2063-2088, optimized_sequential platform *)
Example test_mxm_CompMask_Accum_ATB_Replace_Bidentity_opt :
 (x_mA <- mdense0 TyD d_mA_dense_3x3 0%Q ;;
  x_mB <- mdense0 TyD d_mIdentity_3x3 0%Q ;;
  x_result <- mdense0 TyD d_mOnes_3x3 0%Q ;;
  x_mMask <- mdense0 TyD [[0; 1; 1]; [0; 0; 1]; [0; 0; 0]]%Q 0%Q ;;
  x_answer <- mdense0 TyD [[12; 0; 0]; [7; 5; 0]; [3; 6; 9]]%Q 0%Q ;;
  x_result_1 <- t_opt_mxm TyD (acc TyD qsecond) TyD (mkSr qplus qtimes TyD) (MComp (Other x_mMask))
    REPLACE x_result (OTrn (Other x_mA)) (OMat (Other x_mB)) ;;
  x_q <- meq x_result_1 x_answer ;;
  _ <- check x_q ;;
  Ok tt) = Ok tt.
Proof. vm_compute. reflexivity. Qed.

(** test_mxm.cpp:2091-2114 *)
Example test_mxm_CompMask_Accum_ATB_Merge :
 (x_mA <- mdense0 TyD d_mA_dense_3x3 0%Q ;;
  x_mB <- mdense0 TyD d_mB_dense_3x4 0%Q ;;
  x_result <- mdense0 TyD d_mOnes_3x4 0%Q ;;
  x_mMask <- mdense0 TyD [[0; 1; 1; 1]; [0; 0; 1; 1]; [0; 0; 0; 1]]%Q 0%Q ;;
  x_answer <- mdense0 TyD [[112; 1; 1; 1]; [97; 131; 1; 1]; [87; 111; 102; 1]]%Q 0%Q ;;
  x_result_1 <- t_mxm TyD (acc TyD qsecond) (mkSr qplus qtimes TyD) (MComp x_mMask) MERGE x_result
    (Trn x_mA) (Mat x_mB) ;;
  x_q <- meq x_result_1 x_answer ;;
  _ <- check x_q ;;
  Ok tt) = Ok tt.
Proof. vm_compute. reflexivity. Qed.

(** test_mxm.cpp:2091-2114, optimized_sequential platform *)
Example test_mxm_CompMask_Accum_ATB_Merge_opt :
 (x_mA <- mdense0 TyD d_mA_dense_3x3 0%Q ;;
  x_mB <- mdense0 TyD d_mB_dense_3x4 0%Q ;;
  x_result <- mdense0 TyD d_mOnes_3x4 0%Q ;;
  x_mMask <- mdense0 TyD [[0; 1; 1; 1]; [0; 0; 1; 1]; [0; 0; 0; 1]]%Q 0%Q ;;
  x_answer <- mdense0 TyD [[112; 1; 1; 1]; [97; 131; 1; 1]; [87; 111; 102; 1]]%Q 0%Q ;;
  x_result_1 <- t_opt_mxm TyD (acc TyD qsecond) TyD (mkSr qplus qtimes TyD) (MComp (Other x_mMask))
    MERGE x_result (OTrn (Other x_mA)) (OMat (Other x_mB)) ;;
  x_q <- meq x_result_1 x_answer ;;
  _ <- check x_q ;;
  Ok tt) = Ok tt.
Proof. vm_compute. reflexivity. Qed.

(** test_mxm.cpp:2117-2141 *)
Example test_mxm_CompMask_Accum_ATB_Merge_Bidentity :
 (x_mA <- mdense0 TyD d_mA_dense_3x3 0%Q ;;
  x_mB <- mdense0 TyD d_mIdentity_3x3 0%Q ;;
  x_result <- mdense0 TyD d_mOnes_3x3 0%Q ;;
  x_mMask <- mdense0 TyD [[0; 1; 1]; [0; 0; 1]; [0; 0; 0]]%Q 0%Q ;;
  x_answer <- mdense0 TyD [[12; 1; 1]; [7; 5; 1]; [3; 6; 9]]%Q 0%Q ;;
  x_result_1 <- t_mxm TyD (acc TyD qsecond) (mkSr qplus qtimes TyD) (MComp x_mMask) MERGE x_result
    (Trn x_mA) (Mat x_mB) ;;
  x_q <- meq x_result_1 x_answer ;;
  _ <- check x_q ;;
  Ok tt) = Ok tt.
Proof. vm_compute. reflexivity. Qed.

(** test_mxm.cpp:2117-2141, optimized_sequential platform *)
Example test_mxm_CompMask_Accum_ATB_Merge_Bidentity_opt :
 (x_mA <- mdense0 TyD d_mA_dense_3x3 0%Q ;;
  x_mB <- mdense0 TyD d_mIdentity_3x3 0%Q ;;
  x_result <- mdense0 TyD d_mOnes_3x3 0%Q ;;
  x_mMask <- mdense0 TyD [[0; 1; 1]; [0; 0; 1]; [0; 0; 0]]%Q 0%Q ;;
  x_answer <- mdense0 TyD [[12; 1; 1]; [7; 5; 1]; [3; 6; 9]]%Q 0%Q ;;
  x_result_1 <- t_opt_mxm TyD (acc TyD qsecond) TyD (mkSr qplus qtimes TyD) (MComp (Other x_mMask))
    MERGE x_result (OTrn (Other x_mA)) (OMat (Other x_mB)) ;;
  x_q <- meq x_result_1 x_answer ;;
  _ <- check x_q ;;
  Ok tt) = Ok tt.
Proof. vm_compute. reflexivity. Qed.

(** test_mxm.cpp:2144-2172 *)
Example test_mxm_CompMask_Accum_ABT_Replace :
 (x_mA <- mdense0 TyD d_mA_dense_3x3 0%Q ;;
  x_mB <- mdense0 TyD [[5; 8; 1]; [2; 6; 7]; [3; 4; 5]]%Q 0%Q ;;
  x_result <- mdense0 TyD d_mOnes_3x3 0%Q ;;
  x_mMask <- mdense0 TyD [[0; 1; 1]; [0; 0; 1]; [0; 0; 0]]%Q 0%Q ;;
  x_answer <- mdense0 TyD [[119; 0; 0]; [66; 80; 0]; [108; 125; 98]]%Q 0%Q ;;
  x_result_1 <- t_mxm TyD (acc TyD qsecond) (mkSr qplus qtimes TyD) (MComp x_mMask) REPLACE x_result
    (Mat x_mA) (Trn x_mB) ;;
  x_q <- meq x_result_1 x_answer ;;
  _ <- check x_q ;;
  Ok tt) = Ok tt.
Proof. vm_compute. reflexivity. Qed.

(** test_mxm.cpp:2144-2172, optimized_sequential platform *)
Example test_mxm_CompMask_Accum_ABT_Replace_opt :
 (x_mA <- mdense0 TyD d_mA_dense_3x3 0%Q ;;
  x_mB <- mdense0 TyD [[5; 8; 1]; [2; 6; 7]; [3; 4; 5]]%Q 0%Q ;;
  x_result <- mdense0 TyD d_mOnes_3x3 0%Q ;;
  x_mMask <- mdense0 TyD [[0; 1; 1]; [0; 0; 1]; [0; 0; 0]]%Q 0%Q ;;
  x_answer <- mdense0 TyD [[119; 0; 0]; [66; 80; 0]; [108; 125; 98]]%Q 0%Q ;;
  x_result_1 <- t_opt_mxm TyD (acc TyD qsecond) TyD (mkSr qplus qtimes TyD) (MComp (Other x_mMask))
    REPLACE x_result (OMat (Other x_mA)) (OTrn (Other x_mB)) ;;
  x_q <- meq x_result_1 x_answer ;;
  _ <- check x_q ;;
  Ok tt) = Ok tt.
Proof. vm_compute. reflexivity. Qed.

(** test_mxm.cpp:2175-2202 *)
Example test_mxm_CompMask_Accum_ABT_Merge :
 (x_mA <- mdense0 TyD d_mA_dense_3x3 0%Q ;;
  x_mB <- mdense0 TyD [[5; 8; 1]; [2; 6; 7]; [3; 4; 5]]%Q 0%Q ;;
  x_result <- mdense0 TyD d_mOnes_3x3 0%Q ;;
  x_mMask <- mdense0 TyD [[0; 1; 1]; [0; 0; 1]; [0; 0; 0]]%Q 0%Q ;;
  x_answer <- mdense0 TyD [[119; 1; 1]; [66; 80; 1]; [108; 125; 98]]%Q 0%Q ;;
  x_result_1 <- t_mxm TyD (acc TyD qsecond) (mkSr qplus qtimes TyD) (MComp x_mMask) MERGE x_result
    (Mat x_mA) (Trn x_mB) ;;
  x_q <- meq x_result_1 x_answer ;;
  _ <- check x_q ;;
  Ok tt) = Ok tt.
Proof. vm_compute. reflexivity. Qed.

(** test_mxm.cpp:2175-2202, optimized_sequential platform *)
Example test_mxm_CompMask_Accum_ABT_Merge_opt :
 (x_mA <- mdense0 TyD d_mA_dense_3x3 0%Q ;;
  x_mB <- mdense0 TyD [[5; 8; 1]; [2; 6; 7]; [3; 4; 5]]%Q 0%Q ;;
  x_result <- mdense0 TyD d_mOnes_3x3 0%Q ;;
  x_mMask <- mdense0 TyD [[0; 1; 1]; [0; 0; 1]; [0; 0; 0]]%Q 0%Q ;;
  x_answer <- mdense0 TyD [[119; 1; 1]; [66; 80; 1]; [108; 125; 98]]%Q 0%Q ;;
  x_result_1 <- t_opt_mxm TyD (acc TyD qsecond) TyD (mkSr qplus qtimes TyD) (MComp (Other x_mMask))
    MERGE x_result (OMat (Other x_mA)) (OTrn (Other x_mB)) ;;
  x_q <- meq x_result_1 x_answer ;;
  _ <- check x_q ;;
  Ok tt) = Ok tt.
Proof. vm_compute. reflexivity. Qed.

(** test_mxm.cpp:2205-2232 *)
Example test_mxm_CompMask_Accum_ATBT_Replace :
 (x_mA <- mdense0 TyD d_mA_dense_3x3 0%Q ;;
  x_mB <- mdense0 TyD [[5; 8; 1]; [2; 6; 7]; [3; 4; 5]]%Q 0%Q ;;
  x_result <- mdense0 TyD d_mOnes_3x3 0%Q ;;
  x_mMask <- mdense0 TyD [[0; 1; 1]; [0; 0; 1]; [0; 0; 0]]%Q 0%Q ;;
  x_answer <- mdense0 TyD [[99; 0; 0]; [83; 100; 0]; [72; 105; 78]]%Q 0%Q ;;
  x_result_1 <- t_mxm TyD (acc TyD qsecond) (mkSr qplus qtimes TyD) (MComp x_mMask) REPLACE x_result
    (Trn x_mA) (Trn x_mB) ;;
  x_q <- meq x_result_1 x_answer ;;
  _ <- check x_q ;;
  Ok tt) = Ok tt.
Proof. vm_compute. reflexivity. Qed.

(** test_mxm.cpp:2205-2232, optimized_sequential platform *)
Example test_mxm_CompMask_Accum_ATBT_Replace_opt :
 (x_mA <- mdense0 TyD d_mA_dense_3x3 0%Q ;;
  x_mB <- mdense0 TyD [[5; 8; 1]; [2; 6; 7]; [3; 4; 5]]%Q 0%Q ;;
  x_result <- mdense0 TyD d_mOnes_3x3 0%Q ;;
  x_mMask <- mdense0 TyD [[0; 1; 1]; [0; 0; 1]; [0; 0; 0]]%Q 0%Q ;;
  x_answer <- mdense0 TyD [[99; 0; 0]; [83; 100; 0]; [72; 105; 78]]%Q 0%Q ;;
  x_result_1 <- t_opt_mxm TyD (acc TyD qsecond) TyD (mkSr qplus qtimes TyD) (MComp (Other x_mMask))
    REPLACE x_result (OTrn (Other x_mA)) (OTrn (Other x_mB)) ;;
  x_q <- meq x_result_1 x_answer ;;
  _ <- check x_q ;;
  Ok tt) = Ok tt.
Proof. vm_compute. reflexivity. Qed.

(** test_mxm.cpp:2235-2261 *)
Example test_mxm_CompMask_Accum_ATBT_Merge :
 (x_mA <- mdense0 TyD d_mA_dense_3x3 0%Q ;;
  x_mB <- mdense0 TyD [[5; 8; 1]; [2; 6; 7]; [3; 4; 5]]%Q 0%Q ;;
  x_result <- mdense0 TyD d_mOnes_3x3 0%Q ;;
  x_mMask <- mdense0 TyD [[0; 1; 1]; [0; 0; 1]; [0; 0; 0]]%Q 0%Q ;;
  x_answer <- mdense0 TyD [[99; 1; 1]; [83; 100; 1]; [72; 105; 78]]%Q 0%Q ;;
  x_result_1 <- t_mxm TyD (acc TyD qsecond) (mkSr qplus qtimes TyD) (MComp x_mMask) MERGE x_result
    (Trn x_mA) (Trn x_mB) ;;
  x_q <- meq x_result_1 x_answer ;;
  _ <- check x_q ;;
  Ok tt) = Ok tt.
Proof. vm_compute. reflexivity. Qed.

(** test_mxm.cpp:2235-2261, optimized_sequential platform *)
Example test_mxm_CompMask_Accum_ATBT_Merge_opt :
 (x_mA <- mdense0 TyD d_mA_dense_3x3 0%Q ;;
  x_mB <- mdense0 TyD [[5; 8; 1]; [2; 6; 7]; [3; 4; 5]]%Q 0%Q ;;
  x_result <- mdense0 TyD d_mOnes_3x3 0%Q ;;
  x_mMask <- mdense0 TyD [[0; 1; 1]; [0; 0; 1]; [0; 0; 0]]%Q 0%Q ;;
  x_answer <- mdense0 TyD [[99; 1; 1]; [83; 100; 1]; [72; 105; 78]]%Q 0%Q ;;
  x_result_1 <- t_opt_mxm TyD (acc TyD qsecond) TyD (mkSr qplus qtimes TyD) (MComp (Other x_mMask))
    MERGE x_result (OTrn (Other x_mA)) (OTrn (Other x_mB)) ;;
  x_q <- meq x_result_1 x_answer ;;
  _ <- check x_q ;;
  Ok tt) = Ok tt.
Proof. vm_compute. reflexivity. Qed.
