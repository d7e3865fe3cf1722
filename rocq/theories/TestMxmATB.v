(** The tests of /repo/src/test/test_mxm_ATB.cpp, run on the model.  Generated translation. *)
From Verif Require Import TestRun.

Definition d_AT_dense_3x3 : list (list Q) :=
  [[12; 4; 7];
   [7; 5; 8];
   [3; 6; 9]]%Q.
Definition d_B_dense_3x4 : list (list Q) :=
  [[5; 8; 1; 2];
   [6; 7; 3; 0];
   [4; 5; 9; 1]]%Q.
Definition d_Answer_dense : list (list Q) :=
  [[114; 160; 60; 27];
   [74; 97; 73; 14];
   [119; 157; 112; 23]]%Q.
Definition d_A_sparse_3x3 : list (list Q) :=
  [[12; 7; 0];
   [0; (-5); 0];
   [7; 0; 9]]%Q.
Definition d_AT_sparse_3x3 : list (list Q) :=
  [[12; 0; 7];
   [7; (-5); 0];
   [0; 0; 9]]%Q.
Definition d_B_sparse_3x4 : list (list Q) :=
  [[5; 8; 0; (-2)];
   [0; (-7); 3; 0];
   [4; 0; 0; 1]]%Q.
Definition d_AA_answer_sparse : list (list Q) :=
  [[144; 49; 0];
   [0; 25; 0];
   [147; 49; 81]]%Q.
Definition d_Answer_sparse : list (list Q) :=
  [[60; 47; 21; (-24)];
   [0; 35; (-15); 0];
   [71; 56; 0; (-5)]]%Q.
Definition d_Symmetric_4x4 : list (list Q) :=
  [[1; 1; 0; 0];
   [1; 2; 2; 0];
   [0; 2; 3; 3];
   [0; 0; 3; 4]]%Q.
Definition d_Symmetric2_4x4 : list (list Q) :=
  [[2; 3; 2; 0];
   [3; 9; 10; 6];
   [2; 10; 22; 21];
   [0; 6; 21; 25]]%Q.
Definition d_Ones_4x4 : list (list Q) :=
  [[1; 1; 1; 1];
   [1; 1; 1; 1];
   [1; 1; 1; 1];
   [1; 1; 1; 1]]%Q.
Definition d_Ones_3x4 : list (list Q) :=
  [[1; 1; 1; 1];
   [1; 1; 1; 1];
   [1; 1; 1; 1]]%Q.
Definition d_Ones_3x3 : list (list Q) :=
  [[1; 1; 1];
   [1; 1; 1];
   [1; 1; 1]]%Q.
Definition d_Identity_3x3 : list (list Q) :=
  [[1; 0; 0];
   [0; 1; 0];
   [0; 0; 1]]%Q.
Definition d_Lower_3x3 : list (list Q) :=
  [[1; 0; 0];
   [1; 1; 0];
   [1; 1; 1]]%Q.
Definition d_Lower_3x4 : list (list Q) :=
  [[1; 0; 0; 0];
   [1; 1; 0; 0];
   [1; 1; 1; 0]]%Q.
Definition d_Lower_4x4 : list (list Q) :=
  [[1; 0; 0; 0];
   [1; 1; 0; 0];
   [1; 1; 1; 0];
   [1; 1; 1; 1]]%Q.
Definition d_NotLower_3x3 : list (list Q) :=
  [[0; 1; 1];
   [0; 0; 1];
   [0; 0; 0]]%Q.
Definition d_NotLower_3x4 : list (list Q) :=
  [[0; 1; 1; 1];
   [0; 0; 1; 1];
   [0; 0; 0; 1]]%Q.
Definition d_NotLower_4x4 : list (list Q) :=
  [[0; 1; 1; 1];
   [0; 0; 1; 1];
   [0; 0; 0; 1];
   [0; 0; 0; 0]]%Q.
Definition d_LowerMask_3x4 : list (list Q) :=
  [[1; 0; 0; 0];
   [1; (1 # 2); 0; 0];
   [1; (-1); (3 # 2); 0]]%Q.
Definition d_LowerBool_3x4 : list (list Q) :=
  [[1; 0; 0; 0];
   [1; 1; 0; 0];
   [1; 1; 1; 0]]%Q.
Definition d_LowerBool_3x3 : list (list Q) :=
  [[1; 0; 0];
   [1; 1; 0];
   [1; 1; 1]]%Q.
Definition d_NotLowerBool_3x3 : list (list Q) :=
  [[0; 1; 1];
   [0; 0; 1];
   [0; 0; 0]]%Q.

(** test_mxm_ATB.cpp:232-248 *)
Example test_mxm_NoMask_NoAccum_ATB_empty :
 (x_Zero <- mnew 3 3 ;;
  x_Ones <- mdense0 TyD d_Ones_3x3 0%Q ;;
  x_C <- mdense0 TyD d_Ones_3x3 0%Q ;;
  x_mD <- mdense0 TyD d_Ones_3x3 0%Q ;;
  x_C_1 <- t_mxm TyD noacc (mkSr qplus qtimes TyD) NoMask MERGE x_C (Trn x_Zero) (Mat x_Ones) ;;
  x_q <- meq x_C_1 x_Zero ;;
  _ <- check x_q ;;
  x_mD_1 <- t_mxm TyD noacc (mkSr qplus qtimes TyD) NoMask MERGE x_mD (Trn x_Ones) (Mat x_Zero) ;;
  x_q_1 <- meq x_mD_1 x_Zero ;;
  _ <- check x_q_1 ;;
  Ok tt) = Ok tt.
Proof. vm_compute. reflexivity. Qed.

(** test_mxm_ATB.cpp:232-248, optimized_sequential platform *)
Example test_mxm_NoMask_NoAccum_ATB_empty_opt :
 (x_Zero <- mnew 3 3 ;;
  x_Ones <- mdense0 TyD d_Ones_3x3 0%Q ;;
  x_C <- mdense0 TyD d_Ones_3x3 0%Q ;;
  x_mD <- mdense0 TyD d_Ones_3x3 0%Q ;;
  x_C_1 <- t_opt_mxm TyD noacc TyD (mkSr qplus qtimes TyD) NoMask MERGE x_C (OTrn (Other x_Zero))
    (OMat (Other x_Ones)) ;;
  x_q <- meq x_C_1 x_Zero ;;
  _ <- check x_q ;;
  x_mD_1 <- t_opt_mxm TyD noacc TyD (mkSr qplus qtimes TyD) NoMask MERGE x_mD (OTrn (Other x_Ones))
    (OMat (Other x_Zero)) ;;
  x_q_1 <- meq x_mD_1 x_Zero ;;
  _ <- check x_q_1 ;;
  Ok tt) = Ok tt.
Proof. vm_compute. reflexivity. Qed.

(** test_mxm_ATB.cpp:251-266 *)
Example test_mxm_NoMask_NoAccum_ATB_dense :
 (x_A <- mdense0 TyD d_AT_dense_3x3 0%Q ;;
  x_B <- mdense0 TyD d_B_dense_3x4 0%Q ;;
  x_result <- mnew 3 4 ;;
  x_answer <- mdense0 TyD d_Answer_dense 0%Q ;;
  x_result_1 <- t_mxm TyD noacc (mkSr qplus qtimes TyD) NoMask MERGE x_result (Trn x_A) (Mat x_B) ;;
  x_q <- meq x_result_1 x_answer ;;
  _ <- check x_q ;;
  Ok tt) = Ok tt.
Proof. vm_compute. reflexivity. Qed.

(** test_mxm_ATB.cpp:251-266, optimized_sequential platform *)
Example test_mxm_NoMask_NoAccum_ATB_dense_opt :
 (x_A <- mdense0 TyD d_AT_dense_3x3 0%Q ;;
  x_B <- mdense0 TyD d_B_dense_3x4 0%Q ;;
  x_result <- mnew 3 4 ;;
  x_answer <- mdense0 TyD d_Answer_dense 0%Q ;;
  x_result_1 <- t_opt_mxm TyD noacc TyD (mkSr qplus qtimes TyD) NoMask MERGE x_result (OTrn (Other
    x_A)) (OMat (Other x_B)) ;;
  x_q <- meq x_result_1 x_answer ;;
  _ <- check x_q ;;
  Ok tt) = Ok tt.
Proof. vm_compute. reflexivity. Qed.

(** test_mxm_ATB.cpp:269-293 *)
Example test_mxm_NoMask_NoAccum_ATB_emptyRowA_emptyColB :
 (x_A <- mdense0 TyD [[8; 0; 4]; [1; 0; 9]; [6; 0; 2]]%Q 0%Q ;;
  x_B <- mdense0 TyD [[0; 0; 0; 1]; [1; 0; 1; 1]; [0; 0; 1; 1]]%Q 0%Q ;;
  x_result <- mnew 3 4 ;;
  x_answer <- mdense0 TyD [[1; 0; 7; 15]; [0; 0; 0; 0]; [9; 0; 11; 15]]%Q 0%Q ;;
  x_result_1 <- t_mxm TyD noacc (mkSr qplus qtimes TyD) NoMask MERGE x_result (Trn x_A) (Mat x_B) ;;
  x_q <- meq x_result_1 x_answer ;;
  _ <- check x_q ;;
  Ok tt) = Ok tt.
Proof. vm_compute. reflexivity. Qed.

(** test_mxm_ATB.cpp:269-293, optimized_sequential platform *)
Example test_mxm_NoMask_NoAccum_ATB_emptyRowA_emptyColB_opt :
 (x_A <- mdense0 TyD [[8; 0; 4]; [1; 0; 9]; [6; 0; 2]]%Q 0%Q ;;
  x_B <- mdense0 TyD [[0; 0; 0; 1]; [1; 0; 1; 1]; [0; 0; 1; 1]]%Q 0%Q ;;
  x_result <- mnew 3 4 ;;
  x_answer <- mdense0 TyD [[1; 0; 7; 15]; [0; 0; 0; 0]; [9; 0; 11; 15]]%Q 0%Q ;;
  x_result_1 <- t_opt_mxm TyD noacc TyD (mkSr qplus qtimes TyD) NoMask MERGE x_result (OTrn (Other
    x_A)) (OMat (Other x_B)) ;;
  x_q <- meq x_result_1 x_answer ;;
  _ <- check x_q ;;
  Ok tt) = Ok tt.
Proof. vm_compute. reflexivity. Qed.

(** test_mxm_ATB.cpp:296-320 *)
Example test_mxm_NoMask_NoAccum_ATB_emptyColA_emptyRowB :
 (x_A <- mdense0 TyD [[8; 1; 4]; [0; 0; 0]; [6; 9; 2]]%Q 0%Q ;;
  x_B <- mdense0 TyD [[0; 1; 0; 1]; [1; 0; 1; 1]; [0; 0; 0; 0]]%Q 0%Q ;;
  x_result <- mnew 3 4 ;;
  x_answer <- mdense0 TyD [[0; 8; 0; 8]; [0; 1; 0; 1]; [0; 4; 0; 4]]%Q 0%Q ;;
  x_result_1 <- t_mxm TyD noacc (mkSr qplus qtimes TyD) NoMask MERGE x_result (Trn x_A) (Mat x_B) ;;
  x_q <- meq x_result_1 x_answer ;;
  _ <- check x_q ;;
  Ok tt) = Ok tt.
Proof. vm_compute. reflexivity. Qed.

(** test_mxm_ATB.cpp:296-320, optimized_sequential platform *)
Example test_mxm_NoMask_NoAccum_ATB_emptyColA_emptyRowB_opt :
 (x_A <- mdense0 TyD [[8; 1; 4]; [0; 0; 0]; [6; 9; 2]]%Q 0%Q ;;
  x_B <- mdense0 TyD [[0; 1; 0; 1]; [1; 0; 1; 1]; [0; 0; 0; 0]]%Q 0%Q ;;
  x_result <- mnew 3 4 ;;
  x_answer <- mdense0 TyD [[0; 8; 0; 8]; [0; 1; 0; 1]; [0; 4; 0; 4]]%Q 0%Q ;;
  x_result_1 <- t_opt_mxm TyD noacc TyD (mkSr qplus qtimes TyD) NoMask MERGE x_result (OTrn (Other
    x_A)) (OMat (Other x_B)) ;;
  x_q <- meq x_result_1 x_answer ;;
  _ <- check x_q ;;
  Ok tt) = Ok tt.
Proof. vm_compute. reflexivity. Qed.

(** test_mxm_ATB.cpp:323-336 *)
Example test_mxm_NoMask_NoAccum_ATB_ABdup :
 (x_mat <- mdense0 TyD d_Symmetric_4x4 0%Q ;;
  x_m3 <- mnew 4 4 ;;
  x_answer <- mdense0 TyD d_Symmetric2_4x4 0%Q ;;
  x_m3_1 <- t_mxm TyD noacc (mkSr qplus qtimes TyD) NoMask MERGE x_m3 (Trn x_mat) (Mat x_mat) ;;
  x_q <- meq x_m3_1 x_answer ;;
  _ <- check x_q ;;
  Ok tt) = Ok tt.
Proof. vm_compute. reflexivity. Qed.

(** test_mxm_ATB.cpp:323-336, optimized_sequential platform *)
Example test_mxm_NoMask_NoAccum_ATB_ABdup_opt :
 (x_mat <- mdense0 TyD d_Symmetric_4x4 0%Q ;;
  x_m3 <- mnew 4 4 ;;
  x_answer <- mdense0 TyD d_Symmetric2_4x4 0%Q ;;
  x_m3_1 <- t_opt_mxm TyD noacc TyD (mkSr qplus qtimes TyD) NoMask MERGE x_m3 (OTrn (Other x_mat))
    (OMat (Other x_mat)) ;;
  x_q <- meq x_m3_1 x_answer ;;
  _ <- check x_q ;;
  Ok tt) = Ok tt.
Proof. vm_compute. reflexivity. Qed.

(** test_mxm_ATB.cpp:339-352 *)
Example test_mxm_NoMask_NoAccum_ATB_ACdup :
 (x_C <- mdense0 TyD d_AT_sparse_3x3 0%Q ;;
  x_B <- mdense0 TyD d_A_sparse_3x3 0%Q ;;
  x_answer <- mdense0 TyD d_AA_answer_sparse 0%Q ;;
  x_C_1 <- t_mxm TyD noacc (mkSr qplus qtimes TyD) NoMask MERGE x_C (Trn x_C) (Mat x_B) ;;
  x_q <- meq x_C_1 x_answer ;;
  _ <- check x_q ;;
  Ok tt) = Ok tt.
Proof. vm_compute. reflexivity. Qed.

(** test_mxm_ATB.cpp:339-352, optimized_sequential platform *)
Example test_mxm_NoMask_NoAccum_ATB_ACdup_opt :
 (x_C <- mdense0 TyD d_AT_sparse_3x3 0%Q ;;
  x_B <- mdense0 TyD d_A_sparse_3x3 0%Q ;;
  x_answer <- mdense0 TyD d_AA_answer_sparse 0%Q ;;
  x_C_1 <- t_opt_mxm TyD noacc TyD (mkSr qplus qtimes TyD) NoMask MERGE x_C (OTrn (TheOutput (fun x
    => x))) (OMat (Other x_B)) ;;
  x_q <- meq x_C_1 x_answer ;;
  _ <- check x_q ;;
  Ok tt) = Ok tt.
Proof. vm_compute. reflexivity. Qed.

(** test_mxm_ATB.cpp:355-368 *)
Example test_mxm_NoMask_NoAccum_ATB_BCdup :
 (x_A <- mdense0 TyD d_AT_sparse_3x3 0%Q ;;
  x_C <- mdense0 TyD d_B_sparse_3x4 0%Q ;;
  x_answer <- mdense0 TyD d_Answer_sparse 0%Q ;;
  x_C_1 <- t_mxm TyD noacc (mkSr qplus qtimes TyD) NoMask MERGE x_C (Trn x_A) (Mat x_C) ;;
  x_q <- meq x_C_1 x_answer ;;
  _ <- check x_q ;;
  Ok tt) = Ok tt.
Proof. vm_compute. reflexivity. Qed.

(** test_mxm_ATB.cpp:355-368, optimized_sequential platform *)
Example test_mxm_NoMask_NoAccum_ATB_BCdup_opt :
 (x_A <- mdense0 TyD d_AT_sparse_3x3 0%Q ;;
  x_C <- mdense0 TyD d_B_sparse_3x4 0%Q ;;
  x_answer <- mdense0 TyD d_Answer_sparse 0%Q ;;
  x_C_1 <- t_opt_mxm TyD noacc TyD (mkSr qplus qtimes TyD) NoMask MERGE x_C (OTrn (Other x_A)) (OMat
    (TheOutput (fun x => x))) ;;
  x_q <- meq x_C_1 x_answer ;;
  _ <- check x_q ;;
  Ok tt) = Ok tt.
Proof. vm_compute. reflexivity. Qed.

(** test_mxm_ATB.cpp:375-387 *)
Example test_mxm_NoMask_Accum_ATB :
 (x_A <- mdense0 TyD d_AT_dense_3x3 0%Q ;;
  x_B <- mdense0 TyD d_B_dense_3x4 0%Q ;;
  x_result <- mnew 3 4 ;;
  x_answer <- mdense0 TyD d_Answer_dense 0%Q ;;
  x_result_1 <- t_mxm TyD (acc TyD qsecond) (mkSr qplus qtimes TyD) NoMask MERGE x_result (Trn x_A)
    (Mat x_B) ;;
  x_q <- meq x_result_1 x_answer ;;
  _ <- check x_q ;;
  Ok tt) = Ok tt.
Proof. vm_compute. reflexivity. Qed.

(** test_mxm_ATB.cpp:375-387, optimized_sequential platform *)
Example test_mxm_NoMask_Accum_ATB_opt :
 (x_A <- mdense0 TyD d_AT_dense_3x3 0%Q ;;
  x_B <- mdense0 TyD d_B_dense_3x4 0%Q ;;
  x_result <- mnew 3 4 ;;
  x_answer <- mdense0 TyD d_Answer_dense 0%Q ;;
  x_result_1 <- t_opt_mxm TyD (acc TyD qsecond) TyD (mkSr qplus qtimes TyD) NoMask MERGE x_result
    (OTrn (Other x_A)) (OMat (Other x_B)) ;;
  x_q <- meq x_result_1 x_answer ;;
  _ <- check x_q ;;
  Ok tt) = Ok tt.
Proof. vm_compute. reflexivity. Qed.

(** test_mxm_ATB.cpp:390-406 *)
Example test_mxm_NoMask_Accum_ATB_empty :
 (x_Zero <- mnew 3 3 ;;
  x_Ones <- mdense0 TyD d_Ones_3x3 0%Q ;;
  x_C <- mdense0 TyD d_Ones_3x3 0%Q ;;
  x_mD <- mdense0 TyD d_Ones_3x3 0%Q ;;
  x_C_1 <- t_mxm TyD (acc TyD qplus) (mkSr qplus qtimes TyD) NoMask MERGE x_C (Trn x_Zero) (Mat
    x_Ones) ;;
  x_q <- meq x_C_1 x_Ones ;;
  _ <- check x_q ;;
  x_mD_1 <- t_mxm TyD (acc TyD qplus) (mkSr qplus qtimes TyD) NoMask MERGE x_mD (Trn x_Ones) (Mat
    x_Zero) ;;
  x_q_1 <- meq x_mD_1 x_Ones ;;
  _ <- check x_q_1 ;;
  Ok tt) = Ok tt.
Proof. vm_compute. reflexivity. Qed.

(** test_mxm_ATB.cpp:390-406, optimized_sequential platform *)
Example test_mxm_NoMask_Accum_ATB_empty_opt :
 (x_Zero <- mnew 3 3 ;;
  x_Ones <- mdense0 TyD d_Ones_3x3 0%Q ;;
  x_C <- mdense0 TyD d_Ones_3x3 0%Q ;;
  x_mD <- mdense0 TyD d_Ones_3x3 0%Q ;;
  x_C_1 <- t_opt_mxm TyD (acc TyD qplus) TyD (mkSr qplus qtimes TyD) NoMask MERGE x_C (OTrn (Other
    x_Zero)) (OMat (Other x_Ones)) ;;
  x_q <- meq x_C_1 x_Ones ;;
  _ <- check x_q ;;
  x_mD_1 <- t_opt_mxm TyD (acc TyD qplus) TyD (mkSr qplus qtimes TyD) NoMask MERGE x_mD (OTrn (Other
    x_Ones)) (OMat (Other x_Zero)) ;;
  x_q_1 <- meq x_mD_1 x_Ones ;;
  _ <- check x_q_1 ;;
  Ok tt) = Ok tt.
Proof. vm_compute. reflexivity. Qed.

(** test_mxm_ATB.cpp:409-434 *)
Example test_mxm_NoMask_Accum_ATB_stored_zero_result :
 (x_A <- mdense0 TyD d_Symmetric_4x4 0%Q ;;
  x_B <- mdense0 TyI [[1; (-2); 0; 0]; [(-1); 1; 0; 0]; [0; 0; 3; (-4)]; [0; 0; (-3); 3]]%Q 0%Q ;;
  x_result <- mnew 4 4 ;;
  x_answer <- mdense0 TyI [[0; (-1); 666; 666]; [(-1); 0; 6; (-8)]; [(-2); 2; 0; (-3)]; [666; 666;
    (-3); 0]]%Q 666%Q ;;
  x_result_1 <- t_mxm TyI (acc TyI (op3 TyI TyI TyI qsecond)) (mkSr (op3 TyI TyI TyI qplus) (op3 TyI
    TyI TyI qtimes) TyI) NoMask MERGE x_result (Trn x_A) (Mat x_B) ;;
  x_q <- meq x_result_1 x_answer ;;
  _ <- check x_q ;;
  _ <- check (Qeq_bool (inject_Z (nvals x_result_1)) 12%Q) ;;
  Ok tt) = Ok tt.
Proof. vm_compute. reflexivity. Qed.

(** test_mxm_ATB.cpp:409-434, optimized_sequential platform *)
Example test_mxm_NoMask_Accum_ATB_stored_zero_result_opt :
 (x_A <- mdense0 TyD d_Symmetric_4x4 0%Q ;;
  x_B <- mdense0 TyI [[1; (-2); 0; 0]; [(-1); 1; 0; 0]; [0; 0; 3; (-4)]; [0; 0; (-3); 3]]%Q 0%Q ;;
  x_result <- mnew 4 4 ;;
  x_answer <- mdense0 TyI [[0; (-1); 666; 666]; [(-1); 0; 6; (-8)]; [(-2); 2; 0; (-3)]; [666; 666;
    (-3); 0]]%Q 666%Q ;;
  x_result_1 <- t_opt_mxm TyI (acc TyI (op3 TyI TyI TyI qsecond)) TyD (mkSr (op3 TyI TyI TyI qplus)
    (op3 TyI TyI TyI qtimes) TyI) NoMask MERGE x_result (OTrn (Other x_A)) (OMat (Other x_B)) ;;
  x_q <- meq x_result_1 x_answer ;;
  _ <- check x_q ;;
  _ <- check (Qeq_bool (inject_Z (nvals x_result_1)) 12%Q) ;;
  Ok tt) = Ok tt.
Proof. vm_compute. reflexivity. Qed.

(** test_mxm_ATB.cpp:437-450 *)
Example test_mxm_NoMask_Accum_ATB_ABdup_Cempty :
 (x_mat <- mdense0 TyD d_Symmetric_4x4 0%Q ;;
  x_result <- mnew 4 4 ;;
  x_answer <- mdense0 TyD d_Symmetric2_4x4 0%Q ;;
  x_result_1 <- t_mxm TyD (acc TyD qsecond) (mkSr qplus qtimes TyD) NoMask MERGE x_result (Trn
    x_mat) (Mat x_mat) ;;
  x_q <- meq x_result_1 x_answer ;;
  _ <- check x_q ;;
  Ok tt) = Ok tt.
Proof. vm_compute. reflexivity. Qed.

(** test_mxm_ATB.cpp:437-450, optimized_sequential platform *)
Example test_mxm_NoMask_Accum_ATB_ABdup_Cempty_opt :
 (x_mat <- mdense0 TyD d_Symmetric_4x4 0%Q ;;
  x_result <- mnew 4 4 ;;
  x_answer <- mdense0 TyD d_Symmetric2_4x4 0%Q ;;
  x_result_1 <- t_opt_mxm TyD (acc TyD qsecond) TyD (mkSr qplus qtimes TyD) NoMask MERGE x_result
    (OTrn (Other x_mat)) (OMat (Other x_mat)) ;;
  x_q <- meq x_result_1 x_answer ;;
  _ <- check x_q ;;
  Ok tt) = Ok tt.
Proof. vm_compute. reflexivity. Qed.

(** test_mxm_ATB.cpp:453-477 *)
Example test_mxm_NoMask_Accum_ATB_emptyRowA_emptyColB :
 (x_A <- mdense0 TyD [[8; 0; 4]; [1; 0; 9]; [6; 0; 2]]%Q 0%Q ;;
  x_B <- mdense0 TyD [[0; 0; 0; 1]; [1; 0; 1; 1]; [0; 0; 1; 1]]%Q 0%Q ;;
  x_result <- mdense0 TyD d_Ones_3x4 0%Q ;;
  x_answer <- mdense0 TyD [[2; 1; 8; 16]; [1; 1; 1; 1]; [10; 1; 12; 16]]%Q 0%Q ;;
  x_result_1 <- t_mxm TyD (acc TyD qplus) (mkSr qplus qtimes TyD) NoMask MERGE x_result (Trn x_A)
    (Mat x_B) ;;
  x_q <- meq x_result_1 x_answer ;;
  _ <- check x_q ;;
  Ok tt) = Ok tt.
Proof. vm_compute. reflexivity. Qed.

(** test_mxm_ATB.cpp:453-477, optimized_sequential platform *)
Example test_mxm_NoMask_Accum_ATB_emptyRowA_emptyColB_opt :
 (x_A <- mdense0 TyD [[8; 0; 4]; [1; 0; 9]; [6; 0; 2]]%Q 0%Q ;;
  x_B <- mdense0 TyD [[0; 0; 0; 1]; [1; 0; 1; 1]; [0; 0; 1; 1]]%Q 0%Q ;;
  x_result <- mdense0 TyD d_Ones_3x4 0%Q ;;
  x_answer <- mdense0 TyD [[2; 1; 8; 16]; [1; 1; 1; 1]; [10; 1; 12; 16]]%Q 0%Q ;;
  x_result_1 <- t_opt_mxm TyD (acc TyD qplus) TyD (mkSr qplus qtimes TyD) NoMask MERGE x_result
    (OTrn (Other x_A)) (OMat (Other x_B)) ;;
  x_q <- meq x_result_1 x_answer ;;
  _ <- check x_q ;;
  Ok tt) = Ok tt.
Proof. vm_compute. reflexivity. Qed.

(** test_mxm_ATB.cpp:480-504 *)
Example test_mxm_NoMask_Accum_ATB_emptyColA_emptyRowB :
 (x_A <- mdense0 TyD [[8; 1; 4]; [0; 0; 0]; [6; 9; 2]]%Q 0%Q ;;
  x_B <- mdense0 TyD [[0; 1; 0; 1]; [1; 0; 1; 1]; [0; 0; 0; 0]]%Q 0%Q ;;
  x_result <- mdense0 TyD d_Ones_3x4 0%Q ;;
  x_answer <- mdense0 TyD [[1; 9; 1; 9]; [1; 2; 1; 2]; [1; 5; 1; 5]]%Q 0%Q ;;
  x_result_1 <- t_mxm TyD (acc TyD qplus) (mkSr qplus qtimes TyD) NoMask MERGE x_result (Trn x_A)
    (Mat x_B) ;;
  x_q <- meq x_result_1 x_answer ;;
  _ <- check x_q ;;
  Ok tt) = Ok tt.
Proof. vm_compute. reflexivity. Qed.

(** test_mxm_ATB.cpp:480-504, optimized_sequential platform *)
Example test_mxm_NoMask_Accum_ATB_emptyColA_emptyRowB_opt :
 (x_A <- mdense0 TyD [[8; 1; 4]; [0; 0; 0]; [6; 9; 2]]%Q 0%Q ;;
  x_B <- mdense0 TyD [[0; 1; 0; 1]; [1; 0; 1; 1]; [0; 0; 0; 0]]%Q 0%Q ;;
  x_result <- mdense0 TyD d_Ones_3x4 0%Q ;;
  x_answer <- mdense0 TyD [[1; 9; 1; 9]; [1; 2; 1; 2]; [1; 5; 1; 5]]%Q 0%Q ;;
  x_result_1 <- t_opt_mxm TyD (acc TyD qplus) TyD (mkSr qplus qtimes TyD) NoMask MERGE x_result
    (OTrn (Other x_A)) (OMat (Other x_B)) ;;
  x_q <- meq x_result_1 x_answer ;;
  _ <- check x_q ;;
  Ok tt) = Ok tt.
Proof. vm_compute. reflexivity. Qed.

(** test_mxm_ATB.cpp:507-527 *)
Example test_mxm_NoMask_Accum_ATB_ABdup :
 (x_mat <- mdense0 TyD d_AT_sparse_3x3 0%Q ;;
  x_m3 <- mdense0 TyD d_Ones_3x3 0%Q ;;
  x_answer <- mdense0 TyD [[194; (-34); 85]; [(-34); 26; 1]; [85; 1; 131]]%Q 0%Q ;;
  x_m3_1 <- t_mxm TyD (acc TyD qplus) (mkSr qplus qtimes TyD) NoMask MERGE x_m3 (Trn x_mat) (Mat
    x_mat) ;;
  x_q <- meq x_m3_1 x_answer ;;
  _ <- check x_q ;;
  Ok tt) = Ok tt.
Proof. vm_compute. reflexivity. Qed.

(** test_mxm_ATB.cpp:507-527, optimized_sequential platform *)
Example test_mxm_NoMask_Accum_ATB_ABdup_opt :
 (x_mat <- mdense0 TyD d_AT_sparse_3x3 0%Q ;;
  x_m3 <- mdense0 TyD d_Ones_3x3 0%Q ;;
  x_answer <- mdense0 TyD [[194; (-34); 85]; [(-34); 26; 1]; [85; 1; 131]]%Q 0%Q ;;
  x_m3_1 <- t_opt_mxm TyD (acc TyD qplus) TyD (mkSr qplus qtimes TyD) NoMask MERGE x_m3 (OTrn (Other
    x_mat)) (OMat (Other x_mat)) ;;
  x_q <- meq x_m3_1 x_answer ;;
  _ <- check x_q ;;
  Ok tt) = Ok tt.
Proof. vm_compute. reflexivity. Qed.

(** test_mxm_ATB.cpp:530-548 *)
Example test_mxm_NoMask_Accum_ATB_ACdup :
 (x_C <- mdense0 TyD d_AT_sparse_3x3 0%Q ;;
  x_B <- mdense0 TyD d_A_sparse_3x3 0%Q ;;
  x_answer <- mdense0 TyD [[156; 49; 7]; [7; 20; 0]; [147; 49; 90]]%Q 0%Q ;;
  x_C_1 <- t_mxm TyD (acc TyD qplus) (mkSr qplus qtimes TyD) NoMask MERGE x_C (Trn x_C) (Mat x_B) ;;
  x_q <- meq x_C_1 x_answer ;;
  _ <- check x_q ;;
  Ok tt) = Ok tt.
Proof. vm_compute. reflexivity. Qed.

(** test_mxm_ATB.cpp:530-548, optimized_sequential platform *)
Example test_mxm_NoMask_Accum_ATB_ACdup_opt :
 (x_C <- mdense0 TyD d_AT_sparse_3x3 0%Q ;;
  x_B <- mdense0 TyD d_A_sparse_3x3 0%Q ;;
  x_answer <- mdense0 TyD [[156; 49; 7]; [7; 20; 0]; [147; 49; 90]]%Q 0%Q ;;
  x_C_1 <- t_opt_mxm TyD (acc TyD qplus) TyD (mkSr qplus qtimes TyD) NoMask MERGE x_C (OTrn
    (TheOutput (fun x => x))) (OMat (Other x_B)) ;;
  x_q <- meq x_C_1 x_answer ;;
  _ <- check x_q ;;
  Ok tt) = Ok tt.
Proof. vm_compute. reflexivity. Qed.

(** test_mxm_ATB.cpp:551-569 *)
Example test_mxm_NoMask_Accum_ATB_BCdup :
 (x_A <- mdense0 TyD d_AT_sparse_3x3 0%Q ;;
  x_C <- mdense0 TyD d_A_sparse_3x3 0%Q ;;
  x_answer <- mdense0 TyD [[156; 56; 0]; [0; 20; 0]; [154; 49; 90]]%Q 0%Q ;;
  x_C_1 <- t_mxm TyD (acc TyD qplus) (mkSr qplus qtimes TyD) NoMask MERGE x_C (Trn x_A) (Mat x_C) ;;
  x_q <- meq x_C_1 x_answer ;;
  _ <- check x_q ;;
  Ok tt) = Ok tt.
Proof. vm_compute. reflexivity. Qed.

(** test_mxm_ATB.cpp:551-569, optimized_sequential platform *)
Example test_mxm_NoMask_Accum_ATB_BCdup_opt :
 (x_A <- mdense0 TyD d_AT_sparse_3x3 0%Q ;;
  x_C <- mdense0 TyD d_A_sparse_3x3 0%Q ;;
  x_answer <- mdense0 TyD [[156; 56; 0]; [0; 20; 0]; [154; 49; 90]]%Q 0%Q ;;
  x_C_1 <- t_opt_mxm TyD (acc TyD qplus) TyD (mkSr qplus qtimes TyD) NoMask MERGE x_C (OTrn (Other
    x_A)) (OMat (TheOutput (fun x => x))) ;;
  x_q <- meq x_C_1 x_answer ;;
  _ <- check x_q ;;
  Ok tt) = Ok tt.
Proof. vm_compute. reflexivity. Qed.

(** test_mxm_ATB.cpp:576-655 *)
Example test_mxm_Mask_NoAccum_ATB :
 (x_A <- mdense0 TyD d_AT_sparse_3x3 0%Q ;;
  x_AT <- mdense0 TyD d_A_sparse_3x3 0%Q ;;
  x_Identity <- mdense0 TyD d_Identity_3x3 0%Q ;;
  x_Empty <- mnew 3 3 ;;
  x_Ones <- mdense0 TyD d_Ones_3x3 0%Q ;;
  x_C <- mnew 3 3 ;;
  x_MLower <- mdense0 TyD d_Lower_3x3 0%Q ;;
  x_MNotLower <- mdense0 TyD d_NotLower_3x3 0%Q ;;
  x_AFilled <- mdense0 TyD [[12; 7; 1]; [1; (-5); 1]; [7; 1; 9]]%Q 0%Q ;;
  x_C_1 <- lil_assign x_C x_Ones ;;
  x_C_2 <- t_mxm TyD noacc (mkSr qplus qtimes TyD) (MVal x_Empty) MERGE x_C_1 (Trn x_A) (Mat
    x_Identity) ;;
  x_q <- meq x_C_2 x_Ones ;;
  _ <- check x_q ;;
  x_C_3 <- lil_assign x_C_2 x_Ones ;;
  x_C_4 <- t_mxm TyD noacc (mkSr qplus qtimes TyD) (MVal x_Ones) MERGE x_C_3 (Trn x_A) (Mat
    x_Identity) ;;
  x_q_1 <- meq x_C_4 x_AT ;;
  _ <- check x_q_1 ;;
  x_C_5 <- lil_assign x_C_4 x_Ones ;;
  x_C_6 <- t_mxm TyD noacc (mkSr qplus qtimes TyD) (MVal x_AT) MERGE x_C_5 (Trn x_A) (Mat
    x_Identity) ;;
  x_q_2 <- meq x_C_6 x_AFilled ;;
  _ <- check x_q_2 ;;
  x_C_7 <- lil_assign x_C_6 x_Ones ;;
  x_C_8 <- t_mxm TyD noacc (mkSr qplus qtimes TyD) (MVal x_MLower) MERGE x_C_7 (Trn x_Ones) (Mat
    x_Identity) ;;
  x_q_3 <- meq x_C_8 x_Ones ;;
  _ <- check x_q_3 ;;
  x_C_9 <- lil_assign x_C_8 x_Ones ;;
  x_C_10 <- t_mxm TyD noacc (mkSr qplus qtimes TyD) (MVal x_MNotLower) MERGE x_C_9 (Trn x_Ones) (Mat
    x_Identity) ;;
  x_q_4 <- meq x_C_10 x_Ones ;;
  _ <- check x_q_4 ;;
  x_C_11 <- lil_assign x_C_10 x_Ones ;;
  x_C_12 <- t_mxm TyD noacc (mkSr qplus qtimes TyD) (MVal x_Empty) REPLACE x_C_11 (Trn x_A) (Mat
    x_Identity) ;;
  x_q_5 <- meq x_C_12 x_Empty ;;
  _ <- check x_q_5 ;;
  x_C_13 <- lil_assign x_C_12 x_Ones ;;
  x_C_14 <- t_mxm TyD noacc (mkSr qplus qtimes TyD) (MVal x_Ones) REPLACE x_C_13 (Trn x_A) (Mat
    x_Identity) ;;
  x_q_6 <- meq x_C_14 x_AT ;;
  _ <- check x_q_6 ;;
  x_C_15 <- lil_assign x_C_14 x_Ones ;;
  x_C_16 <- t_mxm TyD noacc (mkSr qplus qtimes TyD) (MVal x_MLower) REPLACE x_C_15 (Trn x_Ones) (Mat
    x_Identity) ;;
  x_q_7 <- meq x_C_16 x_MLower ;;
  _ <- check x_q_7 ;;
  x_C_17 <- lil_assign x_C_16 x_Ones ;;
  x_C_18 <- t_mxm TyD noacc (mkSr qplus qtimes TyD) (MVal x_MNotLower) REPLACE x_C_17 (Trn x_Ones)
    (Mat x_Identity) ;;
  x_q_8 <- meq x_C_18 x_MNotLower ;;
  _ <- check x_q_8 ;;
  Ok tt) = Ok tt.
Proof. vm_compute. reflexivity. Qed.

(** test_mxm_ATB.cpp:576-655, optimized_sequential platform *)
Example test_mxm_Mask_NoAccum_ATB_opt :
 (x_A <- mdense0 TyD d_AT_sparse_3x3 0%Q ;;
  x_AT <- mdense0 TyD d_A_sparse_3x3 0%Q ;;
  x_Identity <- mdense0 TyD d_Identity_3x3 0%Q ;;
  x_Empty <- mnew 3 3 ;;
  x_Ones <- mdense0 TyD d_Ones_3x3 0%Q ;;
  x_C <- mnew 3 3 ;;
  x_MLower <- mdense0 TyD d_Lower_3x3 0%Q ;;
  x_MNotLower <- mdense0 TyD d_NotLower_3x3 0%Q ;;
  x_AFilled <- mdense0 TyD [[12; 7; 1]; [1; (-5); 1]; [7; 1; 9]]%Q 0%Q ;;
  x_C_1 <- lil_assign x_C x_Ones ;;
  x_C_2 <- t_opt_mxm TyD noacc TyD (mkSr qplus qtimes TyD) (MVal (Other x_Empty)) MERGE x_C_1 (OTrn
    (Other x_A)) (OMat (Other x_Identity)) ;;
  x_q <- meq x_C_2 x_Ones ;;
  _ <- check x_q ;;
  x_C_3 <- lil_assign x_C_2 x_Ones ;;
  x_C_4 <- t_opt_mxm TyD noacc TyD (mkSr qplus qtimes TyD) (MVal (Other x_Ones)) MERGE x_C_3 (OTrn
    (Other x_A)) (OMat (Other x_Identity)) ;;
  x_q_1 <- meq x_C_4 x_AT ;;
  _ <- check x_q_1 ;;
  x_C_5 <- lil_assign x_C_4 x_Ones ;;
  x_C_6 <- t_opt_mxm TyD noacc TyD (mkSr qplus qtimes TyD) (MVal (Other x_AT)) MERGE x_C_5 (OTrn
    (Other x_A)) (OMat (Other x_Identity)) ;;
  x_q_2 <- meq x_C_6 x_AFilled ;;
  _ <- check x_q_2 ;;
  x_C_7 <- lil_assign x_C_6 x_Ones ;;
  x_C_8 <- t_opt_mxm TyD noacc TyD (mkSr qplus qtimes TyD) (MVal (Other x_MLower)) MERGE x_C_7 (OTrn
    (Other x_Ones)) (OMat (Other x_Identity)) ;;
  x_q_3 <- meq x_C_8 x_Ones ;;
  _ <- check x_q_3 ;;
  x_C_9 <- lil_assign x_C_8 x_Ones ;;
  x_C_10 <- t_opt_mxm TyD noacc TyD (mkSr qplus qtimes TyD) (MVal (Other x_MNotLower)) MERGE x_C_9
    (OTrn (Other x_Ones)) (OMat (Other x_Identity)) ;;
  x_q_4 <- meq x_C_10 x_Ones ;;
  _ <- check x_q_4 ;;
  x_C_11 <- lil_assign x_C_10 x_Ones ;;
  x_C_12 <- t_opt_mxm TyD noacc TyD (mkSr qplus qtimes TyD) (MVal (Other x_Empty)) REPLACE x_C_11
    (OTrn (Other x_A)) (OMat (Other x_Identity)) ;;
  x_q_5 <- meq x_C_12 x_Empty ;;
  _ <- check x_q_5 ;;
  x_C_13 <- lil_assign x_C_12 x_Ones ;;
  x_C_14 <- t_opt_mxm TyD noacc TyD (mkSr qplus qtimes TyD) (MVal (Other x_Ones)) REPLACE x_C_13
    (OTrn (Other x_A)) (OMat (Other x_Identity)) ;;
  x_q_6 <- meq x_C_14 x_AT ;;
  _ <- check x_q_6 ;;
  x_C_15 <- lil_assign x_C_14 x_Ones ;;
  x_C_16 <- t_opt_mxm TyD noacc TyD (mkSr qplus qtimes TyD) (MVal (Other x_MLower)) REPLACE x_C_15
    (OTrn (Other x_Ones)) (OMat (Other x_Identity)) ;;
  x_q_7 <- meq x_C_16 x_MLower ;;
  _ <- check x_q_7 ;;
  x_C_17 <- lil_assign x_C_16 x_Ones ;;
  x_C_18 <- t_opt_mxm TyD noacc TyD (mkSr qplus qtimes TyD) (MVal (Other x_MNotLower)) REPLACE
    x_C_17 (OTrn (Other x_Ones)) (OMat (Other x_Identity)) ;;
  x_q_8 <- meq x_C_18 x_MNotLower ;;
  _ <- check x_q_8 ;;
  Ok tt) = Ok tt.
Proof. vm_compute. reflexivity. Qed.

(** test_mxm_ATB.cpp:658-707 *)
Example test_mxm_Mask_NoAccum_ATBM_empty :
 (x_Empty <- mnew 3 3 ;;
  x_Ones <- mdense0 TyD d_Ones_3x3 0%Q ;;
  x_C <- mnew 3 3 ;;
  x_M <- mdense0 TyB d_LowerBool_3x3 0%Q ;;
  x_mUpper <- mdense0 TyD d_NotLower_3x3 0%Q ;;
  x_C_1 <- lil_assign x_C x_Ones ;;
  x_C_2 <- t_mxm TyD noacc (mkSr qplus qtimes TyD) (MVal x_M) MERGE x_C_1 (Trn x_Empty) (Mat x_Ones)
    ;;
  x_q <- meq x_C_2 x_mUpper ;;
  _ <- check x_q ;;
  x_C_3 <- lil_assign x_C_2 x_Ones ;;
  x_C_4 <- t_mxm TyD noacc (mkSr qplus qtimes TyD) (MVal x_M) MERGE x_C_3 (Trn x_Ones) (Mat x_Empty)
    ;;
  x_q_1 <- meq x_C_4 x_mUpper ;;
  _ <- check x_q_1 ;;
  x_C_5 <- lil_assign x_C_4 x_Ones ;;
  x_C_6 <- t_mxm TyD noacc (mkSr qplus qtimes TyD) (MVal x_Empty) MERGE x_C_5 (Trn x_Ones) (Mat
    x_Empty) ;;
  x_q_2 <- meq x_C_6 x_Ones ;;
  _ <- check x_q_2 ;;
  x_C_7 <- lil_assign x_C_6 x_Ones ;;
  x_C_8 <- t_mxm TyD noacc (mkSr qplus qtimes TyD) (MVal x_M) REPLACE x_C_7 (Trn x_Empty) (Mat
    x_Ones) ;;
  x_q_3 <- meq x_C_8 x_Empty ;;
  _ <- check x_q_3 ;;
  x_C_9 <- lil_assign x_C_8 x_Ones ;;
  x_C_10 <- t_mxm TyD noacc (mkSr qplus qtimes TyD) (MVal x_M) REPLACE x_C_9 (Trn x_Ones) (Mat
    x_Empty) ;;
  x_q_4 <- meq x_C_10 x_Empty ;;
  _ <- check x_q_4 ;;
  x_C_11 <- lil_assign x_C_10 x_Ones ;;
  x_C_12 <- t_mxm TyD noacc (mkSr qplus qtimes TyD) (MVal x_Empty) REPLACE x_C_11 (Trn x_Ones) (Mat
    x_Empty) ;;
  x_q_5 <- meq x_C_12 x_Empty ;;
  _ <- check x_q_5 ;;
  Ok tt) = Ok tt.
Proof. vm_compute. reflexivity. Qed.

(** test_mxm_ATB.cpp:658-707, optimized_sequential platform *)
Example test_mxm_Mask_NoAccum_ATBM_empty_opt :
 (x_Empty <- mnew 3 3 ;;
  x_Ones <- mdense0 TyD d_Ones_3x3 0%Q ;;
  x_C <- mnew 3 3 ;;
  x_M <- mdense0 TyB d_LowerBool_3x3 0%Q ;;
  x_mUpper <- mdense0 TyD d_NotLower_3x3 0%Q ;;
  x_C_1 <- lil_assign x_C x_Ones ;;
  x_C_2 <- t_opt_mxm TyD noacc TyD (mkSr qplus qtimes TyD) (MVal (Other x_M)) MERGE x_C_1 (OTrn
    (Other x_Empty)) (OMat (Other x_Ones)) ;;
  x_q <- meq x_C_2 x_mUpper ;;
  _ <- check x_q ;;
  x_C_3 <- lil_assign x_C_2 x_Ones ;;
  x_C_4 <- t_opt_mxm TyD noacc TyD (mkSr qplus qtimes TyD) (MVal (Other x_M)) MERGE x_C_3 (OTrn
    (Other x_Ones)) (OMat (Other x_Empty)) ;;
  x_q_1 <- meq x_C_4 x_mUpper ;;
  _ <- check x_q_1 ;;
  x_C_5 <- lil_assign x_C_4 x_Ones ;;
  x_C_6 <- t_opt_mxm TyD noacc TyD (mkSr qplus qtimes TyD) (MVal (Other x_Empty)) MERGE x_C_5 (OTrn
    (Other x_Ones)) (OMat (Other x_Empty)) ;;
  x_q_2 <- meq x_C_6 x_Ones ;;
  _ <- check x_q_2 ;;
  x_C_7 <- lil_assign x_C_6 x_Ones ;;
  x_C_8 <- t_opt_mxm TyD noacc TyD (mkSr qplus qtimes TyD) (MVal (Other x_M)) REPLACE x_C_7 (OTrn
    (Other x_Empty)) (OMat (Other x_Ones)) ;;
  x_q_3 <- meq x_C_8 x_Empty ;;
  _ <- check x_q_3 ;;
  x_C_9 <- lil_assign x_C_8 x_Ones ;;
  x_C_10 <- t_opt_mxm TyD noacc TyD (mkSr qplus qtimes TyD) (MVal (Other x_M)) REPLACE x_C_9 (OTrn
    (Other x_Ones)) (OMat (Other x_Empty)) ;;
  x_q_4 <- meq x_C_10 x_Empty ;;
  _ <- check x_q_4 ;;
  x_C_11 <- lil_assign x_C_10 x_Ones ;;
  x_C_12 <- t_opt_mxm TyD noacc TyD (mkSr qplus qtimes TyD) (MVal (Other x_Empty)) REPLACE x_C_11
    (OTrn (Other x_Ones)) (OMat (Other x_Empty)) ;;
  x_q_5 <- meq x_C_12 x_Empty ;;
  _ <- check x_q_5 ;;
  Ok tt) = Ok tt.
Proof. vm_compute. reflexivity. Qed.

(** test_mxm_ATB.cpp:710-725 *)
Example test_mxm_Mask_NoAccum_ATB_Merge_full_mask :
 (x_A <- mdense0 TyD d_AT_dense_3x3 0%Q ;;
  x_B <- mdense0 TyD d_B_dense_3x4 0%Q ;;
  x_result <- mnew 3 4 ;;
  x_answer <- mdense0 TyD d_Answer_dense 0%Q ;;
  x_mask <- mdense0 TyD d_Ones_3x4 0%Q ;;
  x_result_1 <- t_mxm TyD noacc (mkSr qplus qtimes TyD) (MVal x_mask) MERGE x_result (Trn x_A) (Mat
    x_B) ;;
  x_q <- meq x_result_1 x_answer ;;
  _ <- check x_q ;;
  Ok tt) = Ok tt.
Proof. vm_compute. reflexivity. Qed.

(** test_mxm_ATB.cpp:710-725, optimized_sequential platform *)
Example test_mxm_Mask_NoAccum_ATB_Merge_full_mask_opt :
 (x_A <- mdense0 TyD d_AT_dense_3x3 0%Q ;;
  x_B <- mdense0 TyD d_B_dense_3x4 0%Q ;;
  x_result <- mnew 3 4 ;;
  x_answer <- mdense0 TyD d_Answer_dense 0%Q ;;
  x_mask <- mdense0 TyD d_Ones_3x4 0%Q ;;
  x_result_1 <- t_opt_mxm TyD noacc TyD (mkSr qplus qtimes TyD) (MVal (Other x_mask)) MERGE x_result
    (OTrn (Other x_A)) (OMat (Other x_B)) ;;
  x_q <- meq x_result_1 x_answer ;;
  _ <- check x_q ;;
  Ok tt) = Ok tt.
Proof. vm_compute. reflexivity. Qed.

(** test_mxm_ATB.cpp:729-744 *)
Example test_mxm_Mask_NoAccum_ATB_mask_not_full :
 (x_A <- mdense0 TyD d_AT_dense_3x3 0%Q ;;
  x_B <- mdense0 TyD d_B_dense_3x4 0%Q ;;
  x_answer <- mdense0 TyD d_Answer_dense 0%Q ;;
  x_result <- mnew 3 4 ;;
  x_mask <- mdense0 TyD d_Answer_dense 0%Q ;;
  x_result_1 <- t_mxm TyD noacc (mkSr qplus qtimes TyD) (MVal x_mask) MERGE x_result (Trn x_A) (Mat
    x_B) ;;
  x_q <- meq x_result_1 x_answer ;;
  _ <- check x_q ;;
  Ok tt) = Ok tt.
Proof. vm_compute. reflexivity. Qed.

(** test_mxm_ATB.cpp:729-744, optimized_sequential platform *)
Example test_mxm_Mask_NoAccum_ATB_mask_not_full_opt :
 (x_A <- mdense0 TyD d_AT_dense_3x3 0%Q ;;
  x_B <- mdense0 TyD d_B_dense_3x4 0%Q ;;
  x_answer <- mdense0 TyD d_Answer_dense 0%Q ;;
  x_result <- mnew 3 4 ;;
  x_mask <- mdense0 TyD d_Answer_dense 0%Q ;;
  x_result_1 <- t_opt_mxm TyD noacc TyD (mkSr qplus qtimes TyD) (MVal (Other x_mask)) MERGE x_result
    (OTrn (Other x_A)) (OMat (Other x_B)) ;;
  x_q <- meq x_result_1 x_answer ;;
  _ <- check x_q ;;
  Ok tt) = Ok tt.
Proof. vm_compute. reflexivity. Qed.

(** test_mxm_ATB.cpp:747-768 *)
Example test_mxm_Mask_NoAccum_ATB_Merge_Cones_Mlower_stored_zero :
 (x_A <- mdense0 TyD d_AT_dense_3x3 0%Q ;;
  x_B <- mdense0 TyD d_B_dense_3x4 0%Q ;;
  x_M <- mdense0 TyD d_Lower_3x4 0%Q ;;
  x_M_1 <- lil_setElement x_M 0 1 (cast TyD 0%Q) ;;
  _ <- check (Qeq_bool (inject_Z (nvals x_M_1)) 7%Q) ;;
  x_result <- mdense0 TyD d_Ones_3x4 0%Q ;;
  x_answer <- mdense0 TyD [[114; 1; 1; 1]; [74; 97; 1; 1]; [119; 157; 112; 1]]%Q 0%Q ;;
  x_result_1 <- t_mxm TyD noacc (mkSr qplus qtimes TyD) (MVal x_M_1) MERGE x_result (Trn x_A) (Mat
    x_B) ;;
  _ <- check (Qeq_bool (inject_Z (nvals x_result_1)) 12%Q) ;;
  x_q <- meq x_result_1 x_answer ;;
  _ <- check x_q ;;
  Ok tt) = Ok tt.
Proof. vm_compute. reflexivity. Qed.

(** test_mxm_ATB.cpp:747-768, optimized_sequential platform *)
Example test_mxm_Mask_NoAccum_ATB_Merge_Cones_Mlower_stored_zero_opt :
 (x_A <- mdense0 TyD d_AT_dense_3x3 0%Q ;;
  x_B <- mdense0 TyD d_B_dense_3x4 0%Q ;;
  x_M <- mdense0 TyD d_Lower_3x4 0%Q ;;
  x_M_1 <- lil_setElement x_M 0 1 (cast TyD 0%Q) ;;
  _ <- check (Qeq_bool (inject_Z (nvals x_M_1)) 7%Q) ;;
  x_result <- mdense0 TyD d_Ones_3x4 0%Q ;;
  x_answer <- mdense0 TyD [[114; 1; 1; 1]; [74; 97; 1; 1]; [119; 157; 112; 1]]%Q 0%Q ;;
  x_result_1 <- t_opt_mxm TyD noacc TyD (mkSr qplus qtimes TyD) (MVal (Other x_M_1)) MERGE x_result
    (OTrn (Other x_A)) (OMat (Other x_B)) ;;
  _ <- check (Qeq_bool (inject_Z (nvals x_result_1)) 12%Q) ;;
  x_q <- meq x_result_1 x_answer ;;
  _ <- check x_q ;;
  Ok tt) = Ok tt.
Proof. vm_compute. reflexivity. Qed.

(** test_mxm_ATB.cpp:771-812 *)
Example test_mxm_Mask_NoAccum_ATB_emptyRowA_emptyColB :
 (x_A <- mdense0 TyD [[8; 0; 4]; [1; 0; 9]; [6; 0; 2]]%Q 0%Q ;;
  x_B <- mdense0 TyD [[0; 0; 0; 1]; [1; 0; 1; 1]; [0; 0; 1; 1]]%Q 0%Q ;;
  x_Lower <- mdense0 TyD d_Lower_3x4 0%Q ;;
  x_Ones <- mdense0 TyD d_Ones_3x4 0%Q ;;
  x_C <- mnew 3 4 ;;
  x_answer <- mdense0 TyD [[1; 0; 0; 0]; [0; 0; 0; 0]; [9; 0; 11; 0]]%Q 0%Q ;;
  x_C_1 <- lil_assign x_C x_Ones ;;
  x_C_2 <- t_mxm TyD noacc (mkSr qplus qtimes TyD) (MVal x_Lower) REPLACE x_C_1 (Trn x_A) (Mat x_B)
    ;;
  x_q <- meq x_C_2 x_answer ;;
  _ <- check x_q ;;
  x_answer2 <- mdense0 TyD [[1; 1; 1; 1]; [0; 0; 1; 1]; [9; 0; 11; 1]]%Q 0%Q ;;
  x_C_3 <- lil_assign x_C_2 x_Ones ;;
  x_C_4 <- t_mxm TyD noacc (mkSr qplus qtimes TyD) (MVal x_Lower) MERGE x_C_3 (Trn x_A) (Mat x_B) ;;
  x_q_1 <- meq x_C_4 x_answer2 ;;
  _ <- check x_q_1 ;;
  Ok tt) = Ok tt.
Proof. vm_compute. reflexivity. Qed.

(** test_mxm_ATB.cpp:771-812, optimized_sequential platform *)
Example test_mxm_Mask_NoAccum_ATB_emptyRowA_emptyColB_opt :
 (x_A <- mdense0 TyD [[8; 0; 4]; [1; 0; 9]; [6; 0; 2]]%Q 0%Q ;;
  x_B <- mdense0 TyD [[0; 0; 0; 1]; [1; 0; 1; 1]; [0; 0; 1; 1]]%Q 0%Q ;;
  x_Lower <- mdense0 TyD d_Lower_3x4 0%Q ;;
  x_Ones <- mdense0 TyD d_Ones_3x4 0%Q ;;
  x_C <- mnew 3 4 ;;
  x_answer <- mdense0 TyD [[1; 0; 0; 0]; [0; 0; 0; 0]; [9; 0; 11; 0]]%Q 0%Q ;;
  x_C_1 <- lil_assign x_C x_Ones ;;
  x_C_2 <- t_opt_mxm TyD noacc TyD (mkSr qplus qtimes TyD) (MVal (Other x_Lower)) REPLACE x_C_1
    (OTrn (Other x_A)) (OMat (Other x_B)) ;;
  x_q <- meq x_C_2 x_answer ;;
  _ <- check x_q ;;
  x_answer2 <- mdense0 TyD [[1; 1; 1; 1]; [0; 0; 1; 1]; [9; 0; 11; 1]]%Q 0%Q ;;
  x_C_3 <- lil_assign x_C_2 x_Ones ;;
  x_C_4 <- t_opt_mxm TyD noacc TyD (mkSr qplus qtimes TyD) (MVal (Other x_Lower)) MERGE x_C_3 (OTrn
    (Other x_A)) (OMat (Other x_B)) ;;
  x_q_1 <- meq x_C_4 x_answer2 ;;
  _ <- check x_q_1 ;;
  Ok tt) = Ok tt.
Proof. vm_compute. reflexivity. Qed.

(** test_mxm_ATB.cpp:815-856 *)
Example test_mxm_Mask_NoAccum_ATB_emptyColA_emptyRowB :
 (x_A <- mdense0 TyD [[8; 1; 4]; [0; 0; 0]; [6; 9; 2]]%Q 0%Q ;;
  x_B <- mdense0 TyD [[0; 1; 0; 1]; [1; 0; 1; 1]; [0; 0; 0; 0]]%Q 0%Q ;;
  x_Lower <- mdense0 TyD d_Lower_3x4 0%Q ;;
  x_Ones <- mdense0 TyD d_Ones_3x4 0%Q ;;
  x_C <- mnew 3 4 ;;
  x_answer <- mdense0 TyD [[0; 0; 0; 0]; [0; 1; 0; 0]; [0; 4; 0; 0]]%Q 0%Q ;;
  x_C_1 <- lil_assign x_C x_Ones ;;
  x_C_2 <- t_mxm TyD noacc (mkSr qplus qtimes TyD) (MVal x_Lower) REPLACE x_C_1 (Trn x_A) (Mat x_B)
    ;;
  x_q <- meq x_C_2 x_answer ;;
  _ <- check x_q ;;
  x_answer2 <- mdense0 TyD [[0; 1; 1; 1]; [0; 1; 1; 1]; [0; 4; 0; 1]]%Q 0%Q ;;
  x_C_3 <- lil_assign x_C_2 x_Ones ;;
  x_C_4 <- t_mxm TyD noacc (mkSr qplus qtimes TyD) (MVal x_Lower) MERGE x_C_3 (Trn x_A) (Mat x_B) ;;
  x_q_1 <- meq x_C_4 x_answer2 ;;
  _ <- check x_q_1 ;;
  Ok tt) = Ok tt.
Proof. vm_compute. reflexivity. Qed.

(** test_mxm_ATB.cpp:815-856, optimized_sequential platform *)
Example test_mxm_Mask_NoAccum_ATB_emptyColA_emptyRowB_opt :
 (x_A <- mdense0 TyD [[8; 1; 4]; [0; 0; 0]; [6; 9; 2]]%Q 0%Q ;;
  x_B <- mdense0 TyD [[0; 1; 0; 1]; [1; 0; 1; 1]; [0; 0; 0; 0]]%Q 0%Q ;;
  x_Lower <- mdense0 TyD d_Lower_3x4 0%Q ;;
  x_Ones <- mdense0 TyD d_Ones_3x4 0%Q ;;
  x_C <- mnew 3 4 ;;
  x_answer <- mdense0 TyD [[0; 0; 0; 0]; [0; 1; 0; 0]; [0; 4; 0; 0]]%Q 0%Q ;;
  x_C_1 <- lil_assign x_C x_Ones ;;
  x_C_2 <- t_opt_mxm TyD noacc TyD (mkSr qplus qtimes TyD) (MVal (Other x_Lower)) REPLACE x_C_1
    (OTrn (Other x_A)) (OMat (Other x_B)) ;;
  x_q <- meq x_C_2 x_answer ;;
  _ <- check x_q ;;
  x_answer2 <- mdense0 TyD [[0; 1; 1; 1]; [0; 1; 1; 1]; [0; 4; 0; 1]]%Q 0%Q ;;
  x_C_3 <- lil_assign x_C_2 x_Ones ;;
  x_C_4 <- t_opt_mxm TyD noacc TyD (mkSr qplus qtimes TyD) (MVal (Other x_Lower)) MERGE x_C_3 (OTrn
    (Other x_A)) (OMat (Other x_B)) ;;
  x_q_1 <- meq x_C_4 x_answer2 ;;
  _ <- check x_q_1 ;;
  Ok tt) = Ok tt.
Proof. vm_compute. reflexivity. Qed.

(** test_mxm_ATB.cpp:859-900 *)
Example test_mxm_Mask_NoAccum_ATB_emptyRowM :
 (x_A <- mdense0 TyD [[8; 0; 4]; [1; 0; 9]; [6; 0; 2]]%Q 0%Q ;;
  x_B <- mdense0 TyD [[0; 0; 0]; [1; 0; 1]; [0; 0; 1]]%Q 0%Q ;;
  x_NotLower <- mdense0 TyD d_NotLower_3x3 0%Q ;;
  x_Ones <- mdense0 TyD d_Ones_3x3 0%Q ;;
  x_C <- mnew 3 3 ;;
  x_answer <- mdense0 TyD [[0; 0; 7]; [0; 0; 0]; [0; 0; 0]]%Q 0%Q ;;
  x_C_1 <- lil_assign x_C x_Ones ;;
  x_C_2 <- t_mxm TyD noacc (mkSr qplus qtimes TyD) (MVal x_NotLower) REPLACE x_C_1 (Trn x_A) (Mat
    x_B) ;;
  x_q <- meq x_C_2 x_answer ;;
  _ <- check x_q ;;
  x_answer2 <- mdense0 TyD [[1; 0; 7]; [1; 1; 0]; [1; 1; 1]]%Q 0%Q ;;
  x_C_3 <- lil_assign x_C_2 x_Ones ;;
  x_C_4 <- t_mxm TyD noacc (mkSr qplus qtimes TyD) (MVal x_NotLower) MERGE x_C_3 (Trn x_A) (Mat x_B)
    ;;
  x_q_1 <- meq x_C_4 x_answer2 ;;
  _ <- check x_q_1 ;;
  Ok tt) = Ok tt.
Proof. vm_compute. reflexivity. Qed.

(** test_mxm_ATB.cpp:859-900, optimized_sequential platform *)
Example test_mxm_Mask_NoAccum_ATB_emptyRowM_opt :
 (x_A <- mdense0 TyD [[8; 0; 4]; [1; 0; 9]; [6; 0; 2]]%Q 0%Q ;;
  x_B <- mdense0 TyD [[0; 0; 0]; [1; 0; 1]; [0; 0; 1]]%Q 0%Q ;;
  x_NotLower <- mdense0 TyD d_NotLower_3x3 0%Q ;;
  x_Ones <- mdense0 TyD d_Ones_3x3 0%Q ;;
  x_C <- mnew 3 3 ;;
  x_answer <- mdense0 TyD [[0; 0; 7]; [0; 0; 0]; [0; 0; 0]]%Q 0%Q ;;
  x_C_1 <- lil_assign x_C x_Ones ;;
  x_C_2 <- t_opt_mxm TyD noacc TyD (mkSr qplus qtimes TyD) (MVal (Other x_NotLower)) REPLACE x_C_1
    (OTrn (Other x_A)) (OMat (Other x_B)) ;;
  x_q <- meq x_C_2 x_answer ;;
  _ <- check x_q ;;
  x_answer2 <- mdense0 TyD [[1; 0; 7]; [1; 1; 0]; [1; 1; 1]]%Q 0%Q ;;
  x_C_3 <- lil_assign x_C_2 x_Ones ;;
  x_C_4 <- t_opt_mxm TyD noacc TyD (mkSr qplus qtimes TyD) (MVal (Other x_NotLower)) MERGE x_C_3
    (OTrn (Other x_A)) (OMat (Other x_B)) ;;
  x_q_1 <- meq x_C_4 x_answer2 ;;
  _ <- check x_q_1 ;;
  Ok tt) = Ok tt.
Proof. vm_compute. reflexivity. Qed.

(** test_mxm_ATB.cpp:903-941 *)
Example test_mxm_Mask_NoAccum_ATB_ABdup :
 (x_mat <- mdense0 TyD d_Symmetric_4x4 0%Q ;;
  x_Lower <- mdense0 TyD d_Lower_4x4 0%Q ;;
  x_Ones <- mdense0 TyD d_Ones_4x4 0%Q ;;
  x_C <- mnew 4 4 ;;
  x_answer <- mdense0 TyD [[2; 1; 1; 1]; [3; 9; 1; 1]; [2; 10; 22; 1]; [0; 6; 21; 25]]%Q 0%Q ;;
  x_C_1 <- lil_assign x_C x_Ones ;;
  x_C_2 <- t_mxm TyD noacc (mkSr qplus qtimes TyD) (MVal x_Lower) MERGE x_C_1 (Trn x_mat) (Mat
    x_mat) ;;
  x_q <- meq x_C_2 x_answer ;;
  _ <- check x_q ;;
  x_answer2 <- mdense0 TyD [[2; 0; 0; 0]; [3; 9; 0; 0]; [2; 10; 22; 0]; [0; 6; 21; 25]]%Q 0%Q ;;
  x_C_3 <- lil_assign x_C_2 x_Ones ;;
  x_C_4 <- t_mxm TyD noacc (mkSr qplus qtimes TyD) (MVal x_Lower) REPLACE x_C_3 (Trn x_mat) (Mat
    x_mat) ;;
  x_q_1 <- meq x_C_4 x_answer2 ;;
  _ <- check x_q_1 ;;
  Ok tt) = Ok tt.
Proof. vm_compute. reflexivity. Qed.

(** test_mxm_ATB.cpp:903-941, optimized_sequential platform *)
Example test_mxm_Mask_NoAccum_ATB_ABdup_opt :
 (x_mat <- mdense0 TyD d_Symmetric_4x4 0%Q ;;
  x_Lower <- mdense0 TyD d_Lower_4x4 0%Q ;;
  x_Ones <- mdense0 TyD d_Ones_4x4 0%Q ;;
  x_C <- mnew 4 4 ;;
  x_answer <- mdense0 TyD [[2; 1; 1; 1]; [3; 9; 1; 1]; [2; 10; 22; 1]; [0; 6; 21; 25]]%Q 0%Q ;;
  x_C_1 <- lil_assign x_C x_Ones ;;
  x_C_2 <- t_opt_mxm TyD noacc TyD (mkSr qplus qtimes TyD) (MVal (Other x_Lower)) MERGE x_C_1 (OTrn
    (Other x_mat)) (OMat (Other x_mat)) ;;
  x_q <- meq x_C_2 x_answer ;;
  _ <- check x_q ;;
  x_answer2 <- mdense0 TyD [[2; 0; 0; 0]; [3; 9; 0; 0]; [2; 10; 22; 0]; [0; 6; 21; 25]]%Q 0%Q ;;
  x_C_3 <- lil_assign x_C_2 x_Ones ;;
  x_C_4 <- t_opt_mxm TyD noacc TyD (mkSr qplus qtimes TyD) (MVal (Other x_Lower)) REPLACE x_C_3
    (OTrn (Other x_mat)) (OMat (Other x_mat)) ;;
  x_q_1 <- meq x_C_4 x_answer2 ;;
  _ <- check x_q_1 ;;
  Ok tt) = Ok tt.
Proof. vm_compute. reflexivity. Qed.

(** test_mxm_ATB.cpp:944-982 *)
Example test_mxm_Mask_NoAccum_ATB_ACdup :
 (x_mat <- mdense0 TyD d_Symmetric_4x4 0%Q ;;
  x_Lower <- mdense0 TyD d_Lower_4x4 0%Q ;;
  x_Ones <- mdense0 TyD d_Ones_4x4 0%Q ;;
  x_C <- mnew 4 4 ;;
  x_answer <- mdense0 TyD [[2; 1; 0; 0]; [3; 9; 2; 0]; [2; 10; 22; 3]; [0; 6; 21; 25]]%Q 0%Q ;;
  x_C_1 <- lil_assign x_C x_mat ;;
  x_C_2 <- t_mxm TyD noacc (mkSr qplus qtimes TyD) (MVal x_Lower) MERGE x_C_1 (Trn x_C_1) (Mat
    x_mat) ;;
  x_q <- meq x_C_2 x_answer ;;
  _ <- check x_q ;;
  x_answer2 <- mdense0 TyD [[2; 0; 0; 0]; [3; 9; 0; 0]; [2; 10; 22; 0]; [0; 6; 21; 25]]%Q 0%Q ;;
  x_C_3 <- lil_assign x_C_2 x_mat ;;
  x_C_4 <- t_mxm TyD noacc (mkSr qplus qtimes TyD) (MVal x_Lower) REPLACE x_C_3 (Trn x_C_3) (Mat
    x_mat) ;;
  x_q_1 <- meq x_C_4 x_answer2 ;;
  _ <- check x_q_1 ;;
  Ok tt) = Ok tt.
Proof. vm_compute. reflexivity. Qed.

(** test_mxm_ATB.cpp:944-982, optimized_sequential platform *)
Example test_mxm_Mask_NoAccum_ATB_ACdup_opt :
 (x_mat <- mdense0 TyD d_Symmetric_4x4 0%Q ;;
  x_Lower <- mdense0 TyD d_Lower_4x4 0%Q ;;
  x_Ones <- mdense0 TyD d_Ones_4x4 0%Q ;;
  x_C <- mnew 4 4 ;;
  x_answer <- mdense0 TyD [[2; 1; 0; 0]; [3; 9; 2; 0]; [2; 10; 22; 3]; [0; 6; 21; 25]]%Q 0%Q ;;
  x_C_1 <- lil_assign x_C x_mat ;;
  x_C_2 <- t_opt_mxm TyD noacc TyD (mkSr qplus qtimes TyD) (MVal (Other x_Lower)) MERGE x_C_1 (OTrn
    (TheOutput (fun x => x))) (OMat (Other x_mat)) ;;
  x_q <- meq x_C_2 x_answer ;;
  _ <- check x_q ;;
  x_answer2 <- mdense0 TyD [[2; 0; 0; 0]; [3; 9; 0; 0]; [2; 10; 22; 0]; [0; 6; 21; 25]]%Q 0%Q ;;
  x_C_3 <- lil_assign x_C_2 x_mat ;;
  x_C_4 <- t_opt_mxm TyD noacc TyD (mkSr qplus qtimes TyD) (MVal (Other x_Lower)) REPLACE x_C_3
    (OTrn (TheOutput (fun x => x))) (OMat (Other x_mat)) ;;
  x_q_1 <- meq x_C_4 x_answer2 ;;
  _ <- check x_q_1 ;;
  Ok tt) = Ok tt.
Proof. vm_compute. reflexivity. Qed.

(** test_mxm_ATB.cpp:985-1032 *)
Example test_mxm_Mask_NoAccum_ATB_BCdup :
 (x_mat <- mdense0 TyD d_Symmetric_4x4 0%Q ;;
  x_Lower <- mdense0 TyD d_Lower_4x4 0%Q ;;
  x_Ones <- mdense0 TyD d_Ones_4x4 0%Q ;;
  x_C <- mnew 4 4 ;;
  x_answer <- mdense0 TyD [[2; 1; 0; 0]; [3; 9; 2; 0]; [2; 10; 22; 3]; [0; 6; 21; 25]]%Q 0%Q ;;
  x_C_1 <- lil_assign x_C x_mat ;;
  x_C_2 <- t_mxm TyD noacc (mkSr qplus qtimes TyD) (MVal x_Lower) MERGE x_C_1 (Trn x_mat) (Mat
    x_C_1) ;;
  x_q <- meq x_C_2 x_answer ;;
  _ <- check x_q ;;
  x_C_3 <- lil_assign x_C_2 x_mat ;;
  x_C_4 <- t_mxm TyD noacc (mkSr qplus qtimes TyD) (MVal x_Lower) MERGE x_C_3 (Trn x_mat) (Mat
    x_mat) ;;
  x_q_1 <- meq x_C_4 x_answer ;;
  _ <- check x_q_1 ;;
  x_answer2 <- mdense0 TyD [[2; 0; 0; 0]; [3; 9; 0; 0]; [2; 10; 22; 0]; [0; 6; 21; 25]]%Q 0%Q ;;
  x_C_5 <- lil_assign x_C_4 x_mat ;;
  x_C_6 <- t_mxm TyD noacc (mkSr qplus qtimes TyD) (MVal x_Lower) REPLACE x_C_5 (Trn x_mat) (Mat
    x_C_5) ;;
  x_q_2 <- meq x_C_6 x_answer2 ;;
  _ <- check x_q_2 ;;
  Ok tt) = Ok tt.
Proof. vm_compute. reflexivity. Qed.

(** test_mxm_ATB.cpp:985-1032, optimized_sequential platform *)
Example test_mxm_Mask_NoAccum_ATB_BCdup_opt :
 (x_mat <- mdense0 TyD d_Symmetric_4x4 0%Q ;;
  x_Lower <- mdense0 TyD d_Lower_4x4 0%Q ;;
  x_Ones <- mdense0 TyD d_Ones_4x4 0%Q ;;
  x_C <- mnew 4 4 ;;
  x_answer <- mdense0 TyD [[2; 1; 0; 0]; [3; 9; 2; 0]; [2; 10; 22; 3]; [0; 6; 21; 25]]%Q 0%Q ;;
  x_C_1 <- lil_assign x_C x_mat ;;
  x_C_2 <- t_opt_mxm TyD noacc TyD (mkSr qplus qtimes TyD) (MVal (Other x_Lower)) MERGE x_C_1 (OTrn
    (Other x_mat)) (OMat (TheOutput (fun x => x))) ;;
  x_q <- meq x_C_2 x_answer ;;
  _ <- check x_q ;;
  x_C_3 <- lil_assign x_C_2 x_mat ;;
  x_C_4 <- t_opt_mxm TyD noacc TyD (mkSr qplus qtimes TyD) (MVal (Other x_Lower)) MERGE x_C_3 (OTrn
    (Other x_mat)) (OMat (Other x_mat)) ;;
  x_q_1 <- meq x_C_4 x_answer ;;
  _ <- check x_q_1 ;;
  x_answer2 <- mdense0 TyD [[2; 0; 0; 0]; [3; 9; 0; 0]; [2; 10; 22; 0]; [0; 6; 21; 25]]%Q 0%Q ;;
  x_C_5 <- lil_assign x_C_4 x_mat ;;
  x_C_6 <- t_opt_mxm TyD noacc TyD (mkSr qplus qtimes TyD) (MVal (Other x_Lower)) REPLACE x_C_5
    (OTrn (Other x_mat)) (OMat (TheOutput (fun x => x))) ;;
  x_q_2 <- meq x_C_6 x_answer2 ;;
  _ <- check x_q_2 ;;
  Ok tt) = Ok tt.
Proof. vm_compute. reflexivity. Qed.

(** test_mxm_ATB.cpp:1035-1072 *)
Example test_mxm_Mask_NoAccum_ATB_MCdup :
 (x_mat <- mdense0 TyD d_Symmetric_4x4 0%Q ;;
  x_Lower <- mdense0 TyD d_Lower_4x4 0%Q ;;
  x_C <- mnew 4 4 ;;
  x_answer <- mdense0 TyD [[2; 0; 0; 0]; [3; 9; 0; 0]; [2; 10; 22; 0]; [0; 6; 21; 25]]%Q 0%Q ;;
  x_C_1 <- lil_assign x_C x_Lower ;;
  x_C_2 <- t_mxm TyD noacc (mkSr qplus qtimes TyD) (MVal x_C_1) MERGE x_C_1 (Trn x_mat) (Mat x_mat)
    ;;
  x_q <- meq x_C_2 x_answer ;;
  _ <- check x_q ;;
  x_answer2 <- mdense0 TyD [[2; 0; 0; 0]; [3; 9; 0; 0]; [2; 10; 22; 0]; [0; 6; 21; 25]]%Q 0%Q ;;
  x_C_3 <- lil_assign x_C_2 x_Lower ;;
  x_C_4 <- t_mxm TyD noacc (mkSr qplus qtimes TyD) (MVal x_C_3) REPLACE x_C_3 (Trn x_mat) (Mat
    x_mat) ;;
  x_q_1 <- meq x_C_4 x_answer2 ;;
  _ <- check x_q_1 ;;
  Ok tt) = Ok tt.
Proof. vm_compute. reflexivity. Qed.

(** test_mxm_ATB.cpp:1035-1072, optimized_sequential platform *)
Example test_mxm_Mask_NoAccum_ATB_MCdup_opt :
 (x_mat <- mdense0 TyD d_Symmetric_4x4 0%Q ;;
  x_Lower <- mdense0 TyD d_Lower_4x4 0%Q ;;
  x_C <- mnew 4 4 ;;
  x_answer <- mdense0 TyD [[2; 0; 0; 0]; [3; 9; 0; 0]; [2; 10; 22; 0]; [0; 6; 21; 25]]%Q 0%Q ;;
  x_C_1 <- lil_assign x_C x_Lower ;;
  x_C_2 <- t_opt_mxm TyD noacc TyD (mkSr qplus qtimes TyD) (MVal (TheOutput (fun x => x))) MERGE
    x_C_1 (OTrn (Other x_mat)) (OMat (Other x_mat)) ;;
  x_q <- meq x_C_2 x_answer ;;
  _ <- check x_q ;;
  x_answer2 <- mdense0 TyD [[2; 0; 0; 0]; [3; 9; 0; 0]; [2; 10; 22; 0]; [0; 6; 21; 25]]%Q 0%Q ;;
  x_C_3 <- lil_assign x_C_2 x_Lower ;;
  x_C_4 <- t_opt_mxm TyD noacc TyD (mkSr qplus qtimes TyD) (MVal (TheOutput (fun x => x))) REPLACE
    x_C_3 (OTrn (Other x_mat)) (OMat (Other x_mat)) ;;
  x_q_1 <- meq x_C_4 x_answer2 ;;
  _ <- check x_q_1 ;;
  Ok tt) = Ok tt.
Proof. vm_compute. reflexivity. Qed.

(** test_mxm_ATB.cpp:1079-1188 *)
Example test_mxm_Mask_Accum_ATB :
 (x_A <- mdense0 TyD d_AT_sparse_3x3 0%Q ;;
  x_AT <- mdense0 TyD d_A_sparse_3x3 0%Q ;;
  x_Identity <- mdense0 TyD d_Identity_3x3 0%Q ;;
  x_Empty <- mnew 3 3 ;;
  x_Ones <- mdense0 TyD d_Ones_3x3 0%Q ;;
  x_C <- mnew 3 3 ;;
  x_MLower <- mdense0 TyD d_Lower_3x3 0%Q ;;
  x_MNotLower <- mdense0 TyD d_NotLower_3x3 0%Q ;;
  x_AFilled <- mdense0 TyD [[12; 7; 1]; [1; (-5); 1]; [7; 1; 9]]%Q 0%Q ;;
  x_C_1 <- lil_assign x_C x_Ones ;;
  x_C_2 <- t_mxm TyD (acc TyD qplus) (mkSr qplus qtimes TyD) (MVal x_Empty) MERGE x_C_1 (Trn x_A)
    (Mat x_Identity) ;;
  x_q <- meq x_C_2 x_Ones ;;
  _ <- check x_q ;;
  x_C_3 <- lil_assign x_C_2 x_Ones ;;
  x_C_4 <- t_mxm TyD (acc TyD qplus) (mkSr qplus qtimes TyD) (MVal x_AT) MERGE x_C_3 (Trn x_A) (Mat
    x_Identity) ;;
  x_t <- mdense0 TyD [[13; 8; 1]; [1; (-4); 1]; [8; 1; 10]]%Q 0%Q ;;
  x_q_1 <- meq x_C_4 x_t ;;
  _ <- check x_q_1 ;;
  x_C_5 <- lil_assign x_C_4 x_Ones ;;
  x_C_6 <- t_mxm TyD (acc TyD qplus) (mkSr qplus qtimes TyD) (MVal x_MLower) MERGE x_C_5 (Trn
    x_Ones) (Mat x_Identity) ;;
  x_t_1 <- mdense0 TyD [[2; 1; 1]; [2; 2; 1]; [2; 2; 2]]%Q 0%Q ;;
  x_q_2 <- meq x_C_6 x_t_1 ;;
  _ <- check x_q_2 ;;
  x_C_7 <- lil_assign x_C_6 x_Ones ;;
  x_C_8 <- t_mxm TyD (acc TyD qplus) (mkSr qplus qtimes TyD) (MVal x_MNotLower) MERGE x_C_7 (Trn
    x_Ones) (Mat x_Identity) ;;
  x_t_2 <- mdense0 TyD [[1; 2; 2]; [1; 1; 2]; [1; 1; 1]]%Q 0%Q ;;
  x_q_3 <- meq x_C_8 x_t_2 ;;
  _ <- check x_q_3 ;;
  x_C_9 <- lil_assign x_C_8 x_Ones ;;
  x_C_10 <- t_mxm TyD (acc TyD qplus) (mkSr qplus qtimes TyD) (MVal x_Empty) REPLACE x_C_9 (Trn x_A)
    (Mat x_Identity) ;;
  x_q_4 <- meq x_C_10 x_Empty ;;
  _ <- check x_q_4 ;;
  x_C_11 <- lil_assign x_C_10 x_Ones ;;
  x_C_12 <- t_mxm TyD (acc TyD qplus) (mkSr qplus qtimes TyD) (MVal x_Ones) REPLACE x_C_11 (Trn x_A)
    (Mat x_Identity) ;;
  x_t_3 <- mdense0 TyD [[13; 8; 1]; [1; (-4); 1]; [8; 1; 10]]%Q 0%Q ;;
  x_q_5 <- meq x_C_12 x_t_3 ;;
  _ <- check x_q_5 ;;
  x_C_13 <- lil_assign x_C_12 x_Ones ;;
  x_C_14 <- t_mxm TyD (acc TyD qplus) (mkSr qplus qtimes TyD) (MVal x_MLower) REPLACE x_C_13 (Trn
    x_Ones) (Mat x_Identity) ;;
  x_t_4 <- mdense0 TyD [[2; 0; 0]; [2; 2; 0]; [2; 2; 2]]%Q 0%Q ;;
  x_q_6 <- meq x_C_14 x_t_4 ;;
  _ <- check x_q_6 ;;
  x_C_15 <- lil_assign x_C_14 x_Ones ;;
  x_C_16 <- t_mxm TyD (acc TyD qplus) (mkSr qplus qtimes TyD) (MVal x_MNotLower) REPLACE x_C_15 (Trn
    x_Ones) (Mat x_Identity) ;;
  x_t_5 <- mdense0 TyD [[0; 2; 2]; [0; 0; 2]; [0; 0; 0]]%Q 0%Q ;;
  x_q_7 <- meq x_C_16 x_t_5 ;;
  _ <- check x_q_7 ;;
  Ok tt) = Ok tt.
Proof. vm_compute. reflexivity. Qed.

(** test_mxm_ATB.cpp:1079-1188, optimized_sequential platform *)
Example test_mxm_Mask_Accum_ATB_opt :
 (x_A <- mdense0 TyD d_AT_sparse_3x3 0%Q ;;
  x_AT <- mdense0 TyD d_A_sparse_3x3 0%Q ;;
  x_Identity <- mdense0 TyD d_Identity_3x3 0%Q ;;
  x_Empty <- mnew 3 3 ;;
  x_Ones <- mdense0 TyD d_Ones_3x3 0%Q ;;
  x_C <- mnew 3 3 ;;
  x_MLower <- mdense0 TyD d_Lower_3x3 0%Q ;;
  x_MNotLower <- mdense0 TyD d_NotLower_3x3 0%Q ;;
  x_AFilled <- mdense0 TyD [[12; 7; 1]; [1; (-5); 1]; [7; 1; 9]]%Q 0%Q ;;
  x_C_1 <- lil_assign x_C x_Ones ;;
  x_C_2 <- t_opt_mxm TyD (acc TyD qplus) TyD (mkSr qplus qtimes TyD) (MVal (Other x_Empty)) MERGE
    x_C_1 (OTrn (Other x_A)) (OMat (Other x_Identity)) ;;
  x_q <- meq x_C_2 x_Ones ;;
  _ <- check x_q ;;
  x_C_3 <- lil_assign x_C_2 x_Ones ;;
  x_C_4 <- t_opt_mxm TyD (acc TyD qplus) TyD (mkSr qplus qtimes TyD) (MVal (Other x_AT)) MERGE x_C_3
    (OTrn (Other x_A)) (OMat (Other x_Identity)) ;;
  x_t <- mdense0 TyD [[13; 8; 1]; [1; (-4); 1]; [8; 1; 10]]%Q 0%Q ;;
  x_q_1 <- meq x_C_4 x_t ;;
  _ <- check x_q_1 ;;
  x_C_5 <- lil_assign x_C_4 x_Ones ;;
  x_C_6 <- t_opt_mxm TyD (acc TyD qplus) TyD (mkSr qplus qtimes TyD) (MVal (Other x_MLower)) MERGE
    x_C_5 (OTrn (Other x_Ones)) (OMat (Other x_Identity)) ;;
  x_t_1 <- mdense0 TyD [[2; 1; 1]; [2; 2; 1]; [2; 2; 2]]%Q 0%Q ;;
  x_q_2 <- meq x_C_6 x_t_1 ;;
  _ <- check x_q_2 ;;
  x_C_7 <- lil_assign x_C_6 x_Ones ;;
  x_C_8 <- t_opt_mxm TyD (acc TyD qplus) TyD (mkSr qplus qtimes TyD) (MVal (Other x_MNotLower))
    MERGE x_C_7 (OTrn (Other x_Ones)) (OMat (Other x_Identity)) ;;
  x_t_2 <- mdense0 TyD [[1; 2; 2]; [1; 1; 2]; [1; 1; 1]]%Q 0%Q ;;
  x_q_3 <- meq x_C_8 x_t_2 ;;
  _ <- check x_q_3 ;;
  x_C_9 <- lil_assign x_C_8 x_Ones ;;
  x_C_10 <- t_opt_mxm TyD (acc TyD qplus) TyD (mkSr qplus qtimes TyD) (MVal (Other x_Empty)) REPLACE
    x_C_9 (OTrn (Other x_A)) (OMat (Other x_Identity)) ;;
  x_q_4 <- meq x_C_10 x_Empty ;;
  _ <- check x_q_4 ;;
  x_C_11 <- lil_assign x_C_10 x_Ones ;;
  x_C_12 <- t_opt_mxm TyD (acc TyD qplus) TyD (mkSr qplus qtimes TyD) (MVal (Other x_Ones)) REPLACE
    x_C_11 (OTrn (Other x_A)) (OMat (Other x_Identity)) ;;
  x_t_3 <- mdense0 TyD [[13; 8; 1]; [1; (-4); 1]; [8; 1; 10]]%Q 0%Q ;;
  x_q_5 <- meq x_C_12 x_t_3 ;;
  _ <- check x_q_5 ;;
  x_C_13 <- lil_assign x_C_12 x_Ones ;;
  x_C_14 <- t_opt_mxm TyD (acc TyD qplus) TyD (mkSr qplus qtimes TyD) (MVal (Other x_MLower))
    REPLACE x_C_13 (OTrn (Other x_Ones)) (OMat (Other x_Identity)) ;;
  x_t_4 <- mdense0 TyD [[2; 0; 0]; [2; 2; 0]; [2; 2; 2]]%Q 0%Q ;;
  x_q_6 <- meq x_C_14 x_t_4 ;;
  _ <- check x_q_6 ;;
  x_C_15 <- lil_assign x_C_14 x_Ones ;;
  x_C_16 <- t_opt_mxm TyD (acc TyD qplus) TyD (mkSr qplus qtimes TyD) (MVal (Other x_MNotLower))
    REPLACE x_C_15 (OTrn (Other x_Ones)) (OMat (Other x_Identity)) ;;
  x_t_5 <- mdense0 TyD [[0; 2; 2]; [0; 0; 2]; [0; 0; 0]]%Q 0%Q ;;
  x_q_7 <- meq x_C_16 x_t_5 ;;
  _ <- check x_q_7 ;;
  Ok tt) = Ok tt.
Proof. vm_compute. reflexivity. Qed.

(** test_mxm_ATB.cpp:1191-1238 *)
Example test_mxm_Mask_Accum_ATBMempty :
 (x_Empty <- mnew 3 3 ;;
  x_Ones <- mdense0 TyD d_Ones_3x3 0%Q ;;
  x_C <- mnew 3 3 ;;
  x_M <- mdense0 TyB d_LowerBool_3x3 0%Q ;;
  x_C_1 <- lil_assign x_C x_Ones ;;
  x_C_2 <- t_mxm TyD (acc TyD qplus) (mkSr qplus qtimes TyD) (MVal x_M) MERGE x_C_1 (Trn x_Empty)
    (Mat x_Ones) ;;
  x_q <- meq x_C_2 x_Ones ;;
  _ <- check x_q ;;
  x_C_3 <- lil_assign x_C_2 x_Ones ;;
  x_C_4 <- t_mxm TyD (acc TyD qplus) (mkSr qplus qtimes TyD) (MVal x_M) MERGE x_C_3 (Trn x_Ones)
    (Mat x_Empty) ;;
  x_q_1 <- meq x_C_4 x_Ones ;;
  _ <- check x_q_1 ;;
  x_C_5 <- lil_assign x_C_4 x_Ones ;;
  x_C_6 <- t_mxm TyD (acc TyD qplus) (mkSr qplus qtimes TyD) (MVal x_Empty) MERGE x_C_5 (Trn x_Ones)
    (Mat x_Ones) ;;
  x_q_2 <- meq x_C_6 x_Ones ;;
  _ <- check x_q_2 ;;
  x_C_7 <- lil_assign x_C_6 x_Ones ;;
  x_C_8 <- t_mxm TyD (acc TyD qplus) (mkSr qplus qtimes TyD) (MVal x_M) REPLACE x_C_7 (Trn x_Empty)
    (Mat x_Ones) ;;
  x_t <- mdense0 TyD d_Lower_3x3 0%Q ;;
  x_q_3 <- meq x_C_8 x_t ;;
  _ <- check x_q_3 ;;
  x_C_9 <- lil_assign x_C_8 x_Ones ;;
  x_C_10 <- t_mxm TyD (acc TyD qplus) (mkSr qplus qtimes TyD) (MVal x_M) REPLACE x_C_9 (Trn x_Ones)
    (Mat x_Empty) ;;
  x_t_1 <- mdense0 TyD d_Lower_3x3 0%Q ;;
  x_q_4 <- meq x_C_10 x_t_1 ;;
  _ <- check x_q_4 ;;
  x_C_11 <- lil_assign x_C_10 x_Ones ;;
  x_C_12 <- t_mxm TyD (acc TyD qplus) (mkSr qplus qtimes TyD) (MVal x_Empty) REPLACE x_C_11 (Trn
    x_Ones) (Mat x_Empty) ;;
  x_q_5 <- meq x_C_12 x_Empty ;;
  _ <- check x_q_5 ;;
  Ok tt) = Ok tt.
Proof. vm_compute. reflexivity. Qed.

(** test_mxm_ATB.cpp:1191-1238, optimized_sequential platform *)
Example test_mxm_Mask_Accum_ATBMempty_opt :
 (x_Empty <- mnew 3 3 ;;
  x_Ones <- mdense0 TyD d_Ones_3x3 0%Q ;;
  x_C <- mnew 3 3 ;;
  x_M <- mdense0 TyB d_LowerBool_3x3 0%Q ;;
  x_C_1 <- lil_assign x_C x_Ones ;;
  x_C_2 <- t_opt_mxm TyD (acc TyD qplus) TyD (mkSr qplus qtimes TyD) (MVal (Other x_M)) MERGE x_C_1
    (OTrn (Other x_Empty)) (OMat (Other x_Ones)) ;;
  x_q <- meq x_C_2 x_Ones ;;
  _ <- check x_q ;;
  x_C_3 <- lil_assign x_C_2 x_Ones ;;
  x_C_4 <- t_opt_mxm TyD (acc TyD qplus) TyD (mkSr qplus qtimes TyD) (MVal (Other x_M)) MERGE x_C_3
    (OTrn (Other x_Ones)) (OMat (Other x_Empty)) ;;
  x_q_1 <- meq x_C_4 x_Ones ;;
  _ <- check x_q_1 ;;
  x_C_5 <- lil_assign x_C_4 x_Ones ;;
  x_C_6 <- t_opt_mxm TyD (acc TyD qplus) TyD (mkSr qplus qtimes TyD) (MVal (Other x_Empty)) MERGE
    x_C_5 (OTrn (Other x_Ones)) (OMat (Other x_Ones)) ;;
  x_q_2 <- meq x_C_6 x_Ones ;;
  _ <- check x_q_2 ;;
  x_C_7 <- lil_assign x_C_6 x_Ones ;;
  x_C_8 <- t_opt_mxm TyD (acc TyD qplus) TyD (mkSr qplus qtimes TyD) (MVal (Other x_M)) REPLACE
    x_C_7 (OTrn (Other x_Empty)) (OMat (Other x_Ones)) ;;
  x_t <- mdense0 TyD d_Lower_3x3 0%Q ;;
  x_q_3 <- meq x_C_8 x_t ;;
  _ <- check x_q_3 ;;
  x_C_9 <- lil_assign x_C_8 x_Ones ;;
  x_C_10 <- t_opt_mxm TyD (acc TyD qplus) TyD (mkSr qplus qtimes TyD) (MVal (Other x_M)) REPLACE
    x_C_9 (OTrn (Other x_Ones)) (OMat (Other x_Empty)) ;;
  x_t_1 <- mdense0 TyD d_Lower_3x3 0%Q ;;
  x_q_4 <- meq x_C_10 x_t_1 ;;
  _ <- check x_q_4 ;;
  x_C_11 <- lil_assign x_C_10 x_Ones ;;
  x_C_12 <- t_opt_mxm TyD (acc TyD qplus) TyD (mkSr qplus qtimes TyD) (MVal (Other x_Empty)) REPLACE
    x_C_11 (OTrn (Other x_Ones)) (OMat (Other x_Empty)) ;;
  x_q_5 <- meq x_C_12 x_Empty ;;
  _ <- check x_q_5 ;;
  Ok tt) = Ok tt.
Proof. vm_compute. reflexivity. Qed.

(** test_mxm_ATB.cpp:1241-1282 *)
Example test_mxm_Mask_Accum_ATB_emptyRowA_emptyColB :
 (x_A <- mdense0 TyD [[8; 0; 4]; [1; 0; 9]; [6; 0; 2]]%Q 0%Q ;;
  x_B <- mdense0 TyD [[0; 0; 0; 1]; [1; 0; 1; 1]; [0; 0; 1; 1]]%Q 0%Q ;;
  x_Lower <- mdense0 TyD d_Lower_3x4 0%Q ;;
  x_Ones <- mdense0 TyD d_Ones_3x4 0%Q ;;
  x_C <- mnew 3 4 ;;
  x_answer <- mdense0 TyD [[2; 0; 0; 0]; [1; 1; 0; 0]; [10; 1; 12; 0]]%Q 0%Q ;;
  x_C_1 <- lil_assign x_C x_Ones ;;
  x_C_2 <- t_mxm TyD (acc TyD qplus) (mkSr qplus qtimes TyD) (MVal x_Lower) REPLACE x_C_1 (Trn x_A)
    (Mat x_B) ;;
  x_q <- meq x_C_2 x_answer ;;
  _ <- check x_q ;;
  x_answer2 <- mdense0 TyD [[2; 1; 1; 1]; [1; 1; 1; 1]; [10; 1; 12; 1]]%Q 0%Q ;;
  x_C_3 <- lil_assign x_C_2 x_Ones ;;
  x_C_4 <- t_mxm TyD (acc TyD qplus) (mkSr qplus qtimes TyD) (MVal x_Lower) MERGE x_C_3 (Trn x_A)
    (Mat x_B) ;;
  x_q_1 <- meq x_C_4 x_answer2 ;;
  _ <- check x_q_1 ;;
  Ok tt) = Ok tt.
Proof. vm_compute. reflexivity. Qed.

(** test_mxm_ATB.cpp:1241-1282, optimized_sequential platform *)
Example test_mxm_Mask_Accum_ATB_emptyRowA_emptyColB_opt :
 (x_A <- mdense0 TyD [[8; 0; 4]; [1; 0; 9]; [6; 0; 2]]%Q 0%Q ;;
  x_B <- mdense0 TyD [[0; 0; 0; 1]; [1; 0; 1; 1]; [0; 0; 1; 1]]%Q 0%Q ;;
  x_Lower <- mdense0 TyD d_Lower_3x4 0%Q ;;
  x_Ones <- mdense0 TyD d_Ones_3x4 0%Q ;;
  x_C <- mnew 3 4 ;;
  x_answer <- mdense0 TyD [[2; 0; 0; 0]; [1; 1; 0; 0]; [10; 1; 12; 0]]%Q 0%Q ;;
  x_C_1 <- lil_assign x_C x_Ones ;;
  x_C_2 <- t_opt_mxm TyD (acc TyD qplus) TyD (mkSr qplus qtimes TyD) (MVal (Other x_Lower)) REPLACE
    x_C_1 (OTrn (Other x_A)) (OMat (Other x_B)) ;;
  x_q <- meq x_C_2 x_answer ;;
  _ <- check x_q ;;
  x_answer2 <- mdense0 TyD [[2; 1; 1; 1]; [1; 1; 1; 1]; [10; 1; 12; 1]]%Q 0%Q ;;
  x_C_3 <- lil_assign x_C_2 x_Ones ;;
  x_C_4 <- t_opt_mxm TyD (acc TyD qplus) TyD (mkSr qplus qtimes TyD) (MVal (Other x_Lower)) MERGE
    x_C_3 (OTrn (Other x_A)) (OMat (Other x_B)) ;;
  x_q_1 <- meq x_C_4 x_answer2 ;;
  _ <- check x_q_1 ;;
  Ok tt) = Ok tt.
Proof. vm_compute. reflexivity. Qed.

(** test_mxm_ATB.cpp:1285-1325 *)
Example test_mxm_Mask_Accum_ATB_emptyColA_emptyRowB :
 (x_A <- mdense0 TyD [[8; 1; 4]; [0; 0; 0]; [6; 9; 2]]%Q 0%Q ;;
  x_B <- mdense0 TyD [[0; 1; 0; 1]; [1; 0; 1; 1]; [0; 0; 0; 0]]%Q 0%Q ;;
  x_Lower <- mdense0 TyD d_Lower_3x4 0%Q ;;
  x_Ones <- mdense0 TyD d_Ones_3x4 0%Q ;;
  x_C <- mnew 3 4 ;;
  x_answer <- mdense0 TyD [[1; 0; 0; 0]; [1; 2; 0; 0]; [1; 5; 1; 0]]%Q 0%Q ;;
  x_C_1 <- lil_assign x_C x_Ones ;;
  x_C_2 <- t_mxm TyD (acc TyD qplus) (mkSr qplus qtimes TyD) (MVal x_Lower) REPLACE x_C_1 (Trn x_A)
    (Mat x_B) ;;
  x_q <- meq x_C_2 x_answer ;;
  _ <- check x_q ;;
  x_answer2 <- mdense0 TyD [[1; 1; 1; 1]; [1; 2; 1; 1]; [1; 5; 1; 1]]%Q 0%Q ;;
  x_C_3 <- lil_assign x_C_2 x_Ones ;;
  x_C_4 <- t_mxm TyD (acc TyD qplus) (mkSr qplus qtimes TyD) (MVal x_Lower) MERGE x_C_3 (Trn x_A)
    (Mat x_B) ;;
  x_q_1 <- meq x_C_4 x_answer2 ;;
  _ <- check x_q_1 ;;
  Ok tt) = Ok tt.
Proof. vm_compute. reflexivity. Qed.

(** test_mxm_ATB.cpp:1285-1325, optimized_sequential platform *)
Example test_mxm_Mask_Accum_ATB_emptyColA_emptyRowB_opt :
 (x_A <- mdense0 TyD [[8; 1; 4]; [0; 0; 0]; [6; 9; 2]]%Q 0%Q ;;
  x_B <- mdense0 TyD [[0; 1; 0; 1]; [1; 0; 1; 1]; [0; 0; 0; 0]]%Q 0%Q ;;
  x_Lower <- mdense0 TyD d_Lower_3x4 0%Q ;;
  x_Ones <- mdense0 TyD d_Ones_3x4 0%Q ;;
  x_C <- mnew 3 4 ;;
  x_answer <- mdense0 TyD [[1; 0; 0; 0]; [1; 2; 0; 0]; [1; 5; 1; 0]]%Q 0%Q ;;
  x_C_1 <- lil_assign x_C x_Ones ;;
  x_C_2 <- t_opt_mxm TyD (acc TyD qplus) TyD (mkSr qplus qtimes TyD) (MVal (Other x_Lower)) REPLACE
    x_C_1 (OTrn (Other x_A)) (OMat (Other x_B)) ;;
  x_q <- meq x_C_2 x_answer ;;
  _ <- check x_q ;;
  x_answer2 <- mdense0 TyD [[1; 1; 1; 1]; [1; 2; 1; 1]; [1; 5; 1; 1]]%Q 0%Q ;;
  x_C_3 <- lil_assign x_C_2 x_Ones ;;
  x_C_4 <- t_opt_mxm TyD (acc TyD qplus) TyD (mkSr qplus qtimes TyD) (MVal (Other x_Lower)) MERGE
    x_C_3 (OTrn (Other x_A)) (OMat (Other x_B)) ;;
  x_q_1 <- meq x_C_4 x_answer2 ;;
  _ <- check x_q_1 ;;
  Ok tt) = Ok tt.
Proof. vm_compute. reflexivity. Qed.

(** test_mxm_ATB.cpp:1328-1369 *)
Example test_mxm_Mask_Accum_ATB_emptyRowM :
 (x_A <- mdense0 TyD [[8; 0; 4]; [1; 0; 9]; [6; 0; 2]]%Q 0%Q ;;
  x_B <- mdense0 TyD [[0; 1; 0]; [0; 0; 0]; [0; 1; 1]]%Q 0%Q ;;
  x_NotLower <- mdense0 TyD d_NotLower_3x3 0%Q ;;
  x_Ones <- mdense0 TyD d_Ones_3x3 0%Q ;;
  x_C <- mnew 3 3 ;;
  x_answer <- mdense0 TyD [[0; 15; 7]; [0; 0; 1]; [0; 0; 0]]%Q 0%Q ;;
  x_C_1 <- lil_assign x_C x_Ones ;;
  x_C_2 <- t_mxm TyD (acc TyD qplus) (mkSr qplus qtimes TyD) (MVal x_NotLower) REPLACE x_C_1 (Trn
    x_A) (Mat x_B) ;;
  x_q <- meq x_C_2 x_answer ;;
  _ <- check x_q ;;
  x_answer2 <- mdense0 TyD [[1; 15; 7]; [1; 1; 1]; [1; 1; 1]]%Q 0%Q ;;
  x_C_3 <- lil_assign x_C_2 x_Ones ;;
  x_C_4 <- t_mxm TyD (acc TyD qplus) (mkSr qplus qtimes TyD) (MVal x_NotLower) MERGE x_C_3 (Trn x_A)
    (Mat x_B) ;;
  x_q_1 <- meq x_C_4 x_answer2 ;;
  _ <- check x_q_1 ;;
  Ok tt) = Ok tt.
Proof. vm_compute. reflexivity. Qed.

(** test_mxm_ATB.cpp:1328-1369, optimized_sequential platform *)
Example test_mxm_Mask_Accum_ATB_emptyRowM_opt :
 (x_A <- mdense0 TyD [[8; 0; 4]; [1; 0; 9]; [6; 0; 2]]%Q 0%Q ;;
  x_B <- mdense0 TyD [[0; 1; 0]; [0; 0; 0]; [0; 1; 1]]%Q 0%Q ;;
  x_NotLower <- mdense0 TyD d_NotLower_3x3 0%Q ;;
  x_Ones <- mdense0 TyD d_Ones_3x3 0%Q ;;
  x_C <- mnew 3 3 ;;
  x_answer <- mdense0 TyD [[0; 15; 7]; [0; 0; 1]; [0; 0; 0]]%Q 0%Q ;;
  x_C_1 <- lil_assign x_C x_Ones ;;
  x_C_2 <- t_opt_mxm TyD (acc TyD qplus) TyD (mkSr qplus qtimes TyD) (MVal (Other x_NotLower))
    REPLACE x_C_1 (OTrn (Other x_A)) (OMat (Other x_B)) ;;
  x_q <- meq x_C_2 x_answer ;;
  _ <- check x_q ;;
  x_answer2 <- mdense0 TyD [[1; 15; 7]; [1; 1; 1]; [1; 1; 1]]%Q 0%Q ;;
  x_C_3 <- lil_assign x_C_2 x_Ones ;;
  x_C_4 <- t_opt_mxm TyD (acc TyD qplus) TyD (mkSr qplus qtimes TyD) (MVal (Other x_NotLower)) MERGE
    x_C_3 (OTrn (Other x_A)) (OMat (Other x_B)) ;;
  x_q_1 <- meq x_C_4 x_answer2 ;;
  _ <- check x_q_1 ;;
  Ok tt) = Ok tt.
Proof. vm_compute. reflexivity. Qed.

(** test_mxm_ATB.cpp:1372-1410 *)
Example test_mxm_Mask_Accum_ATB_ABdup :
 (x_mat <- mdense0 TyD d_Symmetric_4x4 0%Q ;;
  x_Lower <- mdense0 TyD d_Lower_4x4 0%Q ;;
  x_Ones <- mdense0 TyD d_Ones_4x4 0%Q ;;
  x_C <- mnew 4 4 ;;
  x_answer <- mdense0 TyD [[3; 1; 1; 1]; [4; 10; 1; 1]; [3; 11; 23; 1]; [1; 7; 22; 26]]%Q 0%Q ;;
  x_C_1 <- lil_assign x_C x_Ones ;;
  x_C_2 <- t_mxm TyD (acc TyD qplus) (mkSr qplus qtimes TyD) (MVal x_Lower) MERGE x_C_1 (Trn x_mat)
    (Mat x_mat) ;;
  x_q <- meq x_C_2 x_answer ;;
  _ <- check x_q ;;
  x_answer2 <- mdense0 TyD [[3; 0; 0; 0]; [4; 10; 0; 0]; [3; 11; 23; 0]; [1; 7; 22; 26]]%Q 0%Q ;;
  x_C_3 <- lil_assign x_C_2 x_Ones ;;
  x_C_4 <- t_mxm TyD (acc TyD qplus) (mkSr qplus qtimes TyD) (MVal x_Lower) REPLACE x_C_3 (Trn
    x_mat) (Mat x_mat) ;;
  x_q_1 <- meq x_C_4 x_answer2 ;;
  _ <- check x_q_1 ;;
  Ok tt) = Ok tt.
Proof. vm_compute. reflexivity. Qed.

(** test_mxm_ATB.cpp:1372-1410, optimized_sequential platform *)
Example test_mxm_Mask_Accum_ATB_ABdup_opt :
 (x_mat <- mdense0 TyD d_Symmetric_4x4 0%Q ;;
  x_Lower <- mdense0 TyD d_Lower_4x4 0%Q ;;
  x_Ones <- mdense0 TyD d_Ones_4x4 0%Q ;;
  x_C <- mnew 4 4 ;;
  x_answer <- mdense0 TyD [[3; 1; 1; 1]; [4; 10; 1; 1]; [3; 11; 23; 1]; [1; 7; 22; 26]]%Q 0%Q ;;
  x_C_1 <- lil_assign x_C x_Ones ;;
  x_C_2 <- t_opt_mxm TyD (acc TyD qplus) TyD (mkSr qplus qtimes TyD) (MVal (Other x_Lower)) MERGE
    x_C_1 (OTrn (Other x_mat)) (OMat (Other x_mat)) ;;
  x_q <- meq x_C_2 x_answer ;;
  _ <- check x_q ;;
  x_answer2 <- mdense0 TyD [[3; 0; 0; 0]; [4; 10; 0; 0]; [3; 11; 23; 0]; [1; 7; 22; 26]]%Q 0%Q ;;
  x_C_3 <- lil_assign x_C_2 x_Ones ;;
  x_C_4 <- t_opt_mxm TyD (acc TyD qplus) TyD (mkSr qplus qtimes TyD) (MVal (Other x_Lower)) REPLACE
    x_C_3 (OTrn (Other x_mat)) (OMat (Other x_mat)) ;;
  x_q_1 <- meq x_C_4 x_answer2 ;;
  _ <- check x_q_1 ;;
  Ok tt) = Ok tt.
Proof. vm_compute. reflexivity. Qed.

(** test_mxm_ATB.cpp:1413-1452 *)
Example test_mxm_Mask_Accum_ATB_ACdup :
 (x_mat <- mdense0 TyD d_Symmetric_4x4 0%Q ;;
  x_Lower <- mdense0 TyD d_Lower_4x4 0%Q ;;
  x_Ones <- mdense0 TyD d_Ones_4x4 0%Q ;;
  x_C <- mnew 4 4 ;;
  x_answer <- mdense0 TyD [[3; 1; 0; 0]; [4; 11; 2; 0]; [2; 12; 25; 3]; [0; 6; 24; 29]]%Q 0%Q ;;
  x_C_1 <- lil_assign x_C x_mat ;;
  x_C_2 <- t_mxm TyD (acc TyD qplus) (mkSr qplus qtimes TyD) (MVal x_Lower) MERGE x_C_1 (Trn x_C_1)
    (Mat x_mat) ;;
  x_q <- meq x_C_2 x_answer ;;
  _ <- check x_q ;;
  x_answer2 <- mdense0 TyD [[3; 0; 0; 0]; [4; 11; 0; 0]; [2; 12; 25; 0]; [0; 6; 24; 29]]%Q 0%Q ;;
  x_C_3 <- lil_assign x_C_2 x_mat ;;
  x_C_4 <- t_mxm TyD (acc TyD qplus) (mkSr qplus qtimes TyD) (MVal x_Lower) REPLACE x_C_3 (Trn
    x_C_3) (Mat x_mat) ;;
  x_q_1 <- meq x_C_4 x_answer2 ;;
  _ <- check x_q_1 ;;
  Ok tt) = Ok tt.
Proof. vm_compute. reflexivity. Qed.

(** test_mxm_ATB.cpp:1413-1452, optimized_sequential platform *)
Example test_mxm_Mask_Accum_ATB_ACdup_opt :
 (x_mat <- mdense0 TyD d_Symmetric_4x4 0%Q ;;
  x_Lower <- mdense0 TyD d_Lower_4x4 0%Q ;;
  x_Ones <- mdense0 TyD d_Ones_4x4 0%Q ;;
  x_C <- mnew 4 4 ;;
  x_answer <- mdense0 TyD [[3; 1; 0; 0]; [4; 11; 2; 0]; [2; 12; 25; 3]; [0; 6; 24; 29]]%Q 0%Q ;;
  x_C_1 <- lil_assign x_C x_mat ;;
  x_C_2 <- t_opt_mxm TyD (acc TyD qplus) TyD (mkSr qplus qtimes TyD) (MVal (Other x_Lower)) MERGE
    x_C_1 (OTrn (TheOutput (fun x => x))) (OMat (Other x_mat)) ;;
  x_q <- meq x_C_2 x_answer ;;
  _ <- check x_q ;;
  x_answer2 <- mdense0 TyD [[3; 0; 0; 0]; [4; 11; 0; 0]; [2; 12; 25; 0]; [0; 6; 24; 29]]%Q 0%Q ;;
  x_C_3 <- lil_assign x_C_2 x_mat ;;
  x_C_4 <- t_opt_mxm TyD (acc TyD qplus) TyD (mkSr qplus qtimes TyD) (MVal (Other x_Lower)) REPLACE
    x_C_3 (OTrn (TheOutput (fun x => x))) (OMat (Other x_mat)) ;;
  x_q_1 <- meq x_C_4 x_answer2 ;;
  _ <- check x_q_1 ;;
  Ok tt) = Ok tt.
Proof. vm_compute. reflexivity. Qed.

(** test_mxm_ATB.cpp:1455-1502 *)
Example test_mxm_Mask_Accum_ATB_BCdup :
 (x_mat <- mdense0 TyD d_Symmetric_4x4 0%Q ;;
  x_Lower <- mdense0 TyD d_Lower_4x4 0%Q ;;
  x_Ones <- mdense0 TyD d_Ones_4x4 0%Q ;;
  x_C <- mnew 4 4 ;;
  x_answer <- mdense0 TyD [[3; 1; 0; 0]; [4; 11; 2; 0]; [2; 12; 25; 3]; [0; 6; 24; 29]]%Q 0%Q ;;
  x_C_1 <- lil_assign x_C x_mat ;;
  x_C_2 <- t_mxm TyD (acc TyD qplus) (mkSr qplus qtimes TyD) (MVal x_Lower) MERGE x_C_1 (Trn x_mat)
    (Mat x_C_1) ;;
  x_q <- meq x_C_2 x_answer ;;
  _ <- check x_q ;;
  x_C_3 <- lil_assign x_C_2 x_mat ;;
  x_C_4 <- t_mxm TyD (acc TyD qplus) (mkSr qplus qtimes TyD) (MVal x_Lower) MERGE x_C_3 (Trn x_mat)
    (Mat x_mat) ;;
  x_q_1 <- meq x_C_4 x_answer ;;
  _ <- check x_q_1 ;;
  x_answer2 <- mdense0 TyD [[3; 0; 0; 0]; [4; 11; 0; 0]; [2; 12; 25; 0]; [0; 6; 24; 29]]%Q 0%Q ;;
  x_C_5 <- lil_assign x_C_4 x_mat ;;
  x_C_6 <- t_mxm TyD (acc TyD qplus) (mkSr qplus qtimes TyD) (MVal x_Lower) REPLACE x_C_5 (Trn
    x_mat) (Mat x_C_5) ;;
  x_q_2 <- meq x_C_6 x_answer2 ;;
  _ <- check x_q_2 ;;
  Ok tt) = Ok tt.
Proof. vm_compute. reflexivity. Qed.

(** test_mxm_ATB.cpp:1455-1502, optimized_sequential platform *)
Example test_mxm_Mask_Accum_ATB_BCdup_opt :
 (x_mat <- mdense0 TyD d_Symmetric_4x4 0%Q ;;
  x_Lower <- mdense0 TyD d_Lower_4x4 0%Q ;;
  x_Ones <- mdense0 TyD d_Ones_4x4 0%Q ;;
  x_C <- mnew 4 4 ;;
  x_answer <- mdense0 TyD [[3; 1; 0; 0]; [4; 11; 2; 0]; [2; 12; 25; 3]; [0; 6; 24; 29]]%Q 0%Q ;;
  x_C_1 <- lil_assign x_C x_mat ;;
  x_C_2 <- t_opt_mxm TyD (acc TyD qplus) TyD (mkSr qplus qtimes TyD) (MVal (Other x_Lower)) MERGE
    x_C_1 (OTrn (Other x_mat)) (OMat (TheOutput (fun x => x))) ;;
  x_q <- meq x_C_2 x_answer ;;
  _ <- check x_q ;;
  x_C_3 <- lil_assign x_C_2 x_mat ;;
  x_C_4 <- t_opt_mxm TyD (acc TyD qplus) TyD (mkSr qplus qtimes TyD) (MVal (Other x_Lower)) MERGE
    x_C_3 (OTrn (Other x_mat)) (OMat (Other x_mat)) ;;
  x_q_1 <- meq x_C_4 x_answer ;;
  _ <- check x_q_1 ;;
  x_answer2 <- mdense0 TyD [[3; 0; 0; 0]; [4; 11; 0; 0]; [2; 12; 25; 0]; [0; 6; 24; 29]]%Q 0%Q ;;
  x_C_5 <- lil_assign x_C_4 x_mat ;;
  x_C_6 <- t_opt_mxm TyD (acc TyD qplus) TyD (mkSr qplus qtimes TyD) (MVal (Other x_Lower)) REPLACE
    x_C_5 (OTrn (Other x_mat)) (OMat (TheOutput (fun x => x))) ;;
  x_q_2 <- meq x_C_6 x_answer2 ;;
  _ <- check x_q_2 ;;
  Ok tt) = Ok tt.
Proof. vm_compute. reflexivity. Qed.

(** test_mxm_ATB.cpp:1505-1542 *)
Example test_mxm_Mask_Accum_ATB_MCdup :
 (x_mat <- mdense0 TyD d_Symmetric_4x4 0%Q ;;
  x_Lower <- mdense0 TyD d_Lower_4x4 0%Q ;;
  x_C <- mnew 4 4 ;;
  x_answer <- mdense0 TyD [[3; 0; 0; 0]; [4; 10; 0; 0]; [3; 11; 23; 0]; [1; 7; 22; 26]]%Q 0%Q ;;
  x_C_1 <- lil_assign x_C x_Lower ;;
  x_C_2 <- t_mxm TyD (acc TyD qplus) (mkSr qplus qtimes TyD) (MVal x_C_1) MERGE x_C_1 (Trn x_mat)
    (Mat x_mat) ;;
  x_q <- meq x_C_2 x_answer ;;
  _ <- check x_q ;;
  x_answer2 <- mdense0 TyD [[3; 0; 0; 0]; [4; 10; 0; 0]; [3; 11; 23; 0]; [1; 7; 22; 26]]%Q 0%Q ;;
  x_C_3 <- lil_assign x_C_2 x_Lower ;;
  x_C_4 <- t_mxm TyD (acc TyD qplus) (mkSr qplus qtimes TyD) (MVal x_C_3) REPLACE x_C_3 (Trn x_mat)
    (Mat x_mat) ;;
  x_q_1 <- meq x_C_4 x_answer2 ;;
  _ <- check x_q_1 ;;
  Ok tt) = Ok tt.
Proof. vm_compute. reflexivity. Qed.

(** test_mxm_ATB.cpp:1505-1542, optimized_sequential platform *)
Example test_mxm_Mask_Accum_ATB_MCdup_opt :
 (x_mat <- mdense0 TyD d_Symmetric_4x4 0%Q ;;
  x_Lower <- mdense0 TyD d_Lower_4x4 0%Q ;;
  x_C <- mnew 4 4 ;;
  x_answer <- mdense0 TyD [[3; 0; 0; 0]; [4; 10; 0; 0]; [3; 11; 23; 0]; [1; 7; 22; 26]]%Q 0%Q ;;
  x_C_1 <- lil_assign x_C x_Lower ;;
  x_C_2 <- t_opt_mxm TyD (acc TyD qplus) TyD (mkSr qplus qtimes TyD) (MVal (TheOutput (fun x => x)))
    MERGE x_C_1 (OTrn (Other x_mat)) (OMat (Other x_mat)) ;;
  x_q <- meq x_C_2 x_answer ;;
  _ <- check x_q ;;
  x_answer2 <- mdense0 TyD [[3; 0; 0; 0]; [4; 10; 0; 0]; [3; 11; 23; 0]; [1; 7; 22; 26]]%Q 0%Q ;;
  x_C_3 <- lil_assign x_C_2 x_Lower ;;
  x_C_4 <- t_opt_mxm TyD (acc TyD qplus) TyD (mkSr qplus qtimes TyD) (MVal (TheOutput (fun x => x)))
    REPLACE x_C_3 (OTrn (Other x_mat)) (OMat (Other x_mat)) ;;
  x_q_1 <- meq x_C_4 x_answer2 ;;
  _ <- check x_q_1 ;;
  Ok tt) = Ok tt.
Proof. vm_compute. reflexivity. Qed.

(** test_mxm_ATB.cpp:1545-1567 *)
Example test_mxm_Mask_Accum_ATB_Replace_lower_mask_result_ones :
 (x_A <- mdense0 TyD d_AT_dense_3x3 0%Q ;;
  x_B <- mdense0 TyD d_B_dense_3x4 0%Q ;;
  x_M <- mdense0 TyD d_LowerMask_3x4 0%Q ;;
  _ <- check (Qeq_bool (inject_Z (nvals x_M)) 6%Q) ;;
  x_result <- mdense0 TyD d_Ones_3x4 0%Q ;;
  x_answer <- mdense0 TyD [[114; 0; 0; 0]; [74; 97; 0; 0]; [119; 157; 112; 0]]%Q 0%Q ;;
  x_result_1 <- t_mxm TyD (acc TyD qsecond) (mkSr qplus qtimes TyD) (MVal x_M) REPLACE x_result (Trn
    x_A) (Mat x_B) ;;
  _ <- check (Qeq_bool (inject_Z (nvals x_result_1)) 6%Q) ;;
  x_q <- meq x_result_1 x_answer ;;
  _ <- check x_q ;;
  Ok tt) = Ok tt.
Proof. vm_compute. reflexivity. Qed.

(** test_mxm_ATB.cpp:1545-1567, optimized_sequential platform *)
Example test_mxm_Mask_Accum_ATB_Replace_lower_mask_result_ones_opt :
 (x_A <- mdense0 TyD d_AT_dense_3x3 0%Q ;;
  x_B <- mdense0 TyD d_B_dense_3x4 0%Q ;;
  x_M <- mdense0 TyD d_LowerMask_3x4 0%Q ;;
  _ <- check (Qeq_bool (inject_Z (nvals x_M)) 6%Q) ;;
  x_result <- mdense0 TyD d_Ones_3x4 0%Q ;;
  x_answer <- mdense0 TyD [[114; 0; 0; 0]; [74; 97; 0; 0]; [119; 157; 112; 0]]%Q 0%Q ;;
  x_result_1 <- t_opt_mxm TyD (acc TyD qsecond) TyD (mkSr qplus qtimes TyD) (MVal (Other x_M))
    REPLACE x_result (OTrn (Other x_A)) (OMat (Other x_B)) ;;
  _ <- check (Qeq_bool (inject_Z (nvals x_result_1)) 6%Q) ;;
  x_q <- meq x_result_1 x_answer ;;
  _ <- check x_q ;;
  Ok tt) = Ok tt.
Proof. vm_compute. reflexivity. Qed.

(** test_mxm_ATB.cpp:1570-1592 *)
Example test_mxm_Mask_Accum_ATB_Replace_bool_masked_result_ones :
 (x_A <- mdense0 TyD d_AT_dense_3x3 0%Q ;;
  x_B <- mdense0 TyD d_B_dense_3x4 0%Q ;;
  x_M <- mdense0 TyB d_LowerBool_3x4 0%Q ;;
  _ <- check (Qeq_bool (inject_Z (nvals x_M)) 6%Q) ;;
  x_result <- mdense0 TyD d_Ones_3x4 0%Q ;;
  x_answer <- mdense0 TyD [[114; 0; 0; 0]; [74; 97; 0; 0]; [119; 157; 112; 0]]%Q 0%Q ;;
  x_result_1 <- t_mxm TyD (acc TyD qsecond) (mkSr qplus qtimes TyD) (MVal x_M) REPLACE x_result (Trn
    x_A) (Mat x_B) ;;
  _ <- check (Qeq_bool (inject_Z (nvals x_result_1)) 6%Q) ;;
  x_q <- meq x_result_1 x_answer ;;
  _ <- check x_q ;;
  Ok tt) = Ok tt.
Proof. vm_compute. reflexivity. Qed.

(** test_mxm_ATB.cpp:1570-1592, optimized_sequential platform *)
Example test_mxm_Mask_Accum_ATB_Replace_bool_masked_result_ones_opt :
 (x_A <- mdense0 TyD d_AT_dense_3x3 0%Q ;;
  x_B <- mdense0 TyD d_B_dense_3x4 0%Q ;;
  x_M <- mdense0 TyB d_LowerBool_3x4 0%Q ;;
  _ <- check (Qeq_bool (inject_Z (nvals x_M)) 6%Q) ;;
  x_result <- mdense0 TyD d_Ones_3x4 0%Q ;;
  x_answer <- mdense0 TyD [[114; 0; 0; 0]; [74; 97; 0; 0]; [119; 157; 112; 0]]%Q 0%Q ;;
  x_result_1 <- t_opt_mxm TyD (acc TyD qsecond) TyD (mkSr qplus qtimes TyD) (MVal (Other x_M))
    REPLACE x_result (OTrn (Other x_A)) (OMat (Other x_B)) ;;
  _ <- check (Qeq_bool (inject_Z (nvals x_result_1)) 6%Q) ;;
  x_q <- meq x_result_1 x_answer ;;
  _ <- check x_q ;;
  Ok tt) = Ok tt.
Proof. vm_compute. reflexivity. Qed.

(** test_mxm_ATB.cpp:1595-1617 *)
Example test_mxm_Mask_Accum_ATB_Replace_mask_stored_zero_result_ones :
 (x_A <- mdense0 TyD d_AT_dense_3x3 0%Q ;;
  x_B <- mdense0 TyD d_B_dense_3x4 0%Q ;;
  x_M <- mdense0 TyD d_Lower_3x4 0%Q ;;
  x_M_1 <- lil_setElement x_M 0 1 (cast TyD 0%Q) ;;
  _ <- check (Qeq_bool (inject_Z (nvals x_M_1)) 7%Q) ;;
  x_result <- mdense0 TyD d_Ones_3x4 0%Q ;;
  x_answer <- mdense0 TyD [[114; 0; 0; 0]; [74; 97; 0; 0]; [119; 157; 112; 0]]%Q 0%Q ;;
  x_result_1 <- t_mxm TyD (acc TyD qsecond) (mkSr qplus qtimes TyD) (MVal x_M_1) REPLACE x_result
    (Trn x_A) (Mat x_B) ;;
  _ <- check (Qeq_bool (inject_Z (nvals x_result_1)) 6%Q) ;;
  x_q <- meq x_result_1 x_answer ;;
  _ <- check x_q ;;
  Ok tt) = Ok tt.
Proof. vm_compute. reflexivity. Qed.

(** test_mxm_ATB.cpp:1595-1617, optimized_sequential platform *)
Example test_mxm_Mask_Accum_ATB_Replace_mask_stored_zero_result_ones_opt :
 (x_A <- mdense0 TyD d_AT_dense_3x3 0%Q ;;
  x_B <- mdense0 TyD d_B_dense_3x4 0%Q ;;
  x_M <- mdense0 TyD d_Lower_3x4 0%Q ;;
  x_M_1 <- lil_setElement x_M 0 1 (cast TyD 0%Q) ;;
  _ <- check (Qeq_bool (inject_Z (nvals x_M_1)) 7%Q) ;;
  x_result <- mdense0 TyD d_Ones_3x4 0%Q ;;
  x_answer <- mdense0 TyD [[114; 0; 0; 0]; [74; 97; 0; 0]; [119; 157; 112; 0]]%Q 0%Q ;;
  x_result_1 <- t_opt_mxm TyD (acc TyD qsecond) TyD (mkSr qplus qtimes TyD) (MVal (Other x_M_1))
    REPLACE x_result (OTrn (Other x_A)) (OMat (Other x_B)) ;;
  _ <- check (Qeq_bool (inject_Z (nvals x_result_1)) 6%Q) ;;
  x_q <- meq x_result_1 x_answer ;;
  _ <- check x_q ;;
  Ok tt) = Ok tt.
Proof. vm_compute. reflexivity. Qed.

(** test_mxm_ATB.cpp:1620-1644 *)
Example test_mxm_Mask_Accum_ATB_Merge_Cones_Mlower :
 (x_A <- mdense0 TyD d_AT_dense_3x3 0%Q ;;
  x_B <- mdense0 TyD d_B_dense_3x4 0%Q ;;
  x_M <- mdense0 TyD [[1; 0; 0; 0]; [1; 1; 0; 0]; [1; 1; 1; 0]]%Q 0%Q ;;
  _ <- check (Qeq_bool (inject_Z (nvals x_M)) 6%Q) ;;
  x_result <- mdense0 TyD d_Ones_3x4 0%Q ;;
  x_answer <- mdense0 TyD [[114; 1; 1; 1]; [74; 97; 1; 1]; [119; 157; 112; 1]]%Q 0%Q ;;
  x_result_1 <- t_mxm TyD (acc TyD qsecond) (mkSr qplus qtimes TyD) (MVal x_M) MERGE x_result (Trn
    x_A) (Mat x_B) ;;
  _ <- check (Qeq_bool (inject_Z (nvals x_result_1)) 12%Q) ;;
  x_q <- meq x_result_1 x_answer ;;
  _ <- check x_q ;;
  Ok tt) = Ok tt.
Proof. vm_compute. reflexivity. Qed.

(** test_mxm_ATB.cpp:1620-1644, optimized_sequential platform *)
Example test_mxm_Mask_Accum_ATB_Merge_Cones_Mlower_opt :
 (x_A <- mdense0 TyD d_AT_dense_3x3 0%Q ;;
  x_B <- mdense0 TyD d_B_dense_3x4 0%Q ;;
  x_M <- mdense0 TyD [[1; 0; 0; 0]; [1; 1; 0; 0]; [1; 1; 1; 0]]%Q 0%Q ;;
  _ <- check (Qeq_bool (inject_Z (nvals x_M)) 6%Q) ;;
  x_result <- mdense0 TyD d_Ones_3x4 0%Q ;;
  x_answer <- mdense0 TyD [[114; 1; 1; 1]; [74; 97; 1; 1]; [119; 157; 112; 1]]%Q 0%Q ;;
  x_result_1 <- t_opt_mxm TyD (acc TyD qsecond) TyD (mkSr qplus qtimes TyD) (MVal (Other x_M)) MERGE
    x_result (OTrn (Other x_A)) (OMat (Other x_B)) ;;
  _ <- check (Qeq_bool (inject_Z (nvals x_result_1)) 12%Q) ;;
  x_q <- meq x_result_1 x_answer ;;
  _ <- check x_q ;;
  Ok tt) = Ok tt.
Proof. vm_compute. reflexivity. Qed.

(** test_mxm_ATB.cpp:1651-1735 *)
Example test_mxm_CompMask_NoAccum_ATB :
 (x_A <- mdense0 TyD d_A_sparse_3x3 0%Q ;;
  x_AT <- mdense0 TyD d_AT_sparse_3x3 0%Q ;;
  x_Identity <- mdense0 TyD d_Identity_3x3 0%Q ;;
  x_Empty <- mnew 3 3 ;;
  x_Ones <- mdense0 TyD d_Ones_3x3 0%Q ;;
  x_C <- mnew 3 3 ;;
  x_MLower <- mdense0 TyD d_Lower_3x3 0%Q ;;
  x_MNotLower <- mdense0 TyD d_NotLower_3x3 0%Q ;;
  x_NotAT <- mdense0 TyD [[0; 1; 0]; [0; 0; 1]; [1; 1; 0]]%Q 0%Q ;;
  x_AFilled <- mdense0 TyD [[12; 1; 7]; [7; (-5); 1]; [1; 1; 9]]%Q 0%Q ;;
  x_C_1 <- lil_assign x_C x_Ones ;;
  x_C_2 <- t_mxm TyD noacc (mkSr qplus qtimes TyD) (MComp x_Ones) MERGE x_C_1 (Trn x_A) (Mat
    x_Identity) ;;
  x_q <- meq x_C_2 x_Ones ;;
  _ <- check x_q ;;
  x_C_3 <- lil_assign x_C_2 x_Ones ;;
  x_C_4 <- t_mxm TyD noacc (mkSr qplus qtimes TyD) (MComp x_Empty) MERGE x_C_3 (Trn x_A) (Mat
    x_Identity) ;;
  x_q_1 <- meq x_C_4 x_AT ;;
  _ <- check x_q_1 ;;
  x_C_5 <- lil_assign x_C_4 x_Ones ;;
  x_C_6 <- t_mxm TyD noacc (mkSr qplus qtimes TyD) (MComp x_NotAT) MERGE x_C_5 (Trn x_A) (Mat
    x_Identity) ;;
  x_q_2 <- meq x_C_6 x_AFilled ;;
  _ <- check x_q_2 ;;
  x_C_7 <- lil_assign x_C_6 x_Ones ;;
  x_C_8 <- t_mxm TyD noacc (mkSr qplus qtimes TyD) (MComp x_MNotLower) MERGE x_C_7 (Trn x_Ones) (Mat
    x_Identity) ;;
  x_q_3 <- meq x_C_8 x_Ones ;;
  _ <- check x_q_3 ;;
  x_C_9 <- lil_assign x_C_8 x_Ones ;;
  x_C_10 <- t_mxm TyD noacc (mkSr qplus qtimes TyD) (MComp x_MLower) MERGE x_C_9 (Trn x_Ones) (Mat
    x_Identity) ;;
  x_q_4 <- meq x_C_10 x_Ones ;;
  _ <- check x_q_4 ;;
  x_C_11 <- lil_assign x_C_10 x_Ones ;;
  x_C_12 <- t_mxm TyD noacc (mkSr qplus qtimes TyD) (MComp x_Ones) REPLACE x_C_11 (Trn x_A) (Mat
    x_Identity) ;;
  x_q_5 <- meq x_C_12 x_Empty ;;
  _ <- check x_q_5 ;;
  x_C_13 <- lil_assign x_C_12 x_Ones ;;
  x_C_14 <- t_mxm TyD noacc (mkSr qplus qtimes TyD) (MComp x_Empty) REPLACE x_C_13 (Trn x_A) (Mat
    x_Identity) ;;
  x_q_6 <- meq x_C_14 x_AT ;;
  _ <- check x_q_6 ;;
  x_C_15 <- lil_assign x_C_14 x_Ones ;;
  x_C_16 <- t_mxm TyD noacc (mkSr qplus qtimes TyD) (MComp x_MNotLower) REPLACE x_C_15 (Trn x_Ones)
    (Mat x_Identity) ;;
  x_q_7 <- meq x_C_16 x_MLower ;;
  _ <- check x_q_7 ;;
  x_C_17 <- lil_assign x_C_16 x_Ones ;;
  x_C_18 <- t_mxm TyD noacc (mkSr qplus qtimes TyD) (MComp x_MLower) REPLACE x_C_17 (Trn x_Ones)
    (Mat x_Identity) ;;
  x_q_8 <- meq x_C_18 x_MNotLower ;;
  _ <- check x_q_8 ;;
  Ok tt) = Ok tt.
Proof. vm_compute. reflexivity. Qed.

(** test_mxm_ATB.cpp:1651-1735, optimized_sequential platform *)
Example test_mxm_CompMask_NoAccum_ATB_opt :
 (x_A <- mdense0 TyD d_A_sparse_3x3 0%Q ;;
  x_AT <- mdense0 TyD d_AT_sparse_3x3 0%Q ;;
  x_Identity <- mdense0 TyD d_Identity_3x3 0%Q ;;
  x_Empty <- mnew 3 3 ;;
  x_Ones <- mdense0 TyD d_Ones_3x3 0%Q ;;
  x_C <- mnew 3 3 ;;
  x_MLower <- mdense0 TyD d_Lower_3x3 0%Q ;;
  x_MNotLower <- mdense0 TyD d_NotLower_3x3 0%Q ;;
  x_NotAT <- mdense0 TyD [[0; 1; 0]; [0; 0; 1]; [1; 1; 0]]%Q 0%Q ;;
  x_AFilled <- mdense0 TyD [[12; 1; 7]; [7; (-5); 1]; [1; 1; 9]]%Q 0%Q ;;
  x_C_1 <- lil_assign x_C x_Ones ;;
  x_C_2 <- t_opt_mxm TyD noacc TyD (mkSr qplus qtimes TyD) (MComp (Other x_Ones)) MERGE x_C_1 (OTrn
    (Other x_A)) (OMat (Other x_Identity)) ;;
  x_q <- meq x_C_2 x_Ones ;;
  _ <- check x_q ;;
  x_C_3 <- lil_assign x_C_2 x_Ones ;;
  x_C_4 <- t_opt_mxm TyD noacc TyD (mkSr qplus qtimes TyD) (MComp (Other x_Empty)) MERGE x_C_3 (OTrn
    (Other x_A)) (OMat (Other x_Identity)) ;;
  x_q_1 <- meq x_C_4 x_AT ;;
  _ <- check x_q_1 ;;
  x_C_5 <- lil_assign x_C_4 x_Ones ;;
  x_C_6 <- t_opt_mxm TyD noacc TyD (mkSr qplus qtimes TyD) (MComp (Other x_NotAT)) MERGE x_C_5 (OTrn
    (Other x_A)) (OMat (Other x_Identity)) ;;
  x_q_2 <- meq x_C_6 x_AFilled ;;
  _ <- check x_q_2 ;;
  x_C_7 <- lil_assign x_C_6 x_Ones ;;
  x_C_8 <- t_opt_mxm TyD noacc TyD (mkSr qplus qtimes TyD) (MComp (Other x_MNotLower)) MERGE x_C_7
    (OTrn (Other x_Ones)) (OMat (Other x_Identity)) ;;
  x_q_3 <- meq x_C_8 x_Ones ;;
  _ <- check x_q_3 ;;
  x_C_9 <- lil_assign x_C_8 x_Ones ;;
  x_C_10 <- t_opt_mxm TyD noacc TyD (mkSr qplus qtimes TyD) (MComp (Other x_MLower)) MERGE x_C_9
    (OTrn (Other x_Ones)) (OMat (Other x_Identity)) ;;
  x_q_4 <- meq x_C_10 x_Ones ;;
  _ <- check x_q_4 ;;
  x_C_11 <- lil_assign x_C_10 x_Ones ;;
  x_C_12 <- t_opt_mxm TyD noacc TyD (mkSr qplus qtimes TyD) (MComp (Other x_Ones)) REPLACE x_C_11
    (OTrn (Other x_A)) (OMat (Other x_Identity)) ;;
  x_q_5 <- meq x_C_12 x_Empty ;;
  _ <- check x_q_5 ;;
  x_C_13 <- lil_assign x_C_12 x_Ones ;;
  x_C_14 <- t_opt_mxm TyD noacc TyD (mkSr qplus qtimes TyD) (MComp (Other x_Empty)) REPLACE x_C_13
    (OTrn (Other x_A)) (OMat (Other x_Identity)) ;;
  x_q_6 <- meq x_C_14 x_AT ;;
  _ <- check x_q_6 ;;
  x_C_15 <- lil_assign x_C_14 x_Ones ;;
  x_C_16 <- t_opt_mxm TyD noacc TyD (mkSr qplus qtimes TyD) (MComp (Other x_MNotLower)) REPLACE
    x_C_15 (OTrn (Other x_Ones)) (OMat (Other x_Identity)) ;;
  x_q_7 <- meq x_C_16 x_MLower ;;
  _ <- check x_q_7 ;;
  x_C_17 <- lil_assign x_C_16 x_Ones ;;
  x_C_18 <- t_opt_mxm TyD noacc TyD (mkSr qplus qtimes TyD) (MComp (Other x_MLower)) REPLACE x_C_17
    (OTrn (Other x_Ones)) (OMat (Other x_Identity)) ;;
  x_q_8 <- meq x_C_18 x_MNotLower ;;
  _ <- check x_q_8 ;;
  Ok tt) = Ok tt.
Proof. vm_compute. reflexivity. Qed.

(** test_mxm_ATB.cpp:1738-1799 *)
Example test_mxm_CompMask_NoAccum_ATB_empty :
 (x_Empty <- mnew 3 3 ;;
  x_Ones <- mdense0 TyD d_Ones_3x3 0%Q ;;
  x_Identity <- mdense0 TyD d_Identity_3x3 0%Q ;;
  x_C <- mnew 3 3 ;;
  x_M <- mdense0 TyB d_LowerBool_3x3 0%Q ;;
  x_mUpper <- mdense0 TyD d_NotLower_3x3 0%Q ;;
  x_C_1 <- lil_assign x_C x_Ones ;;
  x_C_2 <- t_mxm TyD noacc (mkSr qplus qtimes TyD) (MComp x_mUpper) MERGE x_C_1 (Trn x_Empty) (Mat
    x_Ones) ;;
  x_q <- meq x_C_2 x_mUpper ;;
  _ <- check x_q ;;
  x_C_3 <- lil_assign x_C_2 x_Ones ;;
  x_C_4 <- t_mxm TyD noacc (mkSr qplus qtimes TyD) (MComp x_mUpper) MERGE x_C_3 (Trn x_Ones) (Mat
    x_Empty) ;;
  x_q_1 <- meq x_C_4 x_mUpper ;;
  _ <- check x_q_1 ;;
  x_C_5 <- lil_assign x_C_4 x_Ones ;;
  x_C_6 <- t_mxm TyD noacc (mkSr qplus qtimes TyD) (MComp x_Ones) MERGE x_C_5 (Trn x_Ones) (Mat
    x_Empty) ;;
  x_q_2 <- meq x_C_6 x_Ones ;;
  _ <- check x_q_2 ;;
  x_C_7 <- lil_assign x_C_6 x_Empty ;;
  x_C_8 <- t_mxm TyD noacc (mkSr qplus qtimes TyD) (MComp x_Empty) MERGE x_C_7 (Trn x_Ones) (Mat
    x_Identity) ;;
  x_q_3 <- meq x_C_8 x_Ones ;;
  _ <- check x_q_3 ;;
  x_C_9 <- lil_assign x_C_8 x_Ones ;;
  x_C_10 <- t_mxm TyD noacc (mkSr qplus qtimes TyD) (MComp x_mUpper) REPLACE x_C_9 (Trn x_Empty)
    (Mat x_Ones) ;;
  x_q_4 <- meq x_C_10 x_Empty ;;
  _ <- check x_q_4 ;;
  x_C_11 <- lil_assign x_C_10 x_Ones ;;
  x_C_12 <- t_mxm TyD noacc (mkSr qplus qtimes TyD) (MComp x_mUpper) REPLACE x_C_11 (Trn x_Ones)
    (Mat x_Empty) ;;
  x_q_5 <- meq x_C_12 x_Empty ;;
  _ <- check x_q_5 ;;
  x_C_13 <- lil_assign x_C_12 x_Ones ;;
  x_C_14 <- t_mxm TyD noacc (mkSr qplus qtimes TyD) (MComp x_Ones) REPLACE x_C_13 (Trn x_Ones) (Mat
    x_Empty) ;;
  x_q_6 <- meq x_C_14 x_Empty ;;
  _ <- check x_q_6 ;;
  x_C_15 <- lil_assign x_C_14 x_Empty ;;
  x_C_16 <- t_mxm TyD noacc (mkSr qplus qtimes TyD) (MComp x_Empty) REPLACE x_C_15 (Trn x_Ones) (Mat
    x_Identity) ;;
  x_q_7 <- meq x_C_16 x_Ones ;;
  _ <- check x_q_7 ;;
  Ok tt) = Ok tt.
Proof. vm_compute. reflexivity. Qed.

(** test_mxm_ATB.cpp:1738-1799, optimized_sequential platform *)
Example test_mxm_CompMask_NoAccum_ATB_empty_opt :
 (x_Empty <- mnew 3 3 ;;
  x_Ones <- mdense0 TyD d_Ones_3x3 0%Q ;;
  x_Identity <- mdense0 TyD d_Identity_3x3 0%Q ;;
  x_C <- mnew 3 3 ;;
  x_M <- mdense0 TyB d_LowerBool_3x3 0%Q ;;
  x_mUpper <- mdense0 TyD d_NotLower_3x3 0%Q ;;
  x_C_1 <- lil_assign x_C x_Ones ;;
  x_C_2 <- t_opt_mxm TyD noacc TyD (mkSr qplus qtimes TyD) (MComp (Other x_mUpper)) MERGE x_C_1
    (OTrn (Other x_Empty)) (OMat (Other x_Ones)) ;;
  x_q <- meq x_C_2 x_mUpper ;;
  _ <- check x_q ;;
  x_C_3 <- lil_assign x_C_2 x_Ones ;;
  x_C_4 <- t_opt_mxm TyD noacc TyD (mkSr qplus qtimes TyD) (MComp (Other x_mUpper)) MERGE x_C_3
    (OTrn (Other x_Ones)) (OMat (Other x_Empty)) ;;
  x_q_1 <- meq x_C_4 x_mUpper ;;
  _ <- check x_q_1 ;;
  x_C_5 <- lil_assign x_C_4 x_Ones ;;
  x_C_6 <- t_opt_mxm TyD noacc TyD (mkSr qplus qtimes TyD) (MComp (Other x_Ones)) MERGE x_C_5 (OTrn
    (Other x_Ones)) (OMat (Other x_Empty)) ;;
  x_q_2 <- meq x_C_6 x_Ones ;;
  _ <- check x_q_2 ;;
  x_C_7 <- lil_assign x_C_6 x_Empty ;;
  x_C_8 <- t_opt_mxm TyD noacc TyD (mkSr qplus qtimes TyD) (MComp (Other x_Empty)) MERGE x_C_7 (OTrn
    (Other x_Ones)) (OMat (Other x_Identity)) ;;
  x_q_3 <- meq x_C_8 x_Ones ;;
  _ <- check x_q_3 ;;
  x_C_9 <- lil_assign x_C_8 x_Ones ;;
  x_C_10 <- t_opt_mxm TyD noacc TyD (mkSr qplus qtimes TyD) (MComp (Other x_mUpper)) REPLACE x_C_9
    (OTrn (Other x_Empty)) (OMat (Other x_Ones)) ;;
  x_q_4 <- meq x_C_10 x_Empty ;;
  _ <- check x_q_4 ;;
  x_C_11 <- lil_assign x_C_10 x_Ones ;;
  x_C_12 <- t_opt_mxm TyD noacc TyD (mkSr qplus qtimes TyD) (MComp (Other x_mUpper)) REPLACE x_C_11
    (OTrn (Other x_Ones)) (OMat (Other x_Empty)) ;;
  x_q_5 <- meq x_C_12 x_Empty ;;
  _ <- check x_q_5 ;;
  x_C_13 <- lil_assign x_C_12 x_Ones ;;
  x_C_14 <- t_opt_mxm TyD noacc TyD (mkSr qplus qtimes TyD) (MComp (Other x_Ones)) REPLACE x_C_13
    (OTrn (Other x_Ones)) (OMat (Other x_Empty)) ;;
  x_q_6 <- meq x_C_14 x_Empty ;;
  _ <- check x_q_6 ;;
  x_C_15 <- lil_assign x_C_14 x_Empty ;;
  x_C_16 <- t_opt_mxm TyD noacc TyD (mkSr qplus qtimes TyD) (MComp (Other x_Empty)) REPLACE x_C_15
    (OTrn (Other x_Ones)) (OMat (Other x_Identity)) ;;
  x_q_7 <- meq x_C_16 x_Ones ;;
  _ <- check x_q_7 ;;
  Ok tt) = Ok tt.
Proof. vm_compute. reflexivity. Qed.

(** test_mxm_ATB.cpp:1802-1823 *)
Example test_mxm_CompMask_NoAccum_ATB_Merge_Cones_Mlower_stored_zero :
 (x_A <- mdense0 TyD d_AT_dense_3x3 0%Q ;;
  x_B <- mdense0 TyD d_B_dense_3x4 0%Q ;;
  x_M <- mdense0 TyD d_NotLower_3x4 0%Q ;;
  x_M_1 <- lil_setElement x_M 0 0 (cast TyD 0%Q) ;;
  _ <- check (Qeq_bool (inject_Z (nvals x_M_1)) 7%Q) ;;
  x_result <- mdense0 TyD d_Ones_3x4 0%Q ;;
  x_answer <- mdense0 TyD [[114; 1; 1; 1]; [74; 97; 1; 1]; [119; 157; 112; 1]]%Q 0%Q ;;
  x_result_1 <- t_mxm TyD noacc (mkSr qplus qtimes TyD) (MComp x_M_1) MERGE x_result (Trn x_A) (Mat
    x_B) ;;
  _ <- check (Qeq_bool (inject_Z (nvals x_result_1)) 12%Q) ;;
  x_q <- meq x_result_1 x_answer ;;
  _ <- check x_q ;;
  Ok tt) = Ok tt.
Proof. vm_compute. reflexivity. Qed.

(** test_mxm_ATB.cpp:1802-1823, optimized_sequential platform *)
Example test_mxm_CompMask_NoAccum_ATB_Merge_Cones_Mlower_stored_zero_opt :
 (x_A <- mdense0 TyD d_AT_dense_3x3 0%Q ;;
  x_B <- mdense0 TyD d_B_dense_3x4 0%Q ;;
  x_M <- mdense0 TyD d_NotLower_3x4 0%Q ;;
  x_M_1 <- lil_setElement x_M 0 0 (cast TyD 0%Q) ;;
  _ <- check (Qeq_bool (inject_Z (nvals x_M_1)) 7%Q) ;;
  x_result <- mdense0 TyD d_Ones_3x4 0%Q ;;
  x_answer <- mdense0 TyD [[114; 1; 1; 1]; [74; 97; 1; 1]; [119; 157; 112; 1]]%Q 0%Q ;;
  x_result_1 <- t_opt_mxm TyD noacc TyD (mkSr qplus qtimes TyD) (MComp (Other x_M_1)) MERGE x_result
    (OTrn (Other x_A)) (OMat (Other x_B)) ;;
  _ <- check (Qeq_bool (inject_Z (nvals x_result_1)) 12%Q) ;;
  x_q <- meq x_result_1 x_answer ;;
  _ <- check x_q ;;
  Ok tt) = Ok tt.
Proof. vm_compute. reflexivity. Qed.

(** test_mxm_ATB.cpp:1826-1867 *)
Example test_mxm_CompMask_NoAccum_ATB_emptyRowA_emptyColB :
 (x_A <- mdense0 TyD [[8; 0; 4]; [1; 0; 9]; [6; 0; 2]]%Q 0%Q ;;
  x_B <- mdense0 TyD [[0; 0; 0; 1]; [1; 0; 1; 1]; [0; 0; 1; 1]]%Q 0%Q ;;
  x_NotLower <- mdense0 TyD d_NotLower_3x4 0%Q ;;
  x_Ones <- mdense0 TyD d_Ones_3x4 0%Q ;;
  x_C <- mnew 3 4 ;;
  x_answer <- mdense0 TyD [[1; 0; 0; 0]; [0; 0; 0; 0]; [9; 0; 11; 0]]%Q 0%Q ;;
  x_C_1 <- lil_assign x_C x_Ones ;;
  x_C_2 <- t_mxm TyD noacc (mkSr qplus qtimes TyD) (MComp x_NotLower) REPLACE x_C_1 (Trn x_A) (Mat
    x_B) ;;
  x_q <- meq x_C_2 x_answer ;;
  _ <- check x_q ;;
  x_answer2 <- mdense0 TyD [[1; 1; 1; 1]; [0; 0; 1; 1]; [9; 0; 11; 1]]%Q 0%Q ;;
  x_C_3 <- lil_assign x_C_2 x_Ones ;;
  x_C_4 <- t_mxm TyD noacc (mkSr qplus qtimes TyD) (MComp x_NotLower) MERGE x_C_3 (Trn x_A) (Mat
    x_B) ;;
  x_q_1 <- meq x_C_4 x_answer2 ;;
  _ <- check x_q_1 ;;
  Ok tt) = Ok tt.
Proof. vm_compute. reflexivity. Qed.

(** test_mxm_ATB.cpp:1826-1867, optimized_sequential platform *)
Example test_mxm_CompMask_NoAccum_ATB_emptyRowA_emptyColB_opt :
 (x_A <- mdense0 TyD [[8; 0; 4]; [1; 0; 9]; [6; 0; 2]]%Q 0%Q ;;
  x_B <- mdense0 TyD [[0; 0; 0; 1]; [1; 0; 1; 1]; [0; 0; 1; 1]]%Q 0%Q ;;
  x_NotLower <- mdense0 TyD d_NotLower_3x4 0%Q ;;
  x_Ones <- mdense0 TyD d_Ones_3x4 0%Q ;;
  x_C <- mnew 3 4 ;;
  x_answer <- mdense0 TyD [[1; 0; 0; 0]; [0; 0; 0; 0]; [9; 0; 11; 0]]%Q 0%Q ;;
  x_C_1 <- lil_assign x_C x_Ones ;;
  x_C_2 <- t_opt_mxm TyD noacc TyD (mkSr qplus qtimes TyD) (MComp (Other x_NotLower)) REPLACE x_C_1
    (OTrn (Other x_A)) (OMat (Other x_B)) ;;
  x_q <- meq x_C_2 x_answer ;;
  _ <- check x_q ;;
  x_answer2 <- mdense0 TyD [[1; 1; 1; 1]; [0; 0; 1; 1]; [9; 0; 11; 1]]%Q 0%Q ;;
  x_C_3 <- lil_assign x_C_2 x_Ones ;;
  x_C_4 <- t_opt_mxm TyD noacc TyD (mkSr qplus qtimes TyD) (MComp (Other x_NotLower)) MERGE x_C_3
    (OTrn (Other x_A)) (OMat (Other x_B)) ;;
  x_q_1 <- meq x_C_4 x_answer2 ;;
  _ <- check x_q_1 ;;
  Ok tt) = Ok tt.
Proof. vm_compute. reflexivity. Qed.

(** test_mxm_ATB.cpp:1870-1911 *)
Example test_mxm_CompMask_NoAccum_ATB_emptyColA_emptyRowB :
 (x_A <- mdense0 TyD [[8; 1; 4]; [0; 0; 0]; [6; 9; 2]]%Q 0%Q ;;
  x_B <- mdense0 TyD [[0; 1; 0; 1]; [1; 0; 1; 1]; [0; 0; 0; 0]]%Q 0%Q ;;
  x_NotLower <- mdense0 TyD d_NotLower_3x4 0%Q ;;
  x_Ones <- mdense0 TyD d_Ones_3x4 0%Q ;;
  x_C <- mnew 3 4 ;;
  x_answer <- mdense0 TyD [[0; 0; 0; 0]; [0; 1; 0; 0]; [0; 4; 0; 0]]%Q 0%Q ;;
  x_C_1 <- lil_assign x_C x_Ones ;;
  x_C_2 <- t_mxm TyD noacc (mkSr qplus qtimes TyD) (MComp x_NotLower) REPLACE x_C_1 (Trn x_A) (Mat
    x_B) ;;
  x_q <- meq x_C_2 x_answer ;;
  _ <- check x_q ;;
  x_answer2 <- mdense0 TyD [[0; 1; 1; 1]; [0; 1; 1; 1]; [0; 4; 0; 1]]%Q 0%Q ;;
  x_C_3 <- lil_assign x_C_2 x_Ones ;;
  x_C_4 <- t_mxm TyD noacc (mkSr qplus qtimes TyD) (MComp x_NotLower) MERGE x_C_3 (Trn x_A) (Mat
    x_B) ;;
  x_q_1 <- meq x_C_4 x_answer2 ;;
  _ <- check x_q_1 ;;
  Ok tt) = Ok tt.
Proof. vm_compute. reflexivity. Qed.

(** test_mxm_ATB.cpp:1870-1911, optimized_sequential platform *)
Example test_mxm_CompMask_NoAccum_ATB_emptyColA_emptyRowB_opt :
 (x_A <- mdense0 TyD [[8; 1; 4]; [0; 0; 0]; [6; 9; 2]]%Q 0%Q ;;
  x_B <- mdense0 TyD [[0; 1; 0; 1]; [1; 0; 1; 1]; [0; 0; 0; 0]]%Q 0%Q ;;
  x_NotLower <- mdense0 TyD d_NotLower_3x4 0%Q ;;
  x_Ones <- mdense0 TyD d_Ones_3x4 0%Q ;;
  x_C <- mnew 3 4 ;;
  x_answer <- mdense0 TyD [[0; 0; 0; 0]; [0; 1; 0; 0]; [0; 4; 0; 0]]%Q 0%Q ;;
  x_C_1 <- lil_assign x_C x_Ones ;;
  x_C_2 <- t_opt_mxm TyD noacc TyD (mkSr qplus qtimes TyD) (MComp (Other x_NotLower)) REPLACE x_C_1
    (OTrn (Other x_A)) (OMat (Other x_B)) ;;
  x_q <- meq x_C_2 x_answer ;;
  _ <- check x_q ;;
  x_answer2 <- mdense0 TyD [[0; 1; 1; 1]; [0; 1; 1; 1]; [0; 4; 0; 1]]%Q 0%Q ;;
  x_C_3 <- lil_assign x_C_2 x_Ones ;;
  x_C_4 <- t_opt_mxm TyD noacc TyD (mkSr qplus qtimes TyD) (MComp (Other x_NotLower)) MERGE x_C_3
    (OTrn (Other x_A)) (OMat (Other x_B)) ;;
  x_q_1 <- meq x_C_4 x_answer2 ;;
  _ <- check x_q_1 ;;
  Ok tt) = Ok tt.
Proof. vm_compute. reflexivity. Qed.

(** test_mxm_ATB.cpp:1914-1955 *)
Example test_mxm_CompMask_NoAccum_ATB_emptyRowM :
 (x_A <- mdense0 TyD [[8; 0; 4]; [1; 0; 9]; [6; 0; 2]]%Q 0%Q ;;
  x_B <- mdense0 TyD [[0; 0; 0]; [1; 0; 1]; [0; 0; 1]]%Q 0%Q ;;
  x_Lower <- mdense0 TyD d_Lower_3x3 0%Q ;;
  x_Ones <- mdense0 TyD d_Ones_3x3 0%Q ;;
  x_C <- mnew 3 3 ;;
  x_answer <- mdense0 TyD [[0; 0; 7]; [0; 0; 0]; [0; 0; 0]]%Q 0%Q ;;
  x_C_1 <- lil_assign x_C x_Ones ;;
  x_C_2 <- t_mxm TyD noacc (mkSr qplus qtimes TyD) (MComp x_Lower) REPLACE x_C_1 (Trn x_A) (Mat x_B)
    ;;
  x_q <- meq x_C_2 x_answer ;;
  _ <- check x_q ;;
  x_answer2 <- mdense0 TyD [[1; 0; 7]; [1; 1; 0]; [1; 1; 1]]%Q 0%Q ;;
  x_C_3 <- lil_assign x_C_2 x_Ones ;;
  x_C_4 <- t_mxm TyD noacc (mkSr qplus qtimes TyD) (MComp x_Lower) MERGE x_C_3 (Trn x_A) (Mat x_B)
    ;;
  x_q_1 <- meq x_C_4 x_answer2 ;;
  _ <- check x_q_1 ;;
  Ok tt) = Ok tt.
Proof. vm_compute. reflexivity. Qed.

(** test_mxm_ATB.cpp:1914-1955, optimized_sequential platform *)
Example test_mxm_CompMask_NoAccum_ATB_emptyRowM_opt :
 (x_A <- mdense0 TyD [[8; 0; 4]; [1; 0; 9]; [6; 0; 2]]%Q 0%Q ;;
  x_B <- mdense0 TyD [[0; 0; 0]; [1; 0; 1]; [0; 0; 1]]%Q 0%Q ;;
  x_Lower <- mdense0 TyD d_Lower_3x3 0%Q ;;
  x_Ones <- mdense0 TyD d_Ones_3x3 0%Q ;;
  x_C <- mnew 3 3 ;;
  x_answer <- mdense0 TyD [[0; 0; 7]; [0; 0; 0]; [0; 0; 0]]%Q 0%Q ;;
  x_C_1 <- lil_assign x_C x_Ones ;;
  x_C_2 <- t_opt_mxm TyD noacc TyD (mkSr qplus qtimes TyD) (MComp (Other x_Lower)) REPLACE x_C_1
    (OTrn (Other x_A)) (OMat (Other x_B)) ;;
  x_q <- meq x_C_2 x_answer ;;
  _ <- check x_q ;;
  x_answer2 <- mdense0 TyD [[1; 0; 7]; [1; 1; 0]; [1; 1; 1]]%Q 0%Q ;;
  x_C_3 <- lil_assign x_C_2 x_Ones ;;
  x_C_4 <- t_opt_mxm TyD noacc TyD (mkSr qplus qtimes TyD) (MComp (Other x_Lower)) MERGE x_C_3 (OTrn
    (Other x_A)) (OMat (Other x_B)) ;;
  x_q_1 <- meq x_C_4 x_answer2 ;;
  _ <- check x_q_1 ;;
  Ok tt) = Ok tt.
Proof. vm_compute. reflexivity. Qed.

(** test_mxm_ATB.cpp:1958-1996 *)
Example test_mxm_CompMask_NoAccum_ATB_ABdup :
 (x_mat <- mdense0 TyD d_Symmetric_4x4 0%Q ;;
  x_NotLower <- mdense0 TyD d_NotLower_4x4 0%Q ;;
  x_Ones <- mdense0 TyD d_Ones_4x4 0%Q ;;
  x_C <- mnew 4 4 ;;
  x_answer <- mdense0 TyD [[2; 1; 1; 1]; [3; 9; 1; 1]; [2; 10; 22; 1]; [0; 6; 21; 25]]%Q 0%Q ;;
  x_C_1 <- lil_assign x_C x_Ones ;;
  x_C_2 <- t_mxm TyD noacc (mkSr qplus qtimes TyD) (MComp x_NotLower) MERGE x_C_1 (Trn x_mat) (Mat
    x_mat) ;;
  x_q <- meq x_C_2 x_answer ;;
  _ <- check x_q ;;
  x_answer2 <- mdense0 TyD [[2; 0; 0; 0]; [3; 9; 0; 0]; [2; 10; 22; 0]; [0; 6; 21; 25]]%Q 0%Q ;;
  x_C_3 <- lil_assign x_C_2 x_Ones ;;
  x_C_4 <- t_mxm TyD noacc (mkSr qplus qtimes TyD) (MComp x_NotLower) REPLACE x_C_3 (Trn x_mat) (Mat
    x_mat) ;;
  x_q_1 <- meq x_C_4 x_answer2 ;;
  _ <- check x_q_1 ;;
  Ok tt) = Ok tt.
Proof. vm_compute. reflexivity. Qed.

(** test_mxm_ATB.cpp:1958-1996, optimized_sequential platform *)
Example test_mxm_CompMask_NoAccum_ATB_ABdup_opt :
 (x_mat <- mdense0 TyD d_Symmetric_4x4 0%Q ;;
  x_NotLower <- mdense0 TyD d_NotLower_4x4 0%Q ;;
  x_Ones <- mdense0 TyD d_Ones_4x4 0%Q ;;
  x_C <- mnew 4 4 ;;
  x_answer <- mdense0 TyD [[2; 1; 1; 1]; [3; 9; 1; 1]; [2; 10; 22; 1]; [0; 6; 21; 25]]%Q 0%Q ;;
  x_C_1 <- lil_assign x_C x_Ones ;;
  x_C_2 <- t_opt_mxm TyD noacc TyD (mkSr qplus qtimes TyD) (MComp (Other x_NotLower)) MERGE x_C_1
    (OTrn (Other x_mat)) (OMat (Other x_mat)) ;;
  x_q <- meq x_C_2 x_answer ;;
  _ <- check x_q ;;
  x_answer2 <- mdense0 TyD [[2; 0; 0; 0]; [3; 9; 0; 0]; [2; 10; 22; 0]; [0; 6; 21; 25]]%Q 0%Q ;;
  x_C_3 <- lil_assign x_C_2 x_Ones ;;
  x_C_4 <- t_opt_mxm TyD noacc TyD (mkSr qplus qtimes TyD) (MComp (Other x_NotLower)) REPLACE x_C_3
    (OTrn (Other x_mat)) (OMat (Other x_mat)) ;;
  x_q_1 <- meq x_C_4 x_answer2 ;;
  _ <- check x_q_1 ;;
  Ok tt) = Ok tt.
Proof. vm_compute. reflexivity. Qed.

(** test_mxm_ATB.cpp:1999-2037 *)
Example test_mxm_CompMask_NoAccum_ATB_ACdup :
 (x_mat <- mdense0 TyD d_Symmetric_4x4 0%Q ;;
  x_NotLower <- mdense0 TyD d_NotLower_4x4 0%Q ;;
  x_Ones <- mdense0 TyD d_Ones_4x4 0%Q ;;
  x_C <- mnew 4 4 ;;
  x_answer <- mdense0 TyD [[2; 1; 0; 0]; [3; 9; 2; 0]; [2; 10; 22; 3]; [0; 6; 21; 25]]%Q 0%Q ;;
  x_C_1 <- lil_assign x_C x_mat ;;
  x_C_2 <- t_mxm TyD noacc (mkSr qplus qtimes TyD) (MComp x_NotLower) MERGE x_C_1 (Trn x_C_1) (Mat
    x_mat) ;;
  x_q <- meq x_C_2 x_answer ;;
  _ <- check x_q ;;
  x_answer2 <- mdense0 TyD [[2; 0; 0; 0]; [3; 9; 0; 0]; [2; 10; 22; 0]; [0; 6; 21; 25]]%Q 0%Q ;;
  x_C_3 <- lil_assign x_C_2 x_mat ;;
  x_C_4 <- t_mxm TyD noacc (mkSr qplus qtimes TyD) (MComp x_NotLower) REPLACE x_C_3 (Trn x_C_3) (Mat
    x_mat) ;;
  x_q_1 <- meq x_C_4 x_answer2 ;;
  _ <- check x_q_1 ;;
  Ok tt) = Ok tt.
Proof. vm_compute. reflexivity. Qed.

(** test_mxm_ATB.cpp:1999-2037, optimized_sequential platform *)
Example test_mxm_CompMask_NoAccum_ATB_ACdup_opt :
 (x_mat <- mdense0 TyD d_Symmetric_4x4 0%Q ;;
  x_NotLower <- mdense0 TyD d_NotLower_4x4 0%Q ;;
  x_Ones <- mdense0 TyD d_Ones_4x4 0%Q ;;
  x_C <- mnew 4 4 ;;
  x_answer <- mdense0 TyD [[2; 1; 0; 0]; [3; 9; 2; 0]; [2; 10; 22; 3]; [0; 6; 21; 25]]%Q 0%Q ;;
  x_C_1 <- lil_assign x_C x_mat ;;
  x_C_2 <- t_opt_mxm TyD noacc TyD (mkSr qplus qtimes TyD) (MComp (Other x_NotLower)) MERGE x_C_1
    (OTrn (TheOutput (fun x => x))) (OMat (Other x_mat)) ;;
  x_q <- meq x_C_2 x_answer ;;
  _ <- check x_q ;;
  x_answer2 <- mdense0 TyD [[2; 0; 0; 0]; [3; 9; 0; 0]; [2; 10; 22; 0]; [0; 6; 21; 25]]%Q 0%Q ;;
  x_C_3 <- lil_assign x_C_2 x_mat ;;
  x_C_4 <- t_opt_mxm TyD noacc TyD (mkSr qplus qtimes TyD) (MComp (Other x_NotLower)) REPLACE x_C_3
    (OTrn (TheOutput (fun x => x))) (OMat (Other x_mat)) ;;
  x_q_1 <- meq x_C_4 x_answer2 ;;
  _ <- check x_q_1 ;;
  Ok tt) = Ok tt.
Proof. vm_compute. reflexivity. Qed.

(** test_mxm_ATB.cpp:2040-2087 *)
Example test_mxm_CompMask_NoAccum_ATB_BCdup :
 (x_mat <- mdense0 TyD d_Symmetric_4x4 0%Q ;;
  x_NotLower <- mdense0 TyD d_NotLower_4x4 0%Q ;;
  x_Ones <- mdense0 TyD d_Ones_4x4 0%Q ;;
  x_C <- mnew 4 4 ;;
  x_answer <- mdense0 TyD [[2; 1; 0; 0]; [3; 9; 2; 0]; [2; 10; 22; 3]; [0; 6; 21; 25]]%Q 0%Q ;;
  x_C_1 <- lil_assign x_C x_mat ;;
  x_C_2 <- t_mxm TyD noacc (mkSr qplus qtimes TyD) (MComp x_NotLower) MERGE x_C_1 (Trn x_mat) (Mat
    x_C_1) ;;
  x_q <- meq x_C_2 x_answer ;;
  _ <- check x_q ;;
  x_C_3 <- lil_assign x_C_2 x_mat ;;
  x_C_4 <- t_mxm TyD noacc (mkSr qplus qtimes TyD) (MComp x_NotLower) MERGE x_C_3 (Trn x_mat) (Mat
    x_mat) ;;
  x_q_1 <- meq x_C_4 x_answer ;;
  _ <- check x_q_1 ;;
  x_answer2 <- mdense0 TyD [[2; 0; 0; 0]; [3; 9; 0; 0]; [2; 10; 22; 0]; [0; 6; 21; 25]]%Q 0%Q ;;
  x_C_5 <- lil_assign x_C_4 x_mat ;;
  x_C_6 <- t_mxm TyD noacc (mkSr qplus qtimes TyD) (MComp x_NotLower) REPLACE x_C_5 (Trn x_mat) (Mat
    x_C_5) ;;
  x_q_2 <- meq x_C_6 x_answer2 ;;
  _ <- check x_q_2 ;;
  Ok tt) = Ok tt.
Proof. vm_compute. reflexivity. Qed.

(** test_mxm_ATB.cpp:2040-2087, optimized_sequential platform *)
Example test_mxm_CompMask_NoAccum_ATB_BCdup_opt :
 (x_mat <- mdense0 TyD d_Symmetric_4x4 0%Q ;;
  x_NotLower <- mdense0 TyD d_NotLower_4x4 0%Q ;;
  x_Ones <- mdense0 TyD d_Ones_4x4 0%Q ;;
  x_C <- mnew 4 4 ;;
  x_answer <- mdense0 TyD [[2; 1; 0; 0]; [3; 9; 2; 0]; [2; 10; 22; 3]; [0; 6; 21; 25]]%Q 0%Q ;;
  x_C_1 <- lil_assign x_C x_mat ;;
  x_C_2 <- t_opt_mxm TyD noacc TyD (mkSr qplus qtimes TyD) (MComp (Other x_NotLower)) MERGE x_C_1
    (OTrn (Other x_mat)) (OMat (TheOutput (fun x => x))) ;;
  x_q <- meq x_C_2 x_answer ;;
  _ <- check x_q ;;
  x_C_3 <- lil_assign x_C_2 x_mat ;;
  x_C_4 <- t_opt_mxm TyD noacc TyD (mkSr qplus qtimes TyD) (MComp (Other x_NotLower)) MERGE x_C_3
    (OTrn (Other x_mat)) (OMat (Other x_mat)) ;;
  x_q_1 <- meq x_C_4 x_answer ;;
  _ <- check x_q_1 ;;
  x_answer2 <- mdense0 TyD [[2; 0; 0; 0]; [3; 9; 0; 0]; [2; 10; 22; 0]; [0; 6; 21; 25]]%Q 0%Q ;;
  x_C_5 <- lil_assign x_C_4 x_mat ;;
  x_C_6 <- t_opt_mxm TyD noacc TyD (mkSr qplus qtimes TyD) (MComp (Other x_NotLower)) REPLACE x_C_5
    (OTrn (Other x_mat)) (OMat (TheOutput (fun x => x))) ;;
  x_q_2 <- meq x_C_6 x_answer2 ;;
  _ <- check x_q_2 ;;
  Ok tt) = Ok tt.
Proof. vm_compute. reflexivity. Qed.

(** test_mxm_ATB.cpp:2090-2111 *)
Example test_mxm_CompMask_NoAccum_ATB_Replace_ABdup :
 (x_mat <- mdense0 TyD d_Symmetric_4x4 0%Q ;;
  x_result <- mdense0 TyD d_Ones_4x4 0%Q ;;
  x_answer <- mdense0 TyD [[2; 0; 0; 0]; [3; 9; 0; 0]; [2; 10; 22; 0]; [0; 6; 21; 25]]%Q 0%Q ;;
  x_M <- mdense0 TyD d_NotLower_4x4 0%Q ;;
  x_result_1 <- t_mxm TyD noacc (mkSr qplus qtimes TyD) (MComp x_M) REPLACE x_result (Trn x_mat)
    (Mat x_mat) ;;
  x_q <- meq x_result_1 x_answer ;;
  _ <- check x_q ;;
  Ok tt) = Ok tt.
Proof. vm_compute. reflexivity. Qed.

(** test_mxm_ATB.cpp:2090-2111, optimized_sequential platform *)
Example test_mxm_CompMask_NoAccum_ATB_Replace_ABdup_opt :
 (x_mat <- mdense0 TyD d_Symmetric_4x4 0%Q ;;
  x_result <- mdense0 TyD d_Ones_4x4 0%Q ;;
  x_answer <- mdense0 TyD [[2; 0; 0; 0]; [3; 9; 0; 0]; [2; 10; 22; 0]; [0; 6; 21; 25]]%Q 0%Q ;;
  x_M <- mdense0 TyD d_NotLower_4x4 0%Q ;;
  x_result_1 <- t_opt_mxm TyD noacc TyD (mkSr qplus qtimes TyD) (MComp (Other x_M)) REPLACE x_result
    (OTrn (Other x_mat)) (OMat (Other x_mat)) ;;
  x_q <- meq x_result_1 x_answer ;;
  _ <- check x_q ;;
  Ok tt) = Ok tt.
Proof. vm_compute. reflexivity. Qed.

(** test_mxm_ATB.cpp:2118-2232 *)
Example test_mxm_CompMask_Accum_ATB :
 (x_A <- mdense0 TyD d_AT_sparse_3x3 0%Q ;;
  x_Identity <- mdense0 TyD d_Identity_3x3 0%Q ;;
  x_Empty <- mnew 3 3 ;;
  x_Ones <- mdense0 TyD d_Ones_3x3 0%Q ;;
  x_C <- mnew 3 3 ;;
  x_MLower <- mdense0 TyD d_Lower_3x3 0%Q ;;
  x_MNotLower <- mdense0 TyD d_NotLower_3x3 0%Q ;;
  x_AFilled <- mdense0 TyD [[12; 7; 1]; [1; (-5); 1]; [7; 1; 9]]%Q 0%Q ;;
  x_NotA <- mdense0 TyD [[0; 0; 1]; [1; 0; 1]; [0; 1; 0]]%Q 0%Q ;;
  x_C_1 <- lil_assign x_C x_Ones ;;
  x_C_2 <- t_mxm TyD (acc TyD qplus) (mkSr qplus qtimes TyD) (MComp x_Ones) MERGE x_C_1 (Trn x_A)
    (Mat x_Identity) ;;
  x_q <- meq x_C_2 x_Ones ;;
  _ <- check x_q ;;
  x_C_3 <- lil_assign x_C_2 x_Ones ;;
  x_C_4 <- t_mxm TyD (acc TyD qplus) (mkSr qplus qtimes TyD) (MComp x_NotA) MERGE x_C_3 (Trn x_A)
    (Mat x_Identity) ;;
  x_t <- mdense0 TyD [[13; 8; 1]; [1; (-4); 1]; [8; 1; 10]]%Q 0%Q ;;
  x_q_1 <- meq x_C_4 x_t ;;
  _ <- check x_q_1 ;;
  x_C_5 <- lil_assign x_C_4 x_Ones ;;
  x_C_6 <- t_mxm TyD (acc TyD qplus) (mkSr qplus qtimes TyD) (MComp x_MNotLower) MERGE x_C_5 (Trn
    x_Ones) (Mat x_Identity) ;;
  x_t_1 <- mdense0 TyD [[2; 1; 1]; [2; 2; 1]; [2; 2; 2]]%Q 0%Q ;;
  x_q_2 <- meq x_C_6 x_t_1 ;;
  _ <- check x_q_2 ;;
  x_C_7 <- lil_assign x_C_6 x_Ones ;;
  x_C_8 <- t_mxm TyD (acc TyD qplus) (mkSr qplus qtimes TyD) (MComp x_MLower) MERGE x_C_7 (Trn
    x_Ones) (Mat x_Identity) ;;
  x_t_2 <- mdense0 TyD [[1; 2; 2]; [1; 1; 2]; [1; 1; 1]]%Q 0%Q ;;
  x_q_3 <- meq x_C_8 x_t_2 ;;
  _ <- check x_q_3 ;;
  x_C_9 <- lil_assign x_C_8 x_Ones ;;
  x_C_10 <- t_mxm TyD (acc TyD qplus) (mkSr qplus qtimes TyD) (MComp x_Ones) REPLACE x_C_9 (Trn x_A)
    (Mat x_Identity) ;;
  x_q_4 <- meq x_C_10 x_Empty ;;
  _ <- check x_q_4 ;;
  x_C_11 <- lil_assign x_C_10 x_Ones ;;
  x_C_12 <- t_mxm TyD (acc TyD qplus) (mkSr qplus qtimes TyD) (MComp x_Empty) REPLACE x_C_11 (Trn
    x_A) (Mat x_Identity) ;;
  x_t_3 <- mdense0 TyD [[13; 8; 1]; [1; (-4); 1]; [8; 1; 10]]%Q 0%Q ;;
  x_q_5 <- meq x_C_12 x_t_3 ;;
  _ <- check x_q_5 ;;
  x_C_13 <- lil_assign x_C_12 x_Ones ;;
  x_C_14 <- t_mxm TyD (acc TyD qplus) (mkSr qplus qtimes TyD) (MComp x_MNotLower) REPLACE x_C_13
    (Trn x_Ones) (Mat x_Identity) ;;
  x_t_4 <- mdense0 TyD [[2; 0; 0]; [2; 2; 0]; [2; 2; 2]]%Q 0%Q ;;
  x_q_6 <- meq x_C_14 x_t_4 ;;
  _ <- check x_q_6 ;;
  x_C_15 <- lil_assign x_C_14 x_Ones ;;
  x_C_16 <- t_mxm TyD (acc TyD qplus) (mkSr qplus qtimes TyD) (MComp x_MLower) REPLACE x_C_15 (Trn
    x_Ones) (Mat x_Identity) ;;
  x_t_5 <- mdense0 TyD [[0; 2; 2]; [0; 0; 2]; [0; 0; 0]]%Q 0%Q ;;
  x_q_7 <- meq x_C_16 x_t_5 ;;
  _ <- check x_q_7 ;;
  Ok tt) = Ok tt.
Proof. vm_compute. reflexivity. Qed.

(** test_mxm_ATB.cpp:2118-2232, optimized_sequential platform *)
Example test_mxm_CompMask_Accum_ATB_opt :
 (x_A <- mdense0 TyD d_AT_sparse_3x3 0%Q ;;
  x_Identity <- mdense0 TyD d_Identity_3x3 0%Q ;;
  x_Empty <- mnew 3 3 ;;
  x_Ones <- mdense0 TyD d_Ones_3x3 0%Q ;;
  x_C <- mnew 3 3 ;;
  x_MLower <- mdense0 TyD d_Lower_3x3 0%Q ;;
  x_MNotLower <- mdense0 TyD d_NotLower_3x3 0%Q ;;
  x_AFilled <- mdense0 TyD [[12; 7; 1]; [1; (-5); 1]; [7; 1; 9]]%Q 0%Q ;;
  x_NotA <- mdense0 TyD [[0; 0; 1]; [1; 0; 1]; [0; 1; 0]]%Q 0%Q ;;
  x_C_1 <- lil_assign x_C x_Ones ;;
  x_C_2 <- t_opt_mxm TyD (acc TyD qplus) TyD (mkSr qplus qtimes TyD) (MComp (Other x_Ones)) MERGE
    x_C_1 (OTrn (Other x_A)) (OMat (Other x_Identity)) ;;
  x_q <- meq x_C_2 x_Ones ;;
  _ <- check x_q ;;
  x_C_3 <- lil_assign x_C_2 x_Ones ;;
  x_C_4 <- t_opt_mxm TyD (acc TyD qplus) TyD (mkSr qplus qtimes TyD) (MComp (Other x_NotA)) MERGE
    x_C_3 (OTrn (Other x_A)) (OMat (Other x_Identity)) ;;
  x_t <- mdense0 TyD [[13; 8; 1]; [1; (-4); 1]; [8; 1; 10]]%Q 0%Q ;;
  x_q_1 <- meq x_C_4 x_t ;;
  _ <- check x_q_1 ;;
  x_C_5 <- lil_assign x_C_4 x_Ones ;;
  x_C_6 <- t_opt_mxm TyD (acc TyD qplus) TyD (mkSr qplus qtimes TyD) (MComp (Other x_MNotLower))
    MERGE x_C_5 (OTrn (Other x_Ones)) (OMat (Other x_Identity)) ;;
  x_t_1 <- mdense0 TyD [[2; 1; 1]; [2; 2; 1]; [2; 2; 2]]%Q 0%Q ;;
  x_q_2 <- meq x_C_6 x_t_1 ;;
  _ <- check x_q_2 ;;
  x_C_7 <- lil_assign x_C_6 x_Ones ;;
  x_C_8 <- t_opt_mxm TyD (acc TyD qplus) TyD (mkSr qplus qtimes TyD) (MComp (Other x_MLower)) MERGE
    x_C_7 (OTrn (Other x_Ones)) (OMat (Other x_Identity)) ;;
  x_t_2 <- mdense0 TyD [[1; 2; 2]; [1; 1; 2]; [1; 1; 1]]%Q 0%Q ;;
  x_q_3 <- meq x_C_8 x_t_2 ;;
  _ <- check x_q_3 ;;
  x_C_9 <- lil_assign x_C_8 x_Ones ;;
  x_C_10 <- t_opt_mxm TyD (acc TyD qplus) TyD (mkSr qplus qtimes TyD) (MComp (Other x_Ones)) REPLACE
    x_C_9 (OTrn (Other x_A)) (OMat (Other x_Identity)) ;;
  x_q_4 <- meq x_C_10 x_Empty ;;
  _ <- check x_q_4 ;;
  x_C_11 <- lil_assign x_C_10 x_Ones ;;
  x_C_12 <- t_opt_mxm TyD (acc TyD qplus) TyD (mkSr qplus qtimes TyD) (MComp (Other x_Empty))
    REPLACE x_C_11 (OTrn (Other x_A)) (OMat (Other x_Identity)) ;;
  x_t_3 <- mdense0 TyD [[13; 8; 1]; [1; (-4); 1]; [8; 1; 10]]%Q 0%Q ;;
  x_q_5 <- meq x_C_12 x_t_3 ;;
  _ <- check x_q_5 ;;
  x_C_13 <- lil_assign x_C_12 x_Ones ;;
  x_C_14 <- t_opt_mxm TyD (acc TyD qplus) TyD (mkSr qplus qtimes TyD) (MComp (Other x_MNotLower))
    REPLACE x_C_13 (OTrn (Other x_Ones)) (OMat (Other x_Identity)) ;;
  x_t_4 <- mdense0 TyD [[2; 0; 0]; [2; 2; 0]; [2; 2; 2]]%Q 0%Q ;;
  x_q_6 <- meq x_C_14 x_t_4 ;;
  _ <- check x_q_6 ;;
  x_C_15 <- lil_assign x_C_14 x_Ones ;;
  x_C_16 <- t_opt_mxm TyD (acc TyD qplus) TyD (mkSr qplus qtimes TyD) (MComp (Other x_MLower))
    REPLACE x_C_15 (OTrn (Other x_Ones)) (OMat (Other x_Identity)) ;;
  x_t_5 <- mdense0 TyD [[0; 2; 2]; [0; 0; 2]; [0; 0; 0]]%Q 0%Q ;;
  x_q_7 <- meq x_C_16 x_t_5 ;;
  _ <- check x_q_7 ;;
  Ok tt) = Ok tt.
Proof. vm_compute. reflexivity. Qed.

(** test_mxm_ATB.cpp:2235-2282 *)
Example test_mxm_CompMask_Accum_ATBM_empty :
 (x_Empty <- mnew 3 3 ;;
  x_Ones <- mdense0 TyD d_Ones_3x3 0%Q ;;
  x_C <- mnew 3 3 ;;
  x_MNotLower <- mdense0 TyB d_NotLowerBool_3x3 0%Q ;;
  x_C_1 <- lil_assign x_C x_Ones ;;
  x_C_2 <- t_mxm TyD (acc TyD qplus) (mkSr qplus qtimes TyD) (MComp x_MNotLower) MERGE x_C_1 (Trn
    x_Empty) (Mat x_Ones) ;;
  x_q <- meq x_C_2 x_Ones ;;
  _ <- check x_q ;;
  x_C_3 <- lil_assign x_C_2 x_Ones ;;
  x_C_4 <- t_mxm TyD (acc TyD qplus) (mkSr qplus qtimes TyD) (MComp x_MNotLower) MERGE x_C_3 (Trn
    x_Ones) (Mat x_Empty) ;;
  x_q_1 <- meq x_C_4 x_Ones ;;
  _ <- check x_q_1 ;;
  x_C_5 <- lil_assign x_C_4 x_Ones ;;
  x_C_6 <- t_mxm TyD (acc TyD qplus) (mkSr qplus qtimes TyD) (MComp x_Ones) MERGE x_C_5 (Trn x_Ones)
    (Mat x_Ones) ;;
  x_q_2 <- meq x_C_6 x_Ones ;;
  _ <- check x_q_2 ;;
  x_C_7 <- lil_assign x_C_6 x_Ones ;;
  x_C_8 <- t_mxm TyD (acc TyD qplus) (mkSr qplus qtimes TyD) (MComp x_MNotLower) REPLACE x_C_7 (Trn
    x_Empty) (Mat x_Ones) ;;
  x_t <- mdense0 TyD d_Lower_3x3 0%Q ;;
  x_q_3 <- meq x_C_8 x_t ;;
  _ <- check x_q_3 ;;
  x_C_9 <- lil_assign x_C_8 x_Ones ;;
  x_C_10 <- t_mxm TyD (acc TyD qplus) (mkSr qplus qtimes TyD) (MComp x_MNotLower) REPLACE x_C_9 (Trn
    x_Ones) (Mat x_Empty) ;;
  x_t_1 <- mdense0 TyD d_Lower_3x3 0%Q ;;
  x_q_4 <- meq x_C_10 x_t_1 ;;
  _ <- check x_q_4 ;;
  x_C_11 <- lil_assign x_C_10 x_Ones ;;
  x_C_12 <- t_mxm TyD (acc TyD qplus) (mkSr qplus qtimes TyD) (MComp x_Ones) REPLACE x_C_11 (Trn
    x_Ones) (Mat x_Empty) ;;
  x_q_5 <- meq x_C_12 x_Empty ;;
  _ <- check x_q_5 ;;
  Ok tt) = Ok tt.
Proof. vm_compute. reflexivity. Qed.

(** test_mxm_ATB.cpp:2235-2282, optimized_sequential platform *)
Example test_mxm_CompMask_Accum_ATBM_empty_opt :
 (x_Empty <- mnew 3 3 ;;
  x_Ones <- mdense0 TyD d_Ones_3x3 0%Q ;;
  x_C <- mnew 3 3 ;;
  x_MNotLower <- mdense0 TyB d_NotLowerBool_3x3 0%Q ;;
  x_C_1 <- lil_assign x_C x_Ones ;;
  x_C_2 <- t_opt_mxm TyD (acc TyD qplus) TyD (mkSr qplus qtimes TyD) (MComp (Other x_MNotLower))
    MERGE x_C_1 (OTrn (Other x_Empty)) (OMat (Other x_Ones)) ;;
  x_q <- meq x_C_2 x_Ones ;;
  _ <- check x_q ;;
  x_C_3 <- lil_assign x_C_2 x_Ones ;;
  x_C_4 <- t_opt_mxm TyD (acc TyD qplus) TyD (mkSr qplus qtimes TyD) (MComp (Other x_MNotLower))
    MERGE x_C_3 (OTrn (Other x_Ones)) (OMat (Other x_Empty)) ;;
  x_q_1 <- meq x_C_4 x_Ones ;;
  _ <- check x_q_1 ;;
  x_C_5 <- lil_assign x_C_4 x_Ones ;;
  x_C_6 <- t_opt_mxm TyD (acc TyD qplus) TyD (mkSr qplus qtimes TyD) (MComp (Other x_Ones)) MERGE
    x_C_5 (OTrn (Other x_Ones)) (OMat (Other x_Ones)) ;;
  x_q_2 <- meq x_C_6 x_Ones ;;
  _ <- check x_q_2 ;;
  x_C_7 <- lil_assign x_C_6 x_Ones ;;
  x_C_8 <- t_opt_mxm TyD (acc TyD qplus) TyD (mkSr qplus qtimes TyD) (MComp (Other x_MNotLower))
    REPLACE x_C_7 (OTrn (Other x_Empty)) (OMat (Other x_Ones)) ;;
  x_t <- mdense0 TyD d_Lower_3x3 0%Q ;;
  x_q_3 <- meq x_C_8 x_t ;;
  _ <- check x_q_3 ;;
  x_C_9 <- lil_assign x_C_8 x_Ones ;;
  x_C_10 <- t_opt_mxm TyD (acc TyD qplus) TyD (mkSr qplus qtimes TyD) (MComp (Other x_MNotLower))
    REPLACE x_C_9 (OTrn (Other x_Ones)) (OMat (Other x_Empty)) ;;
  x_t_1 <- mdense0 TyD d_Lower_3x3 0%Q ;;
  x_q_4 <- meq x_C_10 x_t_1 ;;
  _ <- check x_q_4 ;;
  x_C_11 <- lil_assign x_C_10 x_Ones ;;
  x_C_12 <- t_opt_mxm TyD (acc TyD qplus) TyD (mkSr qplus qtimes TyD) (MComp (Other x_Ones)) REPLACE
    x_C_11 (OTrn (Other x_Ones)) (OMat (Other x_Empty)) ;;
  x_q_5 <- meq x_C_12 x_Empty ;;
  _ <- check x_q_5 ;;
  Ok tt) = Ok tt.
Proof. vm_compute. reflexivity. Qed.

(** test_mxm_ATB.cpp:2285-2326 *)
Example test_mxm_CompMask_Accum_ATB_emptyRowA_emptyColB :
 (x_A <- mdense0 TyD [[8; 0; 4]; [1; 0; 9]; [6; 0; 2]]%Q 0%Q ;;
  x_B <- mdense0 TyD [[0; 0; 0; 1]; [1; 0; 1; 1]; [0; 0; 1; 1]]%Q 0%Q ;;
  x_MNotLower <- mdense0 TyD d_NotLower_3x4 0%Q ;;
  x_Ones <- mdense0 TyD d_Ones_3x4 0%Q ;;
  x_C <- mnew 3 4 ;;
  x_answer <- mdense0 TyD [[2; 0; 0; 0]; [1; 1; 0; 0]; [10; 1; 12; 0]]%Q 0%Q ;;
  x_C_1 <- lil_assign x_C x_Ones ;;
  x_C_2 <- t_mxm TyD (acc TyD qplus) (mkSr qplus qtimes TyD) (MComp x_MNotLower) REPLACE x_C_1 (Trn
    x_A) (Mat x_B) ;;
  x_q <- meq x_C_2 x_answer ;;
  _ <- check x_q ;;
  x_answer2 <- mdense0 TyD [[2; 1; 1; 1]; [1; 1; 1; 1]; [10; 1; 12; 1]]%Q 0%Q ;;
  x_C_3 <- lil_assign x_C_2 x_Ones ;;
  x_C_4 <- t_mxm TyD (acc TyD qplus) (mkSr qplus qtimes TyD) (MComp x_MNotLower) MERGE x_C_3 (Trn
    x_A) (Mat x_B) ;;
  x_q_1 <- meq x_C_4 x_answer2 ;;
  _ <- check x_q_1 ;;
  Ok tt) = Ok tt.
Proof. vm_compute. reflexivity. Qed.

(** test_mxm_ATB.cpp:2285-2326, optimized_sequential platform *)
Example test_mxm_CompMask_Accum_ATB_emptyRowA_emptyColB_opt :
 (x_A <- mdense0 TyD [[8; 0; 4]; [1; 0; 9]; [6; 0; 2]]%Q 0%Q ;;
  x_B <- mdense0 TyD [[0; 0; 0; 1]; [1; 0; 1; 1]; [0; 0; 1; 1]]%Q 0%Q ;;
  x_MNotLower <- mdense0 TyD d_NotLower_3x4 0%Q ;;
  x_Ones <- mdense0 TyD d_Ones_3x4 0%Q ;;
  x_C <- mnew 3 4 ;;
  x_answer <- mdense0 TyD [[2; 0; 0; 0]; [1; 1; 0; 0]; [10; 1; 12; 0]]%Q 0%Q ;;
  x_C_1 <- lil_assign x_C x_Ones ;;
  x_C_2 <- t_opt_mxm TyD (acc TyD qplus) TyD (mkSr qplus qtimes TyD) (MComp (Other x_MNotLower))
    REPLACE x_C_1 (OTrn (Other x_A)) (OMat (Other x_B)) ;;
  x_q <- meq x_C_2 x_answer ;;
  _ <- check x_q ;;
  x_answer2 <- mdense0 TyD [[2; 1; 1; 1]; [1; 1; 1; 1]; [10; 1; 12; 1]]%Q 0%Q ;;
  x_C_3 <- lil_assign x_C_2 x_Ones ;;
  x_C_4 <- t_opt_mxm TyD (acc TyD qplus) TyD (mkSr qplus qtimes TyD) (MComp (Other x_MNotLower))
    MERGE x_C_3 (OTrn (Other x_A)) (OMat (Other x_B)) ;;
  x_q_1 <- meq x_C_4 x_answer2 ;;
  _ <- check x_q_1 ;;
  Ok tt) = Ok tt.
Proof. vm_compute. reflexivity. Qed.

(** test_mxm_ATB.cpp:2329-2370 *)
Example test_mxm_CompMask_Accum_ATB_emptyColA_emptyRowB :
 (x_A <- mdense0 TyD [[8; 1; 4]; [0; 0; 0]; [6; 9; 2]]%Q 0%Q ;;
  x_B <- mdense0 TyD [[0; 1; 0; 1]; [1; 0; 1; 1]; [0; 0; 0; 0]]%Q 0%Q ;;
  x_NotLower <- mdense0 TyD d_NotLower_3x4 0%Q ;;
  x_Ones <- mdense0 TyD d_Ones_3x4 0%Q ;;
  x_C <- mnew 3 4 ;;
  x_answer <- mdense0 TyD [[1; 0; 0; 0]; [1; 2; 0; 0]; [1; 5; 1; 0]]%Q 0%Q ;;
  x_C_1 <- lil_assign x_C x_Ones ;;
  x_C_2 <- t_mxm TyD (acc TyD qplus) (mkSr qplus qtimes TyD) (MComp x_NotLower) REPLACE x_C_1 (Trn
    x_A) (Mat x_B) ;;
  x_q <- meq x_C_2 x_answer ;;
  _ <- check x_q ;;
  x_answer2 <- mdense0 TyD [[1; 1; 1; 1]; [1; 2; 1; 1]; [1; 5; 1; 1]]%Q 0%Q ;;
  x_C_3 <- lil_assign x_C_2 x_Ones ;;
  x_C_4 <- t_mxm TyD (acc TyD qplus) (mkSr qplus qtimes TyD) (MComp x_NotLower) MERGE x_C_3 (Trn
    x_A) (Mat x_B) ;;
  x_q_1 <- meq x_C_4 x_answer2 ;;
  _ <- check x_q_1 ;;
  Ok tt) = Ok tt.
Proof. vm_compute. reflexivity. Qed.

(** test_mxm_ATB.cpp:2329-2370, optimized_sequential platform *)
Example test_mxm_CompMask_Accum_ATB_emptyColA_emptyRowB_opt :
 (x_A <- mdense0 TyD [[8; 1; 4]; [0; 0; 0]; [6; 9; 2]]%Q 0%Q ;;
  x_B <- mdense0 TyD [[0; 1; 0; 1]; [1; 0; 1; 1]; [0; 0; 0; 0]]%Q 0%Q ;;
  x_NotLower <- mdense0 TyD d_NotLower_3x4 0%Q ;;
  x_Ones <- mdense0 TyD d_Ones_3x4 0%Q ;;
  x_C <- mnew 3 4 ;;
  x_answer <- mdense0 TyD [[1; 0; 0; 0]; [1; 2; 0; 0]; [1; 5; 1; 0]]%Q 0%Q ;;
  x_C_1 <- lil_assign x_C x_Ones ;;
  x_C_2 <- t_opt_mxm TyD (acc TyD qplus) TyD (mkSr qplus qtimes TyD) (MComp (Other x_NotLower))
    REPLACE x_C_1 (OTrn (Other x_A)) (OMat (Other x_B)) ;;
  x_q <- meq x_C_2 x_answer ;;
  _ <- check x_q ;;
  x_answer2 <- mdense0 TyD [[1; 1; 1; 1]; [1; 2; 1; 1]; [1; 5; 1; 1]]%Q 0%Q ;;
  x_C_3 <- lil_assign x_C_2 x_Ones ;;
  x_C_4 <- t_opt_mxm TyD (acc TyD qplus) TyD (mkSr qplus qtimes TyD) (MComp (Other x_NotLower))
    MERGE x_C_3 (OTrn (Other x_A)) (OMat (Other x_B)) ;;
  x_q_1 <- meq x_C_4 x_answer2 ;;
  _ <- check x_q_1 ;;
  Ok tt) = Ok tt.
Proof. vm_compute. reflexivity. Qed.

(** test_mxm_ATB.cpp:2373-2411 *)
Example test_mxm_CompMask_Accum_ATB_ABdup :
 (x_mat <- mdense0 TyD d_Symmetric_4x4 0%Q ;;
  x_NotLower <- mdense0 TyD d_NotLower_4x4 0%Q ;;
  x_Ones <- mdense0 TyD d_Ones_4x4 0%Q ;;
  x_C <- mnew 4 4 ;;
  x_answer <- mdense0 TyD [[3; 1; 1; 1]; [4; 10; 1; 1]; [3; 11; 23; 1]; [1; 7; 22; 26]]%Q 0%Q ;;
  x_C_1 <- lil_assign x_C x_Ones ;;
  x_C_2 <- t_mxm TyD (acc TyD qplus) (mkSr qplus qtimes TyD) (MComp x_NotLower) MERGE x_C_1 (Trn
    x_mat) (Mat x_mat) ;;
  x_q <- meq x_C_2 x_answer ;;
  _ <- check x_q ;;
  x_answer2 <- mdense0 TyD [[3; 0; 0; 0]; [4; 10; 0; 0]; [3; 11; 23; 0]; [1; 7; 22; 26]]%Q 0%Q ;;
  x_C_3 <- lil_assign x_C_2 x_Ones ;;
  x_C_4 <- t_mxm TyD (acc TyD qplus) (mkSr qplus qtimes TyD) (MComp x_NotLower) REPLACE x_C_3 (Trn
    x_mat) (Mat x_mat) ;;
  x_q_1 <- meq x_C_4 x_answer2 ;;
  _ <- check x_q_1 ;;
  Ok tt) = Ok tt.
Proof. vm_compute. reflexivity. Qed.

(** test_mxm_ATB.cpp:2373-2411, optimized_sequential platform *)
Example test_mxm_CompMask_Accum_ATB_ABdup_opt :
 (x_mat <- mdense0 TyD d_Symmetric_4x4 0%Q ;;
  x_NotLower <- mdense0 TyD d_NotLower_4x4 0%Q ;;
  x_Ones <- mdense0 TyD d_Ones_4x4 0%Q ;;
  x_C <- mnew 4 4 ;;
  x_answer <- mdense0 TyD [[3; 1; 1; 1]; [4; 10; 1; 1]; [3; 11; 23; 1]; [1; 7; 22; 26]]%Q 0%Q ;;
  x_C_1 <- lil_assign x_C x_Ones ;;
  x_C_2 <- t_opt_mxm TyD (acc TyD qplus) TyD (mkSr qplus qtimes TyD) (MComp (Other x_NotLower))
    MERGE x_C_1 (OTrn (Other x_mat)) (OMat (Other x_mat)) ;;
  x_q <- meq x_C_2 x_answer ;;
  _ <- check x_q ;;
  x_answer2 <- mdense0 TyD [[3; 0; 0; 0]; [4; 10; 0; 0]; [3; 11; 23; 0]; [1; 7; 22; 26]]%Q 0%Q ;;
  x_C_3 <- lil_assign x_C_2 x_Ones ;;
  x_C_4 <- t_opt_mxm TyD (acc TyD qplus) TyD (mkSr qplus qtimes TyD) (MComp (Other x_NotLower))
    REPLACE x_C_3 (OTrn (Other x_mat)) (OMat (Other x_mat)) ;;
  x_q_1 <- meq x_C_4 x_answer2 ;;
  _ <- check x_q_1 ;;
  Ok tt) = Ok tt.
Proof. vm_compute. reflexivity. Qed.

(** test_mxm_ATB.cpp:2414-2453 *)
Example test_mxm_CompMask_Accum_ATB_ACdup :
 (x_mat <- mdense0 TyD d_Symmetric_4x4 0%Q ;;
  x_NotLower <- mdense0 TyD d_NotLower_4x4 0%Q ;;
  x_Ones <- mdense0 TyD d_Ones_4x4 0%Q ;;
  x_C <- mnew 4 4 ;;
  x_answer <- mdense0 TyD [[3; 1; 0; 0]; [4; 11; 2; 0]; [2; 12; 25; 3]; [0; 6; 24; 29]]%Q 0%Q ;;
  x_C_1 <- lil_assign x_C x_mat ;;
  x_C_2 <- t_mxm TyD (acc TyD qplus) (mkSr qplus qtimes TyD) (MComp x_NotLower) MERGE x_C_1 (Trn
    x_C_1) (Mat x_mat) ;;
  x_q <- meq x_C_2 x_answer ;;
  _ <- check x_q ;;
  x_answer2 <- mdense0 TyD [[3; 0; 0; 0]; [4; 11; 0; 0]; [2; 12; 25; 0]; [0; 6; 24; 29]]%Q 0%Q ;;
  x_C_3 <- lil_assign x_C_2 x_mat ;;
  x_C_4 <- t_mxm TyD (acc TyD qplus) (mkSr qplus qtimes TyD) (MComp x_NotLower) REPLACE x_C_3 (Trn
    x_C_3) (Mat x_mat) ;;
  x_q_1 <- meq x_C_4 x_answer2 ;;
  _ <- check x_q_1 ;;
  Ok tt) = Ok tt.
Proof. vm_compute. reflexivity. Qed.

(** test_mxm_ATB.cpp:2414-2453, optimized_sequential platform *)
Example test_mxm_CompMask_Accum_ATB_ACdup_opt :
 (x_mat <- mdense0 TyD d_Symmetric_4x4 0%Q ;;
  x_NotLower <- mdense0 TyD d_NotLower_4x4 0%Q ;;
  x_Ones <- mdense0 TyD d_Ones_4x4 0%Q ;;
  x_C <- mnew 4 4 ;;
  x_answer <- mdense0 TyD [[3; 1; 0; 0]; [4; 11; 2; 0]; [2; 12; 25; 3]; [0; 6; 24; 29]]%Q 0%Q ;;
  x_C_1 <- lil_assign x_C x_mat ;;
  x_C_2 <- t_opt_mxm TyD (acc TyD qplus) TyD (mkSr qplus qtimes TyD) (MComp (Other x_NotLower))
    MERGE x_C_1 (OTrn (TheOutput (fun x => x))) (OMat (Other x_mat)) ;;
  x_q <- meq x_C_2 x_answer ;;
  _ <- check x_q ;;
  x_answer2 <- mdense0 TyD [[3; 0; 0; 0]; [4; 11; 0; 0]; [2; 12; 25; 0]; [0; 6; 24; 29]]%Q 0%Q ;;
  x_C_3 <- lil_assign x_C_2 x_mat ;;
  x_C_4 <- t_opt_mxm TyD (acc TyD qplus) TyD (mkSr qplus qtimes TyD) (MComp (Other x_NotLower))
    REPLACE x_C_3 (OTrn (TheOutput (fun x => x))) (OMat (Other x_mat)) ;;
  x_q_1 <- meq x_C_4 x_answer2 ;;
  _ <- check x_q_1 ;;
  Ok tt) = Ok tt.
Proof. vm_compute. reflexivity. Qed.

(** test_mxm_ATB.cpp:2456-2503 *)
Example test_mxm_CompMask_Accum_ATB_BCdup :
 (x_mat <- mdense0 TyD d_Symmetric_4x4 0%Q ;;
  x_NotLower <- mdense0 TyD d_NotLower_4x4 0%Q ;;
  x_Ones <- mdense0 TyD d_Ones_4x4 0%Q ;;
  x_C <- mnew 4 4 ;;
  x_answer <- mdense0 TyD [[3; 1; 0; 0]; [4; 11; 2; 0]; [2; 12; 25; 3]; [0; 6; 24; 29]]%Q 0%Q ;;
  x_C_1 <- lil_assign x_C x_mat ;;
  x_C_2 <- t_mxm TyD (acc TyD qplus) (mkSr qplus qtimes TyD) (MComp x_NotLower) MERGE x_C_1 (Trn
    x_mat) (Mat x_C_1) ;;
  x_q <- meq x_C_2 x_answer ;;
  _ <- check x_q ;;
  x_C_3 <- lil_assign x_C_2 x_mat ;;
  x_C_4 <- t_mxm TyD (acc TyD qplus) (mkSr qplus qtimes TyD) (MComp x_NotLower) MERGE x_C_3 (Trn
    x_mat) (Mat x_mat) ;;
  x_q_1 <- meq x_C_4 x_answer ;;
  _ <- check x_q_1 ;;
  x_answer2 <- mdense0 TyD [[3; 0; 0; 0]; [4; 11; 0; 0]; [2; 12; 25; 0]; [0; 6; 24; 29]]%Q 0%Q ;;
  x_C_5 <- lil_assign x_C_4 x_mat ;;
  x_C_6 <- t_mxm TyD (acc TyD qplus) (mkSr qplus qtimes TyD) (MComp x_NotLower) REPLACE x_C_5 (Trn
    x_mat) (Mat x_C_5) ;;
  x_q_2 <- meq x_C_6 x_answer2 ;;
  _ <- check x_q_2 ;;
  Ok tt) = Ok tt.
Proof. vm_compute. reflexivity. Qed.

(** test_mxm_ATB.cpp:2456-2503, optimized_sequential platform *)
Example test_mxm_CompMask_Accum_ATB_BCdup_opt :
 (x_mat <- mdense0 TyD d_Symmetric_4x4 0%Q ;;
  x_NotLower <- mdense0 TyD d_NotLower_4x4 0%Q ;;
  x_Ones <- mdense0 TyD d_Ones_4x4 0%Q ;;
  x_C <- mnew 4 4 ;;
  x_answer <- mdense0 TyD [[3; 1; 0; 0]; [4; 11; 2; 0]; [2; 12; 25; 3]; [0; 6; 24; 29]]%Q 0%Q ;;
  x_C_1 <- lil_assign x_C x_mat ;;
  x_C_2 <- t_opt_mxm TyD (acc TyD qplus) TyD (mkSr qplus qtimes TyD) (MComp (Other x_NotLower))
    MERGE x_C_1 (OTrn (Other x_mat)) (OMat (TheOutput (fun x => x))) ;;
  x_q <- meq x_C_2 x_answer ;;
  _ <- check x_q ;;
  x_C_3 <- lil_assign x_C_2 x_mat ;;
  x_C_4 <- t_opt_mxm TyD (acc TyD qplus) TyD (mkSr qplus qtimes TyD) (MComp (Other x_NotLower))
    MERGE x_C_3 (OTrn (Other x_mat)) (OMat (Other x_mat)) ;;
  x_q_1 <- meq x_C_4 x_answer ;;
  _ <- check x_q_1 ;;
  x_answer2 <- mdense0 TyD [[3; 0; 0; 0]; [4; 11; 0; 0]; [2; 12; 25; 0]; [0; 6; 24; 29]]%Q 0%Q ;;
  x_C_5 <- lil_assign x_C_4 x_mat ;;
  x_C_6 <- t_opt_mxm TyD (acc TyD qplus) TyD (mkSr qplus qtimes TyD) (MComp (Other x_NotLower))
    REPLACE x_C_5 (OTrn (Other x_mat)) (OMat (TheOutput (fun x => x))) ;;
  x_q_2 <- meq x_C_6 x_answer2 ;;
  _ <- check x_q_2 ;;
  Ok tt) = Ok tt.
Proof. vm_compute. reflexivity. Qed.

(** test_mxm_ATB.cpp:2506-2543 *)
Example test_mxm_CompMask_Accum_ATB_MCdup :
 (x_mat <- mdense0 TyD d_Symmetric_4x4 0%Q ;;
  x_NotLower <- mdense0 TyD d_NotLower_4x4 0%Q ;;
  x_C <- mnew 4 4 ;;
  x_answer <- mdense0 TyD [[2; 1; 1; 1]; [3; 9; 1; 1]; [2; 10; 22; 1]; [0; 6; 21; 25]]%Q 0%Q ;;
  x_C_1 <- lil_assign x_C x_NotLower ;;
  x_C_2 <- t_mxm TyD (acc TyD qplus) (mkSr qplus qtimes TyD) (MComp x_C_1) MERGE x_C_1 (Trn x_mat)
    (Mat x_mat) ;;
  x_q <- meq x_C_2 x_answer ;;
  _ <- check x_q ;;
  x_answer2 <- mdense0 TyD [[2; 0; 0; 0]; [3; 9; 0; 0]; [2; 10; 22; 0]; [0; 6; 21; 25]]%Q 0%Q ;;
  x_C_3 <- lil_assign x_C_2 x_NotLower ;;
  x_C_4 <- t_mxm TyD (acc TyD qplus) (mkSr qplus qtimes TyD) (MComp x_C_3) REPLACE x_C_3 (Trn x_mat)
    (Mat x_mat) ;;
  x_q_1 <- meq x_C_4 x_answer2 ;;
  _ <- check x_q_1 ;;
  Ok tt) = Ok tt.
Proof. vm_compute. reflexivity. Qed.

(** test_mxm_ATB.cpp:2506-2543, optimized_sequential platform *)
Example test_mxm_CompMask_Accum_ATB_MCdup_opt :
 (x_mat <- mdense0 TyD d_Symmetric_4x4 0%Q ;;
  x_NotLower <- mdense0 TyD d_NotLower_4x4 0%Q ;;
  x_C <- mnew 4 4 ;;
  x_answer <- mdense0 TyD [[2; 1; 1; 1]; [3; 9; 1; 1]; [2; 10; 22; 1]; [0; 6; 21; 25]]%Q 0%Q ;;
  x_C_1 <- lil_assign x_C x_NotLower ;;
  x_C_2 <- t_opt_mxm TyD (acc TyD qplus) TyD (mkSr qplus qtimes TyD) (MComp (TheOutput (fun x =>
    x))) MERGE x_C_1 (OTrn (Other x_mat)) (OMat (Other x_mat)) ;;
  x_q <- meq x_C_2 x_answer ;;
  _ <- check x_q ;;
  x_answer2 <- mdense0 TyD [[2; 0; 0; 0]; [3; 9; 0; 0]; [2; 10; 22; 0]; [0; 6; 21; 25]]%Q 0%Q ;;
  x_C_3 <- lil_assign x_C_2 x_NotLower ;;
  x_C_4 <- t_opt_mxm TyD (acc TyD qplus) TyD (mkSr qplus qtimes TyD) (MComp (TheOutput (fun x =>
    x))) REPLACE x_C_3 (OTrn (Other x_mat)) (OMat (Other x_mat)) ;;
  x_q_1 <- meq x_C_4 x_answer2 ;;
  _ <- check x_q_1 ;;
  Ok tt) = Ok tt.
Proof. vm_compute. reflexivity. Qed.

(** test_mxm_ATB.cpp:2546-2567 *)
Example test_mxm_CompMask_Accum_ATB_Replace_Cones_Mnlower :
 (x_A <- mdense0 TyD d_AT_dense_3x3 0%Q ;;
  x_B <- mdense0 TyD d_B_dense_3x4 0%Q ;;
  x_M <- mdense0 TyD d_NotLower_3x4 0%Q ;;
  _ <- check (Qeq_bool (inject_Z (nvals x_M)) 6%Q) ;;
  x_result <- mdense0 TyD d_Ones_3x4 0%Q ;;
  x_answer <- mdense0 TyD [[114; 0; 0; 0]; [74; 97; 0; 0]; [119; 157; 112; 0]]%Q 0%Q ;;
  x_result_1 <- t_mxm TyD (acc TyD qsecond) (mkSr qplus qtimes TyD) (MComp x_M) REPLACE x_result
    (Trn x_A) (Mat x_B) ;;
  _ <- check (Qeq_bool (inject_Z (nvals x_result_1)) 6%Q) ;;
  x_q <- meq x_result_1 x_answer ;;
  _ <- check x_q ;;
  Ok tt) = Ok tt.
Proof. vm_compute. reflexivity. Qed.

(** test_mxm_ATB.cpp:2546-2567, optimized_sequential platform *)
Example test_mxm_CompMask_Accum_ATB_Replace_Cones_Mnlower_opt :
 (x_A <- mdense0 TyD d_AT_dense_3x3 0%Q ;;
  x_B <- mdense0 TyD d_B_dense_3x4 0%Q ;;
  x_M <- mdense0 TyD d_NotLower_3x4 0%Q ;;
  _ <- check (Qeq_bool (inject_Z (nvals x_M)) 6%Q) ;;
  x_result <- mdense0 TyD d_Ones_3x4 0%Q ;;
  x_answer <- mdense0 TyD [[114; 0; 0; 0]; [74; 97; 0; 0]; [119; 157; 112; 0]]%Q 0%Q ;;
  x_result_1 <- t_opt_mxm TyD (acc TyD qsecond) TyD (mkSr qplus qtimes TyD) (MComp (Other x_M))
    REPLACE x_result (OTrn (Other x_A)) (OMat (Other x_B)) ;;
  _ <- check (Qeq_bool (inject_Z (nvals x_result_1)) 6%Q) ;;
  x_q <- meq x_result_1 x_answer ;;
  _ <- check x_q ;;
  Ok tt) = Ok tt.
Proof. vm_compute. reflexivity. Qed.

(** test_mxm_ATB.cpp:2570-2593 *)
Example test_mxm_CompMask_Accum_ATB_Replace_Mstored_zero :
 (x_A <- mdense0 TyD d_AT_dense_3x3 0%Q ;;
  x_B <- mdense0 TyD d_B_dense_3x4 0%Q ;;
  x_M <- mdense0 TyD d_NotLower_3x4 0%Q ;;
  x_M_1 <- lil_setElement x_M 0 0 (cast TyD 0%Q) ;;
  _ <- check (Qeq_bool (inject_Z (nvals x_M_1)) 7%Q) ;;
  x_result <- mdense0 TyD d_Ones_3x4 0%Q ;;
  x_answer <- mdense0 TyD [[114; 0; 0; 0]; [74; 97; 0; 0]; [119; 157; 112; 0]]%Q 0%Q ;;
  x_result_1 <- t_mxm TyD (acc TyD qsecond) (mkSr qplus qtimes TyD) (MComp x_M_1) REPLACE x_result
    (Trn x_A) (Mat x_B) ;;
  _ <- check (Qeq_bool (inject_Z (nvals x_result_1)) 6%Q) ;;
  x_q <- meq x_result_1 x_answer ;;
  _ <- check x_q ;;
  Ok tt) = Ok tt.
Proof. vm_compute. reflexivity. Qed.

(** test_mxm_ATB.cpp:2570-2593, optimized_sequential platform *)
Example test_mxm_CompMask_Accum_ATB_Replace_Mstored_zero_opt :
 (x_A <- mdense0 TyD d_AT_dense_3x3 0%Q ;;
  x_B <- mdense0 TyD d_B_dense_3x4 0%Q ;;
  x_M <- mdense0 TyD d_NotLower_3x4 0%Q ;;
  x_M_1 <- lil_setElement x_M 0 0 (cast TyD 0%Q) ;;
  _ <- check (Qeq_bool (inject_Z (nvals x_M_1)) 7%Q) ;;
  x_result <- mdense0 TyD d_Ones_3x4 0%Q ;;
  x_answer <- mdense0 TyD [[114; 0; 0; 0]; [74; 97; 0; 0]; [119; 157; 112; 0]]%Q 0%Q ;;
  x_result_1 <- t_opt_mxm TyD (acc TyD qsecond) TyD (mkSr qplus qtimes TyD) (MComp (Other x_M_1))
    REPLACE x_result (OTrn (Other x_A)) (OMat (Other x_B)) ;;
  _ <- check (Qeq_bool (inject_Z (nvals x_result_1)) 6%Q) ;;
  x_q <- meq x_result_1 x_answer ;;
  _ <- check x_q ;;
  Ok tt) = Ok tt.
Proof. vm_compute. reflexivity. Qed.

(** test_mxm_ATB.cpp:2596-2616 *)
Example test_mxm_CompMask_Accum_ATB_Merge :
 (x_A <- mdense0 TyD d_AT_dense_3x3 0%Q ;;
  x_B <- mdense0 TyD d_B_dense_3x4 0%Q ;;
  x_M <- mdense0 TyD d_NotLower_3x4 0%Q ;;
  _ <- check (Qeq_bool (inject_Z (nvals x_M)) 6%Q) ;;
  x_result <- mdense0 TyD d_Ones_3x4 0%Q ;;
  x_answer <- mdense0 TyD [[114; 1; 1; 1]; [74; 97; 1; 1]; [119; 157; 112; 1]]%Q 0%Q ;;
  x_result_1 <- t_mxm TyD (acc TyD qsecond) (mkSr qplus qtimes TyD) (MComp x_M) MERGE x_result (Trn
    x_A) (Mat x_B) ;;
  _ <- check (Qeq_bool (inject_Z (nvals x_result_1)) 12%Q) ;;
  x_q <- meq x_result_1 x_answer ;;
  _ <- check x_q ;;
  Ok tt) = Ok tt.
Proof. vm_compute. reflexivity. Qed.

(** test_mxm_ATB.cpp:2596-2616, optimized_sequential platform *)
Example test_mxm_CompMask_Accum_ATB_Merge_opt :
 (x_A <- mdense0 TyD d_AT_dense_3x3 0%Q ;;
  x_B <- mdense0 TyD d_B_dense_3x4 0%Q ;;
  x_M <- mdense0 TyD d_NotLower_3x4 0%Q ;;
  _ <- check (Qeq_bool (inject_Z (nvals x_M)) 6%Q) ;;
  x_result <- mdense0 TyD d_Ones_3x4 0%Q ;;
  x_answer <- mdense0 TyD [[114; 1; 1; 1]; [74; 97; 1; 1]; [119; 157; 112; 1]]%Q 0%Q ;;
  x_result_1 <- t_opt_mxm TyD (acc TyD qsecond) TyD (mkSr qplus qtimes TyD) (MComp (Other x_M))
    MERGE x_result (OTrn (Other x_A)) (OMat (Other x_B)) ;;
  _ <- check (Qeq_bool (inject_Z (nvals x_result_1)) 12%Q) ;;
  x_q <- meq x_result_1 x_answer ;;
  _ <- check x_q ;;
  Ok tt) = Ok tt.
Proof. vm_compute. reflexivity. Qed.

(** test_mxm_ATB.cpp:2619-2640 *)
Example test_mxm_CompMask_Accum_ATB_Merge_Mstored_zero :
 (x_A <- mdense0 TyD d_AT_dense_3x3 0%Q ;;
  x_B <- mdense0 TyD d_B_dense_3x4 0%Q ;;
  x_M <- mdense0 TyD d_NotLower_3x4 0%Q ;;
  x_M_1 <- lil_setElement x_M 0 0 (cast TyD 0%Q) ;;
  _ <- check (Qeq_bool (inject_Z (nvals x_M_1)) 7%Q) ;;
  x_result <- mdense0 TyD d_Ones_3x4 0%Q ;;
  x_answer <- mdense0 TyD [[114; 1; 1; 1]; [74; 97; 1; 1]; [119; 157; 112; 1]]%Q 0%Q ;;
  x_result_1 <- t_mxm TyD (acc TyD qsecond) (mkSr qplus qtimes TyD) (MComp x_M_1) MERGE x_result
    (Trn x_A) (Mat x_B) ;;
  _ <- check (Qeq_bool (inject_Z (nvals x_result_1)) 12%Q) ;;
  x_q <- meq x_result_1 x_answer ;;
  _ <- check x_q ;;
  Ok tt) = Ok tt.
Proof. vm_compute. reflexivity. Qed.

(** test_mxm_ATB.cpp:2619-2640, optimized_sequential platform *)
Example test_mxm_CompMask_Accum_ATB_Merge_Mstored_zero_opt :
 (x_A <- mdense0 TyD d_AT_dense_3x3 0%Q ;;
  x_B <- mdense0 TyD d_B_dense_3x4 0%Q ;;
  x_M <- mdense0 TyD d_NotLower_3x4 0%Q ;;
  x_M_1 <- lil_setElement x_M 0 0 (cast TyD 0%Q) ;;
  _ <- check (Qeq_bool (inject_Z (nvals x_M_1)) 7%Q) ;;
  x_result <- mdense0 TyD d_Ones_3x4 0%Q ;;
  x_answer <- mdense0 TyD [[114; 1; 1; 1]; [74; 97; 1; 1]; [119; 157; 112; 1]]%Q 0%Q ;;
  x_result_1 <- t_opt_mxm TyD (acc TyD qsecond) TyD (mkSr qplus qtimes TyD) (MComp (Other x_M_1))
    MERGE x_result (OTrn (Other x_A)) (OMat (Other x_B)) ;;
  _ <- check (Qeq_bool (inject_Z (nvals x_result_1)) 12%Q) ;;
  x_q <- meq x_result_1 x_answer ;;
  _ <- check x_q ;;
  Ok tt) = Ok tt.
Proof. vm_compute. reflexivity. Qed.

(** test_mxm_ATB.cpp:2643-2664 *)
Example test_mxm_CompMask_Accum_ATB_Merge_ABdup :
 (x_mat <- mdense0 TyD d_Symmetric_4x4 0%Q ;;
  x_result <- mdense0 TyD d_Ones_4x4 0%Q ;;
  x_answer <- mdense0 TyD [[2; 1; 1; 1]; [3; 9; 1; 1]; [2; 10; 22; 1]; [0; 6; 21; 25]]%Q 0%Q ;;
  x_M <- mdense0 TyD d_NotLower_4x4 0%Q ;;
  x_result_1 <- t_mxm TyD noacc (mkSr qplus qtimes TyD) (MComp x_M) MERGE x_result (Trn x_mat) (Mat
    x_mat) ;;
  x_q <- meq x_result_1 x_answer ;;
  _ <- check x_q ;;
  Ok tt) = Ok tt.
Proof. vm_compute. reflexivity. Qed.

(** test_mxm_ATB.cpp:2643-2664, optimized_sequential platform *)
Example test_mxm_CompMask_Accum_ATB_Merge_ABdup_opt :
 (x_mat <- mdense0 TyD d_Symmetric_4x4 0%Q ;;
  x_result <- mdense0 TyD d_Ones_4x4 0%Q ;;
  x_answer <- mdense0 TyD [[2; 1; 1; 1]; [3; 9; 1; 1]; [2; 10; 22; 1]; [0; 6; 21; 25]]%Q 0%Q ;;
  x_M <- mdense0 TyD d_NotLower_4x4 0%Q ;;
  x_result_1 <- t_opt_mxm TyD noacc TyD (mkSr qplus qtimes TyD) (MComp (Other x_M)) MERGE x_result
    (OTrn (Other x_mat)) (OMat (Other x_mat)) ;;
  x_q <- meq x_result_1 x_answer ;;
  _ <- check x_q ;;
  Ok tt) = Ok tt.
Proof. vm_compute. reflexivity. Qed.

(** test_mxm_ATB.cpp:2675-2752 *)
Example test_mxm_StructMask_NoAccum_ATB :
 (x_A <- mdense0 TyD d_AT_sparse_3x3 0%Q ;;
  x_AT <- mdense0 TyD d_A_sparse_3x3 0%Q ;;
  x_Identity <- mdense0 TyD d_Identity_3x3 0%Q ;;
  x_Empty <- mnew 3 3 ;;
  x_Ones <- mdense0 TyD d_Ones_3x3 0%Q ;;
  x_C <- mnew 3 3 ;;
  x_MLower <- mdense0 TyD d_Lower_3x3 0%Q ;;
  x_MNotLower <- mdense0 TyD d_NotLower_3x3 0%Q ;;
  x_AFilled <- mdense0 TyD [[12; 7; 1]; [1; (-5); 1]; [7; 1; 9]]%Q 0%Q ;;
  x_C_1 <- lil_assign x_C x_Ones ;;
  x_Ones_1 <- lil_setElement x_Ones 0 0 (cast TyD 0%Q) ;;
  x_C_2 <- t_mxm TyD noacc (mkSr qplus qtimes TyD) (MStruct x_Ones_1) MERGE x_C_1 (Trn x_A) (Mat
    x_Identity) ;;
  x_q <- meq x_C_2 x_AT ;;
  _ <- check x_q ;;
  x_Ones_2 <- lil_setElement x_Ones_1 0 0 (cast TyD 1%Q) ;;
  x_C_3 <- lil_assign x_C_2 x_Ones_2 ;;
  x_AT_1 <- lil_setElement x_AT 0 0 (cast TyD 0%Q) ;;
  x_C_4 <- t_mxm TyD noacc (mkSr qplus qtimes TyD) (MStruct x_AT_1) MERGE x_C_3 (Trn x_A) (Mat
    x_Identity) ;;
  x_q_1 <- meq x_C_4 x_AFilled ;;
  _ <- check x_q_1 ;;
  x_AT_2 <- lil_setElement x_AT_1 0 0 (cast TyD 12%Q) ;;
  x_C_5 <- lil_assign x_C_4 x_Ones_2 ;;
  x_MLower_1 <- lil_setElement x_MLower 2 0 (cast TyD 0%Q) ;;
  x_C_6 <- t_mxm TyD noacc (mkSr qplus qtimes TyD) (MStruct x_MLower_1) MERGE x_C_5 (Trn x_Ones_2)
    (Mat x_Identity) ;;
  x_q_2 <- meq x_C_6 x_Ones_2 ;;
  _ <- check x_q_2 ;;
  x_C_7 <- lil_assign x_C_6 x_Ones_2 ;;
  x_MNotLower_1 <- lil_setElement x_MNotLower 0 2 (cast TyD 0%Q) ;;
  x_C_8 <- t_mxm TyD noacc (mkSr qplus qtimes TyD) (MStruct x_MNotLower_1) MERGE x_C_7 (Trn
    x_Ones_2) (Mat x_Identity) ;;
  x_q_3 <- meq x_C_8 x_Ones_2 ;;
  _ <- check x_q_3 ;;
  x_C_9 <- lil_assign x_C_8 x_Ones_2 ;;
  x_Ones_3 <- lil_setElement x_Ones_2 0 0 (cast TyD 0%Q) ;;
  x_C_10 <- t_mxm TyD noacc (mkSr qplus qtimes TyD) (MStruct x_Ones_3) REPLACE x_C_9 (Trn x_A) (Mat
    x_Identity) ;;
  x_q_4 <- meq x_C_10 x_AT_2 ;;
  _ <- check x_q_4 ;;
  x_Ones_4 <- lil_setElement x_Ones_3 0 0 (cast TyD 1%Q) ;;
  x_C_11 <- lil_assign x_C_10 x_Ones_4 ;;
  x_C_12 <- t_mxm TyD noacc (mkSr qplus qtimes TyD) (MStruct x_MLower_1) REPLACE x_C_11 (Trn
    x_Ones_4) (Mat x_Identity) ;;
  x_MLower_2 <- lil_setElement x_MLower_1 2 0 (cast TyD 1%Q) ;;
  x_q_5 <- meq x_C_12 x_MLower_2 ;;
  _ <- check x_q_5 ;;
  x_C_13 <- lil_assign x_C_12 x_Ones_4 ;;
  x_C_14 <- t_mxm TyD noacc (mkSr qplus qtimes TyD) (MStruct x_MNotLower_1) REPLACE x_C_13 (Trn
    x_Ones_4) (Mat x_Identity) ;;
  x_MNotLower_2 <- lil_setElement x_MNotLower_1 0 2 (cast TyD 1%Q) ;;
  x_q_6 <- meq x_C_14 x_MNotLower_2 ;;
  _ <- check x_q_6 ;;
  Ok tt) = Ok tt.
Proof. vm_compute. reflexivity. Qed.

(** test_mxm_ATB.cpp:2675-2752, optimized_sequential platform *)
Example test_mxm_StructMask_NoAccum_ATB_opt :
 (x_A <- mdense0 TyD d_AT_sparse_3x3 0%Q ;;
  x_AT <- mdense0 TyD d_A_sparse_3x3 0%Q ;;
  x_Identity <- mdense0 TyD d_Identity_3x3 0%Q ;;
  x_Empty <- mnew 3 3 ;;
  x_Ones <- mdense0 TyD d_Ones_3x3 0%Q ;;
  x_C <- mnew 3 3 ;;
  x_MLower <- mdense0 TyD d_Lower_3x3 0%Q ;;
  x_MNotLower <- mdense0 TyD d_NotLower_3x3 0%Q ;;
  x_AFilled <- mdense0 TyD [[12; 7; 1]; [1; (-5); 1]; [7; 1; 9]]%Q 0%Q ;;
  x_C_1 <- lil_assign x_C x_Ones ;;
  x_Ones_1 <- lil_setElement x_Ones 0 0 (cast TyD 0%Q) ;;
  x_C_2 <- t_opt_mxm TyD noacc TyD (mkSr qplus qtimes TyD) (MStruct (Other x_Ones_1)) MERGE x_C_1
    (OTrn (Other x_A)) (OMat (Other x_Identity)) ;;
  x_q <- meq x_C_2 x_AT ;;
  _ <- check x_q ;;
  x_Ones_2 <- lil_setElement x_Ones_1 0 0 (cast TyD 1%Q) ;;
  x_C_3 <- lil_assign x_C_2 x_Ones_2 ;;
  x_AT_1 <- lil_setElement x_AT 0 0 (cast TyD 0%Q) ;;
  x_C_4 <- t_opt_mxm TyD noacc TyD (mkSr qplus qtimes TyD) (MStruct (Other x_AT_1)) MERGE x_C_3
    (OTrn (Other x_A)) (OMat (Other x_Identity)) ;;
  x_q_1 <- meq x_C_4 x_AFilled ;;
  _ <- check x_q_1 ;;
  x_AT_2 <- lil_setElement x_AT_1 0 0 (cast TyD 12%Q) ;;
  x_C_5 <- lil_assign x_C_4 x_Ones_2 ;;
  x_MLower_1 <- lil_setElement x_MLower 2 0 (cast TyD 0%Q) ;;
  x_C_6 <- t_opt_mxm TyD noacc TyD (mkSr qplus qtimes TyD) (MStruct (Other x_MLower_1)) MERGE x_C_5
    (OTrn (Other x_Ones_2)) (OMat (Other x_Identity)) ;;
  x_q_2 <- meq x_C_6 x_Ones_2 ;;
  _ <- check x_q_2 ;;
  x_C_7 <- lil_assign x_C_6 x_Ones_2 ;;
  x_MNotLower_1 <- lil_setElement x_MNotLower 0 2 (cast TyD 0%Q) ;;
  x_C_8 <- t_opt_mxm TyD noacc TyD (mkSr qplus qtimes TyD) (MStruct (Other x_MNotLower_1)) MERGE
    x_C_7 (OTrn (Other x_Ones_2)) (OMat (Other x_Identity)) ;;
  x_q_3 <- meq x_C_8 x_Ones_2 ;;
  _ <- check x_q_3 ;;
  x_C_9 <- lil_assign x_C_8 x_Ones_2 ;;
  x_Ones_3 <- lil_setElement x_Ones_2 0 0 (cast TyD 0%Q) ;;
  x_C_10 <- t_opt_mxm TyD noacc TyD (mkSr qplus qtimes TyD) (MStruct (Other x_Ones_3)) REPLACE x_C_9
    (OTrn (Other x_A)) (OMat (Other x_Identity)) ;;
  x_q_4 <- meq x_C_10 x_AT_2 ;;
  _ <- check x_q_4 ;;
  x_Ones_4 <- lil_setElement x_Ones_3 0 0 (cast TyD 1%Q) ;;
  x_C_11 <- lil_assign x_C_10 x_Ones_4 ;;
  x_C_12 <- t_opt_mxm TyD noacc TyD (mkSr qplus qtimes TyD) (MStruct (Other x_MLower_1)) REPLACE
    x_C_11 (OTrn (Other x_Ones_4)) (OMat (Other x_Identity)) ;;
  x_MLower_2 <- lil_setElement x_MLower_1 2 0 (cast TyD 1%Q) ;;
  x_q_5 <- meq x_C_12 x_MLower_2 ;;
  _ <- check x_q_5 ;;
  x_C_13 <- lil_assign x_C_12 x_Ones_4 ;;
  x_C_14 <- t_opt_mxm TyD noacc TyD (mkSr qplus qtimes TyD) (MStruct (Other x_MNotLower_1)) REPLACE
    x_C_13 (OTrn (Other x_Ones_4)) (OMat (Other x_Identity)) ;;
  x_MNotLower_2 <- lil_setElement x_MNotLower_1 0 2 (cast TyD 1%Q) ;;
  x_q_6 <- meq x_C_14 x_MNotLower_2 ;;
  _ <- check x_q_6 ;;
  Ok tt) = Ok tt.
Proof. vm_compute. reflexivity. Qed.

(** test_mxm_ATB.cpp:2755-2791 *)
Example test_mxm_StructMask_NoAccum_ATBM_empty :
 (x_Empty <- mnew 3 3 ;;
  x_Ones <- mdense0 TyD d_Ones_3x3 0%Q ;;
  x_C <- mnew 3 3 ;;
  x_M <- mdense0 TyB d_LowerBool_3x3 0%Q ;;
  x_M_1 <- lil_setElement x_M 2 0 (cast TyB 0%Q) ;;
  x_mUpper <- mdense0 TyD d_NotLower_3x3 0%Q ;;
  x_C_1 <- lil_assign x_C x_Ones ;;
  x_C_2 <- t_mxm TyD noacc (mkSr qplus qtimes TyD) (MStruct x_M_1) MERGE x_C_1 (Trn x_Empty) (Mat
    x_Ones) ;;
  x_q <- meq x_C_2 x_mUpper ;;
  _ <- check x_q ;;
  x_C_3 <- lil_assign x_C_2 x_Ones ;;
  x_C_4 <- t_mxm TyD noacc (mkSr qplus qtimes TyD) (MStruct x_M_1) MERGE x_C_3 (Trn x_Ones) (Mat
    x_Empty) ;;
  x_q_1 <- meq x_C_4 x_mUpper ;;
  _ <- check x_q_1 ;;
  x_C_5 <- lil_assign x_C_4 x_Ones ;;
  x_C_6 <- t_mxm TyD noacc (mkSr qplus qtimes TyD) (MStruct x_M_1) REPLACE x_C_5 (Trn x_Empty) (Mat
    x_Ones) ;;
  x_q_2 <- meq x_C_6 x_Empty ;;
  _ <- check x_q_2 ;;
  x_C_7 <- lil_assign x_C_6 x_Ones ;;
  x_C_8 <- t_mxm TyD noacc (mkSr qplus qtimes TyD) (MStruct x_M_1) REPLACE x_C_7 (Trn x_Ones) (Mat
    x_Empty) ;;
  x_q_3 <- meq x_C_8 x_Empty ;;
  _ <- check x_q_3 ;;
  Ok tt) = Ok tt.
Proof. vm_compute. reflexivity. Qed.

(** test_mxm_ATB.cpp:2755-2791, optimized_sequential platform *)
Example test_mxm_StructMask_NoAccum_ATBM_empty_opt :
 (x_Empty <- mnew 3 3 ;;
  x_Ones <- mdense0 TyD d_Ones_3x3 0%Q ;;
  x_C <- mnew 3 3 ;;
  x_M <- mdense0 TyB d_LowerBool_3x3 0%Q ;;
  x_M_1 <- lil_setElement x_M 2 0 (cast TyB 0%Q) ;;
  x_mUpper <- mdense0 TyD d_NotLower_3x3 0%Q ;;
  x_C_1 <- lil_assign x_C x_Ones ;;
  x_C_2 <- t_opt_mxm TyD noacc TyD (mkSr qplus qtimes TyD) (MStruct (Other x_M_1)) MERGE x_C_1 (OTrn
    (Other x_Empty)) (OMat (Other x_Ones)) ;;
  x_q <- meq x_C_2 x_mUpper ;;
  _ <- check x_q ;;
  x_C_3 <- lil_assign x_C_2 x_Ones ;;
  x_C_4 <- t_opt_mxm TyD noacc TyD (mkSr qplus qtimes TyD) (MStruct (Other x_M_1)) MERGE x_C_3 (OTrn
    (Other x_Ones)) (OMat (Other x_Empty)) ;;
  x_q_1 <- meq x_C_4 x_mUpper ;;
  _ <- check x_q_1 ;;
  x_C_5 <- lil_assign x_C_4 x_Ones ;;
  x_C_6 <- t_opt_mxm TyD noacc TyD (mkSr qplus qtimes TyD) (MStruct (Other x_M_1)) REPLACE x_C_5
    (OTrn (Other x_Empty)) (OMat (Other x_Ones)) ;;
  x_q_2 <- meq x_C_6 x_Empty ;;
  _ <- check x_q_2 ;;
  x_C_7 <- lil_assign x_C_6 x_Ones ;;
  x_C_8 <- t_opt_mxm TyD noacc TyD (mkSr qplus qtimes TyD) (MStruct (Other x_M_1)) REPLACE x_C_7
    (OTrn (Other x_Ones)) (OMat (Other x_Empty)) ;;
  x_q_3 <- meq x_C_8 x_Empty ;;
  _ <- check x_q_3 ;;
  Ok tt) = Ok tt.
Proof. vm_compute. reflexivity. Qed.

(** test_mxm_ATB.cpp:2794-2810 *)
Example test_mxm_StructMask_NoAccum_ATB_Merge_full_mask :
 (x_A <- mdense0 TyD d_AT_dense_3x3 0%Q ;;
  x_B <- mdense0 TyD d_B_dense_3x4 0%Q ;;
  x_result <- mnew 3 4 ;;
  x_answer <- mdense0 TyD d_Answer_dense 0%Q ;;
  x_mask <- mdense0 TyD d_Ones_3x4 0%Q ;;
  x_mask_1 <- lil_setElement x_mask 0 0 (cast TyD 0%Q) ;;
  x_result_1 <- t_mxm TyD noacc (mkSr qplus qtimes TyD) (MStruct x_mask_1) MERGE x_result (Trn x_A)
    (Mat x_B) ;;
  x_q <- meq x_result_1 x_answer ;;
  _ <- check x_q ;;
  Ok tt) = Ok tt.
Proof. vm_compute. reflexivity. Qed.

(** test_mxm_ATB.cpp:2794-2810, optimized_sequential platform *)
Example test_mxm_StructMask_NoAccum_ATB_Merge_full_mask_opt :
 (x_A <- mdense0 TyD d_AT_dense_3x3 0%Q ;;
  x_B <- mdense0 TyD d_B_dense_3x4 0%Q ;;
  x_result <- mnew 3 4 ;;
  x_answer <- mdense0 TyD d_Answer_dense 0%Q ;;
  x_mask <- mdense0 TyD d_Ones_3x4 0%Q ;;
  x_mask_1 <- lil_setElement x_mask 0 0 (cast TyD 0%Q) ;;
  x_result_1 <- t_opt_mxm TyD noacc TyD (mkSr qplus qtimes TyD) (MStruct (Other x_mask_1)) MERGE
    x_result (OTrn (Other x_A)) (OMat (Other x_B)) ;;
  x_q <- meq x_result_1 x_answer ;;
  _ <- check x_q ;;
  Ok tt) = Ok tt.
Proof. vm_compute. reflexivity. Qed.

(** test_mxm_ATB.cpp:2814-2830 *)
Example test_mxm_StructMask_NoAccum_ATB_mask_not_full :
 (x_A <- mdense0 TyD d_AT_dense_3x3 0%Q ;;
  x_B <- mdense0 TyD d_B_dense_3x4 0%Q ;;
  x_answer <- mdense0 TyD d_Answer_dense 0%Q ;;
  x_result <- mnew 3 4 ;;
  x_mask <- mdense0 TyD d_Answer_dense 0%Q ;;
  x_mask_1 <- lil_setElement x_mask 0 0 (cast TyD 0%Q) ;;
  x_result_1 <- t_mxm TyD noacc (mkSr qplus qtimes TyD) (MStruct x_mask_1) MERGE x_result (Trn x_A)
    (Mat x_B) ;;
  x_q <- meq x_result_1 x_answer ;;
  _ <- check x_q ;;
  Ok tt) = Ok tt.
Proof. vm_compute. reflexivity. Qed.

(** test_mxm_ATB.cpp:2814-2830, optimized_sequential platform *)
Example test_mxm_StructMask_NoAccum_ATB_mask_not_full_opt :
 (x_A <- mdense0 TyD d_AT_dense_3x3 0%Q ;;
  x_B <- mdense0 TyD d_B_dense_3x4 0%Q ;;
  x_answer <- mdense0 TyD d_Answer_dense 0%Q ;;
  x_result <- mnew 3 4 ;;
  x_mask <- mdense0 TyD d_Answer_dense 0%Q ;;
  x_mask_1 <- lil_setElement x_mask 0 0 (cast TyD 0%Q) ;;
  x_result_1 <- t_opt_mxm TyD noacc TyD (mkSr qplus qtimes TyD) (MStruct (Other x_mask_1)) MERGE
    x_result (OTrn (Other x_A)) (OMat (Other x_B)) ;;
  x_q <- meq x_result_1 x_answer ;;
  _ <- check x_q ;;
  Ok tt) = Ok tt.
Proof. vm_compute. reflexivity. Qed.

(** test_mxm_ATB.cpp:2833-2875 *)
Example test_mxm_StructMask_NoAccum_ATB_emptyRowA_emptyColB :
 (x_A <- mdense0 TyD [[8; 0; 4]; [1; 0; 9]; [6; 0; 2]]%Q 0%Q ;;
  x_B <- mdense0 TyD [[0; 0; 0; 1]; [1; 0; 1; 1]; [0; 0; 1; 1]]%Q 0%Q ;;
  x_Lower <- mdense0 TyD d_Lower_3x4 0%Q ;;
  x_Lower_1 <- lil_setElement x_Lower 2 0 (cast TyD 0%Q) ;;
  x_Ones <- mdense0 TyD d_Ones_3x4 0%Q ;;
  x_C <- mnew 3 4 ;;
  x_answer <- mdense0 TyD [[1; 0; 0; 0]; [0; 0; 0; 0]; [9; 0; 11; 0]]%Q 0%Q ;;
  x_C_1 <- lil_assign x_C x_Ones ;;
  x_C_2 <- t_mxm TyD noacc (mkSr qplus qtimes TyD) (MStruct x_Lower_1) REPLACE x_C_1 (Trn x_A) (Mat
    x_B) ;;
  x_q <- meq x_C_2 x_answer ;;
  _ <- check x_q ;;
  x_answer2 <- mdense0 TyD [[1; 1; 1; 1]; [0; 0; 1; 1]; [9; 0; 11; 1]]%Q 0%Q ;;
  x_C_3 <- lil_assign x_C_2 x_Ones ;;
  x_C_4 <- t_mxm TyD noacc (mkSr qplus qtimes TyD) (MStruct x_Lower_1) MERGE x_C_3 (Trn x_A) (Mat
    x_B) ;;
  x_q_1 <- meq x_C_4 x_answer2 ;;
  _ <- check x_q_1 ;;
  Ok tt) = Ok tt.
Proof. vm_compute. reflexivity. Qed.

(** test_mxm_ATB.cpp:2833-2875, optimized_sequential platform *)
Example test_mxm_StructMask_NoAccum_ATB_emptyRowA_emptyColB_opt :
 (x_A <- mdense0 TyD [[8; 0; 4]; [1; 0; 9]; [6; 0; 2]]%Q 0%Q ;;
  x_B <- mdense0 TyD [[0; 0; 0; 1]; [1; 0; 1; 1]; [0; 0; 1; 1]]%Q 0%Q ;;
  x_Lower <- mdense0 TyD d_Lower_3x4 0%Q ;;
  x_Lower_1 <- lil_setElement x_Lower 2 0 (cast TyD 0%Q) ;;
  x_Ones <- mdense0 TyD d_Ones_3x4 0%Q ;;
  x_C <- mnew 3 4 ;;
  x_answer <- mdense0 TyD [[1; 0; 0; 0]; [0; 0; 0; 0]; [9; 0; 11; 0]]%Q 0%Q ;;
  x_C_1 <- lil_assign x_C x_Ones ;;
  x_C_2 <- t_opt_mxm TyD noacc TyD (mkSr qplus qtimes TyD) (MStruct (Other x_Lower_1)) REPLACE x_C_1
    (OTrn (Other x_A)) (OMat (Other x_B)) ;;
  x_q <- meq x_C_2 x_answer ;;
  _ <- check x_q ;;
  x_answer2 <- mdense0 TyD [[1; 1; 1; 1]; [0; 0; 1; 1]; [9; 0; 11; 1]]%Q 0%Q ;;
  x_C_3 <- lil_assign x_C_2 x_Ones ;;
  x_C_4 <- t_opt_mxm TyD noacc TyD (mkSr qplus qtimes TyD) (MStruct (Other x_Lower_1)) MERGE x_C_3
    (OTrn (Other x_A)) (OMat (Other x_B)) ;;
  x_q_1 <- meq x_C_4 x_answer2 ;;
  _ <- check x_q_1 ;;
  Ok tt) = Ok tt.
Proof. vm_compute. reflexivity. Qed.

(** test_mxm_ATB.cpp:2878-2920 *)
Example test_mxm_StructMask_NoAccum_ATB_emptyColA_emptyRowB :
 (x_A <- mdense0 TyD [[8; 1; 4]; [0; 0; 0]; [6; 9; 2]]%Q 0%Q ;;
  x_B <- mdense0 TyD [[0; 1; 0; 1]; [1; 0; 1; 1]; [0; 0; 0; 0]]%Q 0%Q ;;
  x_Lower <- mdense0 TyD d_Lower_3x4 0%Q ;;
  x_Lower_1 <- lil_setElement x_Lower 2 1 (cast TyD 0%Q) ;;
  x_Ones <- mdense0 TyD d_Ones_3x4 0%Q ;;
  x_C <- mnew 3 4 ;;
  x_answer <- mdense0 TyD [[0; 0; 0; 0]; [0; 1; 0; 0]; [0; 4; 0; 0]]%Q 0%Q ;;
  x_C_1 <- lil_assign x_C x_Ones ;;
  x_C_2 <- t_mxm TyD noacc (mkSr qplus qtimes TyD) (MStruct x_Lower_1) REPLACE x_C_1 (Trn x_A) (Mat
    x_B) ;;
  x_q <- meq x_C_2 x_answer ;;
  _ <- check x_q ;;
  x_answer2 <- mdense0 TyD [[0; 1; 1; 1]; [0; 1; 1; 1]; [0; 4; 0; 1]]%Q 0%Q ;;
  x_C_3 <- lil_assign x_C_2 x_Ones ;;
  x_C_4 <- t_mxm TyD noacc (mkSr qplus qtimes TyD) (MStruct x_Lower_1) MERGE x_C_3 (Trn x_A) (Mat
    x_B) ;;
  x_q_1 <- meq x_C_4 x_answer2 ;;
  _ <- check x_q_1 ;;
  Ok tt) = Ok tt.
Proof. vm_compute. reflexivity. Qed.

(** test_mxm_ATB.cpp:2878-2920, optimized_sequential platform *)
Example test_mxm_StructMask_NoAccum_ATB_emptyColA_emptyRowB_opt :
 (x_A <- mdense0 TyD [[8; 1; 4]; [0; 0; 0]; [6; 9; 2]]%Q 0%Q ;;
  x_B <- mdense0 TyD [[0; 1; 0; 1]; [1; 0; 1; 1]; [0; 0; 0; 0]]%Q 0%Q ;;
  x_Lower <- mdense0 TyD d_Lower_3x4 0%Q ;;
  x_Lower_1 <- lil_setElement x_Lower 2 1 (cast TyD 0%Q) ;;
  x_Ones <- mdense0 TyD d_Ones_3x4 0%Q ;;
  x_C <- mnew 3 4 ;;
  x_answer <- mdense0 TyD [[0; 0; 0; 0]; [0; 1; 0; 0]; [0; 4; 0; 0]]%Q 0%Q ;;
  x_C_1 <- lil_assign x_C x_Ones ;;
  x_C_2 <- t_opt_mxm TyD noacc TyD (mkSr qplus qtimes TyD) (MStruct (Other x_Lower_1)) REPLACE x_C_1
    (OTrn (Other x_A)) (OMat (Other x_B)) ;;
  x_q <- meq x_C_2 x_answer ;;
  _ <- check x_q ;;
  x_answer2 <- mdense0 TyD [[0; 1; 1; 1]; [0; 1; 1; 1]; [0; 4; 0; 1]]%Q 0%Q ;;
  x_C_3 <- lil_assign x_C_2 x_Ones ;;
  x_C_4 <- t_opt_mxm TyD noacc TyD (mkSr qplus qtimes TyD) (MStruct (Other x_Lower_1)) MERGE x_C_3
    (OTrn (Other x_A)) (OMat (Other x_B)) ;;
  x_q_1 <- meq x_C_4 x_answer2 ;;
  _ <- check x_q_1 ;;
  Ok tt) = Ok tt.
Proof. vm_compute. reflexivity. Qed.

(** test_mxm_ATB.cpp:2923-2965 *)
Example test_mxm_StructMask_NoAccum_ATB_emptyRowM :
 (x_A <- mdense0 TyD [[8; 0; 4]; [1; 0; 9]; [6; 0; 2]]%Q 0%Q ;;
  x_B <- mdense0 TyD [[0; 0; 0]; [1; 0; 1]; [0; 0; 1]]%Q 0%Q ;;
  x_NotLower <- mdense0 TyD d_NotLower_3x3 0%Q ;;
  x_NotLower_1 <- lil_setElement x_NotLower 0 2 (cast TyD 0%Q) ;;
  x_Ones <- mdense0 TyD d_Ones_3x3 0%Q ;;
  x_C <- mnew 3 3 ;;
  x_answer <- mdense0 TyD [[0; 0; 7]; [0; 0; 0]; [0; 0; 0]]%Q 0%Q ;;
  x_C_1 <- lil_assign x_C x_Ones ;;
  x_C_2 <- t_mxm TyD noacc (mkSr qplus qtimes TyD) (MStruct x_NotLower_1) REPLACE x_C_1 (Trn x_A)
    (Mat x_B) ;;
  x_q <- meq x_C_2 x_answer ;;
  _ <- check x_q ;;
  x_answer2 <- mdense0 TyD [[1; 0; 7]; [1; 1; 0]; [1; 1; 1]]%Q 0%Q ;;
  x_C_3 <- lil_assign x_C_2 x_Ones ;;
  x_C_4 <- t_mxm TyD noacc (mkSr qplus qtimes TyD) (MStruct x_NotLower_1) MERGE x_C_3 (Trn x_A) (Mat
    x_B) ;;
  x_q_1 <- meq x_C_4 x_answer2 ;;
  _ <- check x_q_1 ;;
  Ok tt) = Ok tt.
Proof. vm_compute. reflexivity. Qed.

(** test_mxm_ATB.cpp:2923-2965, optimized_sequential platform *)
Example test_mxm_StructMask_NoAccum_ATB_emptyRowM_opt :
 (x_A <- mdense0 TyD [[8; 0; 4]; [1; 0; 9]; [6; 0; 2]]%Q 0%Q ;;
  x_B <- mdense0 TyD [[0; 0; 0]; [1; 0; 1]; [0; 0; 1]]%Q 0%Q ;;
  x_NotLower <- mdense0 TyD d_NotLower_3x3 0%Q ;;
  x_NotLower_1 <- lil_setElement x_NotLower 0 2 (cast TyD 0%Q) ;;
  x_Ones <- mdense0 TyD d_Ones_3x3 0%Q ;;
  x_C <- mnew 3 3 ;;
  x_answer <- mdense0 TyD [[0; 0; 7]; [0; 0; 0]; [0; 0; 0]]%Q 0%Q ;;
  x_C_1 <- lil_assign x_C x_Ones ;;
  x_C_2 <- t_opt_mxm TyD noacc TyD (mkSr qplus qtimes TyD) (MStruct (Other x_NotLower_1)) REPLACE
    x_C_1 (OTrn (Other x_A)) (OMat (Other x_B)) ;;
  x_q <- meq x_C_2 x_answer ;;
  _ <- check x_q ;;
  x_answer2 <- mdense0 TyD [[1; 0; 7]; [1; 1; 0]; [1; 1; 1]]%Q 0%Q ;;
  x_C_3 <- lil_assign x_C_2 x_Ones ;;
  x_C_4 <- t_opt_mxm TyD noacc TyD (mkSr qplus qtimes TyD) (MStruct (Other x_NotLower_1)) MERGE
    x_C_3 (OTrn (Other x_A)) (OMat (Other x_B)) ;;
  x_q_1 <- meq x_C_4 x_answer2 ;;
  _ <- check x_q_1 ;;
  Ok tt) = Ok tt.
Proof. vm_compute. reflexivity. Qed.

(** test_mxm_ATB.cpp:2968-3007 *)
Example test_mxm_StructMask_NoAccum_ATB_ABdup :
 (x_mat <- mdense0 TyD d_Symmetric_4x4 0%Q ;;
  x_Lower <- mdense0 TyD d_Lower_4x4 0%Q ;;
  x_Lower_1 <- lil_setElement x_Lower 2 0 (cast TyD 0%Q) ;;
  x_Ones <- mdense0 TyD d_Ones_4x4 0%Q ;;
  x_C <- mnew 4 4 ;;
  x_answer <- mdense0 TyD [[2; 1; 1; 1]; [3; 9; 1; 1]; [2; 10; 22; 1]; [0; 6; 21; 25]]%Q 0%Q ;;
  x_C_1 <- lil_assign x_C x_Ones ;;
  x_C_2 <- t_mxm TyD noacc (mkSr qplus qtimes TyD) (MStruct x_Lower_1) MERGE x_C_1 (Trn x_mat) (Mat
    x_mat) ;;
  x_q <- meq x_C_2 x_answer ;;
  _ <- check x_q ;;
  x_answer2 <- mdense0 TyD [[2; 0; 0; 0]; [3; 9; 0; 0]; [2; 10; 22; 0]; [0; 6; 21; 25]]%Q 0%Q ;;
  x_C_3 <- lil_assign x_C_2 x_Ones ;;
  x_C_4 <- t_mxm TyD noacc (mkSr qplus qtimes TyD) (MStruct x_Lower_1) REPLACE x_C_3 (Trn x_mat)
    (Mat x_mat) ;;
  x_q_1 <- meq x_C_4 x_answer2 ;;
  _ <- check x_q_1 ;;
  Ok tt) = Ok tt.
Proof. vm_compute. reflexivity. Qed.

(** test_mxm_ATB.cpp:2968-3007, optimized_sequential platform *)
Example test_mxm_StructMask_NoAccum_ATB_ABdup_opt :
 (x_mat <- mdense0 TyD d_Symmetric_4x4 0%Q ;;
  x_Lower <- mdense0 TyD d_Lower_4x4 0%Q ;;
  x_Lower_1 <- lil_setElement x_Lower 2 0 (cast TyD 0%Q) ;;
  x_Ones <- mdense0 TyD d_Ones_4x4 0%Q ;;
  x_C <- mnew 4 4 ;;
  x_answer <- mdense0 TyD [[2; 1; 1; 1]; [3; 9; 1; 1]; [2; 10; 22; 1]; [0; 6; 21; 25]]%Q 0%Q ;;
  x_C_1 <- lil_assign x_C x_Ones ;;
  x_C_2 <- t_opt_mxm TyD noacc TyD (mkSr qplus qtimes TyD) (MStruct (Other x_Lower_1)) MERGE x_C_1
    (OTrn (Other x_mat)) (OMat (Other x_mat)) ;;
  x_q <- meq x_C_2 x_answer ;;
  _ <- check x_q ;;
  x_answer2 <- mdense0 TyD [[2; 0; 0; 0]; [3; 9; 0; 0]; [2; 10; 22; 0]; [0; 6; 21; 25]]%Q 0%Q ;;
  x_C_3 <- lil_assign x_C_2 x_Ones ;;
  x_C_4 <- t_opt_mxm TyD noacc TyD (mkSr qplus qtimes TyD) (MStruct (Other x_Lower_1)) REPLACE x_C_3
    (OTrn (Other x_mat)) (OMat (Other x_mat)) ;;
  x_q_1 <- meq x_C_4 x_answer2 ;;
  _ <- check x_q_1 ;;
  Ok tt) = Ok tt.
Proof. vm_compute. reflexivity. Qed.

(** test_mxm_ATB.cpp:3010-3049 *)
Example test_mxm_StructMask_NoAccum_ATB_ACdup :
 (x_mat <- mdense0 TyD d_Symmetric_4x4 0%Q ;;
  x_Lower <- mdense0 TyD d_Lower_4x4 0%Q ;;
  x_Lower_1 <- lil_setElement x_Lower 2 0 (cast TyD 0%Q) ;;
  x_Ones <- mdense0 TyD d_Ones_4x4 0%Q ;;
  x_C <- mnew 4 4 ;;
  x_answer <- mdense0 TyD [[2; 1; 0; 0]; [3; 9; 2; 0]; [2; 10; 22; 3]; [0; 6; 21; 25]]%Q 0%Q ;;
  x_C_1 <- lil_assign x_C x_mat ;;
  x_C_2 <- t_mxm TyD noacc (mkSr qplus qtimes TyD) (MStruct x_Lower_1) MERGE x_C_1 (Trn x_C_1) (Mat
    x_mat) ;;
  x_q <- meq x_C_2 x_answer ;;
  _ <- check x_q ;;
  x_answer2 <- mdense0 TyD [[2; 0; 0; 0]; [3; 9; 0; 0]; [2; 10; 22; 0]; [0; 6; 21; 25]]%Q 0%Q ;;
  x_C_3 <- lil_assign x_C_2 x_mat ;;
  x_C_4 <- t_mxm TyD noacc (mkSr qplus qtimes TyD) (MStruct x_Lower_1) REPLACE x_C_3 (Trn x_C_3)
    (Mat x_mat) ;;
  x_q_1 <- meq x_C_4 x_answer2 ;;
  _ <- check x_q_1 ;;
  Ok tt) = Ok tt.
Proof. vm_compute. reflexivity. Qed.

(** test_mxm_ATB.cpp:3010-3049, optimized_sequential platform *)
Example test_mxm_StructMask_NoAccum_ATB_ACdup_opt :
 (x_mat <- mdense0 TyD d_Symmetric_4x4 0%Q ;;
  x_Lower <- mdense0 TyD d_Lower_4x4 0%Q ;;
  x_Lower_1 <- lil_setElement x_Lower 2 0 (cast TyD 0%Q) ;;
  x_Ones <- mdense0 TyD d_Ones_4x4 0%Q ;;
  x_C <- mnew 4 4 ;;
  x_answer <- mdense0 TyD [[2; 1; 0; 0]; [3; 9; 2; 0]; [2; 10; 22; 3]; [0; 6; 21; 25]]%Q 0%Q ;;
  x_C_1 <- lil_assign x_C x_mat ;;
  x_C_2 <- t_opt_mxm TyD noacc TyD (mkSr qplus qtimes TyD) (MStruct (Other x_Lower_1)) MERGE x_C_1
    (OTrn (TheOutput (fun x => x))) (OMat (Other x_mat)) ;;
  x_q <- meq x_C_2 x_answer ;;
  _ <- check x_q ;;
  x_answer2 <- mdense0 TyD [[2; 0; 0; 0]; [3; 9; 0; 0]; [2; 10; 22; 0]; [0; 6; 21; 25]]%Q 0%Q ;;
  x_C_3 <- lil_assign x_C_2 x_mat ;;
  x_C_4 <- t_opt_mxm TyD noacc TyD (mkSr qplus qtimes TyD) (MStruct (Other x_Lower_1)) REPLACE x_C_3
    (OTrn (TheOutput (fun x => x))) (OMat (Other x_mat)) ;;
  x_q_1 <- meq x_C_4 x_answer2 ;;
  _ <- check x_q_1 ;;
  Ok tt) = Ok tt.
Proof. vm_compute. reflexivity. Qed.

(** test_mxm_ATB.cpp:3052-3100 *)
Example test_mxm_StructMask_NoAccum_ATB_BCdup :
 (x_mat <- mdense0 TyD d_Symmetric_4x4 0%Q ;;
  x_Lower <- mdense0 TyD d_Lower_4x4 0%Q ;;
  x_Lower_1 <- lil_setElement x_Lower 2 0 (cast TyD 0%Q) ;;
  x_Ones <- mdense0 TyD d_Ones_4x4 0%Q ;;
  x_C <- mnew 4 4 ;;
  x_answer <- mdense0 TyD [[2; 1; 0; 0]; [3; 9; 2; 0]; [2; 10; 22; 3]; [0; 6; 21; 25]]%Q 0%Q ;;
  x_C_1 <- lil_assign x_C x_mat ;;
  x_C_2 <- t_mxm TyD noacc (mkSr qplus qtimes TyD) (MStruct x_Lower_1) MERGE x_C_1 (Trn x_mat) (Mat
    x_C_1) ;;
  x_q <- meq x_C_2 x_answer ;;
  _ <- check x_q ;;
  x_C_3 <- lil_assign x_C_2 x_mat ;;
  x_C_4 <- t_mxm TyD noacc (mkSr qplus qtimes TyD) (MStruct x_Lower_1) MERGE x_C_3 (Trn x_mat) (Mat
    x_mat) ;;
  x_q_1 <- meq x_C_4 x_answer ;;
  _ <- check x_q_1 ;;
  x_answer2 <- mdense0 TyD [[2; 0; 0; 0]; [3; 9; 0; 0]; [2; 10; 22; 0]; [0; 6; 21; 25]]%Q 0%Q ;;
  x_C_5 <- lil_assign x_C_4 x_mat ;;
  x_C_6 <- t_mxm TyD noacc (mkSr qplus qtimes TyD) (MStruct x_Lower_1) REPLACE x_C_5 (Trn x_mat)
    (Mat x_C_5) ;;
  x_q_2 <- meq x_C_6 x_answer2 ;;
  _ <- check x_q_2 ;;
  Ok tt) = Ok tt.
Proof. vm_compute. reflexivity. Qed.

(** test_mxm_ATB.cpp:3052-3100, optimized_sequential platform *)
Example test_mxm_StructMask_NoAccum_ATB_BCdup_opt :
 (x_mat <- mdense0 TyD d_Symmetric_4x4 0%Q ;;
  x_Lower <- mdense0 TyD d_Lower_4x4 0%Q ;;
  x_Lower_1 <- lil_setElement x_Lower 2 0 (cast TyD 0%Q) ;;
  x_Ones <- mdense0 TyD d_Ones_4x4 0%Q ;;
  x_C <- mnew 4 4 ;;
  x_answer <- mdense0 TyD [[2; 1; 0; 0]; [3; 9; 2; 0]; [2; 10; 22; 3]; [0; 6; 21; 25]]%Q 0%Q ;;
  x_C_1 <- lil_assign x_C x_mat ;;
  x_C_2 <- t_opt_mxm TyD noacc TyD (mkSr qplus qtimes TyD) (MStruct (Other x_Lower_1)) MERGE x_C_1
    (OTrn (Other x_mat)) (OMat (TheOutput (fun x => x))) ;;
  x_q <- meq x_C_2 x_answer ;;
  _ <- check x_q ;;
  x_C_3 <- lil_assign x_C_2 x_mat ;;
  x_C_4 <- t_opt_mxm TyD noacc TyD (mkSr qplus qtimes TyD) (MStruct (Other x_Lower_1)) MERGE x_C_3
    (OTrn (Other x_mat)) (OMat (Other x_mat)) ;;
  x_q_1 <- meq x_C_4 x_answer ;;
  _ <- check x_q_1 ;;
  x_answer2 <- mdense0 TyD [[2; 0; 0; 0]; [3; 9; 0; 0]; [2; 10; 22; 0]; [0; 6; 21; 25]]%Q 0%Q ;;
  x_C_5 <- lil_assign x_C_4 x_mat ;;
  x_C_6 <- t_opt_mxm TyD noacc TyD (mkSr qplus qtimes TyD) (MStruct (Other x_Lower_1)) REPLACE x_C_5
    (OTrn (Other x_mat)) (OMat (TheOutput (fun x => x))) ;;
  x_q_2 <- meq x_C_6 x_answer2 ;;
  _ <- check x_q_2 ;;
  Ok tt) = Ok tt.
Proof. vm_compute. reflexivity. Qed.

(** test_mxm_ATB.cpp:3103-3141 *)
Example test_mxm_StructMask_NoAccum_ATB_MCdup :
 (x_mat <- mdense0 TyD d_Symmetric_4x4 0%Q ;;
  x_Lower <- mdense0 TyD d_Lower_4x4 0%Q ;;
  x_Lower_1 <- lil_setElement x_Lower 2 0 (cast TyD 0%Q) ;;
  x_C <- mnew 4 4 ;;
  x_answer <- mdense0 TyD [[2; 0; 0; 0]; [3; 9; 0; 0]; [2; 10; 22; 0]; [0; 6; 21; 25]]%Q 0%Q ;;
  x_C_1 <- lil_assign x_C x_Lower_1 ;;
  x_C_2 <- t_mxm TyD noacc (mkSr qplus qtimes TyD) (MStruct x_C_1) MERGE x_C_1 (Trn x_mat) (Mat
    x_mat) ;;
  x_q <- meq x_C_2 x_answer ;;
  _ <- check x_q ;;
  x_answer2 <- mdense0 TyD [[2; 0; 0; 0]; [3; 9; 0; 0]; [2; 10; 22; 0]; [0; 6; 21; 25]]%Q 0%Q ;;
  x_C_3 <- lil_assign x_C_2 x_Lower_1 ;;
  x_C_4 <- t_mxm TyD noacc (mkSr qplus qtimes TyD) (MStruct x_C_3) REPLACE x_C_3 (Trn x_mat) (Mat
    x_mat) ;;
  x_q_1 <- meq x_C_4 x_answer2 ;;
  _ <- check x_q_1 ;;
  Ok tt) = Ok tt.
Proof. vm_compute. reflexivity. Qed.

(** test_mxm_ATB.cpp:3103-3141, optimized_sequential platform *)
Example test_mxm_StructMask_NoAccum_ATB_MCdup_opt :
 (x_mat <- mdense0 TyD d_Symmetric_4x4 0%Q ;;
  x_Lower <- mdense0 TyD d_Lower_4x4 0%Q ;;
  x_Lower_1 <- lil_setElement x_Lower 2 0 (cast TyD 0%Q) ;;
  x_C <- mnew 4 4 ;;
  x_answer <- mdense0 TyD [[2; 0; 0; 0]; [3; 9; 0; 0]; [2; 10; 22; 0]; [0; 6; 21; 25]]%Q 0%Q ;;
  x_C_1 <- lil_assign x_C x_Lower_1 ;;
  x_C_2 <- t_opt_mxm TyD noacc TyD (mkSr qplus qtimes TyD) (MStruct (TheOutput (fun x => x))) MERGE
    x_C_1 (OTrn (Other x_mat)) (OMat (Other x_mat)) ;;
  x_q <- meq x_C_2 x_answer ;;
  _ <- check x_q ;;
  x_answer2 <- mdense0 TyD [[2; 0; 0; 0]; [3; 9; 0; 0]; [2; 10; 22; 0]; [0; 6; 21; 25]]%Q 0%Q ;;
  x_C_3 <- lil_assign x_C_2 x_Lower_1 ;;
  x_C_4 <- t_opt_mxm TyD noacc TyD (mkSr qplus qtimes TyD) (MStruct (TheOutput (fun x => x)))
    REPLACE x_C_3 (OTrn (Other x_mat)) (OMat (Other x_mat)) ;;
  x_q_1 <- meq x_C_4 x_answer2 ;;
  _ <- check x_q_1 ;;
  Ok tt) = Ok tt.
Proof. vm_compute. reflexivity. Qed.

(** test_mxm_ATB.cpp:3148-3248 *)
Example test_mxm_StructMask_Accum_ATB :
 (x_A <- mdense0 TyD d_AT_sparse_3x3 0%Q ;;
  x_AT <- mdense0 TyD d_A_sparse_3x3 0%Q ;;
  x_Identity <- mdense0 TyD d_Identity_3x3 0%Q ;;
  x_Empty <- mnew 3 3 ;;
  x_Ones <- mdense0 TyD d_Ones_3x3 0%Q ;;
  x_C <- mnew 3 3 ;;
  x_MLower <- mdense0 TyD d_Lower_3x3 0%Q ;;
  x_MLower_1 <- lil_setElement x_MLower 2 0 (cast TyD 0%Q) ;;
  x_MNotLower <- mdense0 TyD d_NotLower_3x3 0%Q ;;
  x_MNotLower_1 <- lil_setElement x_MNotLower 0 1 (cast TyD 0%Q) ;;
  x_AFilled <- mdense0 TyD [[12; 7; 1]; [1; (-5); 1]; [7; 1; 9]]%Q 0%Q ;;
  x_C_1 <- lil_assign x_C x_Ones ;;
  x_AT_1 <- lil_setElement x_AT 2 0 (cast TyD 0%Q) ;;
  x_C_2 <- t_mxm TyD (acc TyD qplus) (mkSr qplus qtimes TyD) (MStruct x_AT_1) MERGE x_C_1 (Trn x_A)
    (Mat x_Identity) ;;
  x_t <- mdense0 TyD [[13; 8; 1]; [1; (-4); 1]; [8; 1; 10]]%Q 0%Q ;;
  x_q <- meq x_C_2 x_t ;;
  _ <- check x_q ;;
  x_C_3 <- lil_assign x_C_2 x_Ones ;;
  x_C_4 <- t_mxm TyD (acc TyD qplus) (mkSr qplus qtimes TyD) (MStruct x_MLower_1) MERGE x_C_3 (Trn
    x_Ones) (Mat x_Identity) ;;
  x_t_1 <- mdense0 TyD [[2; 1; 1]; [2; 2; 1]; [2; 2; 2]]%Q 0%Q ;;
  x_q_1 <- meq x_C_4 x_t_1 ;;
  _ <- check x_q_1 ;;
  x_C_5 <- lil_assign x_C_4 x_Ones ;;
  x_C_6 <- t_mxm TyD (acc TyD qplus) (mkSr qplus qtimes TyD) (MStruct x_MNotLower_1) MERGE x_C_5
    (Trn x_Ones) (Mat x_Identity) ;;
  x_t_2 <- mdense0 TyD [[1; 2; 2]; [1; 1; 2]; [1; 1; 1]]%Q 0%Q ;;
  x_q_2 <- meq x_C_6 x_t_2 ;;
  _ <- check x_q_2 ;;
  x_C_7 <- lil_assign x_C_6 x_Ones ;;
  x_Ones_1 <- lil_setElement x_Ones 0 0 (cast TyD 0%Q) ;;
  x_C_8 <- t_mxm TyD (acc TyD qplus) (mkSr qplus qtimes TyD) (MStruct x_Ones_1) REPLACE x_C_7 (Trn
    x_A) (Mat x_Identity) ;;
  x_Ones_2 <- lil_setElement x_Ones_1 0 0 (cast TyD 1%Q) ;;
  x_t_3 <- mdense0 TyD [[13; 8; 1]; [1; (-4); 1]; [8; 1; 10]]%Q 0%Q ;;
  x_q_3 <- meq x_C_8 x_t_3 ;;
  _ <- check x_q_3 ;;
  x_C_9 <- lil_assign x_C_8 x_Ones_2 ;;
  x_C_10 <- t_mxm TyD (acc TyD qplus) (mkSr qplus qtimes TyD) (MStruct x_MLower_1) REPLACE x_C_9
    (Trn x_Ones_2) (Mat x_Identity) ;;
  x_t_4 <- mdense0 TyD [[2; 0; 0]; [2; 2; 0]; [2; 2; 2]]%Q 0%Q ;;
  x_q_4 <- meq x_C_10 x_t_4 ;;
  _ <- check x_q_4 ;;
  x_C_11 <- lil_assign x_C_10 x_Ones_2 ;;
  x_C_12 <- t_mxm TyD (acc TyD qplus) (mkSr qplus qtimes TyD) (MStruct x_MNotLower_1) REPLACE x_C_11
    (Trn x_Ones_2) (Mat x_Identity) ;;
  x_t_5 <- mdense0 TyD [[0; 2; 2]; [0; 0; 2]; [0; 0; 0]]%Q 0%Q ;;
  x_q_5 <- meq x_C_12 x_t_5 ;;
  _ <- check x_q_5 ;;
  Ok tt) = Ok tt.
Proof. vm_compute. reflexivity. Qed.

(** test_mxm_ATB.cpp:3148-3248, optimized_sequential platform *)
Example test_mxm_StructMask_Accum_ATB_opt :
 (x_A <- mdense0 TyD d_AT_sparse_3x3 0%Q ;;
  x_AT <- mdense0 TyD d_A_sparse_3x3 0%Q ;;
  x_Identity <- mdense0 TyD d_Identity_3x3 0%Q ;;
  x_Empty <- mnew 3 3 ;;
  x_Ones <- mdense0 TyD d_Ones_3x3 0%Q ;;
  x_C <- mnew 3 3 ;;
  x_MLower <- mdense0 TyD d_Lower_3x3 0%Q ;;
  x_MLower_1 <- lil_setElement x_MLower 2 0 (cast TyD 0%Q) ;;
  x_MNotLower <- mdense0 TyD d_NotLower_3x3 0%Q ;;
  x_MNotLower_1 <- lil_setElement x_MNotLower 0 1 (cast TyD 0%Q) ;;
  x_AFilled <- mdense0 TyD [[12; 7; 1]; [1; (-5); 1]; [7; 1; 9]]%Q 0%Q ;;
  x_C_1 <- lil_assign x_C x_Ones ;;
  x_AT_1 <- lil_setElement x_AT 2 0 (cast TyD 0%Q) ;;
  x_C_2 <- t_opt_mxm TyD (acc TyD qplus) TyD (mkSr qplus qtimes TyD) (MStruct (Other x_AT_1)) MERGE
    x_C_1 (OTrn (Other x_A)) (OMat (Other x_Identity)) ;;
  x_t <- mdense0 TyD [[13; 8; 1]; [1; (-4); 1]; [8; 1; 10]]%Q 0%Q ;;
  x_q <- meq x_C_2 x_t ;;
  _ <- check x_q ;;
  x_C_3 <- lil_assign x_C_2 x_Ones ;;
  x_C_4 <- t_opt_mxm TyD (acc TyD qplus) TyD (mkSr qplus qtimes TyD) (MStruct (Other x_MLower_1))
    MERGE x_C_3 (OTrn (Other x_Ones)) (OMat (Other x_Identity)) ;;
  x_t_1 <- mdense0 TyD [[2; 1; 1]; [2; 2; 1]; [2; 2; 2]]%Q 0%Q ;;
  x_q_1 <- meq x_C_4 x_t_1 ;;
  _ <- check x_q_1 ;;
  x_C_5 <- lil_assign x_C_4 x_Ones ;;
  x_C_6 <- t_opt_mxm TyD (acc TyD qplus) TyD (mkSr qplus qtimes TyD) (MStruct (Other x_MNotLower_1))
    MERGE x_C_5 (OTrn (Other x_Ones)) (OMat (Other x_Identity)) ;;
  x_t_2 <- mdense0 TyD [[1; 2; 2]; [1; 1; 2]; [1; 1; 1]]%Q 0%Q ;;
  x_q_2 <- meq x_C_6 x_t_2 ;;
  _ <- check x_q_2 ;;
  x_C_7 <- lil_assign x_C_6 x_Ones ;;
  x_Ones_1 <- lil_setElement x_Ones 0 0 (cast TyD 0%Q) ;;
  x_C_8 <- t_opt_mxm TyD (acc TyD qplus) TyD (mkSr qplus qtimes TyD) (MStruct (Other x_Ones_1))
    REPLACE x_C_7 (OTrn (Other x_A)) (OMat (Other x_Identity)) ;;
  x_Ones_2 <- lil_setElement x_Ones_1 0 0 (cast TyD 1%Q) ;;
  x_t_3 <- mdense0 TyD [[13; 8; 1]; [1; (-4); 1]; [8; 1; 10]]%Q 0%Q ;;
  x_q_3 <- meq x_C_8 x_t_3 ;;
  _ <- check x_q_3 ;;
  x_C_9 <- lil_assign x_C_8 x_Ones_2 ;;
  x_C_10 <- t_opt_mxm TyD (acc TyD qplus) TyD (mkSr qplus qtimes TyD) (MStruct (Other x_MLower_1))
    REPLACE x_C_9 (OTrn (Other x_Ones_2)) (OMat (Other x_Identity)) ;;
  x_t_4 <- mdense0 TyD [[2; 0; 0]; [2; 2; 0]; [2; 2; 2]]%Q 0%Q ;;
  x_q_4 <- meq x_C_10 x_t_4 ;;
  _ <- check x_q_4 ;;
  x_C_11 <- lil_assign x_C_10 x_Ones_2 ;;
  x_C_12 <- t_opt_mxm TyD (acc TyD qplus) TyD (mkSr qplus qtimes TyD) (MStruct (Other
    x_MNotLower_1)) REPLACE x_C_11 (OTrn (Other x_Ones_2)) (OMat (Other x_Identity)) ;;
  x_t_5 <- mdense0 TyD [[0; 2; 2]; [0; 0; 2]; [0; 0; 0]]%Q 0%Q ;;
  x_q_5 <- meq x_C_12 x_t_5 ;;
  _ <- check x_q_5 ;;
  Ok tt) = Ok tt.
Proof. vm_compute. reflexivity. Qed.

(** test_mxm_ATB.cpp:3251-3299 *)
Example test_mxm_StructMask_Accum_ATBMempty :
 (x_Empty <- mnew 3 3 ;;
  x_Ones <- mdense0 TyD d_Ones_3x3 0%Q ;;
  x_C <- mnew 3 3 ;;
  x_M <- mdense0 TyB d_LowerBool_3x3 0%Q ;;
  x_M_1 <- lil_setElement x_M 2 0 (cast TyB 0%Q) ;;
  x_C_1 <- lil_assign x_C x_Ones ;;
  x_C_2 <- t_mxm TyD (acc TyD qplus) (mkSr qplus qtimes TyD) (MStruct x_M_1) MERGE x_C_1 (Trn
    x_Empty) (Mat x_Ones) ;;
  x_q <- meq x_C_2 x_Ones ;;
  _ <- check x_q ;;
  x_C_3 <- lil_assign x_C_2 x_Ones ;;
  x_C_4 <- t_mxm TyD (acc TyD qplus) (mkSr qplus qtimes TyD) (MStruct x_M_1) MERGE x_C_3 (Trn
    x_Ones) (Mat x_Empty) ;;
  x_q_1 <- meq x_C_4 x_Ones ;;
  _ <- check x_q_1 ;;
  x_C_5 <- lil_assign x_C_4 x_Ones ;;
  x_C_6 <- t_mxm TyD (acc TyD qplus) (mkSr qplus qtimes TyD) (MStruct x_Empty) MERGE x_C_5 (Trn
    x_Ones) (Mat x_Ones) ;;
  x_q_2 <- meq x_C_6 x_Ones ;;
  _ <- check x_q_2 ;;
  x_C_7 <- lil_assign x_C_6 x_Ones ;;
  x_C_8 <- t_mxm TyD (acc TyD qplus) (mkSr qplus qtimes TyD) (MStruct x_M_1) REPLACE x_C_7 (Trn
    x_Empty) (Mat x_Ones) ;;
  x_t <- mdense0 TyD d_Lower_3x3 0%Q ;;
  x_q_3 <- meq x_C_8 x_t ;;
  _ <- check x_q_3 ;;
  x_C_9 <- lil_assign x_C_8 x_Ones ;;
  x_C_10 <- t_mxm TyD (acc TyD qplus) (mkSr qplus qtimes TyD) (MStruct x_M_1) REPLACE x_C_9 (Trn
    x_Ones) (Mat x_Empty) ;;
  x_t_1 <- mdense0 TyD d_Lower_3x3 0%Q ;;
  x_q_4 <- meq x_C_10 x_t_1 ;;
  _ <- check x_q_4 ;;
  x_C_11 <- lil_assign x_C_10 x_Ones ;;
  x_C_12 <- t_mxm TyD (acc TyD qplus) (mkSr qplus qtimes TyD) (MStruct x_Empty) REPLACE x_C_11 (Trn
    x_Ones) (Mat x_Empty) ;;
  x_q_5 <- meq x_C_12 x_Empty ;;
  _ <- check x_q_5 ;;
  Ok tt) = Ok tt.
Proof. vm_compute. reflexivity. Qed.

(** test_mxm_ATB.cpp:3251-3299, optimized_sequential platform *)
Example test_mxm_StructMask_Accum_ATBMempty_opt :
 (x_Empty <- mnew 3 3 ;;
  x_Ones <- mdense0 TyD d_Ones_3x3 0%Q ;;
  x_C <- mnew 3 3 ;;
  x_M <- mdense0 TyB d_LowerBool_3x3 0%Q ;;
  x_M_1 <- lil_setElement x_M 2 0 (cast TyB 0%Q) ;;
  x_C_1 <- lil_assign x_C x_Ones ;;
  x_C_2 <- t_opt_mxm TyD (acc TyD qplus) TyD (mkSr qplus qtimes TyD) (MStruct (Other x_M_1)) MERGE
    x_C_1 (OTrn (Other x_Empty)) (OMat (Other x_Ones)) ;;
  x_q <- meq x_C_2 x_Ones ;;
  _ <- check x_q ;;
  x_C_3 <- lil_assign x_C_2 x_Ones ;;
  x_C_4 <- t_opt_mxm TyD (acc TyD qplus) TyD (mkSr qplus qtimes TyD) (MStruct (Other x_M_1)) MERGE
    x_C_3 (OTrn (Other x_Ones)) (OMat (Other x_Empty)) ;;
  x_q_1 <- meq x_C_4 x_Ones ;;
  _ <- check x_q_1 ;;
  x_C_5 <- lil_assign x_C_4 x_Ones ;;
  x_C_6 <- t_opt_mxm TyD (acc TyD qplus) TyD (mkSr qplus qtimes TyD) (MStruct (Other x_Empty)) MERGE
    x_C_5 (OTrn (Other x_Ones)) (OMat (Other x_Ones)) ;;
  x_q_2 <- meq x_C_6 x_Ones ;;
  _ <- check x_q_2 ;;
  x_C_7 <- lil_assign x_C_6 x_Ones ;;
  x_C_8 <- t_opt_mxm TyD (acc TyD qplus) TyD (mkSr qplus qtimes TyD) (MStruct (Other x_M_1)) REPLACE
    x_C_7 (OTrn (Other x_Empty)) (OMat (Other x_Ones)) ;;
  x_t <- mdense0 TyD d_Lower_3x3 0%Q ;;
  x_q_3 <- meq x_C_8 x_t ;;
  _ <- check x_q_3 ;;
  x_C_9 <- lil_assign x_C_8 x_Ones ;;
  x_C_10 <- t_opt_mxm TyD (acc TyD qplus) TyD (mkSr qplus qtimes TyD) (MStruct (Other x_M_1))
    REPLACE x_C_9 (OTrn (Other x_Ones)) (OMat (Other x_Empty)) ;;
  x_t_1 <- mdense0 TyD d_Lower_3x3 0%Q ;;
  x_q_4 <- meq x_C_10 x_t_1 ;;
  _ <- check x_q_4 ;;
  x_C_11 <- lil_assign x_C_10 x_Ones ;;
  x_C_12 <- t_opt_mxm TyD (acc TyD qplus) TyD (mkSr qplus qtimes TyD) (MStruct (Other x_Empty))
    REPLACE x_C_11 (OTrn (Other x_Ones)) (OMat (Other x_Empty)) ;;
  x_q_5 <- meq x_C_12 x_Empty ;;
  _ <- check x_q_5 ;;
  Ok tt) = Ok tt.
Proof. vm_compute. reflexivity. Qed.

(** test_mxm_ATB.cpp:3302-3344 *)
Example test_mxm_StructMask_Accum_ATB_emptyRowA_emptyColB :
 (x_A <- mdense0 TyD [[8; 0; 4]; [1; 0; 9]; [6; 0; 2]]%Q 0%Q ;;
  x_B <- mdense0 TyD [[0; 0; 0; 1]; [1; 0; 1; 1]; [0; 0; 1; 1]]%Q 0%Q ;;
  x_Lower <- mdense0 TyD d_Lower_3x4 0%Q ;;
  x_Lower_1 <- lil_setElement x_Lower 2 0 (cast TyD 0%Q) ;;
  x_Ones <- mdense0 TyD d_Ones_3x4 0%Q ;;
  x_C <- mnew 3 4 ;;
  x_answer <- mdense0 TyD [[2; 0; 0; 0]; [1; 1; 0; 0]; [10; 1; 12; 0]]%Q 0%Q ;;
  x_C_1 <- lil_assign x_C x_Ones ;;
  x_C_2 <- t_mxm TyD (acc TyD qplus) (mkSr qplus qtimes TyD) (MStruct x_Lower_1) REPLACE x_C_1 (Trn
    x_A) (Mat x_B) ;;
  x_q <- meq x_C_2 x_answer ;;
  _ <- check x_q ;;
  x_answer2 <- mdense0 TyD [[2; 1; 1; 1]; [1; 1; 1; 1]; [10; 1; 12; 1]]%Q 0%Q ;;
  x_C_3 <- lil_assign x_C_2 x_Ones ;;
  x_C_4 <- t_mxm TyD (acc TyD qplus) (mkSr qplus qtimes TyD) (MStruct x_Lower_1) MERGE x_C_3 (Trn
    x_A) (Mat x_B) ;;
  x_q_1 <- meq x_C_4 x_answer2 ;;
  _ <- check x_q_1 ;;
  Ok tt) = Ok tt.
Proof. vm_compute. reflexivity. Qed.

(** test_mxm_ATB.cpp:3302-3344, optimized_sequential platform *)
Example test_mxm_StructMask_Accum_ATB_emptyRowA_emptyColB_opt :
 (x_A <- mdense0 TyD [[8; 0; 4]; [1; 0; 9]; [6; 0; 2]]%Q 0%Q ;;
  x_B <- mdense0 TyD [[0; 0; 0; 1]; [1; 0; 1; 1]; [0; 0; 1; 1]]%Q 0%Q ;;
  x_Lower <- mdense0 TyD d_Lower_3x4 0%Q ;;
  x_Lower_1 <- lil_setElement x_Lower 2 0 (cast TyD 0%Q) ;;
  x_Ones <- mdense0 TyD d_Ones_3x4 0%Q ;;
  x_C <- mnew 3 4 ;;
  x_answer <- mdense0 TyD [[2; 0; 0; 0]; [1; 1; 0; 0]; [10; 1; 12; 0]]%Q 0%Q ;;
  x_C_1 <- lil_assign x_C x_Ones ;;
  x_C_2 <- t_opt_mxm TyD (acc TyD qplus) TyD (mkSr qplus qtimes TyD) (MStruct (Other x_Lower_1))
    REPLACE x_C_1 (OTrn (Other x_A)) (OMat (Other x_B)) ;;
  x_q <- meq x_C_2 x_answer ;;
  _ <- check x_q ;;
  x_answer2 <- mdense0 TyD [[2; 1; 1; 1]; [1; 1; 1; 1]; [10; 1; 12; 1]]%Q 0%Q ;;
  x_C_3 <- lil_assign x_C_2 x_Ones ;;
  x_C_4 <- t_opt_mxm TyD (acc TyD qplus) TyD (mkSr qplus qtimes TyD) (MStruct (Other x_Lower_1))
    MERGE x_C_3 (OTrn (Other x_A)) (OMat (Other x_B)) ;;
  x_q_1 <- meq x_C_4 x_answer2 ;;
  _ <- check x_q_1 ;;
  Ok tt) = Ok tt.
Proof. vm_compute. reflexivity. Qed.

(** test_mxm_ATB.cpp:3347-3388 *)
Example test_mxm_StructMask_Accum_ATB_emptyColA_emptyRowB :
 (x_A <- mdense0 TyD [[8; 1; 4]; [0; 0; 0]; [6; 9; 2]]%Q 0%Q ;;
  x_B <- mdense0 TyD [[0; 1; 0; 1]; [1; 0; 1; 1]; [0; 0; 0; 0]]%Q 0%Q ;;
  x_Lower <- mdense0 TyD d_Lower_3x4 0%Q ;;
  x_Lower_1 <- lil_setElement x_Lower 2 0 (cast TyD 0%Q) ;;
  x_Ones <- mdense0 TyD d_Ones_3x4 0%Q ;;
  x_C <- mnew 3 4 ;;
  x_answer <- mdense0 TyD [[1; 0; 0; 0]; [1; 2; 0; 0]; [1; 5; 1; 0]]%Q 0%Q ;;
  x_C_1 <- lil_assign x_C x_Ones ;;
  x_C_2 <- t_mxm TyD (acc TyD qplus) (mkSr qplus qtimes TyD) (MStruct x_Lower_1) REPLACE x_C_1 (Trn
    x_A) (Mat x_B) ;;
  x_q <- meq x_C_2 x_answer ;;
  _ <- check x_q ;;
  x_answer2 <- mdense0 TyD [[1; 1; 1; 1]; [1; 2; 1; 1]; [1; 5; 1; 1]]%Q 0%Q ;;
  x_C_3 <- lil_assign x_C_2 x_Ones ;;
  x_C_4 <- t_mxm TyD (acc TyD qplus) (mkSr qplus qtimes TyD) (MStruct x_Lower_1) MERGE x_C_3 (Trn
    x_A) (Mat x_B) ;;
  x_q_1 <- meq x_C_4 x_answer2 ;;
  _ <- check x_q_1 ;;
  Ok tt) = Ok tt.
Proof. vm_compute. reflexivity. Qed.

(** test_mxm_ATB.cpp:3347-3388, optimized_sequential platform *)
Example test_mxm_StructMask_Accum_ATB_emptyColA_emptyRowB_opt :
 (x_A <- mdense0 TyD [[8; 1; 4]; [0; 0; 0]; [6; 9; 2]]%Q 0%Q ;;
  x_B <- mdense0 TyD [[0; 1; 0; 1]; [1; 0; 1; 1]; [0; 0; 0; 0]]%Q 0%Q ;;
  x_Lower <- mdense0 TyD d_Lower_3x4 0%Q ;;
  x_Lower_1 <- lil_setElement x_Lower 2 0 (cast TyD 0%Q) ;;
  x_Ones <- mdense0 TyD d_Ones_3x4 0%Q ;;
  x_C <- mnew 3 4 ;;
  x_answer <- mdense0 TyD [[1; 0; 0; 0]; [1; 2; 0; 0]; [1; 5; 1; 0]]%Q 0%Q ;;
  x_C_1 <- lil_assign x_C x_Ones ;;
  x_C_2 <- t_opt_mxm TyD (acc TyD qplus) TyD (mkSr qplus qtimes TyD) (MStruct (Other x_Lower_1))
    REPLACE x_C_1 (OTrn (Other x_A)) (OMat (Other x_B)) ;;
  x_q <- meq x_C_2 x_answer ;;
  _ <- check x_q ;;
  x_answer2 <- mdense0 TyD [[1; 1; 1; 1]; [1; 2; 1; 1]; [1; 5; 1; 1]]%Q 0%Q ;;
  x_C_3 <- lil_assign x_C_2 x_Ones ;;
  x_C_4 <- t_opt_mxm TyD (acc TyD qplus) TyD (mkSr qplus qtimes TyD) (MStruct (Other x_Lower_1))
    MERGE x_C_3 (OTrn (Other x_A)) (OMat (Other x_B)) ;;
  x_q_1 <- meq x_C_4 x_answer2 ;;
  _ <- check x_q_1 ;;
  Ok tt) = Ok tt.
Proof. vm_compute. reflexivity. Qed.

(** test_mxm_ATB.cpp:3391-3433 *)
Example test_mxm_StructMask_Accum_ATB_emptyRowM :
 (x_A <- mdense0 TyD [[8; 0; 4]; [1; 0; 9]; [6; 0; 2]]%Q 0%Q ;;
  x_B <- mdense0 TyD [[0; 1; 0]; [0; 0; 0]; [0; 1; 1]]%Q 0%Q ;;
  x_NotLower <- mdense0 TyD d_NotLower_3x3 0%Q ;;
  x_NotLower_1 <- lil_setElement x_NotLower 0 2 (cast TyD 0%Q) ;;
  x_Ones <- mdense0 TyD d_Ones_3x3 0%Q ;;
  x_C <- mnew 3 3 ;;
  x_answer <- mdense0 TyD [[0; 15; 7]; [0; 0; 1]; [0; 0; 0]]%Q 0%Q ;;
  x_C_1 <- lil_assign x_C x_Ones ;;
  x_C_2 <- t_mxm TyD (acc TyD qplus) (mkSr qplus qtimes TyD) (MStruct x_NotLower_1) REPLACE x_C_1
    (Trn x_A) (Mat x_B) ;;
  x_q <- meq x_C_2 x_answer ;;
  _ <- check x_q ;;
  x_answer2 <- mdense0 TyD [[1; 15; 7]; [1; 1; 1]; [1; 1; 1]]%Q 0%Q ;;
  x_C_3 <- lil_assign x_C_2 x_Ones ;;
  x_C_4 <- t_mxm TyD (acc TyD qplus) (mkSr qplus qtimes TyD) (MStruct x_NotLower_1) MERGE x_C_3 (Trn
    x_A) (Mat x_B) ;;
  x_q_1 <- meq x_C_4 x_answer2 ;;
  _ <- check x_q_1 ;;
  Ok tt) = Ok tt.
Proof. vm_compute. reflexivity. Qed.

(** test_mxm_ATB.cpp:3391-3433, optimized_sequential platform *)
Example test_mxm_StructMask_Accum_ATB_emptyRowM_opt :
 (x_A <- mdense0 TyD [[8; 0; 4]; [1; 0; 9]; [6; 0; 2]]%Q 0%Q ;;
  x_B <- mdense0 TyD [[0; 1; 0]; [0; 0; 0]; [0; 1; 1]]%Q 0%Q ;;
  x_NotLower <- mdense0 TyD d_NotLower_3x3 0%Q ;;
  x_NotLower_1 <- lil_setElement x_NotLower 0 2 (cast TyD 0%Q) ;;
  x_Ones <- mdense0 TyD d_Ones_3x3 0%Q ;;
  x_C <- mnew 3 3 ;;
  x_answer <- mdense0 TyD [[0; 15; 7]; [0; 0; 1]; [0; 0; 0]]%Q 0%Q ;;
  x_C_1 <- lil_assign x_C x_Ones ;;
  x_C_2 <- t_opt_mxm TyD (acc TyD qplus) TyD (mkSr qplus qtimes TyD) (MStruct (Other x_NotLower_1))
    REPLACE x_C_1 (OTrn (Other x_A)) (OMat (Other x_B)) ;;
  x_q <- meq x_C_2 x_answer ;;
  _ <- check x_q ;;
  x_answer2 <- mdense0 TyD [[1; 15; 7]; [1; 1; 1]; [1; 1; 1]]%Q 0%Q ;;
  x_C_3 <- lil_assign x_C_2 x_Ones ;;
  x_C_4 <- t_opt_mxm TyD (acc TyD qplus) TyD (mkSr qplus qtimes TyD) (MStruct (Other x_NotLower_1))
    MERGE x_C_3 (OTrn (Other x_A)) (OMat (Other x_B)) ;;
  x_q_1 <- meq x_C_4 x_answer2 ;;
  _ <- check x_q_1 ;;
  Ok tt) = Ok tt.
Proof. vm_compute. reflexivity. Qed.

(** test_mxm_ATB.cpp:3436-3475 *)
Example test_mxm_StructMask_Accum_ATB_ABdup :
 (x_mat <- mdense0 TyD d_Symmetric_4x4 0%Q ;;
  x_Lower <- mdense0 TyD d_Lower_4x4 0%Q ;;
  x_Lower_1 <- lil_setElement x_Lower 2 0 (cast TyD 0%Q) ;;
  x_Ones <- mdense0 TyD d_Ones_4x4 0%Q ;;
  x_C <- mnew 4 4 ;;
  x_answer <- mdense0 TyD [[3; 1; 1; 1]; [4; 10; 1; 1]; [3; 11; 23; 1]; [1; 7; 22; 26]]%Q 0%Q ;;
  x_C_1 <- lil_assign x_C x_Ones ;;
  x_C_2 <- t_mxm TyD (acc TyD qplus) (mkSr qplus qtimes TyD) (MStruct x_Lower_1) MERGE x_C_1 (Trn
    x_mat) (Mat x_mat) ;;
  x_q <- meq x_C_2 x_answer ;;
  _ <- check x_q ;;
  x_answer2 <- mdense0 TyD [[3; 0; 0; 0]; [4; 10; 0; 0]; [3; 11; 23; 0]; [1; 7; 22; 26]]%Q 0%Q ;;
  x_C_3 <- lil_assign x_C_2 x_Ones ;;
  x_C_4 <- t_mxm TyD (acc TyD qplus) (mkSr qplus qtimes TyD) (MStruct x_Lower_1) REPLACE x_C_3 (Trn
    x_mat) (Mat x_mat) ;;
  x_q_1 <- meq x_C_4 x_answer2 ;;
  _ <- check x_q_1 ;;
  Ok tt) = Ok tt.
Proof. vm_compute. reflexivity. Qed.

(** test_mxm_ATB.cpp:3436-3475, optimized_sequential platform *)
Example test_mxm_StructMask_Accum_ATB_ABdup_opt :
 (x_mat <- mdense0 TyD d_Symmetric_4x4 0%Q ;;
  x_Lower <- mdense0 TyD d_Lower_4x4 0%Q ;;
  x_Lower_1 <- lil_setElement x_Lower 2 0 (cast TyD 0%Q) ;;
  x_Ones <- mdense0 TyD d_Ones_4x4 0%Q ;;
  x_C <- mnew 4 4 ;;
  x_answer <- mdense0 TyD [[3; 1; 1; 1]; [4; 10; 1; 1]; [3; 11; 23; 1]; [1; 7; 22; 26]]%Q 0%Q ;;
  x_C_1 <- lil_assign x_C x_Ones ;;
  x_C_2 <- t_opt_mxm TyD (acc TyD qplus) TyD (mkSr qplus qtimes TyD) (MStruct (Other x_Lower_1))
    MERGE x_C_1 (OTrn (Other x_mat)) (OMat (Other x_mat)) ;;
  x_q <- meq x_C_2 x_answer ;;
  _ <- check x_q ;;
  x_answer2 <- mdense0 TyD [[3; 0; 0; 0]; [4; 10; 0; 0]; [3; 11; 23; 0]; [1; 7; 22; 26]]%Q 0%Q ;;
  x_C_3 <- lil_assign x_C_2 x_Ones ;;
  x_C_4 <- t_opt_mxm TyD (acc TyD qplus) TyD (mkSr qplus qtimes TyD) (MStruct (Other x_Lower_1))
    REPLACE x_C_3 (OTrn (Other x_mat)) (OMat (Other x_mat)) ;;
  x_q_1 <- meq x_C_4 x_answer2 ;;
  _ <- check x_q_1 ;;
  Ok tt) = Ok tt.
Proof. vm_compute. reflexivity. Qed.

(** test_mxm_ATB.cpp:3478-3518 *)
Example test_mxm_StructMask_Accum_ATB_ACdup :
 (x_mat <- mdense0 TyD d_Symmetric_4x4 0%Q ;;
  x_Lower <- mdense0 TyD d_Lower_4x4 0%Q ;;
  x_Lower_1 <- lil_setElement x_Lower 2 0 (cast TyD 0%Q) ;;
  x_Ones <- mdense0 TyD d_Ones_4x4 0%Q ;;
  x_C <- mnew 4 4 ;;
  x_answer <- mdense0 TyD [[3; 1; 0; 0]; [4; 11; 2; 0]; [2; 12; 25; 3]; [0; 6; 24; 29]]%Q 0%Q ;;
  x_C_1 <- lil_assign x_C x_mat ;;
  x_C_2 <- t_mxm TyD (acc TyD qplus) (mkSr qplus qtimes TyD) (MStruct x_Lower_1) MERGE x_C_1 (Trn
    x_C_1) (Mat x_mat) ;;
  x_q <- meq x_C_2 x_answer ;;
  _ <- check x_q ;;
  x_answer2 <- mdense0 TyD [[3; 0; 0; 0]; [4; 11; 0; 0]; [2; 12; 25; 0]; [0; 6; 24; 29]]%Q 0%Q ;;
  x_C_3 <- lil_assign x_C_2 x_mat ;;
  x_C_4 <- t_mxm TyD (acc TyD qplus) (mkSr qplus qtimes TyD) (MStruct x_Lower_1) REPLACE x_C_3 (Trn
    x_C_3) (Mat x_mat) ;;
  x_q_1 <- meq x_C_4 x_answer2 ;;
  _ <- check x_q_1 ;;
  Ok tt) = Ok tt.
Proof. vm_compute. reflexivity. Qed.

(** test_mxm_ATB.cpp:3478-3518, optimized_sequential platform *)
Example test_mxm_StructMask_Accum_ATB_ACdup_opt :
 (x_mat <- mdense0 TyD d_Symmetric_4x4 0%Q ;;
  x_Lower <- mdense0 TyD d_Lower_4x4 0%Q ;;
  x_Lower_1 <- lil_setElement x_Lower 2 0 (cast TyD 0%Q) ;;
  x_Ones <- mdense0 TyD d_Ones_4x4 0%Q ;;
  x_C <- mnew 4 4 ;;
  x_answer <- mdense0 TyD [[3; 1; 0; 0]; [4; 11; 2; 0]; [2; 12; 25; 3]; [0; 6; 24; 29]]%Q 0%Q ;;
  x_C_1 <- lil_assign x_C x_mat ;;
  x_C_2 <- t_opt_mxm TyD (acc TyD qplus) TyD (mkSr qplus qtimes TyD) (MStruct (Other x_Lower_1))
    MERGE x_C_1 (OTrn (TheOutput (fun x => x))) (OMat (Other x_mat)) ;;
  x_q <- meq x_C_2 x_answer ;;
  _ <- check x_q ;;
  x_answer2 <- mdense0 TyD [[3; 0; 0; 0]; [4; 11; 0; 0]; [2; 12; 25; 0]; [0; 6; 24; 29]]%Q 0%Q ;;
  x_C_3 <- lil_assign x_C_2 x_mat ;;
  x_C_4 <- t_opt_mxm TyD (acc TyD qplus) TyD (mkSr qplus qtimes TyD) (MStruct (Other x_Lower_1))
    REPLACE x_C_3 (OTrn (TheOutput (fun x => x))) (OMat (Other x_mat)) ;;
  x_q_1 <- meq x_C_4 x_answer2 ;;
  _ <- check x_q_1 ;;
  Ok tt) = Ok tt.
Proof. vm_compute. reflexivity. Qed.

(** test_mxm_ATB.cpp:3521-3569 *)
Example test_mxm_StructMask_Accum_ATB_BCdup :
 (x_mat <- mdense0 TyD d_Symmetric_4x4 0%Q ;;
  x_Lower <- mdense0 TyD d_Lower_4x4 0%Q ;;
  x_Lower_1 <- lil_setElement x_Lower 2 0 (cast TyD 0%Q) ;;
  x_Ones <- mdense0 TyD d_Ones_4x4 0%Q ;;
  x_C <- mnew 4 4 ;;
  x_answer <- mdense0 TyD [[3; 1; 0; 0]; [4; 11; 2; 0]; [2; 12; 25; 3]; [0; 6; 24; 29]]%Q 0%Q ;;
  x_C_1 <- lil_assign x_C x_mat ;;
  x_C_2 <- t_mxm TyD (acc TyD qplus) (mkSr qplus qtimes TyD) (MStruct x_Lower_1) MERGE x_C_1 (Trn
    x_mat) (Mat x_C_1) ;;
  x_q <- meq x_C_2 x_answer ;;
  _ <- check x_q ;;
  x_C_3 <- lil_assign x_C_2 x_mat ;;
  x_C_4 <- t_mxm TyD (acc TyD qplus) (mkSr qplus qtimes TyD) (MStruct x_Lower_1) MERGE x_C_3 (Trn
    x_mat) (Mat x_mat) ;;
  x_q_1 <- meq x_C_4 x_answer ;;
  _ <- check x_q_1 ;;
  x_answer2 <- mdense0 TyD [[3; 0; 0; 0]; [4; 11; 0; 0]; [2; 12; 25; 0]; [0; 6; 24; 29]]%Q 0%Q ;;
  x_C_5 <- lil_assign x_C_4 x_mat ;;
  x_C_6 <- t_mxm TyD (acc TyD qplus) (mkSr qplus qtimes TyD) (MStruct x_Lower_1) REPLACE x_C_5 (Trn
    x_mat) (Mat x_C_5) ;;
  x_q_2 <- meq x_C_6 x_answer2 ;;
  _ <- check x_q_2 ;;
  Ok tt) = Ok tt.
Proof. vm_compute. reflexivity. Qed.

(** test_mxm_ATB.cpp:3521-3569, optimized_sequential platform *)
Example test_mxm_StructMask_Accum_ATB_BCdup_opt :
 (x_mat <- mdense0 TyD d_Symmetric_4x4 0%Q ;;
  x_Lower <- mdense0 TyD d_Lower_4x4 0%Q ;;
  x_Lower_1 <- lil_setElement x_Lower 2 0 (cast TyD 0%Q) ;;
  x_Ones <- mdense0 TyD d_Ones_4x4 0%Q ;;
  x_C <- mnew 4 4 ;;
  x_answer <- mdense0 TyD [[3; 1; 0; 0]; [4; 11; 2; 0]; [2; 12; 25; 3]; [0; 6; 24; 29]]%Q 0%Q ;;
  x_C_1 <- lil_assign x_C x_mat ;;
  x_C_2 <- t_opt_mxm TyD (acc TyD qplus) TyD (mkSr qplus qtimes TyD) (MStruct (Other x_Lower_1))
    MERGE x_C_1 (OTrn (Other x_mat)) (OMat (TheOutput (fun x => x))) ;;
  x_q <- meq x_C_2 x_answer ;;
  _ <- check x_q ;;
  x_C_3 <- lil_assign x_C_2 x_mat ;;
  x_C_4 <- t_opt_mxm TyD (acc TyD qplus) TyD (mkSr qplus qtimes TyD) (MStruct (Other x_Lower_1))
    MERGE x_C_3 (OTrn (Other x_mat)) (OMat (Other x_mat)) ;;
  x_q_1 <- meq x_C_4 x_answer ;;
  _ <- check x_q_1 ;;
  x_answer2 <- mdense0 TyD [[3; 0; 0; 0]; [4; 11; 0; 0]; [2; 12; 25; 0]; [0; 6; 24; 29]]%Q 0%Q ;;
  x_C_5 <- lil_assign x_C_4 x_mat ;;
  x_C_6 <- t_opt_mxm TyD (acc TyD qplus) TyD (mkSr qplus qtimes TyD) (MStruct (Other x_Lower_1))
    REPLACE x_C_5 (OTrn (Other x_mat)) (OMat (TheOutput (fun x => x))) ;;
  x_q_2 <- meq x_C_6 x_answer2 ;;
  _ <- check x_q_2 ;;
  Ok tt) = Ok tt.
Proof. vm_compute. reflexivity. Qed.

(** test_mxm_ATB.cpp:3572-3610 *)
Example test_mxm_StructMask_Accum_ATB_MCdup :
 (x_mat <- mdense0 TyD d_Symmetric_4x4 0%Q ;;
  x_Lower <- mdense0 TyD d_Lower_4x4 0%Q ;;
  x_Lower_1 <- lil_setElement x_Lower 2 0 (cast TyD 0%Q) ;;
  x_C <- mnew 4 4 ;;
  x_answer <- mdense0 TyD [[3; 0; 0; 0]; [4; 10; 0; 0]; [2; 11; 23; 0]; [1; 7; 22; 26]]%Q 0%Q ;;
  x_C_1 <- lil_assign x_C x_Lower_1 ;;
  x_C_2 <- t_mxm TyD (acc TyD qplus) (mkSr qplus qtimes TyD) (MStruct x_C_1) MERGE x_C_1 (Trn x_mat)
    (Mat x_mat) ;;
  x_q <- meq x_C_2 x_answer ;;
  _ <- check x_q ;;
  x_answer2 <- mdense0 TyD [[3; 0; 0; 0]; [4; 10; 0; 0]; [2; 11; 23; 0]; [1; 7; 22; 26]]%Q 0%Q ;;
  x_C_3 <- lil_assign x_C_2 x_Lower_1 ;;
  x_C_4 <- t_mxm TyD (acc TyD qplus) (mkSr qplus qtimes TyD) (MStruct x_C_3) REPLACE x_C_3 (Trn
    x_mat) (Mat x_mat) ;;
  x_q_1 <- meq x_C_4 x_answer2 ;;
  _ <- check x_q_1 ;;
  Ok tt) = Ok tt.
Proof. vm_compute. reflexivity. Qed.

(** test_mxm_ATB.cpp:3572-3610, optimized_sequential platform *)
Example test_mxm_StructMask_Accum_ATB_MCdup_opt :
 (x_mat <- mdense0 TyD d_Symmetric_4x4 0%Q ;;
  x_Lower <- mdense0 TyD d_Lower_4x4 0%Q ;;
  x_Lower_1 <- lil_setElement x_Lower 2 0 (cast TyD 0%Q) ;;
  x_C <- mnew 4 4 ;;
  x_answer <- mdense0 TyD [[3; 0; 0; 0]; [4; 10; 0; 0]; [2; 11; 23; 0]; [1; 7; 22; 26]]%Q 0%Q ;;
  x_C_1 <- lil_assign x_C x_Lower_1 ;;
  x_C_2 <- t_opt_mxm TyD (acc TyD qplus) TyD (mkSr qplus qtimes TyD) (MStruct (TheOutput (fun x =>
    x))) MERGE x_C_1 (OTrn (Other x_mat)) (OMat (Other x_mat)) ;;
  x_q <- meq x_C_2 x_answer ;;
  _ <- check x_q ;;
  x_answer2 <- mdense0 TyD [[3; 0; 0; 0]; [4; 10; 0; 0]; [2; 11; 23; 0]; [1; 7; 22; 26]]%Q 0%Q ;;
  x_C_3 <- lil_assign x_C_2 x_Lower_1 ;;
  x_C_4 <- t_opt_mxm TyD (acc TyD qplus) TyD (mkSr qplus qtimes TyD) (MStruct (TheOutput (fun x =>
    x))) REPLACE x_C_3 (OTrn (Other x_mat)) (OMat (Other x_mat)) ;;
  x_q_1 <- meq x_C_4 x_answer2 ;;
  _ <- check x_q_1 ;;
  Ok tt) = Ok tt.
Proof. vm_compute. reflexivity. Qed.

(** test_mxm_ATB.cpp:3613-3636 *)
Example test_mxm_StructMask_Accum_ATB_Replace_lower_mask_result_ones :
 (x_A <- mdense0 TyD d_AT_dense_3x3 0%Q ;;
  x_B <- mdense0 TyD d_B_dense_3x4 0%Q ;;
  x_M <- mdense0 TyD d_LowerMask_3x4 0%Q ;;
  x_M_1 <- lil_setElement x_M 2 0 (cast TyD 0%Q) ;;
  _ <- check (Qeq_bool (inject_Z (nvals x_M_1)) 6%Q) ;;
  x_result <- mdense0 TyD d_Ones_3x4 0%Q ;;
  x_answer <- mdense0 TyD [[114; 0; 0; 0]; [74; 97; 0; 0]; [119; 157; 112; 0]]%Q 0%Q ;;
  x_result_1 <- t_mxm TyD (acc TyD qsecond) (mkSr qplus qtimes TyD) (MStruct x_M_1) REPLACE x_result
    (Trn x_A) (Mat x_B) ;;
  _ <- check (Qeq_bool (inject_Z (nvals x_result_1)) 6%Q) ;;
  x_q <- meq x_result_1 x_answer ;;
  _ <- check x_q ;;
  Ok tt) = Ok tt.
Proof. vm_compute. reflexivity. Qed.

(** test_mxm_ATB.cpp:3613-3636, optimized_sequential platform *)
Example test_mxm_StructMask_Accum_ATB_Replace_lower_mask_result_ones_opt :
 (x_A <- mdense0 TyD d_AT_dense_3x3 0%Q ;;
  x_B <- mdense0 TyD d_B_dense_3x4 0%Q ;;
  x_M <- mdense0 TyD d_LowerMask_3x4 0%Q ;;
  x_M_1 <- lil_setElement x_M 2 0 (cast TyD 0%Q) ;;
  _ <- check (Qeq_bool (inject_Z (nvals x_M_1)) 6%Q) ;;
  x_result <- mdense0 TyD d_Ones_3x4 0%Q ;;
  x_answer <- mdense0 TyD [[114; 0; 0; 0]; [74; 97; 0; 0]; [119; 157; 112; 0]]%Q 0%Q ;;
  x_result_1 <- t_opt_mxm TyD (acc TyD qsecond) TyD (mkSr qplus qtimes TyD) (MStruct (Other x_M_1))
    REPLACE x_result (OTrn (Other x_A)) (OMat (Other x_B)) ;;
  _ <- check (Qeq_bool (inject_Z (nvals x_result_1)) 6%Q) ;;
  x_q <- meq x_result_1 x_answer ;;
  _ <- check x_q ;;
  Ok tt) = Ok tt.
Proof. vm_compute. reflexivity. Qed.

(** test_mxm_ATB.cpp:3639-3662 *)
Example test_mxm_StructMask_Accum_ATB_Replace_bool_masked_result_ones :
 (x_A <- mdense0 TyD d_AT_dense_3x3 0%Q ;;
  x_B <- mdense0 TyD d_B_dense_3x4 0%Q ;;
  x_M <- mdense0 TyB d_LowerBool_3x4 0%Q ;;
  x_M_1 <- lil_setElement x_M 2 0 (cast TyB 0%Q) ;;
  _ <- check (Qeq_bool (inject_Z (nvals x_M_1)) 6%Q) ;;
  x_result <- mdense0 TyD d_Ones_3x4 0%Q ;;
  x_answer <- mdense0 TyD [[114; 0; 0; 0]; [74; 97; 0; 0]; [119; 157; 112; 0]]%Q 0%Q ;;
  x_result_1 <- t_mxm TyD (acc TyD qsecond) (mkSr qplus qtimes TyD) (MStruct x_M_1) REPLACE x_result
    (Trn x_A) (Mat x_B) ;;
  _ <- check (Qeq_bool (inject_Z (nvals x_result_1)) 6%Q) ;;
  x_q <- meq x_result_1 x_answer ;;
  _ <- check x_q ;;
  Ok tt) = Ok tt.
Proof. vm_compute. reflexivity. Qed.

(** test_mxm_ATB.cpp:3639-3662, optimized_sequential platform *)
Example test_mxm_StructMask_Accum_ATB_Replace_bool_masked_result_ones_opt :
 (x_A <- mdense0 TyD d_AT_dense_3x3 0%Q ;;
  x_B <- mdense0 TyD d_B_dense_3x4 0%Q ;;
  x_M <- mdense0 TyB d_LowerBool_3x4 0%Q ;;
  x_M_1 <- lil_setElement x_M 2 0 (cast TyB 0%Q) ;;
  _ <- check (Qeq_bool (inject_Z (nvals x_M_1)) 6%Q) ;;
  x_result <- mdense0 TyD d_Ones_3x4 0%Q ;;
  x_answer <- mdense0 TyD [[114; 0; 0; 0]; [74; 97; 0; 0]; [119; 157; 112; 0]]%Q 0%Q ;;
  x_result_1 <- t_opt_mxm TyD (acc TyD qsecond) TyD (mkSr qplus qtimes TyD) (MStruct (Other x_M_1))
    REPLACE x_result (OTrn (Other x_A)) (OMat (Other x_B)) ;;
  _ <- check (Qeq_bool (inject_Z (nvals x_result_1)) 6%Q) ;;
  x_q <- meq x_result_1 x_answer ;;
  _ <- check x_q ;;
  Ok tt) = Ok tt.
Proof. vm_compute. reflexivity. Qed.

(** test_mxm_ATB.cpp:3665-3690 *)
Example test_mxm_StructMask_Accum_ATB_Merge_Cones_Mlower :
 (x_A <- mdense0 TyD d_AT_dense_3x3 0%Q ;;
  x_B <- mdense0 TyD d_B_dense_3x4 0%Q ;;
  x_M <- mdense0 TyD [[1; 0; 0; 0]; [1; 1; 0; 0]; [1; 1; 1; 0]]%Q 0%Q ;;
  x_M_1 <- lil_setElement x_M 2 0 (cast TyD 0%Q) ;;
  _ <- check (Qeq_bool (inject_Z (nvals x_M_1)) 6%Q) ;;
  x_result <- mdense0 TyD d_Ones_3x4 0%Q ;;
  x_answer <- mdense0 TyD [[114; 1; 1; 1]; [74; 97; 1; 1]; [119; 157; 112; 1]]%Q 0%Q ;;
  x_result_1 <- t_mxm TyD (acc TyD qsecond) (mkSr qplus qtimes TyD) (MStruct x_M_1) MERGE x_result
    (Trn x_A) (Mat x_B) ;;
  _ <- check (Qeq_bool (inject_Z (nvals x_result_1)) 12%Q) ;;
  x_q <- meq x_result_1 x_answer ;;
  _ <- check x_q ;;
  Ok tt) = Ok tt.
Proof. vm_compute. reflexivity. Qed.

(** test_mxm_ATB.cpp:3665-3690, optimized_sequential platform *)
Example test_mxm_StructMask_Accum_ATB_Merge_Cones_Mlower_opt :
 (x_A <- mdense0 TyD d_AT_dense_3x3 0%Q ;;
  x_B <- mdense0 TyD d_B_dense_3x4 0%Q ;;
  x_M <- mdense0 TyD [[1; 0; 0; 0]; [1; 1; 0; 0]; [1; 1; 1; 0]]%Q 0%Q ;;
  x_M_1 <- lil_setElement x_M 2 0 (cast TyD 0%Q) ;;
  _ <- check (Qeq_bool (inject_Z (nvals x_M_1)) 6%Q) ;;
  x_result <- mdense0 TyD d_Ones_3x4 0%Q ;;
  x_answer <- mdense0 TyD [[114; 1; 1; 1]; [74; 97; 1; 1]; [119; 157; 112; 1]]%Q 0%Q ;;
  x_result_1 <- t_opt_mxm TyD (acc TyD qsecond) TyD (mkSr qplus qtimes TyD) (MStruct (Other x_M_1))
    MERGE x_result (OTrn (Other x_A)) (OMat (Other x_B)) ;;
  _ <- check (Qeq_bool (inject_Z (nvals x_result_1)) 12%Q) ;;
  x_q <- meq x_result_1 x_answer ;;
  _ <- check x_q ;;
  Ok tt) = Ok tt.
Proof. vm_compute. reflexivity. Qed.

(** test_mxm_ATB.cpp:3697-3790 *)
Example test_mxm_CompStructMask_NoAccum_ATB :
 (x_A <- mdense0 TyD d_A_sparse_3x3 0%Q ;;
  x_AT <- mdense0 TyD d_AT_sparse_3x3 0%Q ;;
  x_Identity <- mdense0 TyD d_Identity_3x3 0%Q ;;
  x_Empty <- mnew 3 3 ;;
  x_Ones <- mdense0 TyD d_Ones_3x3 0%Q ;;
  x_C <- mnew 3 3 ;;
  x_MLower <- mdense0 TyD d_Lower_3x3 0%Q ;;
  x_MLower_1 <- lil_setElement x_MLower 2 0 (cast TyD 0%Q) ;;
  x_MNotLower <- mdense0 TyD d_NotLower_3x3 0%Q ;;
  x_MNotLower_1 <- lil_setElement x_MNotLower 0 2 (cast TyD 0%Q) ;;
  x_NotAT <- mdense0 TyD [[0; 1; 0]; [0; 0; 1]; [1; 1; 0]]%Q 0%Q ;;
  x_NotAT_1 <- lil_setElement x_NotAT 0 1 (cast TyD 0%Q) ;;
  x_AFilled <- mdense0 TyD [[12; 1; 7]; [7; (-5); 1]; [1; 1; 9]]%Q 0%Q ;;
  x_C_1 <- lil_assign x_C x_Ones ;;
  x_Ones_1 <- lil_setElement x_Ones 0 0 (cast TyD 0%Q) ;;
  x_C_2 <- t_mxm TyD noacc (mkSr qplus qtimes TyD) (MSComp x_Ones_1) MERGE x_C_1 (Trn x_A) (Mat
    x_Identity) ;;
  x_Ones_2 <- lil_setElement x_Ones_1 0 0 (cast TyD 1%Q) ;;
  x_q <- meq x_C_2 x_Ones_2 ;;
  _ <- check x_q ;;
  x_C_3 <- lil_assign x_C_2 x_Ones_2 ;;
  x_C_4 <- t_mxm TyD noacc (mkSr qplus qtimes TyD) (MSComp x_Empty) MERGE x_C_3 (Trn x_A) (Mat
    x_Identity) ;;
  x_q_1 <- meq x_C_4 x_AT ;;
  _ <- check x_q_1 ;;
  x_C_5 <- lil_assign x_C_4 x_Ones_2 ;;
  x_C_6 <- t_mxm TyD noacc (mkSr qplus qtimes TyD) (MSComp x_NotAT_1) MERGE x_C_5 (Trn x_A) (Mat
    x_Identity) ;;
  x_q_2 <- meq x_C_6 x_AFilled ;;
  _ <- check x_q_2 ;;
  x_C_7 <- lil_assign x_C_6 x_Ones_2 ;;
  x_C_8 <- t_mxm TyD noacc (mkSr qplus qtimes TyD) (MSComp x_MNotLower_1) MERGE x_C_7 (Trn x_Ones_2)
    (Mat x_Identity) ;;
  x_q_3 <- meq x_C_8 x_Ones_2 ;;
  _ <- check x_q_3 ;;
  x_C_9 <- lil_assign x_C_8 x_Ones_2 ;;
  x_C_10 <- t_mxm TyD noacc (mkSr qplus qtimes TyD) (MSComp x_MLower_1) MERGE x_C_9 (Trn x_Ones_2)
    (Mat x_Identity) ;;
  x_q_4 <- meq x_C_10 x_Ones_2 ;;
  _ <- check x_q_4 ;;
  x_C_11 <- lil_assign x_C_10 x_Ones_2 ;;
  x_Ones_3 <- lil_setElement x_Ones_2 0 0 (cast TyD 0%Q) ;;
  x_C_12 <- t_mxm TyD noacc (mkSr qplus qtimes TyD) (MSComp x_Ones_3) REPLACE x_C_11 (Trn x_A) (Mat
    x_Identity) ;;
  x_q_5 <- meq x_C_12 x_Empty ;;
  _ <- check x_q_5 ;;
  x_Ones_4 <- lil_setElement x_Ones_3 0 0 (cast TyD 1%Q) ;;
  x_C_13 <- lil_assign x_C_12 x_Ones_4 ;;
  x_C_14 <- t_mxm TyD noacc (mkSr qplus qtimes TyD) (MSComp x_Empty) REPLACE x_C_13 (Trn x_A) (Mat
    x_Identity) ;;
  x_q_6 <- meq x_C_14 x_AT ;;
  _ <- check x_q_6 ;;
  x_C_15 <- lil_assign x_C_14 x_Ones_4 ;;
  x_C_16 <- t_mxm TyD noacc (mkSr qplus qtimes TyD) (MSComp x_MNotLower_1) REPLACE x_C_15 (Trn
    x_Ones_4) (Mat x_Identity) ;;
  x_MLower_2 <- lil_setElement x_MLower_1 2 0 (cast TyD 1%Q) ;;
  x_q_7 <- meq x_C_16 x_MLower_2 ;;
  _ <- check x_q_7 ;;
  x_C_17 <- lil_assign x_C_16 x_Ones_4 ;;
  x_C_18 <- t_mxm TyD noacc (mkSr qplus qtimes TyD) (MSComp x_MLower_2) REPLACE x_C_17 (Trn
    x_Ones_4) (Mat x_Identity) ;;
  x_MNotLower_2 <- lil_setElement x_MNotLower_1 0 2 (cast TyD 1%Q) ;;
  x_q_8 <- meq x_C_18 x_MNotLower_2 ;;
  _ <- check x_q_8 ;;
  Ok tt) = Ok tt.
Proof. vm_compute. reflexivity. Qed.

(** test_mxm_ATB.cpp:3697-3790, optimized_sequential platform *)
Example test_mxm_CompStructMask_NoAccum_ATB_opt :
 (x_A <- mdense0 TyD d_A_sparse_3x3 0%Q ;;
  x_AT <- mdense0 TyD d_AT_sparse_3x3 0%Q ;;
  x_Identity <- mdense0 TyD d_Identity_3x3 0%Q ;;
  x_Empty <- mnew 3 3 ;;
  x_Ones <- mdense0 TyD d_Ones_3x3 0%Q ;;
  x_C <- mnew 3 3 ;;
  x_MLower <- mdense0 TyD d_Lower_3x3 0%Q ;;
  x_MLower_1 <- lil_setElement x_MLower 2 0 (cast TyD 0%Q) ;;
  x_MNotLower <- mdense0 TyD d_NotLower_3x3 0%Q ;;
  x_MNotLower_1 <- lil_setElement x_MNotLower 0 2 (cast TyD 0%Q) ;;
  x_NotAT <- mdense0 TyD [[0; 1; 0]; [0; 0; 1]; [1; 1; 0]]%Q 0%Q ;;
  x_NotAT_1 <- lil_setElement x_NotAT 0 1 (cast TyD 0%Q) ;;
  x_AFilled <- mdense0 TyD [[12; 1; 7]; [7; (-5); 1]; [1; 1; 9]]%Q 0%Q ;;
  x_C_1 <- lil_assign x_C x_Ones ;;
  x_Ones_1 <- lil_setElement x_Ones 0 0 (cast TyD 0%Q) ;;
  x_C_2 <- t_opt_mxm TyD noacc TyD (mkSr qplus qtimes TyD) (MSComp (Other x_Ones_1)) MERGE x_C_1
    (OTrn (Other x_A)) (OMat (Other x_Identity)) ;;
  x_Ones_2 <- lil_setElement x_Ones_1 0 0 (cast TyD 1%Q) ;;
  x_q <- meq x_C_2 x_Ones_2 ;;
  _ <- check x_q ;;
  x_C_3 <- lil_assign x_C_2 x_Ones_2 ;;
  x_C_4 <- t_opt_mxm TyD noacc TyD (mkSr qplus qtimes TyD) (MSComp (Other x_Empty)) MERGE x_C_3
    (OTrn (Other x_A)) (OMat (Other x_Identity)) ;;
  x_q_1 <- meq x_C_4 x_AT ;;
  _ <- check x_q_1 ;;
  x_C_5 <- lil_assign x_C_4 x_Ones_2 ;;
  x_C_6 <- t_opt_mxm TyD noacc TyD (mkSr qplus qtimes TyD) (MSComp (Other x_NotAT_1)) MERGE x_C_5
    (OTrn (Other x_A)) (OMat (Other x_Identity)) ;;
  x_q_2 <- meq x_C_6 x_AFilled ;;
  _ <- check x_q_2 ;;
  x_C_7 <- lil_assign x_C_6 x_Ones_2 ;;
  x_C_8 <- t_opt_mxm TyD noacc TyD (mkSr qplus qtimes TyD) (MSComp (Other x_MNotLower_1)) MERGE
    x_C_7 (OTrn (Other x_Ones_2)) (OMat (Other x_Identity)) ;;
  x_q_3 <- meq x_C_8 x_Ones_2 ;;
  _ <- check x_q_3 ;;
  x_C_9 <- lil_assign x_C_8 x_Ones_2 ;;
  x_C_10 <- t_opt_mxm TyD noacc TyD (mkSr qplus qtimes TyD) (MSComp (Other x_MLower_1)) MERGE x_C_9
    (OTrn (Other x_Ones_2)) (OMat (Other x_Identity)) ;;
  x_q_4 <- meq x_C_10 x_Ones_2 ;;
  _ <- check x_q_4 ;;
  x_C_11 <- lil_assign x_C_10 x_Ones_2 ;;
  x_Ones_3 <- lil_setElement x_Ones_2 0 0 (cast TyD 0%Q) ;;
  x_C_12 <- t_opt_mxm TyD noacc TyD (mkSr qplus qtimes TyD) (MSComp (Other x_Ones_3)) REPLACE x_C_11
    (OTrn (Other x_A)) (OMat (Other x_Identity)) ;;
  x_q_5 <- meq x_C_12 x_Empty ;;
  _ <- check x_q_5 ;;
  x_Ones_4 <- lil_setElement x_Ones_3 0 0 (cast TyD 1%Q) ;;
  x_C_13 <- lil_assign x_C_12 x_Ones_4 ;;
  x_C_14 <- t_opt_mxm TyD noacc TyD (mkSr qplus qtimes TyD) (MSComp (Other x_Empty)) REPLACE x_C_13
    (OTrn (Other x_A)) (OMat (Other x_Identity)) ;;
  x_q_6 <- meq x_C_14 x_AT ;;
  _ <- check x_q_6 ;;
  x_C_15 <- lil_assign x_C_14 x_Ones_4 ;;
  x_C_16 <- t_opt_mxm TyD noacc TyD (mkSr qplus qtimes TyD) (MSComp (Other x_MNotLower_1)) REPLACE
    x_C_15 (OTrn (Other x_Ones_4)) (OMat (Other x_Identity)) ;;
  x_MLower_2 <- lil_setElement x_MLower_1 2 0 (cast TyD 1%Q) ;;
  x_q_7 <- meq x_C_16 x_MLower_2 ;;
  _ <- check x_q_7 ;;
  x_C_17 <- lil_assign x_C_16 x_Ones_4 ;;
  x_C_18 <- t_opt_mxm TyD noacc TyD (mkSr qplus qtimes TyD) (MSComp (Other x_MLower_2)) REPLACE
    x_C_17 (OTrn (Other x_Ones_4)) (OMat (Other x_Identity)) ;;
  x_MNotLower_2 <- lil_setElement x_MNotLower_1 0 2 (cast TyD 1%Q) ;;
  x_q_8 <- meq x_C_18 x_MNotLower_2 ;;
  _ <- check x_q_8 ;;
  Ok tt) = Ok tt.
Proof. vm_compute. reflexivity. Qed.

(** test_mxm_ATB.cpp:3793-3858 *)
Example test_mxm_CompStructMask_NoAccum_ATB_empty :
 (x_Empty <- mnew 3 3 ;;
  x_Ones <- mdense0 TyD d_Ones_3x3 0%Q ;;
  x_Identity <- mdense0 TyD d_Identity_3x3 0%Q ;;
  x_C <- mnew 3 3 ;;
  x_M <- mdense0 TyB d_LowerBool_3x3 0%Q ;;
  x_M_1 <- lil_setElement x_M 2 0 (cast TyB 0%Q) ;;
  x_mUpper <- mdense0 TyD d_NotLower_3x3 0%Q ;;
  x_mUpper_1 <- lil_setElement x_mUpper 0 2 (cast TyD 0%Q) ;;
  x_C_1 <- lil_assign x_C x_Ones ;;
  x_C_2 <- t_mxm TyD noacc (mkSr qplus qtimes TyD) (MSComp x_mUpper_1) MERGE x_C_1 (Trn x_Empty)
    (Mat x_Ones) ;;
  x_mUpper_2 <- lil_setElement x_mUpper_1 0 2 (cast TyD 1%Q) ;;
  x_q <- meq x_C_2 x_mUpper_2 ;;
  _ <- check x_q ;;
  x_C_3 <- lil_assign x_C_2 x_Ones ;;
  x_mUpper_3 <- lil_setElement x_mUpper_2 0 2 (cast TyD 0%Q) ;;
  x_C_4 <- t_mxm TyD noacc (mkSr qplus qtimes TyD) (MSComp x_mUpper_3) MERGE x_C_3 (Trn x_Ones) (Mat
    x_Empty) ;;
  x_mUpper_4 <- lil_setElement x_mUpper_3 0 2 (cast TyD 1%Q) ;;
  x_q_1 <- meq x_C_4 x_mUpper_4 ;;
  _ <- check x_q_1 ;;
  x_C_5 <- lil_assign x_C_4 x_Ones ;;
  x_C_6 <- t_mxm TyD noacc (mkSr qplus qtimes TyD) (MSComp x_Ones) MERGE x_C_5 (Trn x_Ones) (Mat
    x_Empty) ;;
  x_q_2 <- meq x_C_6 x_Ones ;;
  _ <- check x_q_2 ;;
  x_C_7 <- lil_assign x_C_6 x_Empty ;;
  x_C_8 <- t_mxm TyD noacc (mkSr qplus qtimes TyD) (MSComp x_Empty) MERGE x_C_7 (Trn x_Ones) (Mat
    x_Identity) ;;
  x_q_3 <- meq x_C_8 x_Ones ;;
  _ <- check x_q_3 ;;
  x_C_9 <- lil_assign x_C_8 x_Ones ;;
  x_C_10 <- t_mxm TyD noacc (mkSr qplus qtimes TyD) (MSComp x_mUpper_4) REPLACE x_C_9 (Trn x_Empty)
    (Mat x_Ones) ;;
  x_q_4 <- meq x_C_10 x_Empty ;;
  _ <- check x_q_4 ;;
  x_C_11 <- lil_assign x_C_10 x_Ones ;;
  x_C_12 <- t_mxm TyD noacc (mkSr qplus qtimes TyD) (MSComp x_mUpper_4) REPLACE x_C_11 (Trn x_Ones)
    (Mat x_Empty) ;;
  x_q_5 <- meq x_C_12 x_Empty ;;
  _ <- check x_q_5 ;;
  x_C_13 <- lil_assign x_C_12 x_Ones ;;
  x_C_14 <- t_mxm TyD noacc (mkSr qplus qtimes TyD) (MSComp x_Ones) REPLACE x_C_13 (Trn x_Ones) (Mat
    x_Empty) ;;
  x_q_6 <- meq x_C_14 x_Empty ;;
  _ <- check x_q_6 ;;
  x_C_15 <- lil_assign x_C_14 x_Empty ;;
  x_C_16 <- t_mxm TyD noacc (mkSr qplus qtimes TyD) (MSComp x_Empty) REPLACE x_C_15 (Trn x_Ones)
    (Mat x_Identity) ;;
  x_q_7 <- meq x_C_16 x_Ones ;;
  _ <- check x_q_7 ;;
  Ok tt) = Ok tt.
Proof. vm_compute. reflexivity. Qed.

(** test_mxm_ATB.cpp:3793-3858, optimized_sequential platform *)
Example test_mxm_CompStructMask_NoAccum_ATB_empty_opt :
 (x_Empty <- mnew 3 3 ;;
  x_Ones <- mdense0 TyD d_Ones_3x3 0%Q ;;
  x_Identity <- mdense0 TyD d_Identity_3x3 0%Q ;;
  x_C <- mnew 3 3 ;;
  x_M <- mdense0 TyB d_LowerBool_3x3 0%Q ;;
  x_M_1 <- lil_setElement x_M 2 0 (cast TyB 0%Q) ;;
  x_mUpper <- mdense0 TyD d_NotLower_3x3 0%Q ;;
  x_mUpper_1 <- lil_setElement x_mUpper 0 2 (cast TyD 0%Q) ;;
  x_C_1 <- lil_assign x_C x_Ones ;;
  x_C_2 <- t_opt_mxm TyD noacc TyD (mkSr qplus qtimes TyD) (MSComp (Other x_mUpper_1)) MERGE x_C_1
    (OTrn (Other x_Empty)) (OMat (Other x_Ones)) ;;
  x_mUpper_2 <- lil_setElement x_mUpper_1 0 2 (cast TyD 1%Q) ;;
  x_q <- meq x_C_2 x_mUpper_2 ;;
  _ <- check x_q ;;
  x_C_3 <- lil_assign x_C_2 x_Ones ;;
  x_mUpper_3 <- lil_setElement x_mUpper_2 0 2 (cast TyD 0%Q) ;;
  x_C_4 <- t_opt_mxm TyD noacc TyD (mkSr qplus qtimes TyD) (MSComp (Other x_mUpper_3)) MERGE x_C_3
    (OTrn (Other x_Ones)) (OMat (Other x_Empty)) ;;
  x_mUpper_4 <- lil_setElement x_mUpper_3 0 2 (cast TyD 1%Q) ;;
  x_q_1 <- meq x_C_4 x_mUpper_4 ;;
  _ <- check x_q_1 ;;
  x_C_5 <- lil_assign x_C_4 x_Ones ;;
  x_C_6 <- t_opt_mxm TyD noacc TyD (mkSr qplus qtimes TyD) (MSComp (Other x_Ones)) MERGE x_C_5 (OTrn
    (Other x_Ones)) (OMat (Other x_Empty)) ;;
  x_q_2 <- meq x_C_6 x_Ones ;;
  _ <- check x_q_2 ;;
  x_C_7 <- lil_assign x_C_6 x_Empty ;;
  x_C_8 <- t_opt_mxm TyD noacc TyD (mkSr qplus qtimes TyD) (MSComp (Other x_Empty)) MERGE x_C_7
    (OTrn (Other x_Ones)) (OMat (Other x_Identity)) ;;
  x_q_3 <- meq x_C_8 x_Ones ;;
  _ <- check x_q_3 ;;
  x_C_9 <- lil_assign x_C_8 x_Ones ;;
  x_C_10 <- t_opt_mxm TyD noacc TyD (mkSr qplus qtimes TyD) (MSComp (Other x_mUpper_4)) REPLACE
    x_C_9 (OTrn (Other x_Empty)) (OMat (Other x_Ones)) ;;
  x_q_4 <- meq x_C_10 x_Empty ;;
  _ <- check x_q_4 ;;
  x_C_11 <- lil_assign x_C_10 x_Ones ;;
  x_C_12 <- t_opt_mxm TyD noacc TyD (mkSr qplus qtimes TyD) (MSComp (Other x_mUpper_4)) REPLACE
    x_C_11 (OTrn (Other x_Ones)) (OMat (Other x_Empty)) ;;
  x_q_5 <- meq x_C_12 x_Empty ;;
  _ <- check x_q_5 ;;
  x_C_13 <- lil_assign x_C_12 x_Ones ;;
  x_C_14 <- t_opt_mxm TyD noacc TyD (mkSr qplus qtimes TyD) (MSComp (Other x_Ones)) REPLACE x_C_13
    (OTrn (Other x_Ones)) (OMat (Other x_Empty)) ;;
  x_q_6 <- meq x_C_14 x_Empty ;;
  _ <- check x_q_6 ;;
  x_C_15 <- lil_assign x_C_14 x_Empty ;;
  x_C_16 <- t_opt_mxm TyD noacc TyD (mkSr qplus qtimes TyD) (MSComp (Other x_Empty)) REPLACE x_C_15
    (OTrn (Other x_Ones)) (OMat (Other x_Identity)) ;;
  x_q_7 <- meq x_C_16 x_Ones ;;
  _ <- check x_q_7 ;;
  Ok tt) = Ok tt.
Proof. vm_compute. reflexivity. Qed.

(** test_mxm_ATB.cpp:3861-3903 *)
Example test_mxm_CompStructMask_NoAccum_ATB_emptyRowA_emptyColB :
 (x_A <- mdense0 TyD [[8; 0; 4]; [1; 0; 9]; [6; 0; 2]]%Q 0%Q ;;
  x_B <- mdense0 TyD [[0; 0; 0; 1]; [1; 0; 1; 1]; [0; 0; 1; 1]]%Q 0%Q ;;
  x_NotLower <- mdense0 TyD d_NotLower_3x4 0%Q ;;
  x_NotLower_1 <- lil_setElement x_NotLower 0 2 (cast TyD 0%Q) ;;
  x_Ones <- mdense0 TyD d_Ones_3x4 0%Q ;;
  x_C <- mnew 3 4 ;;
  x_answer <- mdense0 TyD [[1; 0; 0; 0]; [0; 0; 0; 0]; [9; 0; 11; 0]]%Q 0%Q ;;
  x_C_1 <- lil_assign x_C x_Ones ;;
  x_C_2 <- t_mxm TyD noacc (mkSr qplus qtimes TyD) (MSComp x_NotLower_1) REPLACE x_C_1 (Trn x_A)
    (Mat x_B) ;;
  x_q <- meq x_C_2 x_answer ;;
  _ <- check x_q ;;
  x_answer2 <- mdense0 TyD [[1; 1; 1; 1]; [0; 0; 1; 1]; [9; 0; 11; 1]]%Q 0%Q ;;
  x_C_3 <- lil_assign x_C_2 x_Ones ;;
  x_C_4 <- t_mxm TyD noacc (mkSr qplus qtimes TyD) (MSComp x_NotLower_1) MERGE x_C_3 (Trn x_A) (Mat
    x_B) ;;
  x_q_1 <- meq x_C_4 x_answer2 ;;
  _ <- check x_q_1 ;;
  Ok tt) = Ok tt.
Proof. vm_compute. reflexivity. Qed.

(** test_mxm_ATB.cpp:3861-3903, optimized_sequential platform *)
Example test_mxm_CompStructMask_NoAccum_ATB_emptyRowA_emptyColB_opt :
 (x_A <- mdense0 TyD [[8; 0; 4]; [1; 0; 9]; [6; 0; 2]]%Q 0%Q ;;
  x_B <- mdense0 TyD [[0; 0; 0; 1]; [1; 0; 1; 1]; [0; 0; 1; 1]]%Q 0%Q ;;
  x_NotLower <- mdense0 TyD d_NotLower_3x4 0%Q ;;
  x_NotLower_1 <- lil_setElement x_NotLower 0 2 (cast TyD 0%Q) ;;
  x_Ones <- mdense0 TyD d_Ones_3x4 0%Q ;;
  x_C <- mnew 3 4 ;;
  x_answer <- mdense0 TyD [[1; 0; 0; 0]; [0; 0; 0; 0]; [9; 0; 11; 0]]%Q 0%Q ;;
  x_C_1 <- lil_assign x_C x_Ones ;;
  x_C_2 <- t_opt_mxm TyD noacc TyD (mkSr qplus qtimes TyD) (MSComp (Other x_NotLower_1)) REPLACE
    x_C_1 (OTrn (Other x_A)) (OMat (Other x_B)) ;;
  x_q <- meq x_C_2 x_answer ;;
  _ <- check x_q ;;
  x_answer2 <- mdense0 TyD [[1; 1; 1; 1]; [0; 0; 1; 1]; [9; 0; 11; 1]]%Q 0%Q ;;
  x_C_3 <- lil_assign x_C_2 x_Ones ;;
  x_C_4 <- t_opt_mxm TyD noacc TyD (mkSr qplus qtimes TyD) (MSComp (Other x_NotLower_1)) MERGE x_C_3
    (OTrn (Other x_A)) (OMat (Other x_B)) ;;
  x_q_1 <- meq x_C_4 x_answer2 ;;
  _ <- check x_q_1 ;;
  Ok tt) = Ok tt.
Proof. vm_compute. reflexivity. Qed.

(** test_mxm_ATB.cpp:3906-3948 *)
Example test_mxm_CompStructMask_NoAccum_ATB_emptyColA_emptyRowB :
 (x_A <- mdense0 TyD [[8; 1; 4]; [0; 0; 0]; [6; 9; 2]]%Q 0%Q ;;
  x_B <- mdense0 TyD [[0; 1; 0; 1]; [1; 0; 1; 1]; [0; 0; 0; 0]]%Q 0%Q ;;
  x_NotLower <- mdense0 TyD d_NotLower_3x4 0%Q ;;
  x_NotLower_1 <- lil_setElement x_NotLower 0 2 (cast TyD 0%Q) ;;
  x_Ones <- mdense0 TyD d_Ones_3x4 0%Q ;;
  x_C <- mnew 3 4 ;;
  x_answer <- mdense0 TyD [[0; 0; 0; 0]; [0; 1; 0; 0]; [0; 4; 0; 0]]%Q 0%Q ;;
  x_C_1 <- lil_assign x_C x_Ones ;;
  x_C_2 <- t_mxm TyD noacc (mkSr qplus qtimes TyD) (MSComp x_NotLower_1) REPLACE x_C_1 (Trn x_A)
    (Mat x_B) ;;
  x_q <- meq x_C_2 x_answer ;;
  _ <- check x_q ;;
  x_answer2 <- mdense0 TyD [[0; 1; 1; 1]; [0; 1; 1; 1]; [0; 4; 0; 1]]%Q 0%Q ;;
  x_C_3 <- lil_assign x_C_2 x_Ones ;;
  x_C_4 <- t_mxm TyD noacc (mkSr qplus qtimes TyD) (MSComp x_NotLower_1) MERGE x_C_3 (Trn x_A) (Mat
    x_B) ;;
  x_q_1 <- meq x_C_4 x_answer2 ;;
  _ <- check x_q_1 ;;
  Ok tt) = Ok tt.
Proof. vm_compute. reflexivity. Qed.

(** test_mxm_ATB.cpp:3906-3948, optimized_sequential platform *)
Example test_mxm_CompStructMask_NoAccum_ATB_emptyColA_emptyRowB_opt :
 (x_A <- mdense0 TyD [[8; 1; 4]; [0; 0; 0]; [6; 9; 2]]%Q 0%Q ;;
  x_B <- mdense0 TyD [[0; 1; 0; 1]; [1; 0; 1; 1]; [0; 0; 0; 0]]%Q 0%Q ;;
  x_NotLower <- mdense0 TyD d_NotLower_3x4 0%Q ;;
  x_NotLower_1 <- lil_setElement x_NotLower 0 2 (cast TyD 0%Q) ;;
  x_Ones <- mdense0 TyD d_Ones_3x4 0%Q ;;
  x_C <- mnew 3 4 ;;
  x_answer <- mdense0 TyD [[0; 0; 0; 0]; [0; 1; 0; 0]; [0; 4; 0; 0]]%Q 0%Q ;;
  x_C_1 <- lil_assign x_C x_Ones ;;
  x_C_2 <- t_opt_mxm TyD noacc TyD (mkSr qplus qtimes TyD) (MSComp (Other x_NotLower_1)) REPLACE
    x_C_1 (OTrn (Other x_A)) (OMat (Other x_B)) ;;
  x_q <- meq x_C_2 x_answer ;;
  _ <- check x_q ;;
  x_answer2 <- mdense0 TyD [[0; 1; 1; 1]; [0; 1; 1; 1]; [0; 4; 0; 1]]%Q 0%Q ;;
  x_C_3 <- lil_assign x_C_2 x_Ones ;;
  x_C_4 <- t_opt_mxm TyD noacc TyD (mkSr qplus qtimes TyD) (MSComp (Other x_NotLower_1)) MERGE x_C_3
    (OTrn (Other x_A)) (OMat (Other x_B)) ;;
  x_q_1 <- meq x_C_4 x_answer2 ;;
  _ <- check x_q_1 ;;
  Ok tt) = Ok tt.
Proof. vm_compute. reflexivity. Qed.

(** test_mxm_ATB.cpp:3951-3993 *)
Example test_mxm_CompStructMask_NoAccum_ATB_emptyRowM :
 (x_A <- mdense0 TyD [[8; 0; 4]; [1; 0; 9]; [6; 0; 2]]%Q 0%Q ;;
  x_B <- mdense0 TyD [[0; 0; 0]; [1; 0; 1]; [0; 0; 1]]%Q 0%Q ;;
  x_Lower <- mdense0 TyD d_Lower_3x3 0%Q ;;
  x_Lower_1 <- lil_setElement x_Lower 2 0 (cast TyD 0%Q) ;;
  x_Ones <- mdense0 TyD d_Ones_3x3 0%Q ;;
  x_C <- mnew 3 3 ;;
  x_answer <- mdense0 TyD [[0; 0; 7]; [0; 0; 0]; [0; 0; 0]]%Q 0%Q ;;
  x_C_1 <- lil_assign x_C x_Ones ;;
  x_C_2 <- t_mxm TyD noacc (mkSr qplus qtimes TyD) (MSComp x_Lower_1) REPLACE x_C_1 (Trn x_A) (Mat
    x_B) ;;
  x_q <- meq x_C_2 x_answer ;;
  _ <- check x_q ;;
  x_answer2 <- mdense0 TyD [[1; 0; 7]; [1; 1; 0]; [1; 1; 1]]%Q 0%Q ;;
  x_C_3 <- lil_assign x_C_2 x_Ones ;;
  x_C_4 <- t_mxm TyD noacc (mkSr qplus qtimes TyD) (MSComp x_Lower_1) MERGE x_C_3 (Trn x_A) (Mat
    x_B) ;;
  x_q_1 <- meq x_C_4 x_answer2 ;;
  _ <- check x_q_1 ;;
  Ok tt) = Ok tt.
Proof. vm_compute. reflexivity. Qed.

(** test_mxm_ATB.cpp:3951-3993, optimized_sequential platform *)
Example test_mxm_CompStructMask_NoAccum_ATB_emptyRowM_opt :
 (x_A <- mdense0 TyD [[8; 0; 4]; [1; 0; 9]; [6; 0; 2]]%Q 0%Q ;;
  x_B <- mdense0 TyD [[0; 0; 0]; [1; 0; 1]; [0; 0; 1]]%Q 0%Q ;;
  x_Lower <- mdense0 TyD d_Lower_3x3 0%Q ;;
  x_Lower_1 <- lil_setElement x_Lower 2 0 (cast TyD 0%Q) ;;
  x_Ones <- mdense0 TyD d_Ones_3x3 0%Q ;;
  x_C <- mnew 3 3 ;;
  x_answer <- mdense0 TyD [[0; 0; 7]; [0; 0; 0]; [0; 0; 0]]%Q 0%Q ;;
  x_C_1 <- lil_assign x_C x_Ones ;;
  x_C_2 <- t_opt_mxm TyD noacc TyD (mkSr qplus qtimes TyD) (MSComp (Other x_Lower_1)) REPLACE x_C_1
    (OTrn (Other x_A)) (OMat (Other x_B)) ;;
  x_q <- meq x_C_2 x_answer ;;
  _ <- check x_q ;;
  x_answer2 <- mdense0 TyD [[1; 0; 7]; [1; 1; 0]; [1; 1; 1]]%Q 0%Q ;;
  x_C_3 <- lil_assign x_C_2 x_Ones ;;
  x_C_4 <- t_opt_mxm TyD noacc TyD (mkSr qplus qtimes TyD) (MSComp (Other x_Lower_1)) MERGE x_C_3
    (OTrn (Other x_A)) (OMat (Other x_B)) ;;
  x_q_1 <- meq x_C_4 x_answer2 ;;
  _ <- check x_q_1 ;;
  Ok tt) = Ok tt.
Proof. vm_compute. reflexivity. Qed.

(** test_mxm_ATB.cpp:3996-4035 *)
Example test_mxm_CompStructMask_NoAccum_ATB_ABdup :
 (x_mat <- mdense0 TyD d_Symmetric_4x4 0%Q ;;
  x_NotLower <- mdense0 TyD d_NotLower_4x4 0%Q ;;
  x_NotLower_1 <- lil_setElement x_NotLower 0 1 (cast TyD 0%Q) ;;
  x_Ones <- mdense0 TyD d_Ones_4x4 0%Q ;;
  x_C <- mnew 4 4 ;;
  x_answer <- mdense0 TyD [[2; 1; 1; 1]; [3; 9; 1; 1]; [2; 10; 22; 1]; [0; 6; 21; 25]]%Q 0%Q ;;
  x_C_1 <- lil_assign x_C x_Ones ;;
  x_C_2 <- t_mxm TyD noacc (mkSr qplus qtimes TyD) (MSComp x_NotLower_1) MERGE x_C_1 (Trn x_mat)
    (Mat x_mat) ;;
  x_q <- meq x_C_2 x_answer ;;
  _ <- check x_q ;;
  x_answer2 <- mdense0 TyD [[2; 0; 0; 0]; [3; 9; 0; 0]; [2; 10; 22; 0]; [0; 6; 21; 25]]%Q 0%Q ;;
  x_C_3 <- lil_assign x_C_2 x_Ones ;;
  x_C_4 <- t_mxm TyD noacc (mkSr qplus qtimes TyD) (MSComp x_NotLower_1) REPLACE x_C_3 (Trn x_mat)
    (Mat x_mat) ;;
  x_q_1 <- meq x_C_4 x_answer2 ;;
  _ <- check x_q_1 ;;
  Ok tt) = Ok tt.
Proof. vm_compute. reflexivity. Qed.

(** test_mxm_ATB.cpp:3996-4035, optimized_sequential platform *)
Example test_mxm_CompStructMask_NoAccum_ATB_ABdup_opt :
 (x_mat <- mdense0 TyD d_Symmetric_4x4 0%Q ;;
  x_NotLower <- mdense0 TyD d_NotLower_4x4 0%Q ;;
  x_NotLower_1 <- lil_setElement x_NotLower 0 1 (cast TyD 0%Q) ;;
  x_Ones <- mdense0 TyD d_Ones_4x4 0%Q ;;
  x_C <- mnew 4 4 ;;
  x_answer <- mdense0 TyD [[2; 1; 1; 1]; [3; 9; 1; 1]; [2; 10; 22; 1]; [0; 6; 21; 25]]%Q 0%Q ;;
  x_C_1 <- lil_assign x_C x_Ones ;;
  x_C_2 <- t_opt_mxm TyD noacc TyD (mkSr qplus qtimes TyD) (MSComp (Other x_NotLower_1)) MERGE x_C_1
    (OTrn (Other x_mat)) (OMat (Other x_mat)) ;;
  x_q <- meq x_C_2 x_answer ;;
  _ <- check x_q ;;
  x_answer2 <- mdense0 TyD [[2; 0; 0; 0]; [3; 9; 0; 0]; [2; 10; 22; 0]; [0; 6; 21; 25]]%Q 0%Q ;;
  x_C_3 <- lil_assign x_C_2 x_Ones ;;
  x_C_4 <- t_opt_mxm TyD noacc TyD (mkSr qplus qtimes TyD) (MSComp (Other x_NotLower_1)) REPLACE
    x_C_3 (OTrn (Other x_mat)) (OMat (Other x_mat)) ;;
  x_q_1 <- meq x_C_4 x_answer2 ;;
  _ <- check x_q_1 ;;
  Ok tt) = Ok tt.
Proof. vm_compute. reflexivity. Qed.

(** test_mxm_ATB.cpp:4038-4077 *)
Example test_mxm_CompStructMask_NoAccum_ATB_ACdup :
 (x_mat <- mdense0 TyD d_Symmetric_4x4 0%Q ;;
  x_NotLower <- mdense0 TyD d_NotLower_4x4 0%Q ;;
  x_NotLower_1 <- lil_setElement x_NotLower 0 1 (cast TyD 0%Q) ;;
  x_Ones <- mdense0 TyD d_Ones_4x4 0%Q ;;
  x_C <- mnew 4 4 ;;
  x_answer <- mdense0 TyD [[2; 1; 0; 0]; [3; 9; 2; 0]; [2; 10; 22; 3]; [0; 6; 21; 25]]%Q 0%Q ;;
  x_C_1 <- lil_assign x_C x_mat ;;
  x_C_2 <- t_mxm TyD noacc (mkSr qplus qtimes TyD) (MSComp x_NotLower_1) MERGE x_C_1 (Trn x_C_1)
    (Mat x_mat) ;;
  x_q <- meq x_C_2 x_answer ;;
  _ <- check x_q ;;
  x_answer2 <- mdense0 TyD [[2; 0; 0; 0]; [3; 9; 0; 0]; [2; 10; 22; 0]; [0; 6; 21; 25]]%Q 0%Q ;;
  x_C_3 <- lil_assign x_C_2 x_mat ;;
  x_C_4 <- t_mxm TyD noacc (mkSr qplus qtimes TyD) (MSComp x_NotLower_1) REPLACE x_C_3 (Trn x_C_3)
    (Mat x_mat) ;;
  x_q_1 <- meq x_C_4 x_answer2 ;;
  _ <- check x_q_1 ;;
  Ok tt) = Ok tt.
Proof. vm_compute. reflexivity. Qed.

(** test_mxm_ATB.cpp:4038-4077, optimized_sequential platform *)
Example test_mxm_CompStructMask_NoAccum_ATB_ACdup_opt :
 (x_mat <- mdense0 TyD d_Symmetric_4x4 0%Q ;;
  x_NotLower <- mdense0 TyD d_NotLower_4x4 0%Q ;;
  x_NotLower_1 <- lil_setElement x_NotLower 0 1 (cast TyD 0%Q) ;;
  x_Ones <- mdense0 TyD d_Ones_4x4 0%Q ;;
  x_C <- mnew 4 4 ;;
  x_answer <- mdense0 TyD [[2; 1; 0; 0]; [3; 9; 2; 0]; [2; 10; 22; 3]; [0; 6; 21; 25]]%Q 0%Q ;;
  x_C_1 <- lil_assign x_C x_mat ;;
  x_C_2 <- t_opt_mxm TyD noacc TyD (mkSr qplus qtimes TyD) (MSComp (Other x_NotLower_1)) MERGE x_C_1
    (OTrn (TheOutput (fun x => x))) (OMat (Other x_mat)) ;;
  x_q <- meq x_C_2 x_answer ;;
  _ <- check x_q ;;
  x_answer2 <- mdense0 TyD [[2; 0; 0; 0]; [3; 9; 0; 0]; [2; 10; 22; 0]; [0; 6; 21; 25]]%Q 0%Q ;;
  x_C_3 <- lil_assign x_C_2 x_mat ;;
  x_C_4 <- t_opt_mxm TyD noacc TyD (mkSr qplus qtimes TyD) (MSComp (Other x_NotLower_1)) REPLACE
    x_C_3 (OTrn (TheOutput (fun x => x))) (OMat (Other x_mat)) ;;
  x_q_1 <- meq x_C_4 x_answer2 ;;
  _ <- check x_q_1 ;;
  Ok tt) = Ok tt.
Proof. vm_compute. reflexivity. Qed.

(** test_mxm_ATB.cpp:4080-4128 *)
Example test_mxm_CompStructMask_NoAccum_ATB_BCdup :
 (x_mat <- mdense0 TyD d_Symmetric_4x4 0%Q ;;
  x_NotLower <- mdense0 TyD d_NotLower_4x4 0%Q ;;
  x_NotLower_1 <- lil_setElement x_NotLower 0 1 (cast TyD 0%Q) ;;
  x_Ones <- mdense0 TyD d_Ones_4x4 0%Q ;;
  x_C <- mnew 4 4 ;;
  x_answer <- mdense0 TyD [[2; 1; 0; 0]; [3; 9; 2; 0]; [2; 10; 22; 3]; [0; 6; 21; 25]]%Q 0%Q ;;
  x_C_1 <- lil_assign x_C x_mat ;;
  x_C_2 <- t_mxm TyD noacc (mkSr qplus qtimes TyD) (MSComp x_NotLower_1) MERGE x_C_1 (Trn x_mat)
    (Mat x_C_1) ;;
  x_q <- meq x_C_2 x_answer ;;
  _ <- check x_q ;;
  x_C_3 <- lil_assign x_C_2 x_mat ;;
  x_C_4 <- t_mxm TyD noacc (mkSr qplus qtimes TyD) (MSComp x_NotLower_1) MERGE x_C_3 (Trn x_mat)
    (Mat x_mat) ;;
  x_q_1 <- meq x_C_4 x_answer ;;
  _ <- check x_q_1 ;;
  x_answer2 <- mdense0 TyD [[2; 0; 0; 0]; [3; 9; 0; 0]; [2; 10; 22; 0]; [0; 6; 21; 25]]%Q 0%Q ;;
  x_C_5 <- lil_assign x_C_4 x_mat ;;
  x_C_6 <- t_mxm TyD noacc (mkSr qplus qtimes TyD) (MSComp x_NotLower_1) REPLACE x_C_5 (Trn x_mat)
    (Mat x_C_5) ;;
  x_q_2 <- meq x_C_6 x_answer2 ;;
  _ <- check x_q_2 ;;
  Ok tt) = Ok tt.
Proof. vm_compute. reflexivity. Qed.

(** test_mxm_ATB.cpp:4080-4128, optimized_sequential platform *)
Example test_mxm_CompStructMask_NoAccum_ATB_BCdup_opt :
 (x_mat <- mdense0 TyD d_Symmetric_4x4 0%Q ;;
  x_NotLower <- mdense0 TyD d_NotLower_4x4 0%Q ;;
  x_NotLower_1 <- lil_setElement x_NotLower 0 1 (cast TyD 0%Q) ;;
  x_Ones <- mdense0 TyD d_Ones_4x4 0%Q ;;
  x_C <- mnew 4 4 ;;
  x_answer <- mdense0 TyD [[2; 1; 0; 0]; [3; 9; 2; 0]; [2; 10; 22; 3]; [0; 6; 21; 25]]%Q 0%Q ;;
  x_C_1 <- lil_assign x_C x_mat ;;
  x_C_2 <- t_opt_mxm TyD noacc TyD (mkSr qplus qtimes TyD) (MSComp (Other x_NotLower_1)) MERGE x_C_1
    (OTrn (Other x_mat)) (OMat (TheOutput (fun x => x))) ;;
  x_q <- meq x_C_2 x_answer ;;
  _ <- check x_q ;;
  x_C_3 <- lil_assign x_C_2 x_mat ;;
  x_C_4 <- t_opt_mxm TyD noacc TyD (mkSr qplus qtimes TyD) (MSComp (Other x_NotLower_1)) MERGE x_C_3
    (OTrn (Other x_mat)) (OMat (Other x_mat)) ;;
  x_q_1 <- meq x_C_4 x_answer ;;
  _ <- check x_q_1 ;;
  x_answer2 <- mdense0 TyD [[2; 0; 0; 0]; [3; 9; 0; 0]; [2; 10; 22; 0]; [0; 6; 21; 25]]%Q 0%Q ;;
  x_C_5 <- lil_assign x_C_4 x_mat ;;
  x_C_6 <- t_opt_mxm TyD noacc TyD (mkSr qplus qtimes TyD) (MSComp (Other x_NotLower_1)) REPLACE
    x_C_5 (OTrn (Other x_mat)) (OMat (TheOutput (fun x => x))) ;;
  x_q_2 <- meq x_C_6 x_answer2 ;;
  _ <- check x_q_2 ;;
  Ok tt) = Ok tt.
Proof. vm_compute. reflexivity. Qed.

(** test_mxm_ATB.cpp:4131-4153 *)
Example test_mxm_CompStructMask_NoAccum_ATB_Replace_ABdup :
 (x_mat <- mdense0 TyD d_Symmetric_4x4 0%Q ;;
  x_result <- mdense0 TyD d_Ones_4x4 0%Q ;;
  x_answer <- mdense0 TyD [[2; 0; 0; 0]; [3; 9; 0; 0]; [2; 10; 22; 0]; [0; 6; 21; 25]]%Q 0%Q ;;
  x_M <- mdense0 TyD d_NotLower_4x4 0%Q ;;
  x_M_1 <- lil_setElement x_M 0 1 (cast TyD 0%Q) ;;
  x_result_1 <- t_mxm TyD noacc (mkSr qplus qtimes TyD) (MSComp x_M_1) REPLACE x_result (Trn x_mat)
    (Mat x_mat) ;;
  x_q <- meq x_result_1 x_answer ;;
  _ <- check x_q ;;
  Ok tt) = Ok tt.
Proof. vm_compute. reflexivity. Qed.

(** test_mxm_ATB.cpp:4131-4153, optimized_sequential platform *)
Example test_mxm_CompStructMask_NoAccum_ATB_Replace_ABdup_opt :
 (x_mat <- mdense0 TyD d_Symmetric_4x4 0%Q ;;
  x_result <- mdense0 TyD d_Ones_4x4 0%Q ;;
  x_answer <- mdense0 TyD [[2; 0; 0; 0]; [3; 9; 0; 0]; [2; 10; 22; 0]; [0; 6; 21; 25]]%Q 0%Q ;;
  x_M <- mdense0 TyD d_NotLower_4x4 0%Q ;;
  x_M_1 <- lil_setElement x_M 0 1 (cast TyD 0%Q) ;;
  x_result_1 <- t_opt_mxm TyD noacc TyD (mkSr qplus qtimes TyD) (MSComp (Other x_M_1)) REPLACE
    x_result (OTrn (Other x_mat)) (OMat (Other x_mat)) ;;
  x_q <- meq x_result_1 x_answer ;;
  _ <- check x_q ;;
  Ok tt) = Ok tt.
Proof. vm_compute. reflexivity. Qed.

(** test_mxm_ATB.cpp:4160-4281 *)
Example test_mxm_CompStructMask_Accum_ATB :
 (x_A <- mdense0 TyD d_AT_sparse_3x3 0%Q ;;
  x_Identity <- mdense0 TyD d_Identity_3x3 0%Q ;;
  x_Empty <- mnew 3 3 ;;
  x_Ones <- mdense0 TyD d_Ones_3x3 0%Q ;;
  x_C <- mnew 3 3 ;;
  x_MLower <- mdense0 TyD d_Lower_3x3 0%Q ;;
  x_MLower_1 <- lil_setElement x_MLower 2 0 (cast TyD 0%Q) ;;
  x_MNotLower <- mdense0 TyD d_NotLower_3x3 0%Q ;;
  x_MNotLower_1 <- lil_setElement x_MNotLower 0 2 (cast TyD 0%Q) ;;
  x_AFilled <- mdense0 TyD [[12; 7; 1]; [1; (-5); 1]; [7; 1; 9]]%Q 0%Q ;;
  x_NotA <- mdense0 TyD [[0; 0; 1]; [1; 0; 1]; [0; 1; 0]]%Q 0%Q ;;
  x_NotA_1 <- lil_setElement x_NotA 1 0 (cast TyD 0%Q) ;;
  x_C_1 <- lil_assign x_C x_Ones ;;
  x_Ones_1 <- lil_setElement x_Ones 0 0 (cast TyD 0%Q) ;;
  x_C_2 <- t_mxm TyD (acc TyD qplus) (mkSr qplus qtimes TyD) (MSComp x_Ones_1) MERGE x_C_1 (Trn x_A)
    (Mat x_Identity) ;;
  x_Ones_2 <- lil_setElement x_Ones_1 0 0 (cast TyD 1%Q) ;;
  x_q <- meq x_C_2 x_Ones_2 ;;
  _ <- check x_q ;;
  x_C_3 <- lil_assign x_C_2 x_Ones_2 ;;
  x_C_4 <- t_mxm TyD (acc TyD qplus) (mkSr qplus qtimes TyD) (MSComp x_NotA_1) MERGE x_C_3 (Trn x_A)
    (Mat x_Identity) ;;
  x_t <- mdense0 TyD [[13; 8; 1]; [1; (-4); 1]; [8; 1; 10]]%Q 0%Q ;;
  x_q_1 <- meq x_C_4 x_t ;;
  _ <- check x_q_1 ;;
  x_C_5 <- lil_assign x_C_4 x_Ones_2 ;;
  x_C_6 <- t_mxm TyD (acc TyD qplus) (mkSr qplus qtimes TyD) (MSComp x_MNotLower_1) MERGE x_C_5 (Trn
    x_Ones_2) (Mat x_Identity) ;;
  x_t_1 <- mdense0 TyD [[2; 1; 1]; [2; 2; 1]; [2; 2; 2]]%Q 0%Q ;;
  x_q_2 <- meq x_C_6 x_t_1 ;;
  _ <- check x_q_2 ;;
  x_C_7 <- lil_assign x_C_6 x_Ones_2 ;;
  x_C_8 <- t_mxm TyD (acc TyD qplus) (mkSr qplus qtimes TyD) (MSComp x_MLower_1) MERGE x_C_7 (Trn
    x_Ones_2) (Mat x_Identity) ;;
  x_t_2 <- mdense0 TyD [[1; 2; 2]; [1; 1; 2]; [1; 1; 1]]%Q 0%Q ;;
  x_q_3 <- meq x_C_8 x_t_2 ;;
  _ <- check x_q_3 ;;
  x_C_9 <- lil_assign x_C_8 x_Ones_2 ;;
  x_Ones_3 <- lil_setElement x_Ones_2 0 0 (cast TyD 0%Q) ;;
  x_C_10 <- t_mxm TyD (acc TyD qplus) (mkSr qplus qtimes TyD) (MSComp x_Ones_3) REPLACE x_C_9 (Trn
    x_A) (Mat x_Identity) ;;
  x_Ones_4 <- lil_setElement x_Ones_3 0 0 (cast TyD 1%Q) ;;
  x_q_4 <- meq x_C_10 x_Empty ;;
  _ <- check x_q_4 ;;
  x_C_11 <- lil_assign x_C_10 x_Ones_4 ;;
  x_C_12 <- t_mxm TyD (acc TyD qplus) (mkSr qplus qtimes TyD) (MSComp x_Empty) REPLACE x_C_11 (Trn
    x_A) (Mat x_Identity) ;;
  x_t_3 <- mdense0 TyD [[13; 8; 1]; [1; (-4); 1]; [8; 1; 10]]%Q 0%Q ;;
  x_q_5 <- meq x_C_12 x_t_3 ;;
  _ <- check x_q_5 ;;
  x_C_13 <- lil_assign x_C_12 x_Ones_4 ;;
  x_C_14 <- t_mxm TyD (acc TyD qplus) (mkSr qplus qtimes TyD) (MSComp x_MNotLower_1) REPLACE x_C_13
    (Trn x_Ones_4) (Mat x_Identity) ;;
  x_t_4 <- mdense0 TyD [[2; 0; 0]; [2; 2; 0]; [2; 2; 2]]%Q 0%Q ;;
  x_q_6 <- meq x_C_14 x_t_4 ;;
  _ <- check x_q_6 ;;
  x_C_15 <- lil_assign x_C_14 x_Ones_4 ;;
  x_C_16 <- t_mxm TyD (acc TyD qplus) (mkSr qplus qtimes TyD) (MSComp x_MLower_1) REPLACE x_C_15
    (Trn x_Ones_4) (Mat x_Identity) ;;
  x_t_5 <- mdense0 TyD [[0; 2; 2]; [0; 0; 2]; [0; 0; 0]]%Q 0%Q ;;
  x_q_7 <- meq x_C_16 x_t_5 ;;
  _ <- check x_q_7 ;;
  Ok tt) = Ok tt.
Proof. vm_compute. reflexivity. Qed.

(** test_mxm_ATB.cpp:4160-4281, optimized_sequential platform *)
Example test_mxm_CompStructMask_Accum_ATB_opt :
 (x_A <- mdense0 TyD d_AT_sparse_3x3 0%Q ;;
  x_Identity <- mdense0 TyD d_Identity_3x3 0%Q ;;
  x_Empty <- mnew 3 3 ;;
  x_Ones <- mdense0 TyD d_Ones_3x3 0%Q ;;
  x_C <- mnew 3 3 ;;
  x_MLower <- mdense0 TyD d_Lower_3x3 0%Q ;;
  x_MLower_1 <- lil_setElement x_MLower 2 0 (cast TyD 0%Q) ;;
  x_MNotLower <- mdense0 TyD d_NotLower_3x3 0%Q ;;
  x_MNotLower_1 <- lil_setElement x_MNotLower 0 2 (cast TyD 0%Q) ;;
  x_AFilled <- mdense0 TyD [[12; 7; 1]; [1; (-5); 1]; [7; 1; 9]]%Q 0%Q ;;
  x_NotA <- mdense0 TyD [[0; 0; 1]; [1; 0; 1]; [0; 1; 0]]%Q 0%Q ;;
  x_NotA_1 <- lil_setElement x_NotA 1 0 (cast TyD 0%Q) ;;
  x_C_1 <- lil_assign x_C x_Ones ;;
  x_Ones_1 <- lil_setElement x_Ones 0 0 (cast TyD 0%Q) ;;
  x_C_2 <- t_opt_mxm TyD (acc TyD qplus) TyD (mkSr qplus qtimes TyD) (MSComp (Other x_Ones_1)) MERGE
    x_C_1 (OTrn (Other x_A)) (OMat (Other x_Identity)) ;;
  x_Ones_2 <- lil_setElement x_Ones_1 0 0 (cast TyD 1%Q) ;;
  x_q <- meq x_C_2 x_Ones_2 ;;
  _ <- check x_q ;;
  x_C_3 <- lil_assign x_C_2 x_Ones_2 ;;
  x_C_4 <- t_opt_mxm TyD (acc TyD qplus) TyD (mkSr qplus qtimes TyD) (MSComp (Other x_NotA_1)) MERGE
    x_C_3 (OTrn (Other x_A)) (OMat (Other x_Identity)) ;;
  x_t <- mdense0 TyD [[13; 8; 1]; [1; (-4); 1]; [8; 1; 10]]%Q 0%Q ;;
  x_q_1 <- meq x_C_4 x_t ;;
  _ <- check x_q_1 ;;
  x_C_5 <- lil_assign x_C_4 x_Ones_2 ;;
  x_C_6 <- t_opt_mxm TyD (acc TyD qplus) TyD (mkSr qplus qtimes TyD) (MSComp (Other x_MNotLower_1))
    MERGE x_C_5 (OTrn (Other x_Ones_2)) (OMat (Other x_Identity)) ;;
  x_t_1 <- mdense0 TyD [[2; 1; 1]; [2; 2; 1]; [2; 2; 2]]%Q 0%Q ;;
  x_q_2 <- meq x_C_6 x_t_1 ;;
  _ <- check x_q_2 ;;
  x_C_7 <- lil_assign x_C_6 x_Ones_2 ;;
  x_C_8 <- t_opt_mxm TyD (acc TyD qplus) TyD (mkSr qplus qtimes TyD) (MSComp (Other x_MLower_1))
    MERGE x_C_7 (OTrn (Other x_Ones_2)) (OMat (Other x_Identity)) ;;
  x_t_2 <- mdense0 TyD [[1; 2; 2]; [1; 1; 2]; [1; 1; 1]]%Q 0%Q ;;
  x_q_3 <- meq x_C_8 x_t_2 ;;
  _ <- check x_q_3 ;;
  x_C_9 <- lil_assign x_C_8 x_Ones_2 ;;
  x_Ones_3 <- lil_setElement x_Ones_2 0 0 (cast TyD 0%Q) ;;
  x_C_10 <- t_opt_mxm TyD (acc TyD qplus) TyD (mkSr qplus qtimes TyD) (MSComp (Other x_Ones_3))
    REPLACE x_C_9 (OTrn (Other x_A)) (OMat (Other x_Identity)) ;;
  x_Ones_4 <- lil_setElement x_Ones_3 0 0 (cast TyD 1%Q) ;;
  x_q_4 <- meq x_C_10 x_Empty ;;
  _ <- check x_q_4 ;;
  x_C_11 <- lil_assign x_C_10 x_Ones_4 ;;
  x_C_12 <- t_opt_mxm TyD (acc TyD qplus) TyD (mkSr qplus qtimes TyD) (MSComp (Other x_Empty))
    REPLACE x_C_11 (OTrn (Other x_A)) (OMat (Other x_Identity)) ;;
  x_t_3 <- mdense0 TyD [[13; 8; 1]; [1; (-4); 1]; [8; 1; 10]]%Q 0%Q ;;
  x_q_5 <- meq x_C_12 x_t_3 ;;
  _ <- check x_q_5 ;;
  x_C_13 <- lil_assign x_C_12 x_Ones_4 ;;
  x_C_14 <- t_opt_mxm TyD (acc TyD qplus) TyD (mkSr qplus qtimes TyD) (MSComp (Other x_MNotLower_1))
    REPLACE x_C_13 (OTrn (Other x_Ones_4)) (OMat (Other x_Identity)) ;;
  x_t_4 <- mdense0 TyD [[2; 0; 0]; [2; 2; 0]; [2; 2; 2]]%Q 0%Q ;;
  x_q_6 <- meq x_C_14 x_t_4 ;;
  _ <- check x_q_6 ;;
  x_C_15 <- lil_assign x_C_14 x_Ones_4 ;;
  x_C_16 <- t_opt_mxm TyD (acc TyD qplus) TyD (mkSr qplus qtimes TyD) (MSComp (Other x_MLower_1))
    REPLACE x_C_15 (OTrn (Other x_Ones_4)) (OMat (Other x_Identity)) ;;
  x_t_5 <- mdense0 TyD [[0; 2; 2]; [0; 0; 2]; [0; 0; 0]]%Q 0%Q ;;
  x_q_7 <- meq x_C_16 x_t_5 ;;
  _ <- check x_q_7 ;;
  Ok tt) = Ok tt.
Proof. vm_compute. reflexivity. Qed.

(** test_mxm_ATB.cpp:4284-4335 *)
Example test_mxm_CompStructMask_Accum_ATBM_empty :
 (x_Empty <- mnew 3 3 ;;
  x_Ones <- mdense0 TyD d_Ones_3x3 0%Q ;;
  x_C <- mnew 3 3 ;;
  x_MNotLower <- mdense0 TyB d_NotLowerBool_3x3 0%Q ;;
  x_MNotLower_1 <- lil_setElement x_MNotLower 0 2 (cast TyB 0%Q) ;;
  x_C_1 <- lil_assign x_C x_Ones ;;
  x_C_2 <- t_mxm TyD (acc TyD qplus) (mkSr qplus qtimes TyD) (MSComp x_MNotLower_1) MERGE x_C_1 (Trn
    x_Empty) (Mat x_Ones) ;;
  x_q <- meq x_C_2 x_Ones ;;
  _ <- check x_q ;;
  x_C_3 <- lil_assign x_C_2 x_Ones ;;
  x_C_4 <- t_mxm TyD (acc TyD qplus) (mkSr qplus qtimes TyD) (MSComp x_MNotLower_1) MERGE x_C_3 (Trn
    x_Ones) (Mat x_Empty) ;;
  x_q_1 <- meq x_C_4 x_Ones ;;
  _ <- check x_q_1 ;;
  x_C_5 <- lil_assign x_C_4 x_Ones ;;
  x_Ones_1 <- lil_setElement x_Ones 0 2 (cast TyD 0%Q) ;;
  x_C_6 <- t_mxm TyD (acc TyD qplus) (mkSr qplus qtimes TyD) (MSComp x_Ones_1) MERGE x_C_5 (Trn
    x_Ones_1) (Mat x_Ones_1) ;;
  x_Ones_2 <- lil_setElement x_Ones_1 0 2 (cast TyD 1%Q) ;;
  x_q_2 <- meq x_C_6 x_Ones_2 ;;
  _ <- check x_q_2 ;;
  x_C_7 <- lil_assign x_C_6 x_Ones_2 ;;
  x_C_8 <- t_mxm TyD (acc TyD qplus) (mkSr qplus qtimes TyD) (MSComp x_MNotLower_1) REPLACE x_C_7
    (Trn x_Empty) (Mat x_Ones_2) ;;
  x_t <- mdense0 TyD d_Lower_3x3 0%Q ;;
  x_q_3 <- meq x_C_8 x_t ;;
  _ <- check x_q_3 ;;
  x_C_9 <- lil_assign x_C_8 x_Ones_2 ;;
  x_C_10 <- t_mxm TyD (acc TyD qplus) (mkSr qplus qtimes TyD) (MSComp x_MNotLower_1) REPLACE x_C_9
    (Trn x_Ones_2) (Mat x_Empty) ;;
  x_t_1 <- mdense0 TyD d_Lower_3x3 0%Q ;;
  x_q_4 <- meq x_C_10 x_t_1 ;;
  _ <- check x_q_4 ;;
  x_C_11 <- lil_assign x_C_10 x_Ones_2 ;;
  x_Ones_3 <- lil_setElement x_Ones_2 0 2 (cast TyD 0%Q) ;;
  x_C_12 <- t_mxm TyD (acc TyD qplus) (mkSr qplus qtimes TyD) (MSComp x_Ones_3) REPLACE x_C_11 (Trn
    x_Ones_3) (Mat x_Empty) ;;
  x_q_5 <- meq x_C_12 x_Empty ;;
  _ <- check x_q_5 ;;
  Ok tt) = Ok tt.
Proof. vm_compute. reflexivity. Qed.

(** test_mxm_ATB.cpp:4284-4335, optimized_sequential platform *)
Example test_mxm_CompStructMask_Accum_ATBM_empty_opt :
 (x_Empty <- mnew 3 3 ;;
  x_Ones <- mdense0 TyD d_Ones_3x3 0%Q ;;
  x_C <- mnew 3 3 ;;
  x_MNotLower <- mdense0 TyB d_NotLowerBool_3x3 0%Q ;;
  x_MNotLower_1 <- lil_setElement x_MNotLower 0 2 (cast TyB 0%Q) ;;
  x_C_1 <- lil_assign x_C x_Ones ;;
  x_C_2 <- t_opt_mxm TyD (acc TyD qplus) TyD (mkSr qplus qtimes TyD) (MSComp (Other x_MNotLower_1))
    MERGE x_C_1 (OTrn (Other x_Empty)) (OMat (Other x_Ones)) ;;
  x_q <- meq x_C_2 x_Ones ;;
  _ <- check x_q ;;
  x_C_3 <- lil_assign x_C_2 x_Ones ;;
  x_C_4 <- t_opt_mxm TyD (acc TyD qplus) TyD (mkSr qplus qtimes TyD) (MSComp (Other x_MNotLower_1))
    MERGE x_C_3 (OTrn (Other x_Ones)) (OMat (Other x_Empty)) ;;
  x_q_1 <- meq x_C_4 x_Ones ;;
  _ <- check x_q_1 ;;
  x_C_5 <- lil_assign x_C_4 x_Ones ;;
  x_Ones_1 <- lil_setElement x_Ones 0 2 (cast TyD 0%Q) ;;
  x_C_6 <- t_opt_mxm TyD (acc TyD qplus) TyD (mkSr qplus qtimes TyD) (MSComp (Other x_Ones_1)) MERGE
    x_C_5 (OTrn (Other x_Ones_1)) (OMat (Other x_Ones_1)) ;;
  x_Ones_2 <- lil_setElement x_Ones_1 0 2 (cast TyD 1%Q) ;;
  x_q_2 <- meq x_C_6 x_Ones_2 ;;
  _ <- check x_q_2 ;;
  x_C_7 <- lil_assign x_C_6 x_Ones_2 ;;
  x_C_8 <- t_opt_mxm TyD (acc TyD qplus) TyD (mkSr qplus qtimes TyD) (MSComp (Other x_MNotLower_1))
    REPLACE x_C_7 (OTrn (Other x_Empty)) (OMat (Other x_Ones_2)) ;;
  x_t <- mdense0 TyD d_Lower_3x3 0%Q ;;
  x_q_3 <- meq x_C_8 x_t ;;
  _ <- check x_q_3 ;;
  x_C_9 <- lil_assign x_C_8 x_Ones_2 ;;
  x_C_10 <- t_opt_mxm TyD (acc TyD qplus) TyD (mkSr qplus qtimes TyD) (MSComp (Other x_MNotLower_1))
    REPLACE x_C_9 (OTrn (Other x_Ones_2)) (OMat (Other x_Empty)) ;;
  x_t_1 <- mdense0 TyD d_Lower_3x3 0%Q ;;
  x_q_4 <- meq x_C_10 x_t_1 ;;
  _ <- check x_q_4 ;;
  x_C_11 <- lil_assign x_C_10 x_Ones_2 ;;
  x_Ones_3 <- lil_setElement x_Ones_2 0 2 (cast TyD 0%Q) ;;
  x_C_12 <- t_opt_mxm TyD (acc TyD qplus) TyD (mkSr qplus qtimes TyD) (MSComp (Other x_Ones_3))
    REPLACE x_C_11 (OTrn (Other x_Ones_3)) (OMat (Other x_Empty)) ;;
  x_q_5 <- meq x_C_12 x_Empty ;;
  _ <- check x_q_5 ;;
  Ok tt) = Ok tt.
Proof. vm_compute. reflexivity. Qed.

(** test_mxm_ATB.cpp:4338-4380 *)
Example test_mxm_CompStructMask_Accum_ATB_emptyRowA_emptyColB :
 (x_A <- mdense0 TyD [[8; 0; 4]; [1; 0; 9]; [6; 0; 2]]%Q 0%Q ;;
  x_B <- mdense0 TyD [[0; 0; 0; 1]; [1; 0; 1; 1]; [0; 0; 1; 1]]%Q 0%Q ;;
  x_MNotLower <- mdense0 TyD d_NotLower_3x4 0%Q ;;
  x_MNotLower_1 <- lil_setElement x_MNotLower 0 2 (cast TyD 0%Q) ;;
  x_Ones <- mdense0 TyD d_Ones_3x4 0%Q ;;
  x_C <- mnew 3 4 ;;
  x_answer <- mdense0 TyD [[2; 0; 0; 0]; [1; 1; 0; 0]; [10; 1; 12; 0]]%Q 0%Q ;;
  x_C_1 <- lil_assign x_C x_Ones ;;
  x_C_2 <- t_mxm TyD (acc TyD qplus) (mkSr qplus qtimes TyD) (MSComp x_MNotLower_1) REPLACE x_C_1
    (Trn x_A) (Mat x_B) ;;
  x_q <- meq x_C_2 x_answer ;;
  _ <- check x_q ;;
  x_answer2 <- mdense0 TyD [[2; 1; 1; 1]; [1; 1; 1; 1]; [10; 1; 12; 1]]%Q 0%Q ;;
  x_C_3 <- lil_assign x_C_2 x_Ones ;;
  x_C_4 <- t_mxm TyD (acc TyD qplus) (mkSr qplus qtimes TyD) (MSComp x_MNotLower_1) MERGE x_C_3 (Trn
    x_A) (Mat x_B) ;;
  x_q_1 <- meq x_C_4 x_answer2 ;;
  _ <- check x_q_1 ;;
  Ok tt) = Ok tt.
Proof. vm_compute. reflexivity. Qed.

(** test_mxm_ATB.cpp:4338-4380, optimized_sequential platform *)
Example test_mxm_CompStructMask_Accum_ATB_emptyRowA_emptyColB_opt :
 (x_A <- mdense0 TyD [[8; 0; 4]; [1; 0; 9]; [6; 0; 2]]%Q 0%Q ;;
  x_B <- mdense0 TyD [[0; 0; 0; 1]; [1; 0; 1; 1]; [0; 0; 1; 1]]%Q 0%Q ;;
  x_MNotLower <- mdense0 TyD d_NotLower_3x4 0%Q ;;
  x_MNotLower_1 <- lil_setElement x_MNotLower 0 2 (cast TyD 0%Q) ;;
  x_Ones <- mdense0 TyD d_Ones_3x4 0%Q ;;
  x_C <- mnew 3 4 ;;
  x_answer <- mdense0 TyD [[2; 0; 0; 0]; [1; 1; 0; 0]; [10; 1; 12; 0]]%Q 0%Q ;;
  x_C_1 <- lil_assign x_C x_Ones ;;
  x_C_2 <- t_opt_mxm TyD (acc TyD qplus) TyD (mkSr qplus qtimes TyD) (MSComp (Other x_MNotLower_1))
    REPLACE x_C_1 (OTrn (Other x_A)) (OMat (Other x_B)) ;;
  x_q <- meq x_C_2 x_answer ;;
  _ <- check x_q ;;
  x_answer2 <- mdense0 TyD [[2; 1; 1; 1]; [1; 1; 1; 1]; [10; 1; 12; 1]]%Q 0%Q ;;
  x_C_3 <- lil_assign x_C_2 x_Ones ;;
  x_C_4 <- t_opt_mxm TyD (acc TyD qplus) TyD (mkSr qplus qtimes TyD) (MSComp (Other x_MNotLower_1))
    MERGE x_C_3 (OTrn (Other x_A)) (OMat (Other x_B)) ;;
  x_q_1 <- meq x_C_4 x_answer2 ;;
  _ <- check x_q_1 ;;
  Ok tt) = Ok tt.
Proof. vm_compute. reflexivity. Qed.

(** test_mxm_ATB.cpp:4383-4425 *)
Example test_mxm_CompStructMask_Accum_ATB_emptyColA_emptyRowB :
 (x_A <- mdense0 TyD [[8; 1; 4]; [0; 0; 0]; [6; 9; 2]]%Q 0%Q ;;
  x_B <- mdense0 TyD [[0; 1; 0; 1]; [1; 0; 1; 1]; [0; 0; 0; 0]]%Q 0%Q ;;
  x_NotLower <- mdense0 TyD d_NotLower_3x4 0%Q ;;
  x_NotLower_1 <- lil_setElement x_NotLower 0 2 (cast TyD 0%Q) ;;
  x_Ones <- mdense0 TyD d_Ones_3x4 0%Q ;;
  x_C <- mnew 3 4 ;;
  x_answer <- mdense0 TyD [[1; 0; 0; 0]; [1; 2; 0; 0]; [1; 5; 1; 0]]%Q 0%Q ;;
  x_C_1 <- lil_assign x_C x_Ones ;;
  x_C_2 <- t_mxm TyD (acc TyD qplus) (mkSr qplus qtimes TyD) (MSComp x_NotLower_1) REPLACE x_C_1
    (Trn x_A) (Mat x_B) ;;
  x_q <- meq x_C_2 x_answer ;;
  _ <- check x_q ;;
  x_answer2 <- mdense0 TyD [[1; 1; 1; 1]; [1; 2; 1; 1]; [1; 5; 1; 1]]%Q 0%Q ;;
  x_C_3 <- lil_assign x_C_2 x_Ones ;;
  x_C_4 <- t_mxm TyD (acc TyD qplus) (mkSr qplus qtimes TyD) (MSComp x_NotLower_1) MERGE x_C_3 (Trn
    x_A) (Mat x_B) ;;
  x_q_1 <- meq x_C_4 x_answer2 ;;
  _ <- check x_q_1 ;;
  Ok tt) = Ok tt.
Proof. vm_compute. reflexivity. Qed.

(** test_mxm_ATB.cpp:4383-4425, optimized_sequential platform *)
Example test_mxm_CompStructMask_Accum_ATB_emptyColA_emptyRowB_opt :
 (x_A <- mdense0 TyD [[8; 1; 4]; [0; 0; 0]; [6; 9; 2]]%Q 0%Q ;;
  x_B <- mdense0 TyD [[0; 1; 0; 1]; [1; 0; 1; 1]; [0; 0; 0; 0]]%Q 0%Q ;;
  x_NotLower <- mdense0 TyD d_NotLower_3x4 0%Q ;;
  x_NotLower_1 <- lil_setElement x_NotLower 0 2 (cast TyD 0%Q) ;;
  x_Ones <- mdense0 TyD d_Ones_3x4 0%Q ;;
  x_C <- mnew 3 4 ;;
  x_answer <- mdense0 TyD [[1; 0; 0; 0]; [1; 2; 0; 0]; [1; 5; 1; 0]]%Q 0%Q ;;
  x_C_1 <- lil_assign x_C x_Ones ;;
  x_C_2 <- t_opt_mxm TyD (acc TyD qplus) TyD (mkSr qplus qtimes TyD) (MSComp (Other x_NotLower_1))
    REPLACE x_C_1 (OTrn (Other x_A)) (OMat (Other x_B)) ;;
  x_q <- meq x_C_2 x_answer ;;
  _ <- check x_q ;;
  x_answer2 <- mdense0 TyD [[1; 1; 1; 1]; [1; 2; 1; 1]; [1; 5; 1; 1]]%Q 0%Q ;;
  x_C_3 <- lil_assign x_C_2 x_Ones ;;
  x_C_4 <- t_opt_mxm TyD (acc TyD qplus) TyD (mkSr qplus qtimes TyD) (MSComp (Other x_NotLower_1))
    MERGE x_C_3 (OTrn (Other x_A)) (OMat (Other x_B)) ;;
  x_q_1 <- meq x_C_4 x_answer2 ;;
  _ <- check x_q_1 ;;
  Ok tt) = Ok tt.
Proof. vm_compute. reflexivity. Qed.

(** test_mxm_ATB.cpp:4428-4467 *)
Example test_mxm_CompStructMask_Accum_ATB_ABdup :
 (x_mat <- mdense0 TyD d_Symmetric_4x4 0%Q ;;
  x_NotLower <- mdense0 TyD d_NotLower_4x4 0%Q ;;
  x_NotLower_1 <- lil_setElement x_NotLower 0 1 (cast TyD 0%Q) ;;
  x_Ones <- mdense0 TyD d_Ones_4x4 0%Q ;;
  x_C <- mnew 4 4 ;;
  x_answer <- mdense0 TyD [[3; 1; 1; 1]; [4; 10; 1; 1]; [3; 11; 23; 1]; [1; 7; 22; 26]]%Q 0%Q ;;
  x_C_1 <- lil_assign x_C x_Ones ;;
  x_C_2 <- t_mxm TyD (acc TyD qplus) (mkSr qplus qtimes TyD) (MSComp x_NotLower_1) MERGE x_C_1 (Trn
    x_mat) (Mat x_mat) ;;
  x_q <- meq x_C_2 x_answer ;;
  _ <- check x_q ;;
  x_answer2 <- mdense0 TyD [[3; 0; 0; 0]; [4; 10; 0; 0]; [3; 11; 23; 0]; [1; 7; 22; 26]]%Q 0%Q ;;
  x_C_3 <- lil_assign x_C_2 x_Ones ;;
  x_C_4 <- t_mxm TyD (acc TyD qplus) (mkSr qplus qtimes TyD) (MSComp x_NotLower_1) REPLACE x_C_3
    (Trn x_mat) (Mat x_mat) ;;
  x_q_1 <- meq x_C_4 x_answer2 ;;
  _ <- check x_q_1 ;;
  Ok tt) = Ok tt.
Proof. vm_compute. reflexivity. Qed.

(** test_mxm_ATB.cpp:4428-4467, optimized_sequential platform *)
Example test_mxm_CompStructMask_Accum_ATB_ABdup_opt :
 (x_mat <- mdense0 TyD d_Symmetric_4x4 0%Q ;;
  x_NotLower <- mdense0 TyD d_NotLower_4x4 0%Q ;;
  x_NotLower_1 <- lil_setElement x_NotLower 0 1 (cast TyD 0%Q) ;;
  x_Ones <- mdense0 TyD d_Ones_4x4 0%Q ;;
  x_C <- mnew 4 4 ;;
  x_answer <- mdense0 TyD [[3; 1; 1; 1]; [4; 10; 1; 1]; [3; 11; 23; 1]; [1; 7; 22; 26]]%Q 0%Q ;;
  x_C_1 <- lil_assign x_C x_Ones ;;
  x_C_2 <- t_opt_mxm TyD (acc TyD qplus) TyD (mkSr qplus qtimes TyD) (MSComp (Other x_NotLower_1))
    MERGE x_C_1 (OTrn (Other x_mat)) (OMat (Other x_mat)) ;;
  x_q <- meq x_C_2 x_answer ;;
  _ <- check x_q ;;
  x_answer2 <- mdense0 TyD [[3; 0; 0; 0]; [4; 10; 0; 0]; [3; 11; 23; 0]; [1; 7; 22; 26]]%Q 0%Q ;;
  x_C_3 <- lil_assign x_C_2 x_Ones ;;
  x_C_4 <- t_opt_mxm TyD (acc TyD qplus) TyD (mkSr qplus qtimes TyD) (MSComp (Other x_NotLower_1))
    REPLACE x_C_3 (OTrn (Other x_mat)) (OMat (Other x_mat)) ;;
  x_q_1 <- meq x_C_4 x_answer2 ;;
  _ <- check x_q_1 ;;
  Ok tt) = Ok tt.
Proof. vm_compute. reflexivity. Qed.

(** test_mxm_ATB.cpp:4470-4510 *)
Example test_mxm_CompStructMask_Accum_ATB_ACdup :
 (x_mat <- mdense0 TyD d_Symmetric_4x4 0%Q ;;
  x_NotLower <- mdense0 TyD d_NotLower_4x4 0%Q ;;
  x_NotLower_1 <- lil_setElement x_NotLower 0 1 (cast TyD 0%Q) ;;
  x_Ones <- mdense0 TyD d_Ones_4x4 0%Q ;;
  x_C <- mnew 4 4 ;;
  x_answer <- mdense0 TyD [[3; 1; 0; 0]; [4; 11; 2; 0]; [2; 12; 25; 3]; [0; 6; 24; 29]]%Q 0%Q ;;
  x_C_1 <- lil_assign x_C x_mat ;;
  x_C_2 <- t_mxm TyD (acc TyD qplus) (mkSr qplus qtimes TyD) (MSComp x_NotLower_1) MERGE x_C_1 (Trn
    x_C_1) (Mat x_mat) ;;
  x_q <- meq x_C_2 x_answer ;;
  _ <- check x_q ;;
  x_answer2 <- mdense0 TyD [[3; 0; 0; 0]; [4; 11; 0; 0]; [2; 12; 25; 0]; [0; 6; 24; 29]]%Q 0%Q ;;
  x_C_3 <- lil_assign x_C_2 x_mat ;;
  x_C_4 <- t_mxm TyD (acc TyD qplus) (mkSr qplus qtimes TyD) (MSComp x_NotLower_1) REPLACE x_C_3
    (Trn x_C_3) (Mat x_mat) ;;
  x_q_1 <- meq x_C_4 x_answer2 ;;
  _ <- check x_q_1 ;;
  Ok tt) = Ok tt.
Proof. vm_compute. reflexivity. Qed.

(** test_mxm_ATB.cpp:4470-4510, optimized_sequential platform *)
Example test_mxm_CompStructMask_Accum_ATB_ACdup_opt :
 (x_mat <- mdense0 TyD d_Symmetric_4x4 0%Q ;;
  x_NotLower <- mdense0 TyD d_NotLower_4x4 0%Q ;;
  x_NotLower_1 <- lil_setElement x_NotLower 0 1 (cast TyD 0%Q) ;;
  x_Ones <- mdense0 TyD d_Ones_4x4 0%Q ;;
  x_C <- mnew 4 4 ;;
  x_answer <- mdense0 TyD [[3; 1; 0; 0]; [4; 11; 2; 0]; [2; 12; 25; 3]; [0; 6; 24; 29]]%Q 0%Q ;;
  x_C_1 <- lil_assign x_C x_mat ;;
  x_C_2 <- t_opt_mxm TyD (acc TyD qplus) TyD (mkSr qplus qtimes TyD) (MSComp (Other x_NotLower_1))
    MERGE x_C_1 (OTrn (TheOutput (fun x => x))) (OMat (Other x_mat)) ;;
  x_q <- meq x_C_2 x_answer ;;
  _ <- check x_q ;;
  x_answer2 <- mdense0 TyD [[3; 0; 0; 0]; [4; 11; 0; 0]; [2; 12; 25; 0]; [0; 6; 24; 29]]%Q 0%Q ;;
  x_C_3 <- lil_assign x_C_2 x_mat ;;
  x_C_4 <- t_opt_mxm TyD (acc TyD qplus) TyD (mkSr qplus qtimes TyD) (MSComp (Other x_NotLower_1))
    REPLACE x_C_3 (OTrn (TheOutput (fun x => x))) (OMat (Other x_mat)) ;;
  x_q_1 <- meq x_C_4 x_answer2 ;;
  _ <- check x_q_1 ;;
  Ok tt) = Ok tt.
Proof. vm_compute. reflexivity. Qed.

(** test_mxm_ATB.cpp:4513-4561 *)
Example test_mxm_CompStructMask_Accum_ATB_BCdup :
 (x_mat <- mdense0 TyD d_Symmetric_4x4 0%Q ;;
  x_NotLower <- mdense0 TyD d_NotLower_4x4 0%Q ;;
  x_NotLower_1 <- lil_setElement x_NotLower 0 1 (cast TyD 0%Q) ;;
  x_Ones <- mdense0 TyD d_Ones_4x4 0%Q ;;
  x_C <- mnew 4 4 ;;
  x_answer <- mdense0 TyD [[3; 1; 0; 0]; [4; 11; 2; 0]; [2; 12; 25; 3]; [0; 6; 24; 29]]%Q 0%Q ;;
  x_C_1 <- lil_assign x_C x_mat ;;
  x_C_2 <- t_mxm TyD (acc TyD qplus) (mkSr qplus qtimes TyD) (MSComp x_NotLower_1) MERGE x_C_1 (Trn
    x_mat) (Mat x_C_1) ;;
  x_q <- meq x_C_2 x_answer ;;
  _ <- check x_q ;;
  x_C_3 <- lil_assign x_C_2 x_mat ;;
  x_C_4 <- t_mxm TyD (acc TyD qplus) (mkSr qplus qtimes TyD) (MSComp x_NotLower_1) MERGE x_C_3 (Trn
    x_mat) (Mat x_mat) ;;
  x_q_1 <- meq x_C_4 x_answer ;;
  _ <- check x_q_1 ;;
  x_answer2 <- mdense0 TyD [[3; 0; 0; 0]; [4; 11; 0; 0]; [2; 12; 25; 0]; [0; 6; 24; 29]]%Q 0%Q ;;
  x_C_5 <- lil_assign x_C_4 x_mat ;;
  x_C_6 <- t_mxm TyD (acc TyD qplus) (mkSr qplus qtimes TyD) (MSComp x_NotLower_1) REPLACE x_C_5
    (Trn x_mat) (Mat x_C_5) ;;
  x_q_2 <- meq x_C_6 x_answer2 ;;
  _ <- check x_q_2 ;;
  Ok tt) = Ok tt.
Proof. vm_compute. reflexivity. Qed.

(** test_mxm_ATB.cpp:4513-4561, optimized_sequential platform *)
Example test_mxm_CompStructMask_Accum_ATB_BCdup_opt :
 (x_mat <- mdense0 TyD d_Symmetric_4x4 0%Q ;;
  x_NotLower <- mdense0 TyD d_NotLower_4x4 0%Q ;;
  x_NotLower_1 <- lil_setElement x_NotLower 0 1 (cast TyD 0%Q) ;;
  x_Ones <- mdense0 TyD d_Ones_4x4 0%Q ;;
  x_C <- mnew 4 4 ;;
  x_answer <- mdense0 TyD [[3; 1; 0; 0]; [4; 11; 2; 0]; [2; 12; 25; 3]; [0; 6; 24; 29]]%Q 0%Q ;;
  x_C_1 <- lil_assign x_C x_mat ;;
  x_C_2 <- t_opt_mxm TyD (acc TyD qplus) TyD (mkSr qplus qtimes TyD) (MSComp (Other x_NotLower_1))
    MERGE x_C_1 (OTrn (Other x_mat)) (OMat (TheOutput (fun x => x))) ;;
  x_q <- meq x_C_2 x_answer ;;
  _ <- check x_q ;;
  x_C_3 <- lil_assign x_C_2 x_mat ;;
  x_C_4 <- t_opt_mxm TyD (acc TyD qplus) TyD (mkSr qplus qtimes TyD) (MSComp (Other x_NotLower_1))
    MERGE x_C_3 (OTrn (Other x_mat)) (OMat (Other x_mat)) ;;
  x_q_1 <- meq x_C_4 x_answer ;;
  _ <- check x_q_1 ;;
  x_answer2 <- mdense0 TyD [[3; 0; 0; 0]; [4; 11; 0; 0]; [2; 12; 25; 0]; [0; 6; 24; 29]]%Q 0%Q ;;
  x_C_5 <- lil_assign x_C_4 x_mat ;;
  x_C_6 <- t_opt_mxm TyD (acc TyD qplus) TyD (mkSr qplus qtimes TyD) (MSComp (Other x_NotLower_1))
    REPLACE x_C_5 (OTrn (Other x_mat)) (OMat (TheOutput (fun x => x))) ;;
  x_q_2 <- meq x_C_6 x_answer2 ;;
  _ <- check x_q_2 ;;
  Ok tt) = Ok tt.
Proof. vm_compute. reflexivity. Qed.

(** test_mxm_ATB.cpp:4564-4602 *)
Example test_mxm_CompStructMask_Accum_ATB_MCdup :
 (x_mat <- mdense0 TyD d_Symmetric_4x4 0%Q ;;
  x_NotLower <- mdense0 TyD d_NotLower_4x4 0%Q ;;
  x_NotLower_1 <- lil_setElement x_NotLower 0 1 (cast TyD 0%Q) ;;
  x_C <- mnew 4 4 ;;
  x_answer <- mdense0 TyD [[2; 0; 1; 1]; [3; 9; 1; 1]; [2; 10; 22; 1]; [99; 6; 21; 25]]%Q 99%Q ;;
  x_C_1 <- lil_assign x_C x_NotLower_1 ;;
  x_C_2 <- t_mxm TyD (acc TyD qplus) (mkSr qplus qtimes TyD) (MSComp x_C_1) MERGE x_C_1 (Trn x_mat)
    (Mat x_mat) ;;
  x_q <- meq x_C_2 x_answer ;;
  _ <- check x_q ;;
  x_answer2 <- mdense0 TyD [[2; 0; 0; 0]; [3; 9; 0; 0]; [2; 10; 22; 0]; [0; 6; 21; 25]]%Q 0%Q ;;
  x_C_3 <- lil_assign x_C_2 x_NotLower_1 ;;
  x_C_4 <- t_mxm TyD (acc TyD qplus) (mkSr qplus qtimes TyD) (MSComp x_C_3) REPLACE x_C_3 (Trn
    x_mat) (Mat x_mat) ;;
  x_q_1 <- meq x_C_4 x_answer2 ;;
  _ <- check x_q_1 ;;
  Ok tt) = Ok tt.
Proof. vm_compute. reflexivity. Qed.

(** test_mxm_ATB.cpp:4564-4602, optimized_sequential platform *)
Example test_mxm_CompStructMask_Accum_ATB_MCdup_opt :
 (x_mat <- mdense0 TyD d_Symmetric_4x4 0%Q ;;
  x_NotLower <- mdense0 TyD d_NotLower_4x4 0%Q ;;
  x_NotLower_1 <- lil_setElement x_NotLower 0 1 (cast TyD 0%Q) ;;
  x_C <- mnew 4 4 ;;
  x_answer <- mdense0 TyD [[2; 0; 1; 1]; [3; 9; 1; 1]; [2; 10; 22; 1]; [99; 6; 21; 25]]%Q 99%Q ;;
  x_C_1 <- lil_assign x_C x_NotLower_1 ;;
  x_C_2 <- t_opt_mxm TyD (acc TyD qplus) TyD (mkSr qplus qtimes TyD) (MSComp (TheOutput (fun x =>
    x))) MERGE x_C_1 (OTrn (Other x_mat)) (OMat (Other x_mat)) ;;
  x_q <- meq x_C_2 x_answer ;;
  _ <- check x_q ;;
  x_answer2 <- mdense0 TyD [[2; 0; 0; 0]; [3; 9; 0; 0]; [2; 10; 22; 0]; [0; 6; 21; 25]]%Q 0%Q ;;
  x_C_3 <- lil_assign x_C_2 x_NotLower_1 ;;
  x_C_4 <- t_opt_mxm TyD (acc TyD qplus) TyD (mkSr qplus qtimes TyD) (MSComp (TheOutput (fun x =>
    x))) REPLACE x_C_3 (OTrn (Other x_mat)) (OMat (Other x_mat)) ;;
  x_q_1 <- meq x_C_4 x_answer2 ;;
  _ <- check x_q_1 ;;
  Ok tt) = Ok tt.
Proof. vm_compute. reflexivity. Qed.

(** test_mxm_ATB.cpp:4605-4627 *)
Example test_mxm_CompStructMask_Accum_ATB_Replace_Cones_Mnlower :
 (x_A <- mdense0 TyD d_AT_dense_3x3 0%Q ;;
  x_B <- mdense0 TyD d_B_dense_3x4 0%Q ;;
  x_M <- mdense0 TyD d_NotLower_3x4 0%Q ;;
  x_M_1 <- lil_setElement x_M 0 1 (cast TyD 0%Q) ;;
  _ <- check (Qeq_bool (inject_Z (nvals x_M_1)) 6%Q) ;;
  x_result <- mdense0 TyD d_Ones_3x4 0%Q ;;
  x_answer <- mdense0 TyD [[114; 0; 0; 0]; [74; 97; 0; 0]; [119; 157; 112; 0]]%Q 0%Q ;;
  x_result_1 <- t_mxm TyD (acc TyD qsecond) (mkSr qplus qtimes TyD) (MSComp x_M_1) REPLACE x_result
    (Trn x_A) (Mat x_B) ;;
  _ <- check (Qeq_bool (inject_Z (nvals x_result_1)) 6%Q) ;;
  x_q <- meq x_result_1 x_answer ;;
  _ <- check x_q ;;
  Ok tt) = Ok tt.
Proof. vm_compute. reflexivity. Qed.

(** test_mxm_ATB.cpp:4605-4627, optimized_sequential platform *)
Example test_mxm_CompStructMask_Accum_ATB_Replace_Cones_Mnlower_opt :
 (x_A <- mdense0 TyD d_AT_dense_3x3 0%Q ;;
  x_B <- mdense0 TyD d_B_dense_3x4 0%Q ;;
  x_M <- mdense0 TyD d_NotLower_3x4 0%Q ;;
  x_M_1 <- lil_setElement x_M 0 1 (cast TyD 0%Q) ;;
  _ <- check (Qeq_bool (inject_Z (nvals x_M_1)) 6%Q) ;;
  x_result <- mdense0 TyD d_Ones_3x4 0%Q ;;
  x_answer <- mdense0 TyD [[114; 0; 0; 0]; [74; 97; 0; 0]; [119; 157; 112; 0]]%Q 0%Q ;;
  x_result_1 <- t_opt_mxm TyD (acc TyD qsecond) TyD (mkSr qplus qtimes TyD) (MSComp (Other x_M_1))
    REPLACE x_result (OTrn (Other x_A)) (OMat (Other x_B)) ;;
  _ <- check (Qeq_bool (inject_Z (nvals x_result_1)) 6%Q) ;;
  x_q <- meq x_result_1 x_answer ;;
  _ <- check x_q ;;
  Ok tt) = Ok tt.
Proof. vm_compute. reflexivity. Qed.

(** test_mxm_ATB.cpp:4630-4651 *)
Example test_mxm_CompStructMask_Accum_ATB_Merge :
 (x_A <- mdense0 TyD d_AT_dense_3x3 0%Q ;;
  x_B <- mdense0 TyD d_B_dense_3x4 0%Q ;;
  x_M <- mdense0 TyD d_NotLower_3x4 0%Q ;;
  x_M_1 <- lil_setElement x_M 0 1 (cast TyD 0%Q) ;;
  _ <- check (Qeq_bool (inject_Z (nvals x_M_1)) 6%Q) ;;
  x_result <- mdense0 TyD d_Ones_3x4 0%Q ;;
  x_answer <- mdense0 TyD [[114; 1; 1; 1]; [74; 97; 1; 1]; [119; 157; 112; 1]]%Q 0%Q ;;
  x_result_1 <- t_mxm TyD (acc TyD qsecond) (mkSr qplus qtimes TyD) (MSComp x_M_1) MERGE x_result
    (Trn x_A) (Mat x_B) ;;
  _ <- check (Qeq_bool (inject_Z (nvals x_result_1)) 12%Q) ;;
  x_q <- meq x_result_1 x_answer ;;
  _ <- check x_q ;;
  Ok tt) = Ok tt.
Proof. vm_compute. reflexivity. Qed.

(** test_mxm_ATB.cpp:4630-4651, optimized_sequential platform *)
Example test_mxm_CompStructMask_Accum_ATB_Merge_opt :
 (x_A <- mdense0 TyD d_AT_dense_3x3 0%Q ;;
  x_B <- mdense0 TyD d_B_dense_3x4 0%Q ;;
  x_M <- mdense0 TyD d_NotLower_3x4 0%Q ;;
  x_M_1 <- lil_setElement x_M 0 1 (cast TyD 0%Q) ;;
  _ <- check (Qeq_bool (inject_Z (nvals x_M_1)) 6%Q) ;;
  x_result <- mdense0 TyD d_Ones_3x4 0%Q ;;
  x_answer <- mdense0 TyD [[114; 1; 1; 1]; [74; 97; 1; 1]; [119; 157; 112; 1]]%Q 0%Q ;;
  x_result_1 <- t_opt_mxm TyD (acc TyD qsecond) TyD (mkSr qplus qtimes TyD) (MSComp (Other x_M_1))
    MERGE x_result (OTrn (Other x_A)) (OMat (Other x_B)) ;;
  _ <- check (Qeq_bool (inject_Z (nvals x_result_1)) 12%Q) ;;
  x_q <- meq x_result_1 x_answer ;;
  _ <- check x_q ;;
  Ok tt) = Ok tt.
Proof. vm_compute. reflexivity. Qed.

(** test_mxm_ATB.cpp:4654-4676 *)
Example test_mxm_CompStructMask_Accum_ATB_Merge_ABdup :
 (x_mat <- mdense0 TyD d_Symmetric_4x4 0%Q ;;
  x_result <- mdense0 TyD d_Ones_4x4 0%Q ;;
  x_answer <- mdense0 TyD [[2; 1; 1; 1]; [3; 9; 1; 1]; [2; 10; 22; 1]; [0; 6; 21; 25]]%Q 0%Q ;;
  x_M <- mdense0 TyD d_NotLower_4x4 0%Q ;;
  x_M_1 <- lil_setElement x_M 0 1 (cast TyD 0%Q) ;;
  x_result_1 <- t_mxm TyD noacc (mkSr qplus qtimes TyD) (MSComp x_M_1) MERGE x_result (Trn x_mat)
    (Mat x_mat) ;;
  x_q <- meq x_result_1 x_answer ;;
  _ <- check x_q ;;
  Ok tt) = Ok tt.
Proof. vm_compute. reflexivity. Qed.

(** test_mxm_ATB.cpp:4654-4676, optimized_sequential platform *)
Example test_mxm_CompStructMask_Accum_ATB_Merge_ABdup_opt :
 (x_mat <- mdense0 TyD d_Symmetric_4x4 0%Q ;;
  x_result <- mdense0 TyD d_Ones_4x4 0%Q ;;
  x_answer <- mdense0 TyD [[2; 1; 1; 1]; [3; 9; 1; 1]; [2; 10; 22; 1]; [0; 6; 21; 25]]%Q 0%Q ;;
  x_M <- mdense0 TyD d_NotLower_4x4 0%Q ;;
  x_M_1 <- lil_setElement x_M 0 1 (cast TyD 0%Q) ;;
  x_result_1 <- t_opt_mxm TyD noacc TyD (mkSr qplus qtimes TyD) (MSComp (Other x_M_1)) MERGE
    x_result (OTrn (Other x_mat)) (OMat (Other x_mat)) ;;
  x_q <- meq x_result_1 x_answer ;;
  _ <- check x_q ;;
  Ok tt) = Ok tt.
Proof. vm_compute. reflexivity. Qed.
