(** The tests of /repo/src/test/test_ewisemult_matrix.cpp, run on the model.  Generated translation. *)
From Verif Require Import TestRun.

Definition d_m3x3_dense : list (list Q) :=
  [[12; 0; 7];
   [1; 0; 0];
   [3; 6; 9]]%Q.
Definition d_eye3x3_dense : list (list Q) :=
  [[1; 0; 0];
   [0; 1; 0];
   [0; 0; 1]]%Q.
Definition d_twos3x3_dense : list (list Q) :=
  [[2; 2; 2];
   [2; 2; 2];
   [2; 2; 2]]%Q.
Definition d_zero3x3_dense : list (list Q) :=
  [[0; 0; 0];
   [0; 0; 0];
   [0; 0; 0]]%Q.
Definition d_ans_twos3x3_dense : list (list Q) :=
  [[24; 0; 14];
   [2; 0; 0];
   [6; 12; 18]]%Q.
Definition d_ans_eye3x3_dense : list (list Q) :=
  [[12; 0; 0];
   [0; 0; 0];
   [0; 0; 9]]%Q.
Definition d_m3x4_dense : list (list Q) :=
  [[5; 0; 1; 2];
   [6; 7; 0; 0];
   [4; 5; 0; 1]]%Q.
Definition d_m4x3_dense : list (list Q) :=
  [[5; 6; 4];
   [0; 7; 5];
   [1; 0; 0];
   [2; 0; 1]]%Q.
Definition d_twos4x3_dense : list (list Q) :=
  [[2; 2; 2];
   [2; 2; 2];
   [2; 2; 2];
   [2; 2; 2]]%Q.
Definition d_twos3x4_dense : list (list Q) :=
  [[2; 2; 2; 2];
   [2; 2; 2; 2];
   [2; 2; 2; 2]]%Q.
Definition d_ans_twos4x3_dense : list (list Q) :=
  [[10; 12; 8];
   [0; 14; 10];
   [2; 0; 0];
   [4; 0; 2]]%Q.
Definition d_ans_twos3x4_dense : list (list Q) :=
  [[10; 0; 2; 4];
   [12; 14; 0; 0];
   [8; 10; 0; 2]]%Q.

(** test_ewisemult_matrix.cpp:102-122 *)
Example test_ewisemult_matrix_bad_dimensions :
 (x_m1 <- mnew 4 4 ;;
  x_m1_1 <- mbuild TyD qsecond x_m1 [0; 0; 1; 1; 2; 2; 3] [0; 1; 1; 2; 2; 3; 3] [1; 2; 2; 3; 3; 4;
    4]%Q ;;
  x_m2 <- mnew 3 4 ;;
  x_m2_1 <- mbuild TyD qsecond x_m2 [0; 0; 1; 1; 1; 2; 2] [0; 1; 0; 1; 2; 1; 2] [2; 2; 1; 4; 4; 4;
    6]%Q ;;
  x_m3 <- mnew 4 4 ;;
  _ <- throws DimensionException (t_eWiseMult TyD noacc TyD TyD qtimes NoMask MERGE x_m3 (Mat
    x_m1_1) (Mat x_m2_1)) ;;
  Ok tt) = Ok tt.
Proof. vm_compute. reflexivity. Qed.

(** test_ewisemult_matrix.cpp:125-147 *)
Example test_ewisemult_matrix_bad_dimensions2 :
 (x_mA <- mdense0 TyD d_m3x3_dense 0%Q ;;
  x_mB <- mdense0 TyD d_m4x3_dense 0%Q ;;
  x_Result <- mnew 3 3 ;;
  _ <- throws DimensionException (t_eWiseMult TyD noacc TyD TyD qtimes NoMask MERGE x_Result (Mat
    x_mA) (Mat x_mB)) ;;
  _ <- throws DimensionException (t_eWiseMult TyD noacc TyD TyD qtimes NoMask MERGE x_Result (Mat
    x_mB) (Mat x_mB)) ;;
  Ok tt) = Ok tt.
Proof. vm_compute. reflexivity. Qed.

(** test_ewisemult_matrix.cpp:202-223 *)
Example test_ewisemult_normal :
 (x_mat <- mnew 4 4 ;;
  x_mat_1 <- mbuild TyD qsecond x_mat [0; 0; 1; 1; 1; 2; 2; 2; 3; 3] [0; 1; 0; 1; 2; 1; 2; 3; 2; 3]
    [1; 1; 1; 2; 2; 2; 3; 3; 3; 4]%Q ;;
  x_m3 <- mnew 4 4 ;;
  x_answer <- mnew 4 4 ;;
  x_answer_1 <- mbuild TyD qsecond x_answer [0; 0; 1; 1; 1; 2; 2; 2; 3; 3] [0; 1; 0; 1; 2; 1; 2; 3;
    2; 3] [1; 1; 1; 4; 4; 4; 9; 9; 9; 16]%Q ;;
  x_m3_1 <- t_eWiseMult TyD noacc TyD TyD qtimes NoMask MERGE x_m3 (Mat x_mat_1) (Mat x_mat_1) ;;
  x_q <- meq x_m3_1 x_answer_1 ;;
  _ <- check x_q ;;
  Ok tt) = Ok tt.
Proof. vm_compute. reflexivity. Qed.

(** test_ewisemult_matrix.cpp:226-247 *)
Example test_ewisemult_normal_semiring :
 (x_mat <- mnew 4 4 ;;
  x_mat_1 <- mbuild TyD qsecond x_mat [0; 0; 1; 1; 1; 2; 2; 2; 3; 3] [0; 1; 0; 1; 2; 1; 2; 3; 2; 3]
    [1; 1; 1; 2; 2; 2; 3; 3; 3; 4]%Q ;;
  x_m3 <- mnew 4 4 ;;
  x_answer <- mnew 4 4 ;;
  x_answer_1 <- mbuild TyD qsecond x_answer [0; 0; 1; 1; 1; 2; 2; 2; 3; 3] [0; 1; 0; 1; 2; 1; 2; 3;
    2; 3] [1; 1; 1; 4; 4; 4; 9; 9; 9; 16]%Q ;;
  x_m3_1 <- t_eWiseMult TyD noacc TyD TyD qtimes NoMask MERGE x_m3 (Mat x_mat_1) (Mat x_mat_1) ;;
  x_q <- meq x_m3_1 x_answer_1 ;;
  _ <- check x_q ;;
  Ok tt) = Ok tt.
Proof. vm_compute. reflexivity. Qed.

(** test_ewisemult_matrix.cpp:254-290 *)
Example test_ewisemult_matrix_reg :
 (x_A <- mdense0 TyD d_m3x3_dense 0%Q ;;
  x_B <- mdense0 TyD d_twos3x3_dense 0%Q ;;
  x_Ans <- mdense0 TyD d_ans_twos3x3_dense 0%Q ;;
  x_Result <- mnew 3 3 ;;
  x_Result_1 <- t_eWiseMult TyD noacc TyD TyD qtimes NoMask MERGE x_Result (Mat x_A) (Mat x_B) ;;
  x_q <- meq x_Result_1 x_Ans ;;
  _ <- check x_q ;;
  x_B2 <- mdense0 TyD d_eye3x3_dense 0%Q ;;
  x_Ans2 <- mdense0 TyD d_ans_eye3x3_dense 0%Q ;;
  x_Result_2 <- t_eWiseMult TyD noacc TyD TyD qtimes NoMask MERGE x_Result_1 (Mat x_A) (Mat x_B2) ;;
  x_q_1 <- meq x_Result_2 x_Ans2 ;;
  _ <- check x_q_1 ;;
  x_B3 <- mdense0 TyD d_zero3x3_dense 0%Q ;;
  x_Ans3 <- mdense0 TyD d_zero3x3_dense 0%Q ;;
  x_Result_3 <- t_eWiseMult TyD noacc TyD TyD qtimes NoMask MERGE x_Result_2 (Mat x_A) (Mat x_B3) ;;
  x_q_2 <- meq x_Result_3 x_Ans3 ;;
  _ <- check x_q_2 ;;
  Ok tt) = Ok tt.
Proof. vm_compute. reflexivity. Qed.

(** test_ewisemult_matrix.cpp:293-315 *)
Example test_ewisemult_matrix_stored_zero_result :
 (x_A <- mdense0 TyD d_m3x3_dense 0%Q ;;
  x_A_1 <- lil_setElement x_A 1 1 (cast TyD 0%Q) ;;
  _ <- check (Qeq_bool (inject_Z (nvals x_A_1)) 7%Q) ;;
  x_B2 <- mdense0 TyD d_eye3x3_dense 0%Q ;;
  x_Ans2 <- mdense0 TyD d_ans_eye3x3_dense 0%Q ;;
  x_Ans2_1 <- lil_setElement x_Ans2 1 1 (cast TyD 0%Q) ;;
  x_Result <- mnew 3 3 ;;
  x_Result_1 <- t_eWiseMult TyD noacc TyD TyD qtimes NoMask MERGE x_Result (Mat x_A_1) (Mat x_B2) ;;
  x_q <- meq x_Result_1 x_Ans2_1 ;;
  _ <- check x_q ;;
  _ <- check (Qeq_bool (inject_Z (nvals x_Result_1)) 3%Q) ;;
  Ok tt) = Ok tt.
Proof. vm_compute. reflexivity. Qed.

(** test_ewisemult_matrix.cpp:318-349 *)
Example test_a_transpose :
 (x_A <- mdense0 TyD d_m3x4_dense 0%Q ;;
  x_B <- mdense0 TyD d_twos4x3_dense 0%Q ;;
  x_Ans <- mdense0 TyD d_ans_twos4x3_dense 0%Q ;;
  x_Result <- mnew 4 3 ;;
  x_Result_1 <- t_eWiseMult TyD noacc TyD TyD qtimes NoMask MERGE x_Result (Trn x_A) (Mat x_B) ;;
  x_q <- meq x_Result_1 x_Ans ;;
  _ <- check x_q ;;
  x_B2 <- mdense0 TyD d_m3x4_dense 0%Q ;;
  _ <- throws DimensionException (t_eWiseMult TyD noacc TyD TyD qtimes NoMask MERGE x_Result_1 (Trn
    x_A) (Mat x_A)) ;;
  x_Result2 <- mnew 3 3 ;;
  _ <- throws DimensionException (t_eWiseMult TyD noacc TyD TyD qtimes NoMask MERGE x_Result2 (Trn
    x_A) (Mat x_B)) ;;
  Ok tt) = Ok tt.
Proof. vm_compute. reflexivity. Qed.

(** test_ewisemult_matrix.cpp:352-384 *)
Example test_b_transpose :
 (x_A <- mdense0 TyD d_m3x4_dense 0%Q ;;
  x_B <- mdense0 TyD d_twos4x3_dense 0%Q ;;
  x_Ans <- mdense0 TyD d_ans_twos3x4_dense 0%Q ;;
  x_Result <- mnew 3 4 ;;
  x_Result_1 <- t_eWiseMult TyD noacc TyD TyD qtimes NoMask MERGE x_Result (Mat x_A) (Trn x_B) ;;
  x_q <- meq x_Result_1 x_Ans ;;
  _ <- check x_q ;;
  x_B2 <- mdense0 TyD d_m3x4_dense 0%Q ;;
  _ <- throws DimensionException (t_eWiseMult TyD noacc TyD TyD qtimes NoMask MERGE x_Result_1 (Mat
    x_B) (Trn x_B)) ;;
  x_Result2 <- mnew 3 3 ;;
  _ <- throws DimensionException (t_eWiseMult TyD noacc TyD TyD qtimes NoMask MERGE x_Result2 (Mat
    x_A) (Trn x_B)) ;;
  Ok tt) = Ok tt.
Proof. vm_compute. reflexivity. Qed.

(** test_ewisemult_matrix.cpp:387-419 *)
Example test_a_and_b_transpose :
 (x_A <- mdense0 TyD d_m4x3_dense 0%Q ;;
  x_B <- mdense0 TyD d_twos4x3_dense 0%Q ;;
  x_Ans <- mdense0 TyD d_ans_twos3x4_dense 0%Q ;;
  x_Result <- mnew 3 4 ;;
  x_Result_1 <- t_eWiseMult TyD noacc TyD TyD qtimes NoMask MERGE x_Result (Trn x_A) (Trn x_B) ;;
  x_q <- meq x_Result_1 x_Ans ;;
  _ <- check x_q ;;
  x_B2 <- mdense0 TyD d_m3x4_dense 0%Q ;;
  _ <- throws DimensionException (t_eWiseMult TyD noacc TyD TyD qtimes NoMask MERGE x_Result_1 (Trn
    x_Ans) (Trn x_B)) ;;
  x_Result2 <- mnew 3 3 ;;
  _ <- throws DimensionException (t_eWiseMult TyD noacc TyD TyD qtimes NoMask MERGE x_Result2 (Trn
    x_A) (Trn x_B)) ;;
  Ok tt) = Ok tt.
Proof. vm_compute. reflexivity. Qed.

(** test_ewisemult_matrix.cpp:426-441 *)
Example test_ewisemult_matrix_masked_replace_bad_dimensions :
 (x_mA <- mdense0 TyD d_twos4x3_dense 0%Q ;;
  x_mB <- mdense0 TyD d_m4x3_dense 0%Q ;;
  x_Mask <- mdense0 TyD d_twos3x3_dense 0%Q ;;
  x_Result <- mnew 4 3 ;;
  _ <- throws DimensionException (t_eWiseMult TyD noacc TyD TyD qtimes (MVal x_Mask) REPLACE
    x_Result (Mat x_mA) (Mat x_mB)) ;;
  Ok tt) = Ok tt.
Proof. vm_compute. reflexivity. Qed.

(** test_ewisemult_matrix.cpp:444-492 *)
Example test_ewisemult_matrix_masked_replace_reg :
 (x_mA <- mdense0 TyD d_twos4x3_dense 0%Q ;;
  x_mB <- mdense0 TyD d_m4x3_dense 0%Q ;;
  x_Mask <- mdense0 TyD [[1; 1; 1]; [0; 1; 1]; [0; 0; 1]; [0; 0; 0]]%Q 0%Q ;;
  x_Result <- mdense0 TyD d_twos4x3_dense 0%Q ;;
  x_Ans <- mdense0 TyD [[10; 12; 8]; [0; 14; 10]; [0; 0; 0]; [0; 0; 0]]%Q 0%Q ;;
  x_Result_1 <- t_eWiseMult TyD noacc TyD TyD qtimes (MVal x_Mask) REPLACE x_Result (Mat x_mA) (Mat
    x_mB) ;;
  _ <- check (Qeq_bool (inject_Z (nvals x_Result_1)) 5%Q) ;;
  x_q <- meq x_Result_1 x_Ans ;;
  _ <- check x_q ;;
  x_Result_2 <- mdense0 TyD d_twos4x3_dense 0%Q ;;
  x_Ans_1 <- mdense0 TyD [[10; 12; 8]; [0; 14; 10]; [0; 0; 2]; [0; 0; 0]]%Q 0%Q ;;
  x_Result_3 <- t_eWiseMult TyD (acc TyD qsecond) TyD TyD qtimes (MVal x_Mask) REPLACE x_Result_2
    (Mat x_mA) (Mat x_mB) ;;
  _ <- check (Qeq_bool (inject_Z (nvals x_Result_3)) 6%Q) ;;
  x_q_1 <- meq x_Result_3 x_Ans_1 ;;
  _ <- check x_q_1 ;;
  Ok tt) = Ok tt.
Proof. vm_compute. reflexivity. Qed.

(** test_ewisemult_matrix.cpp:495-546 *)
Example test_ewisemult_matrix_masked_replace_reg_stored_zero :
 (x_mA <- mdense0 TyD d_twos4x3_dense 0%Q ;;
  x_mB <- mdense0 TyD d_m4x3_dense 0%Q ;;
  x_Mask <- mdense TyD [[1; 1; 1]; [0; 1; 1]; [0; 0; 1]; [0; 0; 0]]%Q ;;
  _ <- check (Qeq_bool (inject_Z (nvals x_Mask)) 12%Q) ;;
  x_Result <- mdense0 TyD d_twos4x3_dense 0%Q ;;
  x_Ans <- mdense0 TyD [[10; 12; 8]; [0; 14; 10]; [0; 0; 0]; [0; 0; 0]]%Q 0%Q ;;
  x_Result_1 <- t_eWiseMult TyD noacc TyD TyD qtimes (MVal x_Mask) REPLACE x_Result (Mat x_mA) (Mat
    x_mB) ;;
  _ <- check (Qeq_bool (inject_Z (nvals x_Result_1)) 5%Q) ;;
  x_q <- meq x_Result_1 x_Ans ;;
  _ <- check x_q ;;
  x_Result_2 <- mdense0 TyD d_twos4x3_dense 0%Q ;;
  x_Ans_1 <- mdense0 TyD [[10; 12; 8]; [0; 14; 10]; [0; 0; 2]; [0; 0; 0]]%Q 0%Q ;;
  x_Result_3 <- t_eWiseMult TyD (acc TyD qsecond) TyD TyD qtimes (MVal x_Mask) REPLACE x_Result_2
    (Mat x_mA) (Mat x_mB) ;;
  _ <- check (Qeq_bool (inject_Z (nvals x_Result_3)) 6%Q) ;;
  x_q_1 <- meq x_Result_3 x_Ans_1 ;;
  _ <- check x_q_1 ;;
  Ok tt) = Ok tt.
Proof. vm_compute. reflexivity. Qed.

(** test_ewisemult_matrix.cpp:549-576 *)
Example test_ewisemult_matrix_masked_replace_a_transpose :
 (x_mA <- mdense0 TyD d_twos3x4_dense 0%Q ;;
  x_mB <- mdense0 TyD d_m4x3_dense 0%Q ;;
  x_Mask <- mdense0 TyD [[1; 1; 1]; [0; 1; 1]; [0; 0; 1]; [0; 0; 0]]%Q 0%Q ;;
  x_Result <- mdense0 TyD d_twos4x3_dense 0%Q ;;
  x_Ans <- mdense0 TyD [[10; 12; 8]; [0; 14; 10]; [0; 0; 0]; [0; 0; 0]]%Q 0%Q ;;
  x_Result_1 <- t_eWiseMult TyD noacc TyD TyD qtimes (MVal x_Mask) REPLACE x_Result (Trn x_mA) (Mat
    x_mB) ;;
  _ <- check (Qeq_bool (inject_Z (nvals x_Result_1)) 5%Q) ;;
  x_q <- meq x_Result_1 x_Ans ;;
  _ <- check x_q ;;
  Ok tt) = Ok tt.
Proof. vm_compute. reflexivity. Qed.

(** test_ewisemult_matrix.cpp:579-606 *)
Example test_ewisemult_matrix_masked_replace_b_transpose :
 (x_mA <- mdense0 TyD d_twos4x3_dense 0%Q ;;
  x_mB <- mdense0 TyD d_m3x4_dense 0%Q ;;
  x_Mask <- mdense0 TyD [[1; 1; 1]; [0; 1; 1]; [0; 0; 1]; [0; 0; 0]]%Q 0%Q ;;
  x_Result <- mdense0 TyD d_twos4x3_dense 0%Q ;;
  x_Ans <- mdense0 TyD [[10; 12; 8]; [0; 14; 10]; [0; 0; 0]; [0; 0; 0]]%Q 0%Q ;;
  x_Result_1 <- t_eWiseMult TyD noacc TyD TyD qtimes (MVal x_Mask) REPLACE x_Result (Mat x_mA) (Trn
    x_mB) ;;
  _ <- check (Qeq_bool (inject_Z (nvals x_Result_1)) 5%Q) ;;
  x_q <- meq x_Result_1 x_Ans ;;
  _ <- check x_q ;;
  Ok tt) = Ok tt.
Proof. vm_compute. reflexivity. Qed.

(** test_ewisemult_matrix.cpp:609-636 *)
Example test_ewisemult_matrix_masked_replace_a_and_b_transpose :
 (x_mA <- mdense0 TyD d_twos3x4_dense 0%Q ;;
  x_mB <- mdense0 TyD d_m3x4_dense 0%Q ;;
  x_Mask <- mdense0 TyD [[1; 1; 1]; [0; 1; 1]; [0; 0; 1]; [0; 0; 0]]%Q 0%Q ;;
  x_Result <- mdense0 TyD d_twos4x3_dense 0%Q ;;
  x_Ans <- mdense0 TyD [[10; 12; 8]; [0; 14; 10]; [0; 0; 0]; [0; 0; 0]]%Q 0%Q ;;
  x_Result_1 <- t_eWiseMult TyD noacc TyD TyD qtimes (MVal x_Mask) REPLACE x_Result (Trn x_mA) (Trn
    x_mB) ;;
  _ <- check (Qeq_bool (inject_Z (nvals x_Result_1)) 5%Q) ;;
  x_q <- meq x_Result_1 x_Ans ;;
  _ <- check x_q ;;
  Ok tt) = Ok tt.
Proof. vm_compute. reflexivity. Qed.

(** test_ewisemult_matrix.cpp:643-657 *)
Example test_ewisemult_matrix_masked_bad_dimensions :
 (x_mA <- mdense0 TyD d_twos4x3_dense 0%Q ;;
  x_mB <- mdense0 TyD d_m4x3_dense 0%Q ;;
  x_Mask <- mdense0 TyD d_twos3x3_dense 0%Q ;;
  x_Result <- mnew 4 3 ;;
  _ <- throws DimensionException (t_eWiseMult TyD noacc TyD TyD qtimes (MVal x_Mask) MERGE x_Result
    (Mat x_mA) (Mat x_mB)) ;;
  Ok tt) = Ok tt.
Proof. vm_compute. reflexivity. Qed.

(** test_ewisemult_matrix.cpp:660-707 *)
Example test_ewisemult_matrix_masked_reg :
 (x_mA <- mdense0 TyD d_twos4x3_dense 0%Q ;;
  x_mB <- mdense0 TyD d_m4x3_dense 0%Q ;;
  x_Mask <- mdense0 TyD [[1; 1; 1]; [0; 1; 1]; [0; 0; 1]; [0; 0; 0]]%Q 0%Q ;;
  x_Result <- mdense0 TyD d_twos4x3_dense 0%Q ;;
  x_Ans <- mdense0 TyD [[10; 12; 8]; [2; 14; 10]; [2; 2; 0]; [2; 2; 2]]%Q 0%Q ;;
  x_Result_1 <- t_eWiseMult TyD noacc TyD TyD qtimes (MVal x_Mask) MERGE x_Result (Mat x_mA) (Mat
    x_mB) ;;
  _ <- check (Qeq_bool (inject_Z (nvals x_Result_1)) 11%Q) ;;
  x_q <- meq x_Result_1 x_Ans ;;
  _ <- check x_q ;;
  x_Result_2 <- mdense0 TyD d_twos4x3_dense 0%Q ;;
  x_Ans_1 <- mdense0 TyD [[10; 12; 8]; [2; 14; 10]; [2; 2; 2]; [2; 2; 2]]%Q 0%Q ;;
  x_Result_3 <- t_eWiseMult TyD (acc TyD qsecond) TyD TyD qtimes (MVal x_Mask) MERGE x_Result_2 (Mat
    x_mA) (Mat x_mB) ;;
  _ <- check (Qeq_bool (inject_Z (nvals x_Result_3)) 12%Q) ;;
  x_q_1 <- meq x_Result_3 x_Ans_1 ;;
  _ <- check x_q_1 ;;
  Ok tt) = Ok tt.
Proof. vm_compute. reflexivity. Qed.

(** test_ewisemult_matrix.cpp:710-756 *)
Example test_ewisemult_matrix_masked_reg_stored_zero :
 (x_mA <- mdense0 TyD d_twos4x3_dense 0%Q ;;
  x_mB <- mdense0 TyD d_m4x3_dense 0%Q ;;
  x_Mask <- mdense TyD [[1; 1; 1]; [0; 1; 1]; [0; 0; 1]; [0; 0; 0]]%Q ;;
  x_Result <- mdense0 TyD d_twos4x3_dense 0%Q ;;
  x_Ans <- mdense0 TyD [[10; 12; 8]; [2; 14; 10]; [2; 2; 0]; [2; 2; 2]]%Q 0%Q ;;
  x_Result_1 <- t_eWiseMult TyD noacc TyD TyD qtimes (MVal x_Mask) MERGE x_Result (Mat x_mA) (Mat
    x_mB) ;;
  _ <- check (Qeq_bool (inject_Z (nvals x_Result_1)) 11%Q) ;;
  x_q <- meq x_Result_1 x_Ans ;;
  _ <- check x_q ;;
  x_Result_2 <- mdense0 TyD d_twos4x3_dense 0%Q ;;
  x_Ans_1 <- mdense0 TyD [[10; 12; 8]; [2; 14; 10]; [2; 2; 2]; [2; 2; 2]]%Q 0%Q ;;
  x_Result_3 <- t_eWiseMult TyD (acc TyD qsecond) TyD TyD qtimes (MVal x_Mask) MERGE x_Result_2 (Mat
    x_mA) (Mat x_mB) ;;
  _ <- check (Qeq_bool (inject_Z (nvals x_Result_3)) 12%Q) ;;
  x_q_1 <- meq x_Result_3 x_Ans_1 ;;
  _ <- check x_q_1 ;;
  Ok tt) = Ok tt.
Proof. vm_compute. reflexivity. Qed.

(** test_ewisemult_matrix.cpp:759-785 *)
Example test_ewisemult_matrix_masked_a_transpose :
 (x_mA <- mdense0 TyD d_twos3x4_dense 0%Q ;;
  x_mB <- mdense0 TyD d_m4x3_dense 0%Q ;;
  x_Mask <- mdense0 TyD [[1; 1; 1]; [0; 1; 1]; [0; 0; 1]; [0; 0; 0]]%Q 0%Q ;;
  x_Result <- mdense0 TyD d_twos4x3_dense 0%Q ;;
  x_Ans <- mdense0 TyD [[10; 12; 8]; [2; 14; 10]; [2; 2; 0]; [2; 2; 2]]%Q 0%Q ;;
  x_Result_1 <- t_eWiseMult TyD noacc TyD TyD qtimes (MVal x_Mask) MERGE x_Result (Trn x_mA) (Mat
    x_mB) ;;
  _ <- check (Qeq_bool (inject_Z (nvals x_Result_1)) 11%Q) ;;
  x_q <- meq x_Result_1 x_Ans ;;
  _ <- check x_q ;;
  Ok tt) = Ok tt.
Proof. vm_compute. reflexivity. Qed.

(** test_ewisemult_matrix.cpp:788-814 *)
Example test_ewisemult_matrix_masked_b_transpose :
 (x_mA <- mdense0 TyD d_twos4x3_dense 0%Q ;;
  x_mB <- mdense0 TyD d_m3x4_dense 0%Q ;;
  x_Mask <- mdense0 TyD [[1; 1; 1]; [0; 1; 1]; [0; 0; 1]; [0; 0; 0]]%Q 0%Q ;;
  x_Result <- mdense0 TyD d_twos4x3_dense 0%Q ;;
  x_Ans <- mdense0 TyD [[10; 12; 8]; [2; 14; 10]; [2; 2; 0]; [2; 2; 2]]%Q 0%Q ;;
  x_Result_1 <- t_eWiseMult TyD noacc TyD TyD qtimes (MVal x_Mask) MERGE x_Result (Mat x_mA) (Trn
    x_mB) ;;
  _ <- check (Qeq_bool (inject_Z (nvals x_Result_1)) 11%Q) ;;
  x_q <- meq x_Result_1 x_Ans ;;
  _ <- check x_q ;;
  Ok tt) = Ok tt.
Proof. vm_compute. reflexivity. Qed.

(** test_ewisemult_matrix.cpp:817-843 *)
Example test_ewisemult_matrix_masked_a_and_b_transpose :
 (x_mA <- mdense0 TyD d_twos3x4_dense 0%Q ;;
  x_mB <- mdense0 TyD d_m3x4_dense 0%Q ;;
  x_Mask <- mdense0 TyD [[1; 1; 1]; [0; 1; 1]; [0; 0; 1]; [0; 0; 0]]%Q 0%Q ;;
  x_Result <- mdense0 TyD d_twos4x3_dense 0%Q ;;
  x_Ans <- mdense0 TyD [[10; 12; 8]; [2; 14; 10]; [2; 2; 0]; [2; 2; 2]]%Q 0%Q ;;
  x_Result_1 <- t_eWiseMult TyD noacc TyD TyD qtimes (MVal x_Mask) MERGE x_Result (Trn x_mA) (Trn
    x_mB) ;;
  _ <- check (Qeq_bool (inject_Z (nvals x_Result_1)) 11%Q) ;;
  x_q <- meq x_Result_1 x_Ans ;;
  _ <- check x_q ;;
  Ok tt) = Ok tt.
Proof. vm_compute. reflexivity. Qed.

(** test_ewisemult_matrix.cpp:850-865 *)
Example test_ewisemult_matrix_scmp_masked_replace_bad_dimensions :
 (x_mA <- mdense0 TyD d_twos4x3_dense 0%Q ;;
  x_mB <- mdense0 TyD d_m4x3_dense 0%Q ;;
  x_Mask <- mdense0 TyD d_twos3x3_dense 0%Q ;;
  x_Result <- mnew 4 3 ;;
  _ <- throws DimensionException (t_eWiseMult TyD noacc TyD TyD qtimes (MComp x_Mask) REPLACE
    x_Result (Mat x_mA) (Mat x_mB)) ;;
  Ok tt) = Ok tt.
Proof. vm_compute. reflexivity. Qed.

(** test_ewisemult_matrix.cpp:868-916 *)
Example test_ewisemult_matrix_scmp_masked_replace_reg :
 (x_mA <- mdense0 TyD d_twos4x3_dense 0%Q ;;
  x_mB <- mdense0 TyD d_m4x3_dense 0%Q ;;
  x_Mask <- mdense0 TyD [[0; 0; 0]; [1; 0; 0]; [1; 1; 0]; [1; 1; 1]]%Q 0%Q ;;
  x_Result <- mdense0 TyD d_twos4x3_dense 0%Q ;;
  x_Ans <- mdense0 TyD [[10; 12; 8]; [0; 14; 10]; [0; 0; 0]; [0; 0; 0]]%Q 0%Q ;;
  x_Result_1 <- t_eWiseMult TyD noacc TyD TyD qtimes (MComp x_Mask) REPLACE x_Result (Mat x_mA) (Mat
    x_mB) ;;
  _ <- check (Qeq_bool (inject_Z (nvals x_Result_1)) 5%Q) ;;
  x_q <- meq x_Result_1 x_Ans ;;
  _ <- check x_q ;;
  x_Result_2 <- mdense0 TyD d_twos4x3_dense 0%Q ;;
  x_Ans_1 <- mdense0 TyD [[10; 12; 8]; [0; 14; 10]; [0; 0; 2]; [0; 0; 0]]%Q 0%Q ;;
  x_Result_3 <- t_eWiseMult TyD (acc TyD qsecond) TyD TyD qtimes (MComp x_Mask) REPLACE x_Result_2
    (Mat x_mA) (Mat x_mB) ;;
  _ <- check (Qeq_bool (inject_Z (nvals x_Result_3)) 6%Q) ;;
  x_q_1 <- meq x_Result_3 x_Ans_1 ;;
  _ <- check x_q_1 ;;
  Ok tt) = Ok tt.
Proof. vm_compute. reflexivity. Qed.

(** test_ewisemult_matrix.cpp:919-970 *)
Example test_ewisemult_matrix_scmp_masked_replace_reg_stored_zero :
 (x_mA <- mdense0 TyD d_twos4x3_dense 0%Q ;;
  x_mB <- mdense0 TyD d_m4x3_dense 0%Q ;;
  x_Mask <- mdense TyD [[0; 0; 0]; [1; 0; 0]; [1; 1; 0]; [1; 1; 1]]%Q ;;
  _ <- check (Qeq_bool (inject_Z (nvals x_Mask)) 12%Q) ;;
  x_Result <- mdense0 TyD d_twos4x3_dense 0%Q ;;
  x_Ans <- mdense0 TyD [[10; 12; 8]; [0; 14; 10]; [0; 0; 0]; [0; 0; 0]]%Q 0%Q ;;
  x_Result_1 <- t_eWiseMult TyD noacc TyD TyD qtimes (MComp x_Mask) REPLACE x_Result (Mat x_mA) (Mat
    x_mB) ;;
  _ <- check (Qeq_bool (inject_Z (nvals x_Result_1)) 5%Q) ;;
  x_q <- meq x_Result_1 x_Ans ;;
  _ <- check x_q ;;
  x_Result_2 <- mdense0 TyD d_twos4x3_dense 0%Q ;;
  x_Ans_1 <- mdense0 TyD [[10; 12; 8]; [0; 14; 10]; [0; 0; 2]; [0; 0; 0]]%Q 0%Q ;;
  x_Result_3 <- t_eWiseMult TyD (acc TyD qsecond) TyD TyD qtimes (MComp x_Mask) REPLACE x_Result_2
    (Mat x_mA) (Mat x_mB) ;;
  _ <- check (Qeq_bool (inject_Z (nvals x_Result_3)) 6%Q) ;;
  x_q_1 <- meq x_Result_3 x_Ans_1 ;;
  _ <- check x_q_1 ;;
  Ok tt) = Ok tt.
Proof. vm_compute. reflexivity. Qed.

(** test_ewisemult_matrix.cpp:973-1000 *)
Example test_ewisemult_matrix_scmp_masked_replace_a_transpose :
 (x_mA <- mdense0 TyD d_twos3x4_dense 0%Q ;;
  x_mB <- mdense0 TyD d_m4x3_dense 0%Q ;;
  x_Mask <- mdense0 TyD [[0; 0; 0]; [1; 0; 0]; [1; 1; 0]; [1; 1; 1]]%Q 0%Q ;;
  x_Result <- mdense0 TyD d_twos4x3_dense 0%Q ;;
  x_Ans <- mdense0 TyD [[10; 12; 8]; [0; 14; 10]; [0; 0; 0]; [0; 0; 0]]%Q 0%Q ;;
  x_Result_1 <- t_eWiseMult TyD noacc TyD TyD qtimes (MComp x_Mask) REPLACE x_Result (Trn x_mA) (Mat
    x_mB) ;;
  _ <- check (Qeq_bool (inject_Z (nvals x_Result_1)) 5%Q) ;;
  x_q <- meq x_Result_1 x_Ans ;;
  _ <- check x_q ;;
  Ok tt) = Ok tt.
Proof. vm_compute. reflexivity. Qed.

(** test_ewisemult_matrix.cpp:1003-1030 *)
Example test_ewisemult_matrix_scmp_masked_replace_b_transpose :
 (x_mA <- mdense0 TyD d_twos4x3_dense 0%Q ;;
  x_mB <- mdense0 TyD d_m3x4_dense 0%Q ;;
  x_Mask <- mdense0 TyD [[0; 0; 0]; [1; 0; 0]; [1; 1; 0]; [1; 1; 1]]%Q 0%Q ;;
  x_Result <- mdense0 TyD d_twos4x3_dense 0%Q ;;
  x_Ans <- mdense0 TyD [[10; 12; 8]; [0; 14; 10]; [0; 0; 0]; [0; 0; 0]]%Q 0%Q ;;
  x_Result_1 <- t_eWiseMult TyD noacc TyD TyD qtimes (MComp x_Mask) REPLACE x_Result (Mat x_mA) (Trn
    x_mB) ;;
  _ <- check (Qeq_bool (inject_Z (nvals x_Result_1)) 5%Q) ;;
  x_q <- meq x_Result_1 x_Ans ;;
  _ <- check x_q ;;
  Ok tt) = Ok tt.
Proof. vm_compute. reflexivity. Qed.

(** test_ewisemult_matrix.cpp:1033-1060 *)
Example test_ewisemult_matrix_scmp_masked_replace_a_and_b_transpose :
 (x_mA <- mdense0 TyD d_twos3x4_dense 0%Q ;;
  x_mB <- mdense0 TyD d_m3x4_dense 0%Q ;;
  x_Mask <- mdense0 TyD [[0; 0; 0]; [1; 0; 0]; [1; 1; 0]; [1; 1; 1]]%Q 0%Q ;;
  x_Result <- mdense0 TyD d_twos4x3_dense 0%Q ;;
  x_Ans <- mdense0 TyD [[10; 12; 8]; [0; 14; 10]; [0; 0; 0]; [0; 0; 0]]%Q 0%Q ;;
  x_Result_1 <- t_eWiseMult TyD noacc TyD TyD qtimes (MComp x_Mask) REPLACE x_Result (Trn x_mA) (Trn
    x_mB) ;;
  _ <- check (Qeq_bool (inject_Z (nvals x_Result_1)) 5%Q) ;;
  x_q <- meq x_Result_1 x_Ans ;;
  _ <- check x_q ;;
  Ok tt) = Ok tt.
Proof. vm_compute. reflexivity. Qed.

(** test_ewisemult_matrix.cpp:1067-1081 *)
Example test_ewisemult_matrix_scmp_masked_bad_dimensions :
 (x_mA <- mdense0 TyD d_twos4x3_dense 0%Q ;;
  x_mB <- mdense0 TyD d_m4x3_dense 0%Q ;;
  x_Mask <- mdense0 TyD d_twos3x3_dense 0%Q ;;
  x_Result <- mnew 4 3 ;;
  _ <- throws DimensionException (t_eWiseMult TyD noacc TyD TyD qtimes (MComp x_Mask) MERGE x_Result
    (Mat x_mA) (Mat x_mB)) ;;
  Ok tt) = Ok tt.
Proof. vm_compute. reflexivity. Qed.

(** test_ewisemult_matrix.cpp:1084-1130 *)
Example test_ewisemult_matrix_scmp_masked_reg :
 (x_mA <- mdense0 TyD d_twos4x3_dense 0%Q ;;
  x_mB <- mdense0 TyD d_m4x3_dense 0%Q ;;
  x_Mask <- mdense0 TyD [[0; 0; 0]; [1; 0; 0]; [1; 1; 0]; [1; 1; 1]]%Q 0%Q ;;
  x_Result <- mdense0 TyD d_twos4x3_dense 0%Q ;;
  x_Ans <- mdense0 TyD [[10; 12; 8]; [2; 14; 10]; [2; 2; 0]; [2; 2; 2]]%Q 0%Q ;;
  x_Result_1 <- t_eWiseMult TyD noacc TyD TyD qtimes (MComp x_Mask) MERGE x_Result (Mat x_mA) (Mat
    x_mB) ;;
  _ <- check (Qeq_bool (inject_Z (nvals x_Result_1)) 11%Q) ;;
  x_q <- meq x_Result_1 x_Ans ;;
  _ <- check x_q ;;
  x_Result_2 <- mdense0 TyD d_twos4x3_dense 0%Q ;;
  x_Ans_1 <- mdense0 TyD [[10; 12; 8]; [2; 14; 10]; [2; 2; 2]; [2; 2; 2]]%Q 0%Q ;;
  x_Result_3 <- t_eWiseMult TyD (acc TyD qsecond) TyD TyD qtimes (MComp x_Mask) MERGE x_Result_2
    (Mat x_mA) (Mat x_mB) ;;
  _ <- check (Qeq_bool (inject_Z (nvals x_Result_3)) 12%Q) ;;
  x_q_1 <- meq x_Result_3 x_Ans_1 ;;
  _ <- check x_q_1 ;;
  Ok tt) = Ok tt.
Proof. vm_compute. reflexivity. Qed.

(** test_ewisemult_matrix.cpp:1133-1179 *)
Example test_ewisemult_matrix_scmp_masked_reg_stored_zero :
 (x_mA <- mdense0 TyD d_twos4x3_dense 0%Q ;;
  x_mB <- mdense0 TyD d_m4x3_dense 0%Q ;;
  x_Mask <- mdense TyD [[0; 0; 0]; [1; 0; 0]; [1; 1; 0]; [1; 1; 1]]%Q ;;
  x_Result <- mdense0 TyD d_twos4x3_dense 0%Q ;;
  x_Ans <- mdense0 TyD [[10; 12; 8]; [2; 14; 10]; [2; 2; 0]; [2; 2; 2]]%Q 0%Q ;;
  x_Result_1 <- t_eWiseMult TyD noacc TyD TyD qtimes (MComp x_Mask) MERGE x_Result (Mat x_mA) (Mat
    x_mB) ;;
  _ <- check (Qeq_bool (inject_Z (nvals x_Result_1)) 11%Q) ;;
  x_q <- meq x_Result_1 x_Ans ;;
  _ <- check x_q ;;
  x_Result_2 <- mdense0 TyD d_twos4x3_dense 0%Q ;;
  x_Ans_1 <- mdense0 TyD [[10; 12; 8]; [2; 14; 10]; [2; 2; 2]; [2; 2; 2]]%Q 0%Q ;;
  x_Result_3 <- t_eWiseMult TyD (acc TyD qsecond) TyD TyD qtimes (MComp x_Mask) MERGE x_Result_2
    (Mat x_mA) (Mat x_mB) ;;
  _ <- check (Qeq_bool (inject_Z (nvals x_Result_3)) 12%Q) ;;
  x_q_1 <- meq x_Result_3 x_Ans_1 ;;
  _ <- check x_q_1 ;;
  Ok tt) = Ok tt.
Proof. vm_compute. reflexivity. Qed.

(** test_ewisemult_matrix.cpp:1182-1208 *)
Example test_ewisemult_matrix_scmp_masked_a_transpose :
 (x_mA <- mdense0 TyD d_twos3x4_dense 0%Q ;;
  x_mB <- mdense0 TyD d_m4x3_dense 0%Q ;;
  x_Mask <- mdense0 TyD [[0; 0; 0]; [1; 0; 0]; [1; 1; 0]; [1; 1; 1]]%Q 0%Q ;;
  x_Result <- mdense0 TyD d_twos4x3_dense 0%Q ;;
  x_Ans <- mdense0 TyD [[10; 12; 8]; [2; 14; 10]; [2; 2; 0]; [2; 2; 2]]%Q 0%Q ;;
  x_Result_1 <- t_eWiseMult TyD noacc TyD TyD qtimes (MComp x_Mask) MERGE x_Result (Trn x_mA) (Mat
    x_mB) ;;
  _ <- check (Qeq_bool (inject_Z (nvals x_Result_1)) 11%Q) ;;
  x_q <- meq x_Result_1 x_Ans ;;
  _ <- check x_q ;;
  Ok tt) = Ok tt.
Proof. vm_compute. reflexivity. Qed.

(** test_ewisemult_matrix.cpp:1211-1237 *)
Example test_ewisemult_matrix_scmp_masked_b_transpose :
 (x_mA <- mdense0 TyD d_twos4x3_dense 0%Q ;;
  x_mB <- mdense0 TyD d_m3x4_dense 0%Q ;;
  x_Mask <- mdense0 TyD [[0; 0; 0]; [1; 0; 0]; [1; 1; 0]; [1; 1; 1]]%Q 0%Q ;;
  x_Result <- mdense0 TyD d_twos4x3_dense 0%Q ;;
  x_Ans <- mdense0 TyD [[10; 12; 8]; [2; 14; 10]; [2; 2; 0]; [2; 2; 2]]%Q 0%Q ;;
  x_Result_1 <- t_eWiseMult TyD noacc TyD TyD qtimes (MComp x_Mask) MERGE x_Result (Mat x_mA) (Trn
    x_mB) ;;
  _ <- check (Qeq_bool (inject_Z (nvals x_Result_1)) 11%Q) ;;
  x_q <- meq x_Result_1 x_Ans ;;
  _ <- check x_q ;;
  Ok tt) = Ok tt.
Proof. vm_compute. reflexivity. Qed.

(** test_ewisemult_matrix.cpp:1240-1266 *)
Example test_ewisemult_matrix_scmp_masked_a_and_b_transpose :
 (x_mA <- mdense0 TyD d_twos3x4_dense 0%Q ;;
  x_mB <- mdense0 TyD d_m3x4_dense 0%Q ;;
  x_Mask <- mdense0 TyD [[0; 0; 0]; [1; 0; 0]; [1; 1; 0]; [1; 1; 1]]%Q 0%Q ;;
  x_Result <- mdense0 TyD d_twos4x3_dense 0%Q ;;
  x_Ans <- mdense0 TyD [[10; 12; 8]; [2; 14; 10]; [2; 2; 0]; [2; 2; 2]]%Q 0%Q ;;
  x_Result_1 <- t_eWiseMult TyD noacc TyD TyD qtimes (MComp x_Mask) MERGE x_Result (Trn x_mA) (Trn
    x_mB) ;;
  _ <- check (Qeq_bool (inject_Z (nvals x_Result_1)) 11%Q) ;;
  x_q <- meq x_Result_1 x_Ans ;;
  _ <- check x_q ;;
  Ok tt) = Ok tt.
Proof. vm_compute. reflexivity. Qed.
