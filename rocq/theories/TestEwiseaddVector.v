(** The tests of /repo/src/test/test_ewiseadd_vector.cpp, run on the model.  Generated translation. *)
From Verif Require Import TestRun.


(** test_ewiseadd_vector.cpp:68-186 *)
Example test_ewiseadd_vector_bad_dimensions :
 (x_v <- vdense0 TyD [12; 0; 7]%Q 0%Q ;;
  x_u <- vdense0 TyD [0; 0; 12; 7]%Q 0%Q ;;
  x_result <- vnew 3 ;;
  _ <- throws DimensionException (t_eWiseAdd_v TyD noacc TyD qplus NoMask MERGE x_result x_v x_u) ;;
  _ <- throws DimensionException (t_eWiseAdd_v TyD noacc TyD qplus NoMask MERGE x_result x_u x_u) ;;
  x_a <- vdense0 TyD [12; 0; 7]%Q 0%Q ;;
  x_b <- vdense0 TyD [0; 0; 12; 7]%Q 0%Q ;;
  x_result_a <- vnew 3 ;;
  x_result_b <- vnew 4 ;;
  _ <- throws DimensionException (t_eWiseAdd_v TyD noacc TyD qplus (MVal x_a) MERGE x_result_a x_b
    x_b) ;;
  _ <- throws DimensionException (t_eWiseAdd_v TyD noacc TyD qplus (MVal x_b) MERGE x_result_a x_a
    x_a) ;;
  _ <- throws DimensionException (t_eWiseAdd_v TyD noacc TyD qplus (MVal x_a) MERGE x_result_b x_a
    x_b) ;;
  _ <- throws DimensionException (t_eWiseAdd_v TyD noacc TyD qplus (MVal x_b) MERGE x_result_b x_b
    x_a) ;;
  _ <- throws DimensionException (t_eWiseAdd_v TyD noacc TyD qplus (MVal x_a) MERGE x_result_b x_b
    x_b) ;;
  _ <- throws DimensionException (t_eWiseAdd_v TyD noacc TyD qplus (MVal x_b) MERGE x_result_a x_b
    x_b) ;;
  _ <- throws DimensionException (t_eWiseAdd_v TyD noacc TyD qplus NoMask MERGE x_result_a x_b x_a)
    ;;
  _ <- throws DimensionException (t_eWiseAdd_v TyD noacc TyD qplus NoMask MERGE x_result_b x_b x_a)
    ;;
  _ <- throws DimensionException (t_eWiseAdd_v TyD noacc TyD qplus NoMask MERGE x_result_b x_a x_a)
    ;;
  Ok tt) = Ok tt.
Proof. vm_compute. reflexivity. Qed.

(** test_ewiseadd_vector.cpp:189-222 *)
Example test_ewiseadd_vector_reg :
 (x_u <- vdense0 TyD [0; 0; 12; 7]%Q 0%Q ;;
  x_v <- vdense0 TyD [2; 2; 2; 2]%Q 0%Q ;;
  x_ans <- vdense0 TyD [2; 2; 14; 9]%Q 0%Q ;;
  x_result <- vnew 4 ;;
  x_result_1 <- t_eWiseAdd_v TyD noacc TyD qplus NoMask MERGE x_result x_u x_v ;;
  x_q <- veq x_result_1 x_ans ;;
  _ <- check x_q ;;
  x_v2 <- vdense0 TyD [0; 1; 0; 2]%Q 0%Q ;;
  x_ans2 <- vdense0 TyD [0; 1; 12; 9]%Q 0%Q ;;
  x_result_2 <- t_eWiseAdd_v TyD noacc TyD qplus NoMask MERGE x_result_1 x_u x_v2 ;;
  x_q_1 <- veq x_result_2 x_ans2 ;;
  _ <- check x_q_1 ;;
  x_v3 <- vdense0 TyD [0; 0; 0; 0]%Q 0%Q ;;
  x_ans3 <- vdense0 TyD [0; 0; 12; 7]%Q 0%Q ;;
  x_result_3 <- t_eWiseAdd_v TyD noacc TyD qplus NoMask MERGE x_result_2 x_u x_v3 ;;
  x_q_2 <- veq x_result_3 x_ans3 ;;
  _ <- check x_q_2 ;;
  Ok tt) = Ok tt.
Proof. vm_compute. reflexivity. Qed.

(** test_ewiseadd_vector.cpp:225-258 *)
Example test_ewiseadd_vector_stored_zero_result :
 (x_u <- vdense TyD [0; 0; 12; 7]%Q ;;
  x_v <- vdense0 TyD [2; 2; 2; 2]%Q 0%Q ;;
  x_ans <- vdense TyD [2; 2; 14; 9]%Q ;;
  x_result <- vnew 4 ;;
  x_result_1 <- t_eWiseAdd_v TyD noacc TyD qplus NoMask MERGE x_result x_u x_v ;;
  x_q <- veq x_result_1 x_ans ;;
  _ <- check x_q ;;
  x_v2 <- vdense0 TyD [0; 1; 0; 2]%Q 0%Q ;;
  x_ans2 <- vdense TyD [0; 1; 12; 9]%Q ;;
  x_result_2 <- t_eWiseAdd_v TyD noacc TyD qplus NoMask MERGE x_result_1 x_u x_v2 ;;
  x_q_1 <- veq x_result_2 x_ans2 ;;
  _ <- check x_q_1 ;;
  x_v3 <- vdense0 TyD [0; 0; 0; 0]%Q 0%Q ;;
  x_ans3 <- vdense TyD [0; 0; 12; 7]%Q ;;
  x_result_3 <- t_eWiseAdd_v TyD noacc TyD qplus NoMask MERGE x_result_2 x_u x_v3 ;;
  x_q_2 <- veq x_result_3 x_ans3 ;;
  _ <- check x_q_2 ;;
  Ok tt) = Ok tt.
Proof. vm_compute. reflexivity. Qed.

(** test_ewiseadd_vector.cpp:265-280 *)
Example test_ewiseadd_vector_masked_replace_bad_dimensions :
 (x_v <- vdense0 TyD [0; 0; 12; 7]%Q 0%Q ;;
  x_u <- vdense0 TyD [0; 1; 0; 2]%Q 0%Q ;;
  x_mask <- vdense0 TyD [12; 0; 7]%Q 0%Q ;;
  x_result <- vnew 4 ;;
  _ <- throws DimensionException (t_eWiseAdd_v TyD noacc TyD qplus (MVal x_mask) REPLACE x_result
    x_v x_u) ;;
  Ok tt) = Ok tt.
Proof. vm_compute. reflexivity. Qed.

(** test_ewiseadd_vector.cpp:283-322 *)
Example test_ewiseadd_vector_masked_replace_reg :
 (x_mask <- vdense0 TyI [0; 1; 1; 0]%Q 0%Q ;;
  x_u <- vdense0 TyD [0; 0; 12; 7]%Q 0%Q ;;
  x_v <- vdense0 TyD [2; 2; 2; 2]%Q 0%Q ;;
  x_ans <- vdense0 TyD [0; 2; 14; 0]%Q 0%Q ;;
  x_result <- vnew 4 ;;
  x_result_1 <- t_eWiseAdd_v TyD noacc TyD qplus (MVal x_mask) REPLACE x_result x_u x_v ;;
  x_q <- veq x_result_1 x_ans ;;
  _ <- check x_q ;;
  x_v2 <- vdense0 TyD [0; 1; 0; 2]%Q 0%Q ;;
  x_ans2 <- vdense0 TyD [0; 1; 12; 0]%Q 0%Q ;;
  x_result_2 <- t_eWiseAdd_v TyD noacc TyD qplus (MVal x_mask) REPLACE x_result_1 x_u x_v2 ;;
  x_q_1 <- veq x_result_2 x_ans2 ;;
  _ <- check x_q_1 ;;
  x_v3 <- vdense0 TyD [0; 0; 0; 0]%Q 0%Q ;;
  x_ans3 <- vdense0 TyD [0; 0; 12; 0]%Q 0%Q ;;
  x_result_3 <- t_eWiseAdd_v TyD noacc TyD qplus (MVal x_mask) REPLACE x_result_2 x_u x_v3 ;;
  x_q_2 <- veq x_result_3 x_ans3 ;;
  _ <- check x_q_2 ;;
  Ok tt) = Ok tt.
Proof. vm_compute. reflexivity. Qed.

(** test_ewiseadd_vector.cpp:325-364 *)
Example test_ewiseadd_vector_masked_replace_reg_stored_zero :
 (x_mask <- vdense TyI [0; 1; 1; 0]%Q ;;
  x_u <- vdense0 TyD [0; 0; 12; 7]%Q 0%Q ;;
  x_v <- vdense0 TyD [2; 2; 2; 2]%Q 0%Q ;;
  x_ans <- vdense0 TyD [0; 2; 14; 0]%Q 0%Q ;;
  x_result <- vnew 4 ;;
  x_result_1 <- t_eWiseAdd_v TyD noacc TyD qplus (MVal x_mask) REPLACE x_result x_u x_v ;;
  x_q <- veq x_result_1 x_ans ;;
  _ <- check x_q ;;
  x_v2 <- vdense0 TyD [0; 1; 0; 2]%Q 0%Q ;;
  x_ans2 <- vdense0 TyD [0; 1; 12; 0]%Q 0%Q ;;
  x_result_2 <- t_eWiseAdd_v TyD noacc TyD qplus (MVal x_mask) REPLACE x_result_1 x_u x_v2 ;;
  x_q_1 <- veq x_result_2 x_ans2 ;;
  _ <- check x_q_1 ;;
  x_v3 <- vdense0 TyD [0; 0; 0; 0]%Q 0%Q ;;
  x_ans3 <- vdense0 TyD [0; 0; 12; 0]%Q 0%Q ;;
  x_result_3 <- t_eWiseAdd_v TyD noacc TyD qplus (MVal x_mask) REPLACE x_result_2 x_u x_v3 ;;
  x_q_2 <- veq x_result_3 x_ans3 ;;
  _ <- check x_q_2 ;;
  Ok tt) = Ok tt.
Proof. vm_compute. reflexivity. Qed.

(** test_ewiseadd_vector.cpp:367-409 *)
Example test_ewiseadd_semiring_vector_masked_replace_reg_stored_zero :
 (x_mask <- vdense TyI [0; 1; 1; 0]%Q ;;
  x_u <- vdense0 TyD [0; 0; 12; 7]%Q 0%Q ;;
  x_v <- vdense0 TyD [2; 2; 2; 2]%Q 0%Q ;;
  x_ans <- vdense0 TyD [0; 2; 14; 0]%Q 0%Q ;;
  x_result <- vnew 4 ;;
  x_result_1 <- t_eWiseAdd_v TyD noacc TyD qplus (MVal x_mask) REPLACE x_result x_u x_v ;;
  x_q <- veq x_result_1 x_ans ;;
  _ <- check x_q ;;
  x_v2 <- vdense0 TyD [0; 1; 0; 2]%Q 0%Q ;;
  x_ans2 <- vdense0 TyD [0; 1; 12; 0]%Q 0%Q ;;
  x_result_2 <- t_eWiseAdd_v TyD noacc TyD qplus (MVal x_mask) REPLACE x_result_1 x_u x_v2 ;;
  x_q_1 <- veq x_result_2 x_ans2 ;;
  _ <- check x_q_1 ;;
  x_v3 <- vdense0 TyD [0; 0; 0; 0]%Q 0%Q ;;
  x_ans3 <- vdense0 TyD [0; 0; 12; 0]%Q 0%Q ;;
  x_result_3 <- t_eWiseAdd_v TyD noacc TyD qplus (MVal x_mask) REPLACE x_result_2 x_u x_v3 ;;
  x_q_2 <- veq x_result_3 x_ans3 ;;
  _ <- check x_q_2 ;;
  Ok tt) = Ok tt.
Proof. vm_compute. reflexivity. Qed.

(** test_ewiseadd_vector.cpp:416-430 *)
Example test_ewiseadd_vector_masked_bad_dimensions :
 (x_v <- vdense0 TyD [0; 0; 12; 7]%Q 0%Q ;;
  x_u <- vdense0 TyD [0; 1; 0; 2]%Q 0%Q ;;
  x_mask <- vdense0 TyD [12; 0; 7]%Q 0%Q ;;
  x_result <- vnew 4 ;;
  _ <- throws DimensionException (t_eWiseAdd_v TyD noacc TyD qplus (MVal x_mask) MERGE x_result x_v
    x_u) ;;
  Ok tt) = Ok tt.
Proof. vm_compute. reflexivity. Qed.

(** test_ewiseadd_vector.cpp:433-472 *)
Example test_ewiseadd_vector_masked_reg :
 (x_mask <- vdense0 TyI [0; 1; 1; 0]%Q 0%Q ;;
  x_u <- vdense0 TyD [0; 0; 12; 7]%Q 0%Q ;;
  x_v <- vdense0 TyD [2; 2; 2; 2]%Q 0%Q ;;
  x_ans <- vdense0 TyD [0; 2; 14; 0]%Q 0%Q ;;
  x_result <- vnew 4 ;;
  x_result_1 <- t_eWiseAdd_v TyD noacc TyD qplus (MVal x_mask) MERGE x_result x_u x_v ;;
  x_q <- veq x_result_1 x_ans ;;
  _ <- check x_q ;;
  x_v2 <- vdense0 TyD [0; 1; 0; 2]%Q 0%Q ;;
  x_ans2 <- vdense0 TyD [0; 1; 12; 0]%Q 0%Q ;;
  x_result_2 <- t_eWiseAdd_v TyD noacc TyD qplus (MVal x_mask) MERGE x_result_1 x_u x_v2 ;;
  x_q_1 <- veq x_result_2 x_ans2 ;;
  _ <- check x_q_1 ;;
  x_v3 <- vdense0 TyD [0; 0; 0; 0]%Q 0%Q ;;
  x_ans3 <- vdense0 TyD [0; 0; 12; 0]%Q 0%Q ;;
  x_result_3 <- t_eWiseAdd_v TyD noacc TyD qplus (MVal x_mask) MERGE x_result_2 x_u x_v3 ;;
  x_q_2 <- veq x_result_3 x_ans3 ;;
  _ <- check x_q_2 ;;
  Ok tt) = Ok tt.
Proof. vm_compute. reflexivity. Qed.

(** test_ewiseadd_vector.cpp:475-514 *)
Example test_ewiseadd_vector_masked_reg_stored_zero :
 (x_mask <- vdense TyI [0; 1; 1; 0]%Q ;;
  x_u <- vdense0 TyD [0; 0; 12; 7]%Q 0%Q ;;
  x_v <- vdense0 TyD [2; 2; 2; 2]%Q 0%Q ;;
  x_ans <- vdense0 TyD [0; 2; 14; 0]%Q 0%Q ;;
  x_result <- vnew 4 ;;
  x_result_1 <- t_eWiseAdd_v TyD noacc TyD qplus (MVal x_mask) MERGE x_result x_u x_v ;;
  x_q <- veq x_result_1 x_ans ;;
  _ <- check x_q ;;
  x_v2 <- vdense0 TyD [0; 1; 0; 2]%Q 0%Q ;;
  x_ans2 <- vdense0 TyD [0; 1; 12; 0]%Q 0%Q ;;
  x_result_2 <- t_eWiseAdd_v TyD noacc TyD qplus (MVal x_mask) MERGE x_result_1 x_u x_v2 ;;
  x_q_1 <- veq x_result_2 x_ans2 ;;
  _ <- check x_q_1 ;;
  x_v3 <- vdense0 TyD [0; 0; 0; 0]%Q 0%Q ;;
  x_ans3 <- vdense0 TyD [0; 0; 12; 0]%Q 0%Q ;;
  x_result_3 <- t_eWiseAdd_v TyD noacc TyD qplus (MVal x_mask) MERGE x_result_2 x_u x_v3 ;;
  x_q_2 <- veq x_result_3 x_ans3 ;;
  _ <- check x_q_2 ;;
  Ok tt) = Ok tt.
Proof. vm_compute. reflexivity. Qed.

(** test_ewiseadd_vector.cpp:517-559 *)
Example test_ewiseadd_semiring_vector_masked_reg_stored_zero :
 (x_mask <- vdense TyI [0; 1; 1; 0]%Q ;;
  x_u <- vdense0 TyD [0; 0; 12; 7]%Q 0%Q ;;
  x_v <- vdense0 TyD [2; 2; 2; 2]%Q 0%Q ;;
  x_ans <- vdense0 TyD [0; 2; 14; 0]%Q 0%Q ;;
  x_result <- vnew 4 ;;
  x_result_1 <- t_eWiseAdd_v TyD noacc TyD qplus (MVal x_mask) MERGE x_result x_u x_v ;;
  x_q <- veq x_result_1 x_ans ;;
  _ <- check x_q ;;
  x_v2 <- vdense0 TyD [0; 1; 0; 2]%Q 0%Q ;;
  x_ans2 <- vdense0 TyD [0; 1; 12; 0]%Q 0%Q ;;
  x_result_2 <- t_eWiseAdd_v TyD noacc TyD qplus (MVal x_mask) MERGE x_result_1 x_u x_v2 ;;
  x_q_1 <- veq x_result_2 x_ans2 ;;
  _ <- check x_q_1 ;;
  x_v3 <- vdense0 TyD [0; 0; 0; 0]%Q 0%Q ;;
  x_ans3 <- vdense0 TyD [0; 0; 12; 0]%Q 0%Q ;;
  x_result_3 <- t_eWiseAdd_v TyD noacc TyD qplus (MVal x_mask) MERGE x_result_2 x_u x_v3 ;;
  x_q_2 <- veq x_result_3 x_ans3 ;;
  _ <- check x_q_2 ;;
  Ok tt) = Ok tt.
Proof. vm_compute. reflexivity. Qed.

(** test_ewiseadd_vector.cpp:566-581 *)
Example test_ewiseadd_vector_scmp_masked_replace_bad_dimensions :
 (x_v <- vdense0 TyD [0; 0; 12; 7]%Q 0%Q ;;
  x_u <- vdense0 TyD [0; 1; 0; 2]%Q 0%Q ;;
  x_mask <- vdense0 TyD [12; 0; 7]%Q 0%Q ;;
  x_result <- vnew 4 ;;
  _ <- throws DimensionException (t_eWiseAdd_v TyD noacc TyD qplus (MComp x_mask) MERGE x_result x_v
    x_u) ;;
  Ok tt) = Ok tt.
Proof. vm_compute. reflexivity. Qed.

(** test_ewiseadd_vector.cpp:584-623 *)
Example test_ewiseadd_vector_scmp_masked_replace_reg :
 (x_mask <- vdense0 TyI [1; 0; 0; 1]%Q 0%Q ;;
  x_u <- vdense0 TyD [0; 0; 12; 7]%Q 0%Q ;;
  x_v <- vdense0 TyD [2; 2; 2; 2]%Q 0%Q ;;
  x_ans <- vdense0 TyD [0; 2; 14; 0]%Q 0%Q ;;
  x_result <- vnew 4 ;;
  x_result_1 <- t_eWiseAdd_v TyD noacc TyD qplus (MComp x_mask) REPLACE x_result x_u x_v ;;
  x_q <- veq x_result_1 x_ans ;;
  _ <- check x_q ;;
  x_v2 <- vdense0 TyD [0; 1; 0; 2]%Q 0%Q ;;
  x_ans2 <- vdense0 TyD [0; 1; 12; 0]%Q 0%Q ;;
  x_result_2 <- t_eWiseAdd_v TyD noacc TyD qplus (MComp x_mask) REPLACE x_result_1 x_u x_v2 ;;
  x_q_1 <- veq x_result_2 x_ans2 ;;
  _ <- check x_q_1 ;;
  x_v3 <- vdense0 TyD [0; 0; 0; 0]%Q 0%Q ;;
  x_ans3 <- vdense0 TyD [0; 0; 12; 0]%Q 0%Q ;;
  x_result_3 <- t_eWiseAdd_v TyD noacc TyD qplus (MComp x_mask) REPLACE x_result_2 x_u x_v3 ;;
  x_q_2 <- veq x_result_3 x_ans3 ;;
  _ <- check x_q_2 ;;
  Ok tt) = Ok tt.
Proof. vm_compute. reflexivity. Qed.

(** test_ewiseadd_vector.cpp:626-665 *)
Example test_ewiseadd_vector_scmp_masked_replace_reg_stored_zero :
 (x_mask <- vdense TyI [1; 0; 0; 1]%Q ;;
  x_u <- vdense0 TyD [0; 0; 12; 7]%Q 0%Q ;;
  x_v <- vdense0 TyD [2; 2; 2; 2]%Q 0%Q ;;
  x_ans <- vdense0 TyD [0; 2; 14; 0]%Q 0%Q ;;
  x_result <- vnew 4 ;;
  x_result_1 <- t_eWiseAdd_v TyD noacc TyD qplus (MComp x_mask) REPLACE x_result x_u x_v ;;
  x_q <- veq x_result_1 x_ans ;;
  _ <- check x_q ;;
  x_v2 <- vdense0 TyD [0; 1; 0; 2]%Q 0%Q ;;
  x_ans2 <- vdense0 TyD [0; 1; 12; 0]%Q 0%Q ;;
  x_result_2 <- t_eWiseAdd_v TyD noacc TyD qplus (MComp x_mask) REPLACE x_result_1 x_u x_v2 ;;
  x_q_1 <- veq x_result_2 x_ans2 ;;
  _ <- check x_q_1 ;;
  x_v3 <- vdense0 TyD [0; 0; 0; 0]%Q 0%Q ;;
  x_ans3 <- vdense0 TyD [0; 0; 12; 0]%Q 0%Q ;;
  x_result_3 <- t_eWiseAdd_v TyD noacc TyD qplus (MComp x_mask) REPLACE x_result_2 x_u x_v3 ;;
  x_q_2 <- veq x_result_3 x_ans3 ;;
  _ <- check x_q_2 ;;
  Ok tt) = Ok tt.
Proof. vm_compute. reflexivity. Qed.

(** test_ewiseadd_vector.cpp:668-710 *)
Example test_ewiseadd_semiring_vector_scmp_masked_replace_reg_stored_zero :
 (x_mask <- vdense TyI [1; 0; 0; 1]%Q ;;
  x_u <- vdense0 TyD [0; 0; 12; 7]%Q 0%Q ;;
  x_v <- vdense0 TyD [2; 2; 2; 2]%Q 0%Q ;;
  x_ans <- vdense0 TyD [0; 2; 14; 0]%Q 0%Q ;;
  x_result <- vnew 4 ;;
  x_result_1 <- t_eWiseAdd_v TyD noacc TyD qplus (MComp x_mask) REPLACE x_result x_u x_v ;;
  x_q <- veq x_result_1 x_ans ;;
  _ <- check x_q ;;
  x_v2 <- vdense0 TyD [0; 1; 0; 2]%Q 0%Q ;;
  x_ans2 <- vdense0 TyD [0; 1; 12; 0]%Q 0%Q ;;
  x_result_2 <- t_eWiseAdd_v TyD noacc TyD qplus (MComp x_mask) REPLACE x_result_1 x_u x_v2 ;;
  x_q_1 <- veq x_result_2 x_ans2 ;;
  _ <- check x_q_1 ;;
  x_v3 <- vdense0 TyD [0; 0; 0; 0]%Q 0%Q ;;
  x_ans3 <- vdense0 TyD [0; 0; 12; 0]%Q 0%Q ;;
  x_result_3 <- t_eWiseAdd_v TyD noacc TyD qplus (MComp x_mask) REPLACE x_result_2 x_u x_v3 ;;
  x_q_2 <- veq x_result_3 x_ans3 ;;
  _ <- check x_q_2 ;;
  Ok tt) = Ok tt.
Proof. vm_compute. reflexivity. Qed.

(** test_ewiseadd_vector.cpp:717-731 *)
Example test_ewiseadd_vector_scmp_masked_bad_dimensions :
 (x_v <- vdense0 TyD [0; 0; 12; 7]%Q 0%Q ;;
  x_u <- vdense0 TyD [0; 1; 0; 2]%Q 0%Q ;;
  x_mask <- vdense0 TyD [12; 0; 7]%Q 0%Q ;;
  x_result <- vnew 4 ;;
  _ <- throws DimensionException (t_eWiseAdd_v TyD noacc TyD qplus (MComp x_mask) MERGE x_result x_v
    x_u) ;;
  Ok tt) = Ok tt.
Proof. vm_compute. reflexivity. Qed.

(** test_ewiseadd_vector.cpp:734-773 *)
Example test_ewiseadd_vector_scmp_masked_reg :
 (x_mask <- vdense0 TyI [1; 0; 0; 1]%Q 0%Q ;;
  x_u <- vdense0 TyD [0; 0; 12; 7]%Q 0%Q ;;
  x_v <- vdense0 TyD [2; 2; 2; 2]%Q 0%Q ;;
  x_ans <- vdense0 TyD [0; 2; 14; 0]%Q 0%Q ;;
  x_result <- vnew 4 ;;
  x_result_1 <- t_eWiseAdd_v TyD noacc TyD qplus (MComp x_mask) MERGE x_result x_u x_v ;;
  x_q <- veq x_result_1 x_ans ;;
  _ <- check x_q ;;
  x_v2 <- vdense0 TyD [0; 1; 0; 2]%Q 0%Q ;;
  x_ans2 <- vdense0 TyD [0; 1; 12; 0]%Q 0%Q ;;
  x_result_2 <- t_eWiseAdd_v TyD noacc TyD qplus (MComp x_mask) MERGE x_result_1 x_u x_v2 ;;
  x_q_1 <- veq x_result_2 x_ans2 ;;
  _ <- check x_q_1 ;;
  x_v3 <- vdense0 TyD [0; 0; 0; 0]%Q 0%Q ;;
  x_ans3 <- vdense0 TyD [0; 0; 12; 0]%Q 0%Q ;;
  x_result_3 <- t_eWiseAdd_v TyD noacc TyD qplus (MComp x_mask) MERGE x_result_2 x_u x_v3 ;;
  x_q_2 <- veq x_result_3 x_ans3 ;;
  _ <- check x_q_2 ;;
  Ok tt) = Ok tt.
Proof. vm_compute. reflexivity. Qed.

(** test_ewiseadd_vector.cpp:776-815 *)
Example test_ewiseadd_vector_scmp_masked_reg_stored_zero :
 (x_mask <- vdense TyI [1; 0; 0; 1]%Q ;;
  x_u <- vdense0 TyD [0; 0; 12; 7]%Q 0%Q ;;
  x_v <- vdense0 TyD [2; 2; 2; 2]%Q 0%Q ;;
  x_ans <- vdense0 TyD [0; 2; 14; 0]%Q 0%Q ;;
  x_result <- vnew 4 ;;
  x_result_1 <- t_eWiseAdd_v TyD noacc TyD qplus (MComp x_mask) MERGE x_result x_u x_v ;;
  x_q <- veq x_result_1 x_ans ;;
  _ <- check x_q ;;
  x_v2 <- vdense0 TyD [0; 1; 0; 2]%Q 0%Q ;;
  x_ans2 <- vdense0 TyD [0; 1; 12; 0]%Q 0%Q ;;
  x_result_2 <- t_eWiseAdd_v TyD noacc TyD qplus (MComp x_mask) MERGE x_result_1 x_u x_v2 ;;
  x_q_1 <- veq x_result_2 x_ans2 ;;
  _ <- check x_q_1 ;;
  x_v3 <- vdense0 TyD [0; 0; 0; 0]%Q 0%Q ;;
  x_ans3 <- vdense0 TyD [0; 0; 12; 0]%Q 0%Q ;;
  x_result_3 <- t_eWiseAdd_v TyD noacc TyD qplus (MComp x_mask) MERGE x_result_2 x_u x_v3 ;;
  x_q_2 <- veq x_result_3 x_ans3 ;;
  _ <- check x_q_2 ;;
  Ok tt) = Ok tt.
Proof. vm_compute. reflexivity. Qed.

(** test_ewiseadd_vector.cpp:818-860 *)
Example test_ewiseadd_semiring_vector_scmp_masked_reg_stored_zero :
 (x_mask <- vdense TyI [1; 0; 0; 1]%Q ;;
  x_u <- vdense0 TyD [0; 0; 12; 7]%Q 0%Q ;;
  x_v <- vdense0 TyD [2; 2; 2; 2]%Q 0%Q ;;
  x_ans <- vdense0 TyD [0; 2; 14; 0]%Q 0%Q ;;
  x_result <- vnew 4 ;;
  x_result_1 <- t_eWiseAdd_v TyD noacc TyD qplus (MComp x_mask) MERGE x_result x_u x_v ;;
  x_q <- veq x_result_1 x_ans ;;
  _ <- check x_q ;;
  x_v2 <- vdense0 TyD [0; 1; 0; 2]%Q 0%Q ;;
  x_ans2 <- vdense0 TyD [0; 1; 12; 0]%Q 0%Q ;;
  x_result_2 <- t_eWiseAdd_v TyD noacc TyD qplus (MComp x_mask) MERGE x_result_1 x_u x_v2 ;;
  x_q_1 <- veq x_result_2 x_ans2 ;;
  _ <- check x_q_1 ;;
  x_v3 <- vdense0 TyD [0; 0; 0; 0]%Q 0%Q ;;
  x_ans3 <- vdense0 TyD [0; 0; 12; 0]%Q 0%Q ;;
  x_result_3 <- t_eWiseAdd_v TyD noacc TyD qplus (MComp x_mask) MERGE x_result_2 x_u x_v3 ;;
  x_q_2 <- veq x_result_3 x_ans3 ;;
  _ <- check x_q_2 ;;
  Ok tt) = Ok tt.
Proof. vm_compute. reflexivity. Qed.

(** test_ewiseadd_vector.cpp:867-887 *)
Example test_ewiseadd_vector_accum :
 (x_v <- vdense0 TyD [12; 0; 7]%Q 0%Q ;;
  x_u <- vdense0 TyD [2; 2; 2]%Q 0%Q ;;
  x_result1 <- vdense0 TyD [1; 1; 1]%Q 0%Q ;;
  x_ans1 <- vdense0 TyD [15; 3; 10]%Q 0%Q ;;
  x_result1_1 <- t_eWiseAdd_v TyD (acc TyD qplus) TyD qplus NoMask MERGE x_result1 x_u x_v ;;
  x_q <- veq x_result1_1 x_ans1 ;;
  _ <- check x_q ;;
  x_result2 <- vdense0 TyD [1; 1; 1]%Q 0%Q ;;
  x_ans2 <- vdense0 TyD [(-13); (-1); (-8)]%Q 0%Q ;;
  x_result2_1 <- t_eWiseAdd_v TyD (acc TyD qminus) TyD qplus NoMask MERGE x_result2 x_u x_v ;;
  x_q_1 <- veq x_result2_1 x_ans2 ;;
  _ <- check x_q_1 ;;
  Ok tt) = Ok tt.
Proof. vm_compute. reflexivity. Qed.
