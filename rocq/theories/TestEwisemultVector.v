(** The tests of /repo/src/test/test_ewisemult_vector.cpp, run on the model.  Generated translation. *)
From Verif Require Import TestRun.


(** test_ewisemult_vector.cpp:66-88 *)
Example test_ewisemult_vector_bad_dimensions :
 (x_v <- vdense0 TyD [12; 0; 7]%Q 0%Q ;;
  x_u <- vdense0 TyD [0; 0; 12; 7]%Q 0%Q ;;
  x_result <- vnew 3 ;;
  _ <- throws DimensionException (t_eWiseMult_v TyD noacc TyD qtimes NoMask MERGE x_result x_v x_u)
    ;;
  _ <- throws DimensionException (t_eWiseMult_v TyD noacc TyD qtimes NoMask MERGE x_result x_u x_u)
    ;;
  Ok tt) = Ok tt.
Proof. vm_compute. reflexivity. Qed.

(** test_ewisemult_vector.cpp:91-124 *)
Example test_ewisemult_vector_reg :
 (x_u <- vdense0 TyD [0; 0; 12; 7]%Q 0%Q ;;
  x_v <- vdense0 TyD [2; 2; 2; 2]%Q 0%Q ;;
  x_ans <- vdense0 TyD [0; 0; 24; 14]%Q 0%Q ;;
  x_result <- vnew 4 ;;
  x_result_1 <- t_eWiseMult_v TyD noacc TyD qtimes NoMask MERGE x_result x_u x_v ;;
  x_q <- veq x_result_1 x_ans ;;
  _ <- check x_q ;;
  x_v2 <- vdense0 TyD [0; 1; 0; 2]%Q 0%Q ;;
  x_ans2 <- vdense0 TyD [0; 0; 0; 14]%Q 0%Q ;;
  x_result_2 <- t_eWiseMult_v TyD noacc TyD qtimes NoMask MERGE x_result_1 x_u x_v2 ;;
  x_q_1 <- veq x_result_2 x_ans2 ;;
  _ <- check x_q_1 ;;
  x_v3 <- vdense0 TyD [0; 0; 0; 0]%Q 0%Q ;;
  x_ans3 <- vdense0 TyD [0; 0; 0; 0]%Q 0%Q ;;
  x_result_3 <- t_eWiseMult_v TyD noacc TyD qtimes NoMask MERGE x_result_2 x_u x_v3 ;;
  x_q_2 <- veq x_result_3 x_ans3 ;;
  _ <- check x_q_2 ;;
  Ok tt) = Ok tt.
Proof. vm_compute. reflexivity. Qed.

(** test_ewisemult_vector.cpp:127-161 *)
Example test_ewisemult_vector_stored_zero_result :
 (x_u <- vdense TyD [0; 0; 12; 7]%Q ;;
  x_v <- vdense0 TyD [2; 2; 2; 2]%Q 0%Q ;;
  x_ans <- vdense TyD [0; 0; 24; 14]%Q ;;
  x_result <- vnew 4 ;;
  x_result_1 <- t_eWiseMult_v TyD noacc TyD qtimes NoMask MERGE x_result x_u x_v ;;
  x_q <- veq x_result_1 x_ans ;;
  _ <- check x_q ;;
  x_v2 <- vdense0 TyD [0; 1; 0; 2]%Q 0%Q ;;
  x_ans2 <- vdense0 TyD [0; 0; 0; 14]%Q 0%Q ;;
  x_ans2_1 <- vec_setElement x_ans2 1 (cast TyD 0%Q) ;;
  x_result_2 <- t_eWiseMult_v TyD noacc TyD qtimes NoMask MERGE x_result_1 x_u x_v2 ;;
  x_q_1 <- veq x_result_2 x_ans2_1 ;;
  _ <- check x_q_1 ;;
  x_v3 <- vdense0 TyD [0; 0; 0; 0]%Q 0%Q ;;
  x_ans3 <- vdense0 TyD [0; 0; 0; 0]%Q 0%Q ;;
  x_result_3 <- t_eWiseMult_v TyD noacc TyD qtimes NoMask MERGE x_result_2 x_u x_v3 ;;
  x_q_2 <- veq x_result_3 x_ans3 ;;
  _ <- check x_q_2 ;;
  Ok tt) = Ok tt.
Proof. vm_compute. reflexivity. Qed.

(** test_ewisemult_vector.cpp:164-201 *)
Example test_ewisemult_semiring_vector_stored_zero_result :
 (x_u <- vdense TyD [0; 0; 12; 7]%Q ;;
  x_v <- vdense0 TyD [2; 2; 2; 2]%Q 0%Q ;;
  x_ans <- vdense TyD [0; 0; 24; 14]%Q ;;
  x_result <- vnew 4 ;;
  x_result_1 <- t_eWiseMult_v TyD noacc TyD qtimes NoMask MERGE x_result x_u x_v ;;
  x_q <- veq x_result_1 x_ans ;;
  _ <- check x_q ;;
  x_v2 <- vdense0 TyD [0; 1; 0; 2]%Q 0%Q ;;
  x_ans2 <- vdense0 TyD [0; 0; 0; 14]%Q 0%Q ;;
  x_ans2_1 <- vec_setElement x_ans2 1 (cast TyD 0%Q) ;;
  x_result_2 <- t_eWiseMult_v TyD noacc TyD qtimes NoMask MERGE x_result_1 x_u x_v2 ;;
  x_q_1 <- veq x_result_2 x_ans2_1 ;;
  _ <- check x_q_1 ;;
  x_v3 <- vdense0 TyD [0; 0; 0; 0]%Q 0%Q ;;
  x_ans3 <- vdense0 TyD [0; 0; 0; 0]%Q 0%Q ;;
  x_result_3 <- t_eWiseMult_v TyD noacc TyD qtimes NoMask MERGE x_result_2 x_u x_v3 ;;
  x_q_2 <- veq x_result_3 x_ans3 ;;
  _ <- check x_q_2 ;;
  Ok tt) = Ok tt.
Proof. vm_compute. reflexivity. Qed.

(** test_ewisemult_vector.cpp:208-222 *)
Example test_ewisemult_vector_masked_replace_bad_dimensions :
 (x_v <- vdense0 TyD [0; 0; 12; 7]%Q 0%Q ;;
  x_u <- vdense0 TyD [0; 1; 0; 2]%Q 0%Q ;;
  x_mask <- vdense0 TyD [12; 0; 7]%Q 0%Q ;;
  x_result <- vnew 4 ;;
  _ <- throws DimensionException (t_eWiseMult_v TyD noacc TyD qtimes (MVal x_mask) REPLACE x_result
    x_v x_u) ;;
  Ok tt) = Ok tt.
Proof. vm_compute. reflexivity. Qed.

(** test_ewisemult_vector.cpp:225-262 *)
Example test_ewisemult_vector_masked_replace_reg :
 (x_mask <- vdense0 TyI [0; 1; 1; 0]%Q 0%Q ;;
  x_u <- vdense0 TyD [0; 0; 12; 7]%Q 0%Q ;;
  x_v <- vdense0 TyD [2; 2; 2; 2]%Q 0%Q ;;
  x_ans <- vdense0 TyD [0; 0; 24; 0]%Q 0%Q ;;
  x_result <- vnew 4 ;;
  x_result_1 <- t_eWiseMult_v TyD noacc TyD qtimes (MVal x_mask) REPLACE x_result x_u x_v ;;
  x_q <- veq x_result_1 x_ans ;;
  _ <- check x_q ;;
  x_v2 <- vdense0 TyD [0; 1; 0; 2]%Q 0%Q ;;
  x_ans2 <- vdense0 TyD [0; 0; 0; 0]%Q 0%Q ;;
  x_result_2 <- t_eWiseMult_v TyD noacc TyD qtimes (MVal x_mask) REPLACE x_result_1 x_u x_v2 ;;
  x_q_1 <- veq x_result_2 x_ans2 ;;
  _ <- check x_q_1 ;;
  x_v3 <- vdense0 TyD [0; 0; 0; 0]%Q 0%Q ;;
  x_ans3 <- vdense0 TyD [0; 0; 0; 0]%Q 0%Q ;;
  x_result_3 <- t_eWiseMult_v TyD noacc TyD qtimes (MVal x_mask) REPLACE x_result_2 x_u x_v3 ;;
  x_q_2 <- veq x_result_3 x_ans3 ;;
  _ <- check x_q_2 ;;
  Ok tt) = Ok tt.
Proof. vm_compute. reflexivity. Qed.

(** test_ewisemult_vector.cpp:265-302 *)
Example test_ewisemult_vector_masked_replace_reg_stored_zero :
 (x_mask <- vdense TyI [0; 1; 1; 0]%Q ;;
  x_u <- vdense0 TyD [0; 0; 12; 7]%Q 0%Q ;;
  x_v <- vdense0 TyD [2; 2; 2; 2]%Q 0%Q ;;
  x_ans <- vdense0 TyD [0; 0; 24; 0]%Q 0%Q ;;
  x_result <- vnew 4 ;;
  x_result_1 <- t_eWiseMult_v TyD noacc TyD qtimes (MVal x_mask) REPLACE x_result x_u x_v ;;
  x_q <- veq x_result_1 x_ans ;;
  _ <- check x_q ;;
  x_v2 <- vdense0 TyD [0; 1; 0; 2]%Q 0%Q ;;
  x_ans2 <- vdense0 TyD [0; 0; 0; 0]%Q 0%Q ;;
  x_result_2 <- t_eWiseMult_v TyD noacc TyD qtimes (MVal x_mask) REPLACE x_result_1 x_u x_v2 ;;
  x_q_1 <- veq x_result_2 x_ans2 ;;
  _ <- check x_q_1 ;;
  x_v3 <- vdense0 TyD [0; 0; 0; 0]%Q 0%Q ;;
  x_ans3 <- vdense0 TyD [0; 0; 0; 0]%Q 0%Q ;;
  x_result_3 <- t_eWiseMult_v TyD noacc TyD qtimes (MVal x_mask) REPLACE x_result_2 x_u x_v3 ;;
  x_q_2 <- veq x_result_3 x_ans3 ;;
  _ <- check x_q_2 ;;
  Ok tt) = Ok tt.
Proof. vm_compute. reflexivity. Qed.

(** test_ewisemult_vector.cpp:309-323 *)
Example test_ewisemult_vector_masked_bad_dimensions :
 (x_v <- vdense0 TyD [0; 0; 12; 7]%Q 0%Q ;;
  x_u <- vdense0 TyD [0; 1; 0; 2]%Q 0%Q ;;
  x_mask <- vdense0 TyD [12; 0; 7]%Q 0%Q ;;
  x_result <- vnew 4 ;;
  _ <- throws DimensionException (t_eWiseMult_v TyD noacc TyD qtimes (MVal x_mask) MERGE x_result
    x_v x_u) ;;
  Ok tt) = Ok tt.
Proof. vm_compute. reflexivity. Qed.

(** test_ewisemult_vector.cpp:326-380 *)
Example test_ewisemult_vector_masked_reg :
 (x_mask <- vdense0 TyI [0; 1; 1; 0]%Q 0%Q ;;
  x_u <- vdense0 TyD [0; 0; 12; 7]%Q 0%Q ;;
  x_v <- vdense0 TyD [2; 2; 2; 2]%Q 0%Q ;;
  x_result <- vdense TyD [2; 2; 2; 2]%Q ;;
  x_ans <- vdense0 TyD [2; 0; 24; 2]%Q 0%Q ;;
  x_result_1 <- t_eWiseMult_v TyD noacc TyD qtimes (MVal x_mask) MERGE x_result x_u x_v ;;
  x_q <- veq x_result_1 x_ans ;;
  _ <- check x_q ;;
  x_v2 <- vdense0 TyD [0; 1; 0; 2]%Q 0%Q ;;
  x_result_2 <- vdense TyD [2; 2; 2; 2]%Q ;;
  x_ans2 <- vdense0 TyD [2; 0; 0; 2]%Q 0%Q ;;
  x_result_3 <- t_eWiseMult_v TyD noacc TyD qtimes (MVal x_mask) MERGE x_result_2 x_u x_v2 ;;
  x_q_1 <- veq x_result_3 x_ans2 ;;
  _ <- check x_q_1 ;;
  x_v3 <- vdense0 TyD [0; 0; 0; 0]%Q 0%Q ;;
  x_result_4 <- vdense TyD [2; 2; 2; 2]%Q ;;
  x_ans3 <- vdense0 TyD [2; 0; 0; 2]%Q 0%Q ;;
  x_result_5 <- t_eWiseMult_v TyD noacc TyD qtimes (MVal x_mask) MERGE x_result_4 x_u x_v3 ;;
  x_q_2 <- veq x_result_5 x_ans3 ;;
  _ <- check x_q_2 ;;
  Ok tt) = Ok tt.
Proof. vm_compute. reflexivity. Qed.

(** test_ewisemult_vector.cpp:383-438 *)
Example test_ewisemult_vector_masked_reg_stored_zero :
 (x_mask <- vdense TyI [0; 1; 1; 0]%Q ;;
  x_u <- vdense0 TyD [0; 0; 12; 7]%Q 0%Q ;;
  x_v <- vdense0 TyD [2; 2; 2; 2]%Q 0%Q ;;
  x_result <- vdense TyD [2; 2; 2; 2]%Q ;;
  x_ans <- vdense0 TyD [2; 0; 24; 2]%Q 0%Q ;;
  x_result_1 <- t_eWiseMult_v TyD noacc TyD qtimes (MVal x_mask) MERGE x_result x_u x_v ;;
  x_q <- veq x_result_1 x_ans ;;
  _ <- check x_q ;;
  x_v2 <- vdense0 TyD [0; 1; 0; 2]%Q 0%Q ;;
  x_result_2 <- vdense TyD [2; 2; 2; 2]%Q ;;
  x_ans2 <- vdense0 TyD [2; 0; 0; 2]%Q 0%Q ;;
  x_result_3 <- t_eWiseMult_v TyD noacc TyD qtimes (MVal x_mask) MERGE x_result_2 x_u x_v2 ;;
  x_q_1 <- veq x_result_3 x_ans2 ;;
  _ <- check x_q_1 ;;
  x_v3 <- vdense0 TyD [0; 0; 0; 0]%Q 0%Q ;;
  x_result_4 <- vdense TyD [2; 2; 2; 2]%Q ;;
  x_ans3 <- vdense0 TyD [2; 0; 0; 2]%Q 0%Q ;;
  x_result_5 <- t_eWiseMult_v TyD noacc TyD qtimes (MVal x_mask) MERGE x_result_4 x_u x_v3 ;;
  x_q_2 <- veq x_result_5 x_ans3 ;;
  _ <- check x_q_2 ;;
  Ok tt) = Ok tt.
Proof. vm_compute. reflexivity. Qed.

(** test_ewisemult_vector.cpp:445-459 *)
Example test_ewisemult_vector_scmp_masked_replace_bad_dimensions :
 (x_v <- vdense0 TyD [0; 0; 12; 7]%Q 0%Q ;;
  x_u <- vdense0 TyD [0; 1; 0; 2]%Q 0%Q ;;
  x_mask <- vdense0 TyD [12; 0; 7]%Q 0%Q ;;
  x_result <- vnew 4 ;;
  _ <- throws DimensionException (t_eWiseMult_v TyD noacc TyD qtimes (MComp x_mask) REPLACE x_result
    x_v x_u) ;;
  Ok tt) = Ok tt.
Proof. vm_compute. reflexivity. Qed.

(** test_ewisemult_vector.cpp:462-499 *)
Example test_ewisemult_vector_scmp_masked_replace_reg :
 (x_mask <- vdense0 TyI [1; 0; 0; 1]%Q 0%Q ;;
  x_u <- vdense0 TyD [0; 0; 12; 7]%Q 0%Q ;;
  x_v <- vdense0 TyD [2; 2; 2; 2]%Q 0%Q ;;
  x_ans <- vdense0 TyD [0; 0; 24; 0]%Q 0%Q ;;
  x_result <- vnew 4 ;;
  x_result_1 <- t_eWiseMult_v TyD noacc TyD qtimes (MComp x_mask) REPLACE x_result x_u x_v ;;
  x_q <- veq x_result_1 x_ans ;;
  _ <- check x_q ;;
  x_v2 <- vdense0 TyD [0; 1; 0; 2]%Q 0%Q ;;
  x_ans2 <- vdense0 TyD [0; 0; 0; 0]%Q 0%Q ;;
  x_result_2 <- t_eWiseMult_v TyD noacc TyD qtimes (MComp x_mask) REPLACE x_result_1 x_u x_v2 ;;
  x_q_1 <- veq x_result_2 x_ans2 ;;
  _ <- check x_q_1 ;;
  x_v3 <- vdense0 TyD [0; 0; 0; 0]%Q 0%Q ;;
  x_ans3 <- vdense0 TyD [0; 0; 0; 0]%Q 0%Q ;;
  x_result_3 <- t_eWiseMult_v TyD noacc TyD qtimes (MComp x_mask) REPLACE x_result_2 x_u x_v3 ;;
  x_q_2 <- veq x_result_3 x_ans3 ;;
  _ <- check x_q_2 ;;
  Ok tt) = Ok tt.
Proof. vm_compute. reflexivity. Qed.

(** test_ewisemult_vector.cpp:502-539 *)
Example test_ewisemult_vector_scmp_masked_replace_reg_stored_zero :
 (x_mask <- vdense TyI [1; 0; 0; 1]%Q ;;
  x_u <- vdense0 TyD [0; 0; 12; 7]%Q 0%Q ;;
  x_v <- vdense0 TyD [2; 2; 2; 2]%Q 0%Q ;;
  x_ans <- vdense0 TyD [0; 0; 24; 0]%Q 0%Q ;;
  x_result <- vnew 4 ;;
  x_result_1 <- t_eWiseMult_v TyD noacc TyD qtimes (MComp x_mask) REPLACE x_result x_u x_v ;;
  x_q <- veq x_result_1 x_ans ;;
  _ <- check x_q ;;
  x_v2 <- vdense0 TyD [0; 1; 0; 2]%Q 0%Q ;;
  x_ans2 <- vdense0 TyD [0; 0; 0; 0]%Q 0%Q ;;
  x_result_2 <- t_eWiseMult_v TyD noacc TyD qtimes (MComp x_mask) REPLACE x_result_1 x_u x_v2 ;;
  x_q_1 <- veq x_result_2 x_ans2 ;;
  _ <- check x_q_1 ;;
  x_v3 <- vdense0 TyD [0; 0; 0; 0]%Q 0%Q ;;
  x_ans3 <- vdense0 TyD [0; 0; 0; 0]%Q 0%Q ;;
  x_result_3 <- t_eWiseMult_v TyD noacc TyD qtimes (MComp x_mask) REPLACE x_result_2 x_u x_v3 ;;
  x_q_2 <- veq x_result_3 x_ans3 ;;
  _ <- check x_q_2 ;;
  Ok tt) = Ok tt.
Proof. vm_compute. reflexivity. Qed.

(** test_ewisemult_vector.cpp:546-560 *)
Example test_ewisemult_vector_scmp_masked_bad_dimensions :
 (x_v <- vdense0 TyD [0; 0; 12; 7]%Q 0%Q ;;
  x_u <- vdense0 TyD [0; 1; 0; 2]%Q 0%Q ;;
  x_mask <- vdense0 TyD [12; 0; 7]%Q 0%Q ;;
  x_result <- vnew 4 ;;
  _ <- throws DimensionException (t_eWiseMult_v TyD noacc TyD qtimes (MComp x_mask) MERGE x_result
    x_v x_u) ;;
  Ok tt) = Ok tt.
Proof. vm_compute. reflexivity. Qed.

(** test_ewisemult_vector.cpp:563-617 *)
Example test_ewisemult_vector_scmp_masked_reg :
 (x_mask <- vdense0 TyI [1; 0; 0; 1]%Q 0%Q ;;
  x_u <- vdense0 TyD [0; 0; 12; 7]%Q 0%Q ;;
  x_v <- vdense0 TyD [2; 2; 2; 2]%Q 0%Q ;;
  x_result <- vdense TyD [2; 2; 2; 2]%Q ;;
  x_ans <- vdense0 TyD [2; 0; 24; 2]%Q 0%Q ;;
  x_result_1 <- t_eWiseMult_v TyD noacc TyD qtimes (MComp x_mask) MERGE x_result x_u x_v ;;
  x_q <- veq x_result_1 x_ans ;;
  _ <- check x_q ;;
  x_v2 <- vdense0 TyD [0; 1; 0; 2]%Q 0%Q ;;
  x_result_2 <- vdense TyD [2; 2; 2; 2]%Q ;;
  x_ans2 <- vdense0 TyD [2; 0; 0; 2]%Q 0%Q ;;
  x_result_3 <- t_eWiseMult_v TyD noacc TyD qtimes (MComp x_mask) MERGE x_result_2 x_u x_v2 ;;
  x_q_1 <- veq x_result_3 x_ans2 ;;
  _ <- check x_q_1 ;;
  x_v3 <- vdense0 TyD [0; 0; 0; 0]%Q 0%Q ;;
  x_result_4 <- vdense TyD [2; 2; 2; 2]%Q ;;
  x_ans3 <- vdense0 TyD [2; 0; 0; 2]%Q 0%Q ;;
  x_result_5 <- t_eWiseMult_v TyD noacc TyD qtimes (MComp x_mask) MERGE x_result_4 x_u x_v3 ;;
  x_q_2 <- veq x_result_5 x_ans3 ;;
  _ <- check x_q_2 ;;
  Ok tt) = Ok tt.
Proof. vm_compute. reflexivity. Qed.

(** test_ewisemult_vector.cpp:620-674 *)
Example test_ewisemult_vector_scmp_masked_reg_stored_zero :
 (x_mask <- vdense TyI [1; 0; 0; 1]%Q ;;
  x_u <- vdense0 TyD [0; 0; 12; 7]%Q 0%Q ;;
  x_v <- vdense0 TyD [2; 2; 2; 2]%Q 0%Q ;;
  x_result <- vdense TyD [2; 2; 2; 2]%Q ;;
  x_ans <- vdense0 TyD [2; 0; 24; 2]%Q 0%Q ;;
  x_result_1 <- t_eWiseMult_v TyD noacc TyD qtimes (MComp x_mask) MERGE x_result x_u x_v ;;
  x_q <- veq x_result_1 x_ans ;;
  _ <- check x_q ;;
  x_v2 <- vdense0 TyD [0; 1; 0; 2]%Q 0%Q ;;
  x_result_2 <- vdense TyD [2; 2; 2; 2]%Q ;;
  x_ans2 <- vdense0 TyD [2; 0; 0; 2]%Q 0%Q ;;
  x_result_3 <- t_eWiseMult_v TyD noacc TyD qtimes (MComp x_mask) MERGE x_result_2 x_u x_v2 ;;
  x_q_1 <- veq x_result_3 x_ans2 ;;
  _ <- check x_q_1 ;;
  x_v3 <- vdense0 TyD [0; 0; 0; 0]%Q 0%Q ;;
  x_result_4 <- vdense TyD [2; 2; 2; 2]%Q ;;
  x_ans3 <- vdense0 TyD [2; 0; 0; 2]%Q 0%Q ;;
  x_result_5 <- t_eWiseMult_v TyD noacc TyD qtimes (MComp x_mask) MERGE x_result_4 x_u x_v3 ;;
  x_q_2 <- veq x_result_5 x_ans3 ;;
  _ <- check x_q_2 ;;
  Ok tt) = Ok tt.
Proof. vm_compute. reflexivity. Qed.
