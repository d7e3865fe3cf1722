(** The tests of /repo/src/test/test_reduce.cpp, run on the model.  Generated translation. *)
From Verif Require Import TestRun.


(** test_reduce.cpp:54-90 *)
Example test_reduce_matvec_bad_dimensions :
 (x_mA <- mdense0 TyD [[12; 1; 3]; [0; 0; 0]; [7; 0; 9]]%Q 0%Q ;;
  x_mB <- mdense0 TyD [[5; 0; 1; 0]; [6; 7; 0; 0]; [6; 7; 0; 0]; [0; 5; 0; 0]; [6; 7; 0; 0]; [0; 0;
    0; 0]]%Q 0%Q ;;
  x_w4 <- vnew 4 ;;
  _ <- throws DimensionException (t_reduce TyD noacc TyD qplus NoMask MERGE x_w4 (Mat x_mA)) ;;
  _ <- throws DimensionException (t_reduce TyD noacc TyD qplus NoMask MERGE x_w4 (Mat x_mB)) ;;
  Ok tt) = Ok tt.
Proof. vm_compute. reflexivity. Qed.

(** test_reduce.cpp:94-112 *)
Example reduce_matvec_test_bad_dimension :
 (x_A <- mnew 4 4 ;;
  x_A_1 <- mbuild TyD qsecond x_A [0; 0; 1; 1; 1; 2; 2; 2; 3; 3] [0; 1; 0; 1; 2; 1; 2; 3; 2; 3] [1;
    1; 1; 2; 2; 1; 3; 5; 3; 4]%Q ;;
  x_C <- vnew 3 ;;
  x_C_1 <- vbuild TyD qsecond x_C [0; 1; 2] [1; 1; 1]%Q ;;
  _ <- throws DimensionException (t_reduce TyD noacc TyD qplus NoMask MERGE x_C_1 (Mat x_A_1)) ;;
  Ok tt) = Ok tt.
Proof. vm_compute. reflexivity. Qed.

(** test_reduce.cpp:115-137 *)
Example test_reduce_matvec_mask_replace_bad_dimensions :
 (x_mA <- mdense0 TyD [[12; 1; 3]; [0; 0; 0]; [7; 0; 9]]%Q 0%Q ;;
  x_u3 <- vdense0 TyD [1; 1; 0]%Q 0%Q ;;
  x_m4 <- vdense0 TyD [0; 0; 13; 1]%Q 0%Q ;;
  x_w3 <- vnew 3 ;;
  _ <- throws DimensionException (t_reduce TyD noacc TyD qplus (MVal x_m4) REPLACE x_w3 (Mat x_mA))
    ;;
  Ok tt) = Ok tt.
Proof. vm_compute. reflexivity. Qed.

(** test_reduce.cpp:140-159 *)
Example test_reduce_matvec_mask_merge_bad_dimensions :
 (x_mA <- mdense0 TyD [[12; 1; 3]; [0; 0; 0]; [7; 0; 9]]%Q 0%Q ;;
  x_m4 <- vdense0 TyD [0; 0; 13; 1]%Q 0%Q ;;
  x_w3 <- vdense0 TyD [1; 1; 1]%Q 0%Q ;;
  _ <- throws DimensionException (t_reduce TyD noacc TyD qplus (MVal x_m4) MERGE x_w3 (Mat x_mA)) ;;
  Ok tt) = Ok tt.
Proof. vm_compute. reflexivity. Qed.

(** test_reduce.cpp:162-180 *)
Example reduce_matvec_test_transpose_bad_dimensions :
 (x_A <- mnew 4 4 ;;
  x_A_1 <- mbuild TyD qsecond x_A [0; 0; 1; 1; 1; 2; 2; 2; 3; 3] [0; 1; 0; 1; 2; 1; 2; 3; 2; 3] [1;
    1; 1; 2; 2; 1; 3; 5; 3; 4]%Q ;;
  x_C <- vnew 5 ;;
  x_C_1 <- vbuild TyD qsecond x_C [0; 1; 2; 3; 4] [1; 1; 1; 1; 1]%Q ;;
  _ <- throws DimensionException (t_reduce TyD noacc TyD qplus NoMask MERGE x_C_1 (Trn x_A_1)) ;;
  Ok tt) = Ok tt.
Proof. vm_compute. reflexivity. Qed.

(** test_reduce.cpp:183-202 *)
Example test_reduce_matvec_scmp_replace_bad_dimensions :
 (x_mA <- mdense0 TyD [[12; 1; 3]; [0; 0; 0]; [7; 0; 9]]%Q 0%Q ;;
  x_m4 <- vdense0 TyD [0; 0; 13; 1]%Q 0%Q ;;
  x_w3 <- vnew 3 ;;
  _ <- throws DimensionException (t_reduce TyD noacc TyD qplus (MComp x_m4) REPLACE x_w3 (Mat x_mA))
    ;;
  Ok tt) = Ok tt.
Proof. vm_compute. reflexivity. Qed.

(** test_reduce.cpp:205-225 *)
Example test_reduce_matvec_scmp_merge_bad_dimensions :
 (x_mA <- mdense0 TyD [[12; 1; 3]; [0; 0; 0]; [7; 0; 9]]%Q 0%Q ;;
  x_m4 <- vdense0 TyD [0; 0; 13; 1]%Q 0%Q ;;
  x_w3 <- vdense0 TyD [1; 1; 1]%Q 0%Q ;;
  _ <- throws DimensionException (t_reduce TyD noacc TyD qplus (MComp x_m4) MERGE x_w3 (Mat x_mA))
    ;;
  Ok tt) = Ok tt.
Proof. vm_compute. reflexivity. Qed.

(** test_reduce.cpp:228-258 *)
Example reduce_matvec_test_noaccum :
 (x_A <- mnew 4 4 ;;
  x_A_1 <- mbuild TyD qsecond x_A [0; 0; 1; 1; 1; 2; 2; 2; 3; 3] [0; 1; 0; 1; 2; 1; 2; 3; 2; 3] [1;
    1; 1; 2; 2; 1; 3; 5; 3; 4]%Q ;;
  x_C <- vnew 4 ;;
  x_C_1 <- vbuild TyD qsecond x_C [0; 1; 2; 3] [1; 1; 1; 1]%Q ;;
  x_answer <- vnew 4 ;;
  x_answer_1 <- vbuild TyD qsecond x_answer [0; 1; 2; 3] [2; 5; 9; 7]%Q ;;
  x_C_2 <- t_reduce TyD noacc TyD qplus NoMask MERGE x_C_1 (Mat x_A_1) ;;
  x_q <- veq x_C_2 x_answer_1 ;;
  _ <- check x_q ;;
  x_C_3 <- t_reduce TyD noacc TyD qplus NoMask MERGE x_C_2 (Mat x_A_1) ;;
  x_q_1 <- veq x_C_3 x_answer_1 ;;
  _ <- check x_q_1 ;;
  x_C_4 <- t_reduce TyD noacc TyD qplus NoMask MERGE x_C_3 (Mat x_A_1) ;;
  x_q_2 <- veq x_C_4 x_answer_1 ;;
  _ <- check x_q_2 ;;
  Ok tt) = Ok tt.
Proof. vm_compute. reflexivity. Qed.

(** test_reduce.cpp:261-305 *)
Example test_reduce_matvec_reg :
 (x_mA <- mdense0 TyD [[12; 1; 3]; [0; 0; 0]; [7; 0; 9]]%Q 0%Q ;;
  x_mB <- mdense0 TyD [[5; 0; 1; 0]; [6; 7; 0; 0]; [6; 7; 0; 0]; [0; 5; 0; 0]; [6; 7; 0; 0]; [0; 0;
    0; 0]]%Q 0%Q ;;
  x_empty6x4 <- mnew 6 4 ;;
  x_result3 <- vnew 3 ;;
  x_result6 <- vnew 6 ;;
  x_empty_result6 <- vnew 6 ;;
  x_ansA <- vdense0 TyD [16; 0; 16]%Q 0%Q ;;
  x_ansB <- vdense0 TyD [6; 13; 13; 5; 13; 0]%Q 0%Q ;;
  x_result3_1 <- t_reduce TyD noacc TyD qplus NoMask MERGE x_result3 (Mat x_mA) ;;
  x_q <- veq x_result3_1 x_ansA ;;
  _ <- check x_q ;;
  x_result6_1 <- t_reduce TyD noacc TyD qplus NoMask MERGE x_result6 (Mat x_mB) ;;
  x_q_1 <- veq x_result6_1 x_ansB ;;
  _ <- check x_q_1 ;;
  x_empty_result6_1 <- t_reduce TyD noacc TyD qplus NoMask MERGE x_empty_result6 (Mat x_empty6x4) ;;
  _ <- check (Qeq_bool (inject_Z (vnvals x_empty_result6_1)) 0%Q) ;;
  Ok tt) = Ok tt.
Proof. vm_compute. reflexivity. Qed.

(** test_reduce.cpp:308-331 *)
Example reduce_matvec_test_nomask_accum :
 (x_A <- mnew 4 4 ;;
  x_A_1 <- mbuild TyD qsecond x_A [0; 0; 1; 1; 1; 2; 2; 2; 3; 3] [0; 1; 0; 1; 2; 1; 2; 3; 2; 3] [1;
    1; 1; 2; 2; 1; 3; 5; 3; 4]%Q ;;
  x_C <- vnew 4 ;;
  x_C_1 <- vbuild TyD qsecond x_C [0; 1; 2; 3] [1; 1; 1; 1]%Q ;;
  x_answer <- vnew 4 ;;
  x_answer_1 <- vbuild TyD qsecond x_answer [0; 1; 2; 3] [3; 6; 10; 8]%Q ;;
  x_C_2 <- t_reduce TyD (acc TyD qplus) TyD qplus NoMask MERGE x_C_1 (Mat x_A_1) ;;
  x_q <- veq x_C_2 x_answer_1 ;;
  _ <- check x_q ;;
  Ok tt) = Ok tt.
Proof. vm_compute. reflexivity. Qed.

(** test_reduce.cpp:334-377 *)
Example test_reduce_matvec_mask_replace_second_accum :
 (x_mA <- mdense0 TyD [[12; 1; 3]; [0; 0; 0]; [7; 0; 9]]%Q 0%Q ;;
  x_m3 <- vdense0 TyD [1; 1; 0]%Q 0%Q ;;
  _ <- check (Qeq_bool (inject_Z (vnvals x_m3)) 2%Q) ;;
  x_result <- vdense0 TyD [1; 1; 1]%Q 0%Q ;;
  x_answer <- vdense0 TyD [16; 1; 0]%Q 0%Q ;;
  x_result_1 <- t_reduce TyD (acc TyD qsecond) TyD qplus (MVal x_m3) REPLACE x_result (Mat x_mA) ;;
  _ <- check (Qeq_bool (inject_Z (vnvals x_result_1)) 2%Q) ;;
  x_q <- veq x_result_1 x_answer ;;
  _ <- check x_q ;;
  x_result_2 <- vdense0 TyD [1; 1; 1]%Q 0%Q ;;
  x_answer_1 <- vdense0 TyD [16; 0; 0]%Q 0%Q ;;
  x_result_3 <- t_reduce TyD noacc TyD qplus (MVal x_m3) REPLACE x_result_2 (Mat x_mA) ;;
  _ <- check (Qeq_bool (inject_Z (vnvals x_result_3)) 1%Q) ;;
  x_q_1 <- veq x_result_3 x_answer_1 ;;
  _ <- check x_q_1 ;;
  Ok tt) = Ok tt.
Proof. vm_compute. reflexivity. Qed.

(** test_reduce.cpp:380-411 *)
Example test_reduce_matvec_mask_replace_stored_zero :
 (x_A <- mdense0 TyI [[1; 1; 0; 0]; [1; 2; 2; 0]; [0; 2; 3; 3]; [0; 0; 3; 4]]%Q 0%Q ;;
  x_mask <- vdense0 TyI [1; 1; 1; 0]%Q 0%Q ;;
  x_result <- vdense0 TyI [1; 1; 1; 1]%Q 0%Q ;;
  _ <- check (Qeq_bool (inject_Z (vnvals x_mask)) 3%Q) ;;
  x_mask_1 <- vec_setElement x_mask 3 (cast TyI 0%Q) ;;
  _ <- check (Qeq_bool (inject_Z (vnvals x_mask_1)) 4%Q) ;;
  x_answer <- vdense0 TyI [2; 5; 8; 666]%Q 666%Q ;;
  x_result_1 <- t_reduce TyI noacc TyD qplus (MVal x_mask_1) REPLACE x_result (Mat x_A) ;;
  _ <- check (Qeq_bool (inject_Z (vnvals x_result_1)) 3%Q) ;;
  x_q <- veq x_result_1 x_answer ;;
  _ <- check x_q ;;
  Ok tt) = Ok tt.
Proof. vm_compute. reflexivity. Qed.

(** test_reduce.cpp:414-439 *)
Example test_reduce_matvec_mask_replace_transpose :
 (x_A <- mdense0 TyI [[1; 1; 0; 0; 1]; [(-1); 2; 2; 0; 1]; [0; 2; 3; 3; 1]; [0; 0; 3; 4; 1]]%Q 0%Q
    ;;
  x_mask <- vdense0 TyI [1; 0; 1; 0; 1]%Q 0%Q ;;
  x_result <- vdense0 TyI [1; 1; 1; 1; 1]%Q 0%Q ;;
  x_answer <- vdense0 TyI [0; 666; 8; 666; 4]%Q 666%Q ;;
  x_result_1 <- t_reduce TyI noacc TyD qplus (MVal x_mask) REPLACE x_result (Trn x_A) ;;
  x_q <- veq x_result_1 x_answer ;;
  _ <- check x_q ;;
  Ok tt) = Ok tt.
Proof. vm_compute. reflexivity. Qed.

(** test_reduce.cpp:442-483 *)
Example test_reduce_matvec_mask_merge :
 (x_mA <- mdense0 TyD [[12; 1; 3]; [0; 0; 0]; [7; 0; 9]]%Q 0%Q ;;
  x_m3 <- vdense0 TyD [1; 1; 0]%Q 0%Q ;;
  _ <- check (Qeq_bool (inject_Z (vnvals x_m3)) 2%Q) ;;
  x_result <- vdense0 TyD [1; 1; 1]%Q 0%Q ;;
  x_answer <- vdense0 TyD [16; 1; 1]%Q 0%Q ;;
  x_result_1 <- t_reduce TyD (acc TyD qsecond) TyD qplus (MVal x_m3) MERGE x_result (Mat x_mA) ;;
  _ <- check (Qeq_bool (inject_Z (vnvals x_result_1)) 3%Q) ;;
  x_q <- veq x_result_1 x_answer ;;
  _ <- check x_q ;;
  x_result_2 <- vdense0 TyD [1; 1; 1]%Q 0%Q ;;
  x_answer_1 <- vdense0 TyD [16; 0; 1]%Q 0%Q ;;
  x_result_3 <- t_reduce TyD noacc TyD qplus (MVal x_m3) MERGE x_result_2 (Mat x_mA) ;;
  _ <- check (Qeq_bool (inject_Z (vnvals x_result_3)) 2%Q) ;;
  x_q_1 <- veq x_result_3 x_answer_1 ;;
  _ <- check x_q_1 ;;
  Ok tt) = Ok tt.
Proof. vm_compute. reflexivity. Qed.

(** test_reduce.cpp:486-529 *)
Example test_reduce_matvec_mask_merge_stored_zero :
 (x_mA <- mdense0 TyD [[12; 1; 3]; [0; 0; 0]; [7; 0; 9]]%Q 0%Q ;;
  x_u3 <- vdense0 TyD [1; 1; 0]%Q 0%Q ;;
  x_m3 <- vdense TyD [1; 1; 0]%Q ;;
  _ <- check (Qeq_bool (inject_Z (vnvals x_m3)) 3%Q) ;;
  x_result <- vdense0 TyD [1; 1; 1]%Q 0%Q ;;
  x_answer <- vdense0 TyD [16; 1; 1]%Q 0%Q ;;
  x_result_1 <- t_reduce TyD (acc TyD qsecond) TyD qplus (MVal x_m3) MERGE x_result (Mat x_mA) ;;
  _ <- check (Qeq_bool (inject_Z (vnvals x_result_1)) 3%Q) ;;
  x_q <- veq x_result_1 x_answer ;;
  _ <- check x_q ;;
  x_result_2 <- vdense0 TyD [1; 1; 1]%Q 0%Q ;;
  x_answer_1 <- vdense0 TyD [16; 0; 1]%Q 0%Q ;;
  x_result_3 <- t_reduce TyD noacc TyD qplus (MVal x_m3) MERGE x_result_2 (Mat x_mA) ;;
  _ <- check (Qeq_bool (inject_Z (vnvals x_result_3)) 2%Q) ;;
  x_q_1 <- veq x_result_3 x_answer_1 ;;
  _ <- check x_q_1 ;;
  Ok tt) = Ok tt.
Proof. vm_compute. reflexivity. Qed.

(** test_reduce.cpp:532-556 *)
Example test_reduce_matvec_mask_transpose :
 (x_mA <- mdense0 TyD [[12; 1; 3]; [0; 0; 0]; [7; 0; 9]]%Q 0%Q ;;
  x_m3 <- vdense0 TyD [1; 1; 0]%Q 0%Q ;;
  x_result <- vdense0 TyD [1; 1; 1]%Q 0%Q ;;
  _ <- check (Qeq_bool (inject_Z (vnvals x_m3)) 2%Q) ;;
  x_answer <- vdense0 TyD [19; 1; 1]%Q 0%Q ;;
  x_result_1 <- t_reduce TyD noacc TyD qplus (MVal x_m3) MERGE x_result (Trn x_mA) ;;
  _ <- check (Qeq_bool (inject_Z (vnvals x_result_1)) 3%Q) ;;
  x_q <- veq x_result_1 x_answer ;;
  _ <- check x_q ;;
  Ok tt) = Ok tt.
Proof. vm_compute. reflexivity. Qed.

(** test_reduce.cpp:559-583 *)
Example reduce_matvec_test_nomask_noaccum :
 (x_A <- mnew 4 4 ;;
  x_A_1 <- mbuild TyD qsecond x_A [0; 0; 1; 1; 1; 2; 2; 2; 3; 3] [0; 1; 0; 1; 2; 1; 2; 3; 2; 3] [1;
    1; 1; 2; 2; 1; 3; 5; 3; 4]%Q ;;
  x_C <- vnew 4 ;;
  x_C_1 <- vbuild TyD qsecond x_C [0; 1; 2; 3] [1; 1; 1; 1]%Q ;;
  x_answer <- vnew 4 ;;
  x_answer_1 <- vbuild TyD qsecond x_answer [0; 1; 2; 3] [2; 4; 8; 9]%Q ;;
  x_C_2 <- t_reduce TyD noacc TyD qplus NoMask MERGE x_C_1 (Trn x_A_1) ;;
  x_q <- veq x_C_2 x_answer_1 ;;
  _ <- check x_q ;;
  Ok tt) = Ok tt.
Proof. vm_compute. reflexivity. Qed.

(** test_reduce.cpp:586-610 *)
Example reduce_matvec_test_transpose_nomask_noaccum :
 (x_A <- mnew 4 4 ;;
  x_A_1 <- mbuild TyD qsecond x_A [0; 0; 1; 1; 1; 2; 2; 2; 3; 3] [0; 1; 0; 1; 2; 1; 2; 3; 2; 3] [1;
    1; 1; 2; 2; 1; 3; 5; 3; 4]%Q ;;
  x_C <- vnew 4 ;;
  x_C_1 <- vbuild TyD qsecond x_C [0; 1; 2; 3] [1; 1; 1; 1]%Q ;;
  x_answer <- vnew 4 ;;
  x_answer_1 <- vbuild TyD qsecond x_answer [0; 1; 2; 3] [2; 4; 8; 9]%Q ;;
  x_C_2 <- t_reduce TyD noacc TyD qplus NoMask MERGE x_C_1 (Trn x_A_1) ;;
  x_q <- veq x_C_2 x_answer_1 ;;
  _ <- check x_q ;;
  Ok tt) = Ok tt.
Proof. vm_compute. reflexivity. Qed.

(** test_reduce.cpp:613-637 *)
Example reduce_matvec_test_transpose_nomask_accum :
 (x_A <- mnew 4 4 ;;
  x_A_1 <- mbuild TyD qsecond x_A [0; 0; 1; 1; 1; 2; 2; 2; 3; 3] [0; 1; 0; 1; 2; 1; 2; 3; 2; 3] [1;
    1; 1; 2; 2; 1; 3; 5; 3; 4]%Q ;;
  x_C <- vnew 4 ;;
  x_C_1 <- vbuild TyD qsecond x_C [0; 1; 2; 3] [1; 1; 1; 1]%Q ;;
  x_answer <- vnew 4 ;;
  x_answer_1 <- vbuild TyD qsecond x_answer [0; 1; 2; 3] [3; 5; 9; 10]%Q ;;
  x_C_2 <- t_reduce TyD (acc TyD qplus) TyD qplus NoMask MERGE x_C_1 (Trn x_A_1) ;;
  x_q <- veq x_C_2 x_answer_1 ;;
  _ <- check x_q ;;
  Ok tt) = Ok tt.
Proof. vm_compute. reflexivity. Qed.

(** test_reduce.cpp:640-669 *)
Example reduce_matvec_test_transpose_masked_accum :
 (x_A <- mnew 4 4 ;;
  x_A_1 <- mbuild TyD qsecond x_A [0; 0; 1; 1; 1; 2; 2; 2; 3; 3] [0; 1; 0; 1; 2; 1; 2; 3; 2; 3] [1;
    1; 1; 2; 2; 1; 3; 5; 3; 4]%Q ;;
  x_C <- vnew 4 ;;
  x_C_1 <- vbuild TyD qsecond x_C [0; 1; 2; 3] [1; 1; 1; 1]%Q ;;
  x_mask <- vnew 4 ;;
  x_mask_1 <- vbuild TyB qsecond x_mask [0; 1; 2; 3] [1; 0; 1; 0]%Q ;;
  x_answer <- vnew 4 ;;
  x_answer_1 <- vbuild TyD qsecond x_answer [0; 1; 2; 3] [2; 1; 8; 1]%Q ;;
  x_C_2 <- t_reduce TyD noacc TyD qplus (MVal x_mask_1) MERGE x_C_1 (Trn x_A_1) ;;
  x_q <- veq x_C_2 x_answer_1 ;;
  _ <- check x_q ;;
  Ok tt) = Ok tt.
Proof. vm_compute. reflexivity. Qed.

(** test_reduce.cpp:673-701 *)
Example reduce_matvec_test_masked_noaccum :
 (x_A <- mnew 4 4 ;;
  x_A_1 <- mbuild TyD qsecond x_A [0; 0; 1; 1; 1; 2; 2; 2; 3; 3] [0; 1; 0; 1; 2; 1; 2; 3; 2; 3] [1;
    1; 1; 2; 2; 1; 3; 5; 3; 4]%Q ;;
  x_C <- vnew 4 ;;
  x_C_1 <- vbuild TyD qsecond x_C [0; 1; 2; 3] [1; 1; 1; 1]%Q ;;
  x_mask <- vnew 4 ;;
  x_mask_1 <- vbuild TyB qsecond x_mask [0; 1; 2; 3] [1; 0; 1; 0]%Q ;;
  x_answer <- vnew 4 ;;
  x_answer_1 <- vbuild TyD qsecond x_answer [0; 1; 2; 3] [2; 1; 9; 1]%Q ;;
  x_C_2 <- t_reduce TyD noacc TyD qplus (MVal x_mask_1) MERGE x_C_1 (Mat x_A_1) ;;
  x_q <- veq x_C_2 x_answer_1 ;;
  _ <- check x_q ;;
  Ok tt) = Ok tt.
Proof. vm_compute. reflexivity. Qed.

(** test_reduce.cpp:704-730 *)
Example test_reduce_matvec_transpose_scmp_noaccum :
 (x_mA <- mdense0 TyD [[12; 1; 3]; [0; 0; 0]; [7; 0; 9]]%Q 0%Q ;;
  x_u3 <- vdense0 TyD [1; 1; 0]%Q 0%Q ;;
  x_m3 <- vdense0 TyD [1; 1; 0]%Q 0%Q ;;
  x_result <- vdense0 TyD [1; 1; 1]%Q 0%Q ;;
  _ <- check (Qeq_bool (inject_Z (vnvals x_m3)) 2%Q) ;;
  x_answer <- vdense0 TyD [1; 1; 12]%Q 0%Q ;;
  x_result_1 <- t_reduce TyD noacc TyD qplus (MComp x_m3) MERGE x_result (Trn x_mA) ;;
  _ <- check (Qeq_bool (inject_Z (vnvals x_result_1)) 3%Q) ;;
  x_q <- veq x_result_1 x_answer ;;
  _ <- check x_q ;;
  Ok tt) = Ok tt.
Proof. vm_compute. reflexivity. Qed.

(** test_reduce.cpp:733-754 *)
Example test_reduce_matvec_nomask_noaccum_stored_zero_result :
 (x_mA <- mdense0 TyI [[1; (-1); 0; 0]; [(-1); (-2); 2; 0]; [0; (-2); (-3); 3]; [0; 0; 0; 0]]%Q 0%Q
    ;;
  x_result <- vnew 4 ;;
  x_answer <- vdense0 TyI [0; (-1); (-2); 666]%Q 666%Q ;;
  x_result_1 <- t_reduce TyI noacc TyI (op3 TyI TyI TyI qplus) NoMask MERGE x_result (Mat x_mA) ;;
  x_q <- veq x_result_1 x_answer ;;
  _ <- check x_q ;;
  _ <- check (Qeq_bool (inject_Z (vnvals x_result_1)) 3%Q) ;;
  Ok tt) = Ok tt.
Proof. vm_compute. reflexivity. Qed.

(** test_reduce.cpp:757-796 *)
Example test_reduce_matvec_transpose_nomask_noaccum :
 (x_mA <- mdense0 TyD [[12; 1; 3]; [0; 0; 0]; [7; 0; 9]]%Q 0%Q ;;
  x_mB <- mdense0 TyD [[5; 0; 1; 0]; [6; 7; 0; 0]; [6; 7; 0; 0]]%Q 0%Q ;;
  x_u3 <- vdense0 TyD [1; 1; 0]%Q 0%Q ;;
  x_u4 <- vdense0 TyD [0; 0; 13; 1]%Q 0%Q ;;
  x_result3 <- vnew 3 ;;
  x_result4 <- vnew 4 ;;
  x_ansA <- vdense0 TyD [19; 1; 12]%Q 0%Q ;;
  x_ansB <- vdense0 TyD [17; 14; 1; 0]%Q 0%Q ;;
  x_result3_1 <- t_reduce TyD noacc TyD qplus NoMask MERGE x_result3 (Trn x_mA) ;;
  x_q <- veq x_result3_1 x_ansA ;;
  _ <- check x_q ;;
  x_result4_1 <- t_reduce TyD noacc TyD qplus NoMask MERGE x_result4 (Trn x_mB) ;;
  x_q_1 <- veq x_result4_1 x_ansB ;;
  _ <- check x_q_1 ;;
  Ok tt) = Ok tt.
Proof. vm_compute. reflexivity. Qed.

(** test_reduce.cpp:799-842 *)
Example test_reduce_matvec_scmp_replace :
 (x_mA <- mdense0 TyD [[12; 1; 3]; [0; 0; 0]; [7; 0; 9]]%Q 0%Q ;;
  x_m3 <- vdense0 TyD [0; 0; 1]%Q 0%Q ;;
  _ <- check (Qeq_bool (inject_Z (vnvals x_m3)) 1%Q) ;;
  x_result <- vdense0 TyD [1; 1; 1]%Q 0%Q ;;
  x_answer <- vdense0 TyD [16; 1; 0]%Q 0%Q ;;
  x_result_1 <- t_reduce TyD (acc TyD qsecond) TyD qplus (MComp x_m3) REPLACE x_result (Mat x_mA) ;;
  _ <- check (Qeq_bool (inject_Z (vnvals x_result_1)) 2%Q) ;;
  x_q <- veq x_result_1 x_answer ;;
  _ <- check x_q ;;
  x_result_2 <- vdense0 TyD [1; 1; 1]%Q 0%Q ;;
  x_answer_1 <- vdense0 TyD [16; 0; 0]%Q 0%Q ;;
  x_result_3 <- t_reduce TyD noacc TyD qplus (MComp x_m3) REPLACE x_result_2 (Mat x_mA) ;;
  _ <- check (Qeq_bool (inject_Z (vnvals x_result_3)) 1%Q) ;;
  x_q_1 <- veq x_result_3 x_answer_1 ;;
  _ <- check x_q_1 ;;
  Ok tt) = Ok tt.
Proof. vm_compute. reflexivity. Qed.

(** test_reduce.cpp:845-873 *)
Example test_reduce_matvec_scmp_replace_stored_zero :
 (x_A <- mdense0 TyI [[1; (-1); 0; 0]; [1; 2; 2; 0]; [0; 2; 3; 3]; [0; 0; 3; 4]]%Q 0%Q ;;
  x_mask <- vdense TyI [0; 0; 0; 1]%Q ;;
  x_result <- vdense0 TyI [1; 1; 1; 1]%Q 0%Q ;;
  _ <- check (Qeq_bool (inject_Z (vnvals x_mask)) 4%Q) ;;
  x_answer <- vdense0 TyI [0; 5; 8; 666]%Q 666%Q ;;
  x_result_1 <- t_reduce TyI noacc TyD qplus (MComp x_mask) REPLACE x_result (Mat x_A) ;;
  _ <- check (Qeq_bool (inject_Z (vnvals x_result_1)) 3%Q) ;;
  x_q <- veq x_result_1 x_answer ;;
  _ <- check x_q ;;
  Ok tt) = Ok tt.
Proof. vm_compute. reflexivity. Qed.

(** test_reduce.cpp:876-900 *)
Example test_reduce_matvec_scmp_replace_transpose :
 (x_A <- mdense0 TyI [[1; 1; 0; 0; 1]; [(-1); 2; 2; 0; 1]; [0; 2; 3; 3; 1]; [0; 0; 3; 4; 1]]%Q 0%Q
    ;;
  x_mask <- vdense0 TyI [0; 1; 0; 1; 0]%Q 0%Q ;;
  x_result <- vdense0 TyI [1; 1; 1; 1; 1]%Q 0%Q ;;
  x_answer <- vdense0 TyI [0; 666; 8; 666; 4]%Q 666%Q ;;
  x_result_1 <- t_reduce TyI noacc TyD qplus (MComp x_mask) REPLACE x_result (Trn x_A) ;;
  x_q <- veq x_result_1 x_answer ;;
  _ <- check x_q ;;
  Ok tt) = Ok tt.
Proof. vm_compute. reflexivity. Qed.

(** test_reduce.cpp:903-927 *)
Example test_reduce_matvec_scmp_merge :
 (x_mA <- mdense0 TyD [[12; 1; 3]; [0; 0; 0]; [7; 0; 9]]%Q 0%Q ;;
  x_m3 <- vdense0 TyD [1; 1; 0]%Q 0%Q ;;
  x_result <- vdense0 TyD [1; 1; 1]%Q 0%Q ;;
  _ <- check (Qeq_bool (inject_Z (vnvals x_m3)) 2%Q) ;;
  x_answer <- vdense0 TyD [1; 1; 16]%Q 0%Q ;;
  x_result_1 <- t_reduce TyD noacc TyD qplus (MComp x_m3) MERGE x_result (Mat x_mA) ;;
  _ <- check (Qeq_bool (inject_Z (vnvals x_result_1)) 3%Q) ;;
  x_q <- veq x_result_1 x_answer ;;
  _ <- check x_q ;;
  Ok tt) = Ok tt.
Proof. vm_compute. reflexivity. Qed.

(** test_reduce.cpp:930-954 *)
Example test_reduce_matvec_scmp_merge_stored_zero :
 (x_mA <- mdense0 TyD [[12; 1; 3]; [0; 0; 0]; [7; 0; 9]]%Q 0%Q ;;
  x_m3 <- vdense TyD [1; 1; 0]%Q ;;
  x_result <- vdense0 TyD [1; 1; 1]%Q 0%Q ;;
  _ <- check (Qeq_bool (inject_Z (vnvals x_m3)) 3%Q) ;;
  x_answer <- vdense0 TyD [1; 1; 16]%Q 0%Q ;;
  x_result_1 <- t_reduce TyD noacc TyD qplus (MComp x_m3) MERGE x_result (Mat x_mA) ;;
  _ <- check (Qeq_bool (inject_Z (vnvals x_result_1)) 3%Q) ;;
  x_q <- veq x_result_1 x_answer ;;
  _ <- check x_q ;;
  Ok tt) = Ok tt.
Proof. vm_compute. reflexivity. Qed.

(** test_reduce.cpp:961-986 *)
Example test_reduce_vecscalar_reg :
 (x_empty_result6 <- vnew 6 ;;
  x_ansA <- vdense0 TyD [16; 0; 16]%Q 0%Q ;;
  x_val <- t_reduce_vs TyD noacc TyD 0%Q qplus 22%Q x_empty_result6 ;;
  _ <- check (Qeq_bool x_val 0%Q) ;;
  x_val_1 <- t_reduce_vs TyD noacc TyD 0%Q qplus 22%Q x_ansA ;;
  _ <- check (Qeq_bool x_val_1 32%Q) ;;
  x_val_2 <- t_reduce_vs TyD noacc TyD 0%Q qplus 22%Q x_ansA ;;
  _ <- check (Qeq_bool x_val_2 32%Q) ;;
  Ok tt) = Ok tt.
Proof. vm_compute. reflexivity. Qed.

(** test_reduce.cpp:989-1005 *)
Example test_reduce_vecscalar_noaccum :
 (x_u <- vdense0 TyD [0; 2; 3; 3]%Q 0%Q ;;
  x_val <- t_reduce_vs TyD noacc TyD 0%Q qplus 99%Q x_u ;;
  _ <- check (Qeq_bool x_val 8%Q) ;;
  Ok tt) = Ok tt.
Proof. vm_compute. reflexivity. Qed.

(** test_reduce.cpp:1008-1023 *)
Example test_reduce_vecscalar_noaccum_empty :
 (x_u <- vnew 4 ;;
  x_val <- t_reduce_vs TyD noacc TyD 0%Q qplus 99%Q x_u ;;
  _ <- check (Qeq_bool x_val 0%Q) ;;
  Ok tt) = Ok tt.
Proof. vm_compute. reflexivity. Qed.

(** test_reduce.cpp:1026-1051 *)
Example test_reduce_vecscalar_accum :
 (x_u <- vdense0 TyD [0; 2; 3; 3]%Q 0%Q ;;
  x_val <- t_reduce_vs TyD (acc TyD qplus) TyD 0%Q qplus 99%Q x_u ;;
  _ <- check (Qeq_bool x_val 107%Q) ;;
  x_val_1 <- t_reduce_vs TyD (acc TyD qsecond) TyD 0%Q qplus 99%Q x_u ;;
  _ <- check (Qeq_bool x_val_1 8%Q) ;;
  Ok tt) = Ok tt.
Proof. vm_compute. reflexivity. Qed.

(** test_reduce.cpp:1058-1081 *)
Example test_reduce_matscalar_noaccum :
 (x_mB <- mdense0 TyD [[5; 0; 1; 0]; [6; 7; 0; 0]; [6; 7; 0; 0]; [0; 5; 0; 0]; [6; 7; 0; 0]; [0; 0;
    0; 0]]%Q 0%Q ;;
  x_val <- t_reduce_ms TyD noacc TyD 0%Q qplus 22%Q x_mB ;;
  _ <- check (Qeq_bool x_val 50%Q) ;;
  x_val_1 <- t_reduce_ms TyD noacc TyD 0%Q qplus 22%Q x_mB ;;
  _ <- check (Qeq_bool x_val_1 50%Q) ;;
  Ok tt) = Ok tt.
Proof. vm_compute. reflexivity. Qed.

(** test_reduce.cpp:1106-1116 *)
Example test_reduce_matscalar_noaccum_empty :
 (x_empty6x4 <- mnew 6 4 ;;
  x_val <- t_reduce_ms TyD noacc TyD 0%Q qplus 22%Q x_empty6x4 ;;
  _ <- check (Qeq_bool x_val 0%Q) ;;
  Ok tt) = Ok tt.
Proof. vm_compute. reflexivity. Qed.

(** test_reduce.cpp:1121-1138 *)
Example test_reduce_matscalar_accum :
 (x_mB <- mdense0 TyD [[5; 0; 1; 0]; [6; 7; 0; 0]; [6; 7; 0; 0]; [0; 5; 0; 0]; [6; 7; 0; 0]; [0; 0;
    0; 0]]%Q 0%Q ;;
  x_val <- t_reduce_ms TyD (acc TyD qplus) TyD 0%Q qplus 22%Q x_mB ;;
  _ <- check (Qeq_bool x_val 72%Q) ;;
  Ok tt) = Ok tt.
Proof. vm_compute. reflexivity. Qed.

(** test_reduce.cpp:1162-1172 *)
Example test_reduce_matscalar_accum_empty :
 (x_empty6x4 <- mnew 6 4 ;;
  x_val <- t_reduce_ms TyD (acc TyD qplus) TyD 0%Q qplus 22%Q x_empty6x4 ;;
  _ <- check (Qeq_bool x_val 22%Q) ;;
  Ok tt) = Ok tt.
Proof. vm_compute. reflexivity. Qed.
