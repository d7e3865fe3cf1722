(** The tests of /repo/src/test/test_assign.cpp, run on the model.  Generated translation. *)
From Verif Require Import TestRun.


(** test_assign.cpp:48-69 *)
Example assign_vec_test_bad_dimensions :
 (x_w <- vnew 4 ;;
  x_w_1 <- vbuild TyD qsecond x_w [1; 2; 3] [1; 2; 3]%Q ;;
  x_u <- vnew 2 ;;
  x_u_1 <- vbuild TyD qsecond x_u [1] [99]%Q ;;
  _ <- throws DimensionException (t_assign_v TyD (NoAcc (cast TyD)) TyD NoMask MERGE x_w_1 x_u_1
    (IdxArr [1; 3; 2])) ;;
  Ok tt) = Ok tt.
Proof. vm_compute. reflexivity. Qed.

(** test_assign.cpp:72-95 *)
Example assign_vec_test_index_out_of_bounds :
 (x_w <- vnew 4 ;;
  x_w_1 <- vbuild TyD qsecond x_w [1; 2; 3] [1; 2; 3]%Q ;;
  x_u <- vnew 2 ;;
  x_u_1 <- vbuild TyD qsecond x_u [1] [99]%Q ;;
  _ <- throws IndexOutOfBoundsException (t_assign_v TyD (NoAcc (cast TyD)) TyD NoMask MERGE x_w_1
    x_u_1 (IdxArr [0; 4])) ;;
  Ok tt) = Ok tt.
Proof. vm_compute. reflexivity. Qed.

(** test_assign.cpp:98-126 *)
Example assign_vec_test_no_mask_no_accum :
 (x_c <- vnew 4 ;;
  x_c_1 <- vbuild TyD qsecond x_c [0; 1; 2] [8; 9; 1]%Q ;;
  x_a <- vnew 3 ;;
  x_a_1 <- vbuild TyD qsecond x_a [1; 2] [98; 99]%Q ;;
  x_result <- vnew 4 ;;
  x_result_1 <- vbuild TyD qsecond x_result [0; 2; 3] [8; 98; 99]%Q ;;
  x_c_2 <- t_assign_v TyD (NoAcc (cast TyD)) TyD NoMask MERGE x_c_1 x_a_1 (IdxArr [1; 2; 3]) ;;
  x_q <- veq x_c_2 x_result_1 ;;
  _ <- check x_q ;;
  Ok tt) = Ok tt.
Proof. vm_compute. reflexivity. Qed.

(** test_assign.cpp:129-152 *)
Example assign_vec_test_accum :
 (x_c <- vnew 4 ;;
  x_c_1 <- vbuild TyD qsecond x_c [0; 1; 2] [8; 9; 1]%Q ;;
  x_a <- vnew 3 ;;
  x_a_1 <- vbuild TyD qsecond x_a [1; 2] [98; 99]%Q ;;
  x_result <- vnew 4 ;;
  x_result_1 <- vbuild TyD qsecond x_result [0; 1; 2; 3] [8; 9; 99; 99]%Q ;;
  x_c_2 <- t_assign_v TyD (acc TyD qplus) TyD NoMask MERGE x_c_1 x_a_1 (IdxArr [1; 2; 3]) ;;
  x_q <- veq x_c_2 x_result_1 ;;
  _ <- check x_q ;;
  Ok tt) = Ok tt.
Proof. vm_compute. reflexivity. Qed.

(** test_assign.cpp:155-171 *)
Example assign_vec_test_allindices_no_accum :
 (x_c <- vnew 4 ;;
  x_c_1 <- vbuild TyD qsecond x_c [0; 1; 2] [8; 9; 1]%Q ;;
  x_a <- vnew 4 ;;
  x_a_1 <- vbuild TyD qsecond x_a [1; 2; 3] [98; 99; 100]%Q ;;
  x_c_2 <- t_assign_v TyD (NoAcc (cast TyD)) TyD NoMask MERGE x_c_1 x_a_1 AllIdx ;;
  x_q <- veq x_c_2 x_a_1 ;;
  _ <- check x_q ;;
  Ok tt) = Ok tt.
Proof. vm_compute. reflexivity. Qed.

(** test_assign.cpp:174-198 *)
Example assign_vec_test_allindices_accum :
 (x_c <- vnew 4 ;;
  x_c_1 <- vbuild TyD qsecond x_c [0; 1; 2] [8; 9; 1]%Q ;;
  x_a <- vnew 4 ;;
  x_a_1 <- vbuild TyD qsecond x_a [1; 2; 3] [98; 99; 100]%Q ;;
  x_c_2 <- t_assign_v TyD (acc TyD qplus) TyD NoMask MERGE x_c_1 x_a_1 AllIdx ;;
  x_result <- vnew 4 ;;
  x_result_1 <- vbuild TyD qsecond x_result [0; 1; 2; 3] [8; 107; 100; 100]%Q ;;
  x_q <- veq x_c_2 x_result_1 ;;
  _ <- check x_q ;;
  Ok tt) = Ok tt.
Proof. vm_compute. reflexivity. Qed.

(** test_assign.cpp:201-284 *)
Example assign_vec_test_mask_no_accum :
 (x_w <- vnew 5 ;;
  x_w_1 <- vbuild TyD qsecond x_w [0; 1; 2; 3] [8; 9; 1; 7]%Q ;;
  x_m <- vnew 5 ;;
  x_m_1 <- vbuild TyB qsecond x_m [1; 2; 4] [1; 1; 1]%Q ;;
  x_u <- vnew 4 ;;
  x_u_1 <- vbuild TyD qsecond x_u [1; 2; 3] [98; 99; 101]%Q ;;
  x_result <- vnew 5 ;;
  x_result_1 <- vbuild TyD qsecond x_result [0; 2; 3; 4] [8; 98; 7; 101]%Q ;;
  x_w_2 <- t_assign_v TyD (NoAcc (cast TyD)) TyD (MVal x_m_1) MERGE x_w_1 x_u_1 (IdxArr [1; 2; 3;
    4]) ;;
  x_q <- veq x_w_2 x_result_1 ;;
  _ <- check x_q ;;
  x_w_3 <- vbuild TyD qsecond x_w_2 [0; 1; 2; 3] [8; 9; 1; 7]%Q ;;
  x_result2 <- vnew 5 ;;
  x_result2_1 <- vbuild TyD qsecond x_result2 [2; 4] [98; 101]%Q ;;
  x_w_4 <- t_assign_v TyD (NoAcc (cast TyD)) TyD (MVal x_m_1) REPLACE x_w_3 x_u_1 (IdxArr [1; 2; 3;
    4]) ;;
  x_q_1 <- veq x_w_4 x_result2_1 ;;
  _ <- check x_q_1 ;;
  Ok tt) = Ok tt.
Proof. vm_compute. reflexivity. Qed.

(** test_assign.cpp:287-370 *)
Example assign_vec_test_mask_accum :
 (x_w <- vnew 5 ;;
  x_w_1 <- vbuild TyD qsecond x_w [0; 1; 2; 3] [8; 9; 1; 7]%Q ;;
  x_m <- vnew 5 ;;
  x_m_1 <- vbuild TyB qsecond x_m [1; 2; 4] [1; 1; 1]%Q ;;
  x_u <- vnew 4 ;;
  x_u_1 <- vbuild TyD qsecond x_u [1; 2; 3] [98; 99; 101]%Q ;;
  x_result <- vnew 5 ;;
  x_result_1 <- vbuild TyD qsecond x_result [0; 1; 2; 3; 4] [8; 9; 99; 7; 101]%Q ;;
  x_w_2 <- t_assign_v TyD (acc TyD qplus) TyD (MVal x_m_1) MERGE x_w_1 x_u_1 (IdxArr [1; 2; 3; 4])
    ;;
  x_q <- veq x_w_2 x_result_1 ;;
  _ <- check x_q ;;
  x_w_3 <- vbuild TyD qsecond x_w_2 [0; 1; 2; 3] [8; 9; 1; 7]%Q ;;
  x_result2 <- vnew 5 ;;
  x_result2_1 <- vbuild TyD qsecond x_result2 [1; 2; 4] [9; 99; 101]%Q ;;
  x_w_4 <- t_assign_v TyD (acc TyD qplus) TyD (MVal x_m_1) REPLACE x_w_3 x_u_1 (IdxArr [1; 2; 3; 4])
    ;;
  x_q_1 <- veq x_w_4 x_result2_1 ;;
  _ <- check x_q_1 ;;
  Ok tt) = Ok tt.
Proof. vm_compute. reflexivity. Qed.

(** test_assign.cpp:375-401 *)
Example assign_mat_test_bad_dimensions :
 (x_C <- mnew 3 4 ;;
  x_C_1 <- mbuild TyD qsecond x_C [0; 0; 0; 1; 1; 1; 2; 2; 2] [1; 2; 3; 0; 2; 3; 0; 1; 2] [1; 2; 3;
    4; 6; 7; 8; 9; 1]%Q ;;
  x_A <- mnew 2 2 ;;
  x_A_1 <- mbuild TyD qsecond x_A [0; 0; 1] [0; 1; 0] [1; 99; 99]%Q ;;
  _ <- throws DimensionException (t_assign_m TyD (NoAcc (cast TyD)) TyD NoMask MERGE x_C_1 (Mat
    x_A_1) (IdxArr [1; 0; 1]) (IdxArr [1; 2])) ;;
  _ <- throws DimensionException (t_assign_m TyD (NoAcc (cast TyD)) TyD NoMask MERGE x_C_1 (Trn
    x_A_1) (IdxArr [1; 0; 1]) (IdxArr [1; 2])) ;;
  Ok tt) = Ok tt.
Proof. vm_compute. reflexivity. Qed.

(** test_assign.cpp:404-425 *)
Example assign_mat_test_index_out_of_bounds :
 (x_C <- mnew 3 4 ;;
  x_C_1 <- mbuild TyD qsecond x_C [0; 0; 0; 1; 1; 1; 2; 2; 2] [1; 2; 3; 0; 2; 3; 0; 1; 2] [1; 2; 3;
    4; 6; 7; 8; 9; 1]%Q ;;
  x_A <- mnew 2 2 ;;
  x_A_1 <- mbuild TyD qsecond x_A [0; 0; 1] [0; 1; 0] [1; 99; 99]%Q ;;
  _ <- throws IndexOutOfBoundsException (t_assign_m TyD (NoAcc (cast TyD)) TyD NoMask MERGE x_C_1
    (Mat x_A_1) (IdxArr [1; 5]) (IdxArr [1; 2])) ;;
  Ok tt) = Ok tt.
Proof. vm_compute. reflexivity. Qed.

(** test_assign.cpp:428-456 *)
Example sparse_assign_matrix_base :
 (x_mA <- mdense0 TyD [[1; 6]; [9; 2]]%Q 0%Q ;;
  x_answer <- mdense0 TyD [[0; 0; 0]; [9; 0; 2]; [1; 0; 6]]%Q 0%Q ;;
  x_result <- mnew 3 3 ;;
  x_result_1 <- t_assign_m TyD (NoAcc (cast TyD)) TyD NoMask MERGE x_result (Mat x_mA) (IdxArr [2;
    1]) (IdxArr [0; 2]) ;;
  x_q <- meq x_result_1 x_answer ;;
  _ <- check x_q ;;
  Ok tt) = Ok tt.
Proof. vm_compute. reflexivity. Qed.

(** test_assign.cpp:459-493 *)
Example sparse_assign_matrix_mask :
 (x_mA <- mdense0 TyD [[1; 6]; [9; 2]]%Q 0%Q ;;
  x_answer <- mdense0 TyD [[0; 0; 0]; [9; 0; 0]; [1; 0; 0]]%Q 0%Q ;;
  x_mask <- mdense0 TyB [[1; 1; 0]; [1; 1; 0]; [1; 1; 0]]%Q 0%Q ;;
  x_result <- mnew 3 3 ;;
  x_result_1 <- t_assign_m TyD (NoAcc (cast TyD)) TyD (MVal x_mask) MERGE x_result (Mat x_mA)
    (IdxArr [2; 1]) (IdxArr [0; 2]) ;;
  x_q <- meq x_result_1 x_answer ;;
  _ <- check x_q ;;
  Ok tt) = Ok tt.
Proof. vm_compute. reflexivity. Qed.

(** test_assign.cpp:496-523 *)
Example sparse_assign_matrix_accum :
 (x_mA <- mdense0 TyD [[1; 6]; [9; 2]]%Q 0%Q ;;
  x_mC <- mdense0 TyD [[1; 2; 3]; [4; 5; 6]; [7; 8; 9]]%Q 0%Q ;;
  x_answer <- mdense0 TyD [[1; 2; 3]; [13; 5; 8]; [8; 8; 15]]%Q 0%Q ;;
  x_mC_1 <- t_assign_m TyD (acc TyD qplus) TyD NoMask MERGE x_mC (Mat x_mA) (IdxArr [2; 1]) (IdxArr
    [0; 2]) ;;
  x_q <- meq x_mC_1 x_answer ;;
  _ <- check x_q ;;
  Ok tt) = Ok tt.
Proof. vm_compute. reflexivity. Qed.

(** test_assign.cpp:526-571 *)
Example assign_mat_test_no_mask_no_accum :
 (x_C <- mnew 3 4 ;;
  x_C_1 <- mbuild TyD qsecond x_C [0; 0; 0; 1; 1; 1; 2; 2; 2] [1; 2; 3; 0; 2; 3; 0; 1; 2] [1; 2; 3;
    4; 6; 7; 8; 9; 1]%Q ;;
  x_A <- mnew 2 2 ;;
  x_A_1 <- mbuild TyD qsecond x_A [0; 0; 1] [0; 1; 0] [1; 99; 99]%Q ;;
  x_result <- mnew 3 4 ;;
  x_result_1 <- mbuild TyD qsecond x_result [0; 0; 0; 1; 1; 1; 1; 2; 2] [1; 2; 3; 0; 1; 2; 3; 0; 1]
    [1; 2; 3; 4; 1; 99; 7; 8; 99]%Q ;;
  x_C_2 <- t_assign_m TyD (NoAcc (cast TyD)) TyD NoMask MERGE x_C_1 (Mat x_A_1) (IdxArr [1; 2])
    (IdxArr [1; 2]) ;;
  x_q <- meq x_C_2 x_result_1 ;;
  _ <- check x_q ;;
  x_C_3 <- t_assign_m TyD (NoAcc (cast TyD)) TyD NoMask MERGE x_C_2 (Trn x_A_1) (IdxArr [1; 2])
    (IdxArr [1; 2]) ;;
  x_q_1 <- meq x_C_3 x_result_1 ;;
  _ <- check x_q_1 ;;
  Ok tt) = Ok tt.
Proof. vm_compute. reflexivity. Qed.

(** test_assign.cpp:574-621 *)
Example assign_mat_test_accum_no_mask :
 (x_c <- mnew 3 4 ;;
  x_c_1 <- mbuild TyD qsecond x_c [0; 0; 0; 1; 1; 1; 2; 2; 2] [1; 2; 3; 0; 2; 3; 0; 1; 2] [1; 2; 3;
    4; 6; 7; 8; 9; 1]%Q ;;
  x_a <- mnew 2 2 ;;
  x_a_1 <- mbuild TyD qsecond x_a [0; 0; 1] [0; 1; 0] [1; 99; 99]%Q ;;
  x_result <- mnew 3 4 ;;
  x_result_1 <- mbuild TyD qsecond x_result [0; 0; 0; 1; 1; 1; 1; 2; 2; 2] [1; 2; 3; 0; 1; 2; 3; 0;
    1; 2] [1; 2; 3; 4; 1; 105; 7; 8; 108; 1]%Q ;;
  x_c_2 <- t_assign_m TyD (acc TyD qplus) TyD NoMask MERGE x_c_1 (Mat x_a_1) (IdxArr [1; 2]) (IdxArr
    [1; 2]) ;;
  x_q <- meq x_c_2 x_result_1 ;;
  _ <- check x_q ;;
  x_c_3 <- Ok (lil_clear x_c_2) ;;
  x_c_4 <- mbuild TyD qsecond x_c_3 [0; 0; 0; 1; 1; 1; 2; 2; 2] [1; 2; 3; 0; 2; 3; 0; 1; 2] [1; 2;
    3; 4; 6; 7; 8; 9; 1]%Q ;;
  x_c_5 <- t_assign_m TyD (acc TyD qplus) TyD NoMask MERGE x_c_4 (Trn x_a_1) (IdxArr [1; 2]) (IdxArr
    [1; 2]) ;;
  x_q_1 <- meq x_c_5 x_result_1 ;;
  _ <- check x_q_1 ;;
  Ok tt) = Ok tt.
Proof. vm_compute. reflexivity. Qed.

(** test_assign.cpp:624-661 *)
Example assign_mat_test_allrows_no_accum :
 (x_c <- mnew 3 4 ;;
  x_c_1 <- mbuild TyD qsecond x_c [0; 0; 0; 1; 1; 1; 2; 2; 2] [1; 2; 3; 0; 2; 3; 0; 1; 2] [1; 2; 3;
    4; 6; 7; 8; 9; 1]%Q ;;
  x_a <- mnew 3 2 ;;
  x_a_1 <- mbuild TyD qsecond x_a [0; 0; 1; 2] [0; 1; 0; 0] [1; 99; 1; 99]%Q ;;
  x_result <- mnew 3 4 ;;
  x_result_1 <- mbuild TyD qsecond x_result [0; 0; 0; 0; 1; 1; 1; 2; 2] [0; 1; 2; 3; 0; 2; 3; 0; 2]
    [1; 99; 2; 3; 1; 6; 7; 99; 1]%Q ;;
  x_c_2 <- t_assign_m TyD (NoAcc (cast TyD)) TyD NoMask MERGE x_c_1 (Mat x_a_1) AllIdx (IdxArr [0;
    1]) ;;
  x_q <- meq x_c_2 x_result_1 ;;
  _ <- check x_q ;;
  Ok tt) = Ok tt.
Proof. vm_compute. reflexivity. Qed.

(** test_assign.cpp:664-701 *)
Example assign_mat_test_allrows_no_accum_transpose :
 (x_c <- mnew 3 4 ;;
  x_c_1 <- mbuild TyD qsecond x_c [0; 0; 0; 1; 1; 1; 2; 2; 2] [1; 2; 3; 0; 2; 3; 0; 1; 2] [1; 2; 3;
    4; 6; 7; 8; 9; 1]%Q ;;
  x_a <- mnew 2 3 ;;
  x_a_1 <- mbuild TyD qsecond x_a [0; 1; 0; 0] [0; 0; 1; 2] [1; 99; 1; 99]%Q ;;
  x_result <- mnew 3 4 ;;
  x_result_1 <- mbuild TyD qsecond x_result [0; 0; 0; 0; 1; 1; 1; 2; 2] [0; 1; 2; 3; 0; 2; 3; 0; 2]
    [1; 99; 2; 3; 1; 6; 7; 99; 1]%Q ;;
  x_c_2 <- t_assign_m TyD (NoAcc (cast TyD)) TyD NoMask MERGE x_c_1 (Trn x_a_1) AllIdx (IdxArr [0;
    1]) ;;
  x_q <- meq x_c_2 x_result_1 ;;
  _ <- check x_q ;;
  Ok tt) = Ok tt.
Proof. vm_compute. reflexivity. Qed.

(** test_assign.cpp:704-738 *)
Example assign_mat_test_allcols_no_accum_no_mask :
 (x_c <- mnew 3 4 ;;
  x_c_1 <- mbuild TyD qsecond x_c [0; 0; 0; 1; 1; 1; 2; 2; 2] [1; 2; 3; 0; 2; 3; 0; 1; 2] [1; 2; 3;
    4; 6; 7; 8; 9; 1]%Q ;;
  x_a <- mnew 2 4 ;;
  x_a_1 <- mbuild TyD qsecond x_a [0; 0; 1; 1; 1] [1; 3; 0; 1; 2] [99; 99; 1; 99; 99]%Q ;;
  x_result <- mnew 3 4 ;;
  x_result_1 <- mbuild TyD qsecond x_result [0; 0; 0; 1; 1; 2; 2; 2] [1; 2; 3; 1; 3; 0; 1; 2] [1; 2;
    3; 99; 99; 1; 99; 99]%Q ;;
  x_c_2 <- t_assign_m TyD (NoAcc (cast TyD)) TyD NoMask MERGE x_c_1 (Mat x_a_1) (IdxArr [1; 2])
    AllIdx ;;
  x_q <- meq x_c_2 x_result_1 ;;
  _ <- check x_q ;;
  Ok tt) = Ok tt.
Proof. vm_compute. reflexivity. Qed.

(** test_assign.cpp:741-775 *)
Example assign_mat_test_allcols_no_accum_no_mask_transpose :
 (x_c <- mnew 3 4 ;;
  x_c_1 <- mbuild TyD qsecond x_c [0; 0; 0; 1; 1; 1; 2; 2; 2] [1; 2; 3; 0; 2; 3; 0; 1; 2] [1; 2; 3;
    4; 6; 7; 8; 9; 1]%Q ;;
  x_a <- mnew 4 2 ;;
  x_a_1 <- mbuild TyD qsecond x_a [1; 3; 0; 1; 2] [0; 0; 1; 1; 1] [99; 99; 1; 99; 99]%Q ;;
  x_result <- mnew 3 4 ;;
  x_result_1 <- mbuild TyD qsecond x_result [0; 0; 0; 1; 1; 2; 2; 2] [1; 2; 3; 1; 3; 0; 1; 2] [1; 2;
    3; 99; 99; 1; 99; 99]%Q ;;
  x_c_2 <- t_assign_m TyD (NoAcc (cast TyD)) TyD NoMask MERGE x_c_1 (Trn x_a_1) (IdxArr [1; 2])
    AllIdx ;;
  x_q <- meq x_c_2 x_result_1 ;;
  _ <- check x_q ;;
  Ok tt) = Ok tt.
Proof. vm_compute. reflexivity. Qed.

(** test_assign.cpp:778-804 *)
Example assign_mat_test_allrowscols_no_accum_no_mask :
 (x_c <- mnew 3 4 ;;
  x_c_1 <- mbuild TyD qsecond x_c [0; 0; 0; 1; 1; 1; 2; 2; 2] [1; 2; 3; 0; 2; 3; 0; 1; 2] [1; 2; 3;
    4; 6; 7; 8; 9; 1]%Q ;;
  x_a <- mnew 3 4 ;;
  x_a_1 <- mbuild TyD qsecond x_a [0; 0; 1; 1; 1; 2; 2] [1; 3; 0; 1; 2; 0; 1] [99; 99; 1; 99; 99;
    97; 96]%Q ;;
  x_c_2 <- t_assign_m TyD (NoAcc (cast TyD)) TyD NoMask MERGE x_c_1 (Mat x_a_1) AllIdx AllIdx ;;
  x_q <- meq x_c_2 x_a_1 ;;
  _ <- check x_q ;;
  Ok tt) = Ok tt.
Proof. vm_compute. reflexivity. Qed.

(** test_assign.cpp:807-835 *)
Example assign_mat_test_allrowscols_no_accum_no_mask_transpose :
 (x_c <- mnew 3 4 ;;
  x_c_1 <- mbuild TyD qsecond x_c [0; 0; 0; 1; 1; 1; 2; 2; 2] [1; 2; 3; 0; 2; 3; 0; 1; 2] [1; 2; 3;
    4; 6; 7; 8; 9; 1]%Q ;;
  x_a <- mnew 4 3 ;;
  x_a_1 <- mbuild TyD qsecond x_a [1; 3; 0; 1; 2; 0; 1] [0; 0; 1; 1; 1; 2; 2] [99; 99; 1; 99; 99;
    97; 96]%Q ;;
  x_c_2 <- t_assign_m TyD (NoAcc (cast TyD)) TyD NoMask MERGE x_c_1 (Trn x_a_1) AllIdx AllIdx ;;
  x_answer <- mnew 3 4 ;;
  x_answer_1 <- mbuild TyD qsecond x_answer [0; 0; 1; 1; 1; 2; 2] [1; 3; 0; 1; 2; 0; 1] [99; 99; 1;
    99; 99; 97; 96]%Q ;;
  x_q <- meq x_c_2 x_answer_1 ;;
  _ <- check x_q ;;
  Ok tt) = Ok tt.
Proof. vm_compute. reflexivity. Qed.

(** test_assign.cpp:838-872 *)
Example assign_mat_test_allrowscols_accum_no_mask :
 (x_c <- mnew 3 4 ;;
  x_c_1 <- mbuild TyD qsecond x_c [0; 0; 0; 1; 1; 1; 2; 2; 2] [1; 2; 3; 0; 2; 3; 0; 1; 2] [1; 2; 3;
    4; 6; 7; 8; 9; 1]%Q ;;
  x_a <- mnew 3 4 ;;
  x_a_1 <- mbuild TyD qsecond x_a [0; 0; 1; 1; 1; 2; 2] [1; 3; 0; 1; 2; 0; 1] [99; 99; 1; 99; 99;
    97; 96]%Q ;;
  x_c_2 <- t_assign_m TyD (acc TyD qplus) TyD NoMask MERGE x_c_1 (Mat x_a_1) AllIdx AllIdx ;;
  x_result <- mnew 3 4 ;;
  x_result_1 <- mbuild TyD qsecond x_result [0; 0; 0; 1; 1; 1; 1; 2; 2; 2] [1; 2; 3; 0; 1; 2; 3; 0;
    1; 2] [100; 2; 102; 5; 99; 105; 7; 105; 105; 1]%Q ;;
  x_q <- meq x_c_2 x_result_1 ;;
  _ <- check x_q ;;
  Ok tt) = Ok tt.
Proof. vm_compute. reflexivity. Qed.

(** test_assign.cpp:875-909 *)
Example assign_mat_test_allrowscols_accum_no_mask_transpose :
 (x_c <- mnew 3 4 ;;
  x_c_1 <- mbuild TyD qsecond x_c [0; 0; 0; 1; 1; 1; 2; 2; 2] [1; 2; 3; 0; 2; 3; 0; 1; 2] [1; 2; 3;
    4; 6; 7; 8; 9; 1]%Q ;;
  x_a <- mnew 4 3 ;;
  x_a_1 <- mbuild TyD qsecond x_a [1; 3; 0; 1; 2; 0; 1] [0; 0; 1; 1; 1; 2; 2] [99; 99; 1; 99; 99;
    97; 96]%Q ;;
  x_c_2 <- t_assign_m TyD (acc TyD qplus) TyD NoMask MERGE x_c_1 (Trn x_a_1) AllIdx AllIdx ;;
  x_result <- mnew 3 4 ;;
  x_result_1 <- mbuild TyD qsecond x_result [0; 0; 0; 1; 1; 1; 1; 2; 2; 2] [1; 2; 3; 0; 1; 2; 3; 0;
    1; 2] [100; 2; 102; 5; 99; 105; 7; 105; 105; 1]%Q ;;
  x_q <- meq x_c_2 x_result_1 ;;
  _ <- check x_q ;;
  Ok tt) = Ok tt.
Proof. vm_compute. reflexivity. Qed.

(** test_assign.cpp:912-987 *)
Example assign_mat_mask_no_accum :
 (x_C <- mnew 3 4 ;;
  x_C_1 <- mbuild TyD qsecond x_C [0; 0; 0; 1; 1; 1; 2; 2; 2] [1; 2; 3; 0; 2; 3; 0; 1; 2] [1; 2; 3;
    4; 6; 7; 8; 9; 1]%Q ;;
  x_M <- mnew 3 4 ;;
  x_M_1 <- mbuild TyB qsecond x_M [0; 0; 1; 1; 1; 2; 2; 1] [1; 2; 0; 2; 3; 0; 1; 2] [1; 1; 1; 1; 1;
    1; 1; 1]%Q ;;
  x_A <- mnew 2 2 ;;
  x_A_1 <- mbuild TyD qsecond x_A [0; 0; 1] [0; 1; 0] [1; 99; 99]%Q ;;
  x_result <- mnew 3 4 ;;
  x_result_1 <- mbuild TyD qsecond x_result [0; 0; 0; 1; 1; 1; 2; 2; 2] [1; 2; 3; 0; 2; 3; 0; 1; 2]
    [1; 2; 3; 4; 99; 7; 8; 99; 1]%Q ;;
  x_C_2 <- t_assign_m TyD (NoAcc (cast TyD)) TyD (MVal x_M_1) MERGE x_C_1 (Mat x_A_1) (IdxArr [1;
    2]) (IdxArr [1; 2]) ;;
  x_q <- meq x_C_2 x_result_1 ;;
  _ <- check x_q ;;
  x_C_3 <- mbuild TyD qsecond x_C_2 [0; 0; 0; 1; 1; 1; 2; 2; 2] [1; 2; 3; 0; 2; 3; 0; 1; 2] [1; 2;
    3; 4; 6; 7; 8; 9; 1]%Q ;;
  x_result2 <- mnew 3 4 ;;
  x_result2_1 <- mbuild TyD qsecond x_result2 [0; 0; 1; 1; 1; 2; 2] [1; 2; 0; 2; 3; 0; 1] [1; 2; 4;
    99; 7; 8; 99]%Q ;;
  x_C_4 <- t_assign_m TyD (NoAcc (cast TyD)) TyD (MVal x_M_1) REPLACE x_C_3 (Mat x_A_1) (IdxArr [1;
    2]) (IdxArr [1; 2]) ;;
  x_q_1 <- meq x_C_4 x_result2_1 ;;
  _ <- check x_q_1 ;;
  Ok tt) = Ok tt.
Proof. vm_compute. reflexivity. Qed.

(** test_assign.cpp:990-1065 *)
Example assign_mat_mask_no_accum_transpose :
 (x_C <- mnew 3 4 ;;
  x_C_1 <- mbuild TyD qsecond x_C [0; 0; 0; 1; 1; 1; 2; 2; 2] [1; 2; 3; 0; 2; 3; 0; 1; 2] [1; 2; 3;
    4; 6; 7; 8; 9; 1]%Q ;;
  x_M <- mnew 3 4 ;;
  x_M_1 <- mbuild TyB qsecond x_M [0; 0; 1; 1; 1; 2; 2; 1] [1; 2; 0; 2; 3; 0; 1; 2] [1; 1; 1; 1; 1;
    1; 1; 1]%Q ;;
  x_A <- mnew 2 2 ;;
  x_A_1 <- mbuild TyD qsecond x_A [0; 1; 0] [0; 0; 1] [1; 99; 99]%Q ;;
  x_result <- mnew 3 4 ;;
  x_result_1 <- mbuild TyD qsecond x_result [0; 0; 0; 1; 1; 1; 2; 2; 2] [1; 2; 3; 0; 2; 3; 0; 1; 2]
    [1; 2; 3; 4; 99; 7; 8; 99; 1]%Q ;;
  x_C_2 <- t_assign_m TyD (NoAcc (cast TyD)) TyD (MVal x_M_1) MERGE x_C_1 (Trn x_A_1) (IdxArr [1;
    2]) (IdxArr [1; 2]) ;;
  x_q <- meq x_C_2 x_result_1 ;;
  _ <- check x_q ;;
  x_C_3 <- mbuild TyD qsecond x_C_2 [0; 0; 0; 1; 1; 1; 2; 2; 2] [1; 2; 3; 0; 2; 3; 0; 1; 2] [1; 2;
    3; 4; 6; 7; 8; 9; 1]%Q ;;
  x_result2 <- mnew 3 4 ;;
  x_result2_1 <- mbuild TyD qsecond x_result2 [0; 0; 1; 1; 1; 2; 2] [1; 2; 0; 2; 3; 0; 1] [1; 2; 4;
    99; 7; 8; 99]%Q ;;
  x_C_4 <- t_assign_m TyD (NoAcc (cast TyD)) TyD (MVal x_M_1) REPLACE x_C_3 (Trn x_A_1) (IdxArr [1;
    2]) (IdxArr [1; 2]) ;;
  x_q_1 <- meq x_C_4 x_result2_1 ;;
  _ <- check x_q_1 ;;
  Ok tt) = Ok tt.
Proof. vm_compute. reflexivity. Qed.

(** test_assign.cpp:1068-1144 *)
Example assign_mat_mask_accum :
 (x_C <- mnew 3 4 ;;
  x_C_1 <- mbuild TyD qsecond x_C [0; 0; 0; 1; 1; 1; 2; 2; 2] [1; 2; 3; 0; 2; 3; 0; 1; 2] [1; 2; 3;
    4; 6; 7; 8; 9; 1]%Q ;;
  x_M <- mnew 3 4 ;;
  x_M_1 <- mbuild TyB qsecond x_M [0; 0; 1; 1; 1; 2; 2; 1] [1; 2; 0; 2; 3; 0; 1; 2] [1; 1; 1; 1; 1;
    1; 1; 1]%Q ;;
  x_A <- mnew 2 2 ;;
  x_A_1 <- mbuild TyD qsecond x_A [0; 0; 1] [0; 1; 0] [1; 99; 99]%Q ;;
  x_result <- mnew 3 4 ;;
  x_result_1 <- mbuild TyD qsecond x_result [0; 0; 0; 1; 1; 1; 2; 2; 2] [1; 2; 3; 0; 2; 3; 0; 1; 2]
    [1; 2; 3; 4; 105; 7; 8; 108; 1]%Q ;;
  x_C_2 <- t_assign_m TyD (acc TyD qplus) TyD (MVal x_M_1) MERGE x_C_1 (Mat x_A_1) (IdxArr [1; 2])
    (IdxArr [1; 2]) ;;
  x_q <- meq x_C_2 x_result_1 ;;
  _ <- check x_q ;;
  x_C_3 <- mbuild TyD qsecond x_C_2 [0; 0; 0; 1; 1; 1; 2; 2; 2] [1; 2; 3; 0; 2; 3; 0; 1; 2] [1; 2;
    3; 4; 6; 7; 8; 9; 1]%Q ;;
  x_result2 <- mnew 3 4 ;;
  x_result2_1 <- mbuild TyD qsecond x_result2 [0; 0; 1; 1; 1; 2; 2] [1; 2; 0; 2; 3; 0; 1] [1; 2; 4;
    105; 7; 8; 108]%Q ;;
  x_C_4 <- t_assign_m TyD (acc TyD qplus) TyD (MVal x_M_1) REPLACE x_C_3 (Mat x_A_1) (IdxArr [1; 2])
    (IdxArr [1; 2]) ;;
  x_q_1 <- meq x_C_4 x_result2_1 ;;
  _ <- check x_q_1 ;;
  Ok tt) = Ok tt.
Proof. vm_compute. reflexivity. Qed.

(** test_assign.cpp:1147-1223 *)
Example assign_mat_mask_accum_transpose :
 (x_C <- mnew 3 4 ;;
  x_C_1 <- mbuild TyD qsecond x_C [0; 0; 0; 1; 1; 1; 2; 2; 2] [1; 2; 3; 0; 2; 3; 0; 1; 2] [1; 2; 3;
    4; 6; 7; 8; 9; 1]%Q ;;
  x_M <- mnew 3 4 ;;
  x_M_1 <- mbuild TyB qsecond x_M [0; 0; 1; 1; 1; 2; 2; 1] [1; 2; 0; 2; 3; 0; 1; 2] [1; 1; 1; 1; 1;
    1; 1; 1]%Q ;;
  x_A <- mnew 2 2 ;;
  x_A_1 <- mbuild TyD qsecond x_A [0; 1; 0] [0; 0; 1] [1; 99; 99]%Q ;;
  x_result <- mnew 3 4 ;;
  x_result_1 <- mbuild TyD qsecond x_result [0; 0; 0; 1; 1; 1; 2; 2; 2] [1; 2; 3; 0; 2; 3; 0; 1; 2]
    [1; 2; 3; 4; 105; 7; 8; 108; 1]%Q ;;
  x_C_2 <- t_assign_m TyD (acc TyD qplus) TyD (MVal x_M_1) MERGE x_C_1 (Trn x_A_1) (IdxArr [1; 2])
    (IdxArr [1; 2]) ;;
  x_q <- meq x_C_2 x_result_1 ;;
  _ <- check x_q ;;
  x_C_3 <- mbuild TyD qsecond x_C_2 [0; 0; 0; 1; 1; 1; 2; 2; 2] [1; 2; 3; 0; 2; 3; 0; 1; 2] [1; 2;
    3; 4; 6; 7; 8; 9; 1]%Q ;;
  x_result2 <- mnew 3 4 ;;
  x_result2_1 <- mbuild TyD qsecond x_result2 [0; 0; 1; 1; 1; 2; 2] [1; 2; 0; 2; 3; 0; 1] [1; 2; 4;
    105; 7; 8; 108]%Q ;;
  x_C_4 <- t_assign_m TyD (acc TyD qplus) TyD (MVal x_M_1) REPLACE x_C_3 (Trn x_A_1) (IdxArr [1; 2])
    (IdxArr [1; 2]) ;;
  x_q_1 <- meq x_C_4 x_result2_1 ;;
  _ <- check x_q_1 ;;
  Ok tt) = Ok tt.
Proof. vm_compute. reflexivity. Qed.

(** test_assign.cpp:1228-1250 *)
Example assign_col_test_bad_dimensions :
 (x_c <- mnew 3 4 ;;
  x_c_1 <- mbuild TyD qsecond x_c [0; 0; 0; 1; 1; 1; 2; 2; 2] [1; 2; 3; 0; 2; 3; 0; 1; 2] [1; 2; 3;
    4; 6; 7; 8; 9; 1]%Q ;;
  x_a <- vnew 2 ;;
  x_a_1 <- vbuild TyD qsecond x_a [0; 1] [1; 99]%Q ;;
  _ <- throws DimensionException (t_assign_col TyD (NoAcc (cast TyD)) TyD NoMask MERGE x_c_1 x_a_1
    (IdxArr [0; 1; 2]) 2) ;;
  Ok tt) = Ok tt.
Proof. vm_compute. reflexivity. Qed.

(** test_assign.cpp:1253-1275 *)
Example assign_col_test_invalid_index :
 (x_c <- mnew 3 4 ;;
  x_c_1 <- mbuild TyD qsecond x_c [0; 0; 0; 1; 1; 1; 2; 2; 2] [1; 2; 3; 0; 2; 3; 0; 1; 2] [1; 2; 3;
    4; 6; 7; 8; 9; 1]%Q ;;
  x_a <- vnew 2 ;;
  x_a_1 <- vbuild TyD qsecond x_a [0; 1] [1; 99]%Q ;;
  _ <- throws InvalidIndexException (t_assign_col TyD (NoAcc (cast TyD)) TyD NoMask MERGE x_c_1
    x_a_1 (IdxArr [0; 2]) 5) ;;
  Ok tt) = Ok tt.
Proof. vm_compute. reflexivity. Qed.

(** test_assign.cpp:1278-1298 *)
Example assign_col_test_index_out_of_bounds :
 (x_c <- mnew 3 4 ;;
  x_c_1 <- mbuild TyD qsecond x_c [0; 0; 0; 1; 1; 1; 2; 2; 2] [1; 2; 3; 0; 2; 3; 0; 1; 2] [1; 2; 3;
    4; 6; 7; 8; 9; 1]%Q ;;
  x_a <- vnew 2 ;;
  x_a_1 <- vbuild TyD qsecond x_a [0; 1] [1; 99]%Q ;;
  _ <- throws IndexOutOfBoundsException (t_assign_col TyD (NoAcc (cast TyD)) TyD NoMask MERGE x_c_1
    x_a_1 (IdxArr [1; 5]) 2) ;;
  Ok tt) = Ok tt.
Proof. vm_compute. reflexivity. Qed.

(** test_assign.cpp:1301-1330 *)
Example assign_col_test_no_accum_no_mask :
 (x_c <- mnew 3 4 ;;
  x_c_1 <- mbuild TyD qsecond x_c [0; 0; 0; 1; 1; 1; 2; 2; 2] [1; 2; 3; 0; 2; 3; 0; 1; 2] [1; 2; 3;
    4; 6; 7; 8; 9; 1]%Q ;;
  x_a <- vnew 2 ;;
  x_a_1 <- vbuild TyD qsecond x_a [0; 1] [1; 99]%Q ;;
  x_result <- mnew 3 4 ;;
  x_result_1 <- mbuild TyD qsecond x_result [0; 0; 0; 1; 1; 1; 1; 2; 2; 2] [1; 2; 3; 0; 1; 2; 3; 0;
    1; 2] [1; 2; 3; 4; 1; 6; 7; 8; 99; 1]%Q ;;
  x_c_2 <- t_assign_col TyD (NoAcc (cast TyD)) TyD NoMask MERGE x_c_1 x_a_1 (IdxArr [1; 2]) 1 ;;
  x_q <- meq x_c_2 x_result_1 ;;
  _ <- check x_q ;;
  Ok tt) = Ok tt.
Proof. vm_compute. reflexivity. Qed.

(** test_assign.cpp:1333-1360 *)
Example assign_col_test_allindices_no_accum_no_mask :
 (x_c <- mnew 3 4 ;;
  x_c_1 <- mbuild TyD qsecond x_c [0; 0; 0; 1; 1; 1; 2; 2; 2] [1; 2; 3; 0; 2; 3; 0; 1; 2] [1; 2; 3;
    4; 6; 7; 8; 9; 1]%Q ;;
  x_a <- vnew 3 ;;
  x_a_1 <- vbuild TyD qsecond x_a [1; 2] [1; 99]%Q ;;
  x_result <- mnew 3 4 ;;
  x_result_1 <- mbuild TyD qsecond x_result [0; 0; 1; 1; 1; 1; 2; 2; 2] [2; 3; 0; 1; 2; 3; 0; 1; 2]
    [2; 3; 4; 1; 6; 7; 8; 99; 1]%Q ;;
  x_c_2 <- t_assign_col TyD (NoAcc (cast TyD)) TyD NoMask MERGE x_c_1 x_a_1 AllIdx 1 ;;
  x_q <- meq x_c_2 x_result_1 ;;
  _ <- check x_q ;;
  Ok tt) = Ok tt.
Proof. vm_compute. reflexivity. Qed.

(** test_assign.cpp:1363-1392 *)
Example assign_col_test_accum_no_mask :
 (x_c <- mnew 3 4 ;;
  x_c_1 <- mbuild TyD qsecond x_c [0; 0; 0; 1; 1; 1; 2; 2; 2] [1; 2; 3; 0; 2; 3; 0; 1; 2] [1; 2; 3;
    4; 6; 7; 8; 9; 1]%Q ;;
  x_a <- vnew 2 ;;
  x_a_1 <- vbuild TyD qsecond x_a [0; 1] [1; 99]%Q ;;
  x_result <- mnew 3 4 ;;
  x_result_1 <- mbuild TyD qsecond x_result [0; 0; 0; 1; 1; 1; 1; 2; 2; 2] [1; 2; 3; 0; 1; 2; 3; 0;
    1; 2] [1; 2; 3; 4; 1; 6; 7; 8; 108; 1]%Q ;;
  x_c_2 <- t_assign_col TyD (acc TyD qplus) TyD NoMask MERGE x_c_1 x_a_1 (IdxArr [1; 2]) 1 ;;
  x_q <- meq x_c_2 x_result_1 ;;
  _ <- check x_q ;;
  Ok tt) = Ok tt.
Proof. vm_compute. reflexivity. Qed.

(** test_assign.cpp:1395-1422 *)
Example assign_col_test_allindices_accum_no_mask :
 (x_c <- mnew 3 4 ;;
  x_c_1 <- mbuild TyD qsecond x_c [0; 0; 0; 1; 1; 1; 2; 2; 2] [1; 2; 3; 0; 2; 3; 0; 1; 2] [1; 2; 3;
    4; 6; 7; 8; 9; 1]%Q ;;
  x_a <- vnew 3 ;;
  x_a_1 <- vbuild TyD qsecond x_a [1; 2] [1; 99]%Q ;;
  x_result <- mnew 3 4 ;;
  x_result_1 <- mbuild TyD qsecond x_result [0; 0; 0; 1; 1; 1; 1; 2; 2; 2] [1; 2; 3; 0; 1; 2; 3; 0;
    1; 2] [1; 2; 3; 4; 1; 6; 7; 8; 108; 1]%Q ;;
  x_c_2 <- t_assign_col TyD (acc TyD qplus) TyD NoMask MERGE x_c_1 x_a_1 AllIdx 1 ;;
  x_q <- meq x_c_2 x_result_1 ;;
  _ <- check x_q ;;
  Ok tt) = Ok tt.
Proof. vm_compute. reflexivity. Qed.

(** test_assign.cpp:1425-1465 *)
Example assign_col_test_mask_no_accum :
 (x_C <- mnew 3 4 ;;
  x_C_1 <- mbuild TyD qsecond x_C [0; 0; 0; 1; 1; 1; 2; 2; 2] [1; 2; 3; 0; 2; 3; 0; 1; 2] [1; 2; 3;
    4; 6; 7; 8; 9; 1]%Q ;;
  x_m <- vnew 3 ;;
  x_m_1 <- vbuild TyB qsecond x_m [0; 2] [1; 1]%Q ;;
  x_u <- vnew 2 ;;
  x_u_1 <- vbuild TyD qsecond x_u [0; 1] [75; 99]%Q ;;
  x_result <- mnew 3 4 ;;
  x_result_1 <- mbuild TyD qsecond x_result [0; 0; 0; 1; 1; 1; 2; 2; 2] [1; 2; 3; 0; 2; 3; 0; 1; 2]
    [1; 2; 3; 4; 6; 7; 8; 99; 1]%Q ;;
  x_C_2 <- t_assign_col TyD (NoAcc (cast TyD)) TyD (MVal x_m_1) MERGE x_C_1 x_u_1 (IdxArr [1; 2]) 1
    ;;
  x_q <- meq x_C_2 x_result_1 ;;
  _ <- check x_q ;;
  Ok tt) = Ok tt.
Proof. vm_compute. reflexivity. Qed.

(** test_assign.cpp:1468-1510 *)
Example assign_col_test_mask_no_accum_replace :
 (x_C <- mnew 3 4 ;;
  x_C_1 <- mbuild TyD qsecond x_C [0; 0; 0; 1; 1; 1; 1; 2; 2; 2] [1; 2; 3; 0; 1; 2; 3; 0; 1; 2] [1;
    2; 3; 4; 21; 6; 7; 8; 9; 1]%Q ;;
  x_m <- vnew 3 ;;
  x_m_1 <- vbuild TyB qsecond x_m [0; 2] [1; 1]%Q ;;
  x_u <- vnew 2 ;;
  x_u_1 <- vbuild TyD qsecond x_u [0; 1] [75; 99]%Q ;;
  x_result <- mnew 3 4 ;;
  x_result_1 <- mbuild TyD qsecond x_result [0; 0; 0; 1; 1; 1; 2; 2; 2] [1; 2; 3; 0; 2; 3; 0; 1; 2]
    [1; 2; 3; 4; 6; 7; 8; 99; 1]%Q ;;
  x_C_2 <- t_assign_col TyD (NoAcc (cast TyD)) TyD (MVal x_m_1) REPLACE x_C_1 x_u_1 (IdxArr [1; 2])
    1 ;;
  x_q <- meq x_C_2 x_result_1 ;;
  _ <- check x_q ;;
  Ok tt) = Ok tt.
Proof. vm_compute. reflexivity. Qed.

(** test_assign.cpp:1515-1537 *)
Example assign_row_test_bad_dimensions :
 (x_c <- mnew 3 4 ;;
  x_c_1 <- mbuild TyD qsecond x_c [0; 0; 0; 1; 1; 1; 2; 2; 2] [1; 2; 3; 0; 2; 3; 0; 1; 2] [1; 2; 3;
    4; 6; 7; 8; 9; 1]%Q ;;
  x_a <- vnew 2 ;;
  x_a_1 <- vbuild TyD qsecond x_a [0; 1] [1; 99]%Q ;;
  _ <- throws DimensionException (t_assign_row TyD (NoAcc (cast TyD)) TyD NoMask MERGE x_c_1 x_a_1 1
    (IdxArr [1])) ;;
  Ok tt) = Ok tt.
Proof. vm_compute. reflexivity. Qed.

(** test_assign.cpp:1540-1562 *)
Example assign_row_test_invalid_index :
 (x_c <- mnew 3 4 ;;
  x_c_1 <- mbuild TyD qsecond x_c [0; 0; 0; 1; 1; 1; 2; 2; 2] [1; 2; 3; 0; 2; 3; 0; 1; 2] [1; 2; 3;
    4; 6; 7; 8; 9; 1]%Q ;;
  x_a <- vnew 2 ;;
  x_a_1 <- vbuild TyD qsecond x_a [0; 1] [1; 99]%Q ;;
  _ <- throws InvalidIndexException (t_assign_row TyD (NoAcc (cast TyD)) TyD NoMask MERGE x_c_1
    x_a_1 5 (IdxArr [1; 2])) ;;
  Ok tt) = Ok tt.
Proof. vm_compute. reflexivity. Qed.

(** test_assign.cpp:1565-1586 *)
Example assign_row_test_index_out_of_bounds :
 (x_c <- mnew 3 4 ;;
  x_c_1 <- mbuild TyD qsecond x_c [0; 0; 0; 1; 1; 1; 2; 2; 2] [1; 2; 3; 0; 2; 3; 0; 1; 2] [1; 2; 3;
    4; 6; 7; 8; 9; 1]%Q ;;
  x_a <- vnew 2 ;;
  x_a_1 <- vbuild TyD qsecond x_a [0; 1] [1; 99]%Q ;;
  _ <- throws IndexOutOfBoundsException (t_assign_row TyD (NoAcc (cast TyD)) TyD NoMask MERGE x_c_1
    x_a_1 2 (IdxArr [1; 5])) ;;
  Ok tt) = Ok tt.
Proof. vm_compute. reflexivity. Qed.

(** test_assign.cpp:1589-1618 *)
Example assign_row_test_no_accum :
 (x_c <- mnew 3 4 ;;
  x_c_1 <- mbuild TyD qsecond x_c [0; 0; 0; 1; 1; 1; 2; 2; 2] [1; 2; 3; 0; 2; 3; 0; 1; 2] [1; 2; 3;
    4; 6; 7; 8; 9; 1]%Q ;;
  x_a <- vnew 2 ;;
  x_a_1 <- vbuild TyD qsecond x_a [0; 1] [1; 99]%Q ;;
  x_result <- mnew 3 4 ;;
  x_result_1 <- mbuild TyD qsecond x_result [0; 0; 0; 1; 1; 1; 1; 2; 2; 2] [1; 2; 3; 0; 1; 2; 3; 0;
    1; 2] [1; 2; 3; 4; 1; 99; 7; 8; 9; 1]%Q ;;
  x_c_2 <- t_assign_row TyD (NoAcc (cast TyD)) TyD NoMask MERGE x_c_1 x_a_1 1 (IdxArr [1; 2]) ;;
  x_q <- meq x_c_2 x_result_1 ;;
  _ <- check x_q ;;
  Ok tt) = Ok tt.
Proof. vm_compute. reflexivity. Qed.

(** test_assign.cpp:1621-1648 *)
Example assign_row_test_allindices_no_accum :
 (x_c <- mnew 3 4 ;;
  x_c_1 <- mbuild TyD qsecond x_c [0; 0; 0; 1; 1; 1; 2; 2; 2] [1; 2; 3; 0; 2; 3; 0; 1; 2] [1; 2; 3;
    4; 6; 7; 8; 9; 1]%Q ;;
  x_a <- vnew 4 ;;
  x_a_1 <- vbuild TyD qsecond x_a [1; 2] [1; 99]%Q ;;
  x_result <- mnew 3 4 ;;
  x_result_1 <- mbuild TyD qsecond x_result [0; 0; 0; 1; 1; 2; 2; 2] [1; 2; 3; 1; 2; 0; 1; 2] [1; 2;
    3; 1; 99; 8; 9; 1]%Q ;;
  x_c_2 <- t_assign_row TyD (NoAcc (cast TyD)) TyD NoMask MERGE x_c_1 x_a_1 1 AllIdx ;;
  x_q <- meq x_c_2 x_result_1 ;;
  _ <- check x_q ;;
  Ok tt) = Ok tt.
Proof. vm_compute. reflexivity. Qed.

(** test_assign.cpp:1651-1680 *)
Example assign_row_test_accum :
 (x_c <- mnew 3 4 ;;
  x_c_1 <- mbuild TyD qsecond x_c [0; 0; 0; 1; 1; 1; 2; 2; 2] [1; 2; 3; 0; 2; 3; 0; 1; 2] [1; 2; 3;
    4; 6; 7; 8; 9; 1]%Q ;;
  x_a <- vnew 2 ;;
  x_a_1 <- vbuild TyD qsecond x_a [0; 1] [1; 99]%Q ;;
  x_result <- mnew 3 4 ;;
  x_result_1 <- mbuild TyD qsecond x_result [0; 0; 0; 1; 1; 1; 1; 2; 2; 2] [1; 2; 3; 0; 1; 2; 3; 0;
    1; 2] [1; 2; 3; 4; 1; 105; 7; 8; 9; 1]%Q ;;
  x_c_2 <- t_assign_row TyD (acc TyD qplus) TyD NoMask MERGE x_c_1 x_a_1 1 (IdxArr [1; 2]) ;;
  x_q <- meq x_c_2 x_result_1 ;;
  _ <- check x_q ;;
  Ok tt) = Ok tt.
Proof. vm_compute. reflexivity. Qed.

(** test_assign.cpp:1683-1710 *)
Example assign_row_test_allindices_accum :
 (x_c <- mnew 3 4 ;;
  x_c_1 <- mbuild TyD qsecond x_c [0; 0; 0; 1; 1; 1; 2; 2; 2] [1; 2; 3; 0; 2; 3; 0; 1; 2] [1; 2; 3;
    4; 6; 7; 8; 9; 1]%Q ;;
  x_a <- vnew 4 ;;
  x_a_1 <- vbuild TyD qsecond x_a [1; 2] [1; 99]%Q ;;
  x_result <- mnew 3 4 ;;
  x_result_1 <- mbuild TyD qsecond x_result [0; 0; 0; 1; 1; 1; 1; 2; 2; 2] [1; 2; 3; 0; 1; 2; 3; 0;
    1; 2] [1; 2; 3; 4; 1; 105; 7; 8; 9; 1]%Q ;;
  x_c_2 <- t_assign_row TyD (acc TyD qplus) TyD NoMask MERGE x_c_1 x_a_1 1 AllIdx ;;
  x_q <- meq x_c_2 x_result_1 ;;
  _ <- check x_q ;;
  Ok tt) = Ok tt.
Proof. vm_compute. reflexivity. Qed.

(** test_assign.cpp:1717-1734 *)
Example assign_vec_constant_test_bad_dimensions :
 (x_w <- vnew 4 ;;
  x_w_1 <- vbuild TyD qsecond x_w [1; 2; 3] [1; 2; 3]%Q ;;
  x_m <- vnew 2 ;;
  x_m_1 <- vbuild TyD qsecond x_m [1] [99]%Q ;;
  _ <- throws DimensionException (t_assign_const_v TyD (NoAcc (cast TyD)) TyD (MVal x_m_1) MERGE
    x_w_1 3%Q (IdxArr [1; 3; 2])) ;;
  Ok tt) = Ok tt.
Proof. vm_compute. reflexivity. Qed.

(** test_assign.cpp:1737-1755 *)
Example assign_vec_constant_test_index_out_of_bounds :
 (x_w <- vnew 4 ;;
  x_w_1 <- vbuild TyD qsecond x_w [1; 2; 3] [1; 2; 3]%Q ;;
  x_u <- vnew 2 ;;
  x_u_1 <- vbuild TyD qsecond x_u [1] [99]%Q ;;
  _ <- throws IndexOutOfBoundsException (t_assign_v TyD (NoAcc (cast TyD)) TyD NoMask MERGE x_w_1
    x_u_1 (IdxArr [0; 4])) ;;
  Ok tt) = Ok tt.
Proof. vm_compute. reflexivity. Qed.

(** test_assign.cpp:1758-1775 *)
Example assign_vec_constant_test_no_accum :
 (x_c <- vnew 4 ;;
  x_c_1 <- vbuild TyD qsecond x_c [0; 1; 2] [8; 9; 1]%Q ;;
  x_result <- vnew 4 ;;
  x_result_1 <- vbuild TyD qsecond x_result [0; 1; 2; 3] [8; 99; 1; 99]%Q ;;
  x_c_2 <- t_assign_const_v TyD (NoAcc (cast TyD)) TyD NoMask MERGE x_c_1 99%Q (IdxArr [1; 3]) ;;
  x_q <- veq x_c_2 x_result_1 ;;
  _ <- check x_q ;;
  Ok tt) = Ok tt.
Proof. vm_compute. reflexivity. Qed.

(** test_assign.cpp:1778-1795 *)
Example assign_vec_constant_test_accum :
 (x_c <- vnew 4 ;;
  x_c_1 <- vbuild TyD qsecond x_c [0; 1; 2] [8; 9; 1]%Q ;;
  x_result <- vnew 4 ;;
  x_result_1 <- vbuild TyD qsecond x_result [0; 1; 2; 3] [8; 108; 1; 99]%Q ;;
  x_c_2 <- t_assign_const_v TyD (acc TyD qplus) TyD NoMask MERGE x_c_1 99%Q (IdxArr [1; 3]) ;;
  x_q <- veq x_c_2 x_result_1 ;;
  _ <- check x_q ;;
  Ok tt) = Ok tt.
Proof. vm_compute. reflexivity. Qed.

(** test_assign.cpp:1798-1814 *)
Example assign_vec_constant_test_allindices_no_accum :
 (x_c <- vnew 4 ;;
  x_c_1 <- vbuild TyD qsecond x_c [0; 1; 2] [8; 9; 1]%Q ;;
  x_result <- vnew 4 ;;
  x_result_1 <- vbuild TyD qsecond x_result [0; 1; 2; 3] [99; 99; 99; 99]%Q ;;
  x_c_2 <- t_assign_const_v TyD (NoAcc (cast TyD)) TyD NoMask MERGE x_c_1 99%Q AllIdx ;;
  x_q <- veq x_c_2 x_result_1 ;;
  _ <- check x_q ;;
  Ok tt) = Ok tt.
Proof. vm_compute. reflexivity. Qed.

(** test_assign.cpp:1817-1833 *)
Example assign_vec_constant_test_allindices_accum :
 (x_c <- vnew 4 ;;
  x_c_1 <- vbuild TyD qsecond x_c [0; 1; 2] [8; 9; 1]%Q ;;
  x_c_2 <- t_assign_const_v TyD (acc TyD qplus) TyD NoMask MERGE x_c_1 99%Q AllIdx ;;
  x_result <- vnew 4 ;;
  x_result_1 <- vbuild TyD qsecond x_result [0; 1; 2; 3] [107; 108; 100; 99]%Q ;;
  x_q <- veq x_c_2 x_result_1 ;;
  _ <- check x_q ;;
  Ok tt) = Ok tt.
Proof. vm_compute. reflexivity. Qed.

(** test_assign.cpp:1840-1861 *)
Example assign_mat_constant_test_bad_dimensions :
 (x_c <- mnew 3 4 ;;
  x_c_1 <- mbuild TyD qsecond x_c [0; 0; 0; 1; 1; 1; 2; 2; 2] [1; 2; 3; 0; 2; 3; 0; 1; 2] [1; 2; 3;
    4; 6; 7; 8; 9; 1]%Q ;;
  x_m <- mnew 2 2 ;;
  x_m_1 <- mbuild TyD qsecond x_m [0; 0; 1] [0; 1; 0] [1; 99; 99]%Q ;;
  _ <- throws DimensionException (t_assign_const_m TyD (NoAcc (cast TyD)) TyD (MVal x_m_1) MERGE
    x_c_1 99%Q (IdxArr [1; 0; 1]) (IdxArr [1; 2])) ;;
  Ok tt) = Ok tt.
Proof. vm_compute. reflexivity. Qed.

(** test_assign.cpp:1864-1879 *)
Example assign_mat_constant_test_index_out_of_bounds :
 (x_c <- mnew 3 4 ;;
  x_c_1 <- mbuild TyD qsecond x_c [0; 0; 0; 1; 1; 1; 2; 2; 2] [1; 2; 3; 0; 2; 3; 0; 1; 2] [1; 2; 3;
    4; 6; 7; 8; 9; 1]%Q ;;
  _ <- throws IndexOutOfBoundsException (t_assign_const_m TyD (NoAcc (cast TyD)) TyD NoMask MERGE
    x_c_1 99%Q (IdxArr [1; 5]) (IdxArr [1; 2])) ;;
  Ok tt) = Ok tt.
Proof. vm_compute. reflexivity. Qed.

(** test_assign.cpp:1882-1903 *)
Example sparse_assign_const_base :
 (x_mC <- mnew 3 3 ;;
  x_answer <- mdense0 TyD [[0; 0; 0]; [1; 0; 1]; [1; 0; 1]]%Q 0%Q ;;
  x_mC_1 <- t_assign_const_m TyD (NoAcc (cast TyD)) TyD NoMask MERGE x_mC 1%Q (IdxArr [2; 1])
    (IdxArr [0; 2]) ;;
  x_q <- meq x_mC_1 x_answer ;;
  _ <- check x_q ;;
  Ok tt) = Ok tt.
Proof. vm_compute. reflexivity. Qed.

(** test_assign.cpp:1906-1931 *)
Example assign_mat_constant_test_no_accum :
 (x_c <- mnew 3 4 ;;
  x_c_1 <- mbuild TyD qsecond x_c [0; 0; 0; 1; 1; 1; 2; 2; 2] [1; 2; 3; 0; 2; 3; 0; 1; 2] [1; 2; 3;
    4; 6; 7; 8; 9; 1]%Q ;;
  x_result <- mnew 3 4 ;;
  x_result_1 <- mbuild TyD qsecond x_result [0; 0; 0; 1; 1; 1; 1; 2; 2; 2] [1; 2; 3; 0; 1; 2; 3; 0;
    1; 2] [1; 2; 3; 4; 99; 99; 7; 8; 99; 99]%Q ;;
  x_c_2 <- t_assign_const_m TyD (NoAcc (cast TyD)) TyD NoMask MERGE x_c_1 99%Q (IdxArr [1; 2])
    (IdxArr [1; 2]) ;;
  x_q <- meq x_c_2 x_result_1 ;;
  _ <- check x_q ;;
  Ok tt) = Ok tt.
Proof. vm_compute. reflexivity. Qed.

(** test_assign.cpp:1934-1959 *)
Example assign_mat_constant_test_accum :
 (x_c <- mnew 3 4 ;;
  x_c_1 <- mbuild TyD qsecond x_c [0; 0; 0; 1; 1; 1; 2; 2; 2] [1; 2; 3; 0; 2; 3; 0; 1; 2] [1; 2; 3;
    4; 6; 7; 8; 9; 1]%Q ;;
  x_result <- mnew 3 4 ;;
  x_result_1 <- mbuild TyD qsecond x_result [0; 0; 0; 1; 1; 1; 1; 2; 2; 2] [1; 2; 3; 0; 1; 2; 3; 0;
    1; 2] [1; 2; 3; 4; 99; 105; 7; 8; 108; 100]%Q ;;
  x_c_2 <- t_assign_const_m TyD (acc TyD qplus) TyD NoMask MERGE x_c_1 99%Q (IdxArr [1; 2]) (IdxArr
    [1; 2]) ;;
  x_q <- meq x_c_2 x_result_1 ;;
  _ <- check x_q ;;
  Ok tt) = Ok tt.
Proof. vm_compute. reflexivity. Qed.

(** test_assign.cpp:1962-1987 *)
Example assign_mat_constant_test_allrows_no_accum :
 (x_c <- mnew 3 4 ;;
  x_c_1 <- mbuild TyD qsecond x_c [0; 0; 0; 1; 1; 1; 2; 2; 2] [1; 2; 3; 0; 2; 3; 0; 1; 2] [1; 2; 3;
    4; 6; 7; 8; 9; 1]%Q ;;
  x_result <- mnew 3 4 ;;
  x_result_1 <- mbuild TyD qsecond x_result [0; 0; 0; 0; 1; 1; 1; 1; 2; 2; 2] [0; 1; 2; 3; 0; 1; 2;
    3; 0; 1; 2] [99; 99; 2; 3; 99; 99; 6; 7; 99; 99; 1]%Q ;;
  x_c_2 <- t_assign_const_m TyD (NoAcc (cast TyD)) TyD NoMask MERGE x_c_1 99%Q AllIdx (IdxArr [0;
    1]) ;;
  x_q <- meq x_c_2 x_result_1 ;;
  _ <- check x_q ;;
  Ok tt) = Ok tt.
Proof. vm_compute. reflexivity. Qed.

(** test_assign.cpp:1990-2015 *)
Example assign_mat_constant_test_allcols_no_accum :
 (x_c <- mnew 3 4 ;;
  x_c_1 <- mbuild TyD qsecond x_c [0; 0; 0; 1; 1; 1; 2; 2; 2] [1; 2; 3; 0; 2; 3; 0; 1; 2] [1; 2; 3;
    4; 6; 7; 8; 9; 1]%Q ;;
  x_result <- mnew 3 4 ;;
  x_result_1 <- mbuild TyD qsecond x_result [0; 0; 0; 1; 1; 1; 1; 2; 2; 2; 2] [1; 2; 3; 0; 1; 2; 3;
    0; 1; 2; 3] [1; 2; 3; 99; 99; 99; 99; 99; 99; 99; 99]%Q ;;
  x_c_2 <- t_assign_const_m TyD (NoAcc (cast TyD)) TyD NoMask MERGE x_c_1 99%Q (IdxArr [1; 2])
    AllIdx ;;
  x_q <- meq x_c_2 x_result_1 ;;
  _ <- check x_q ;;
  Ok tt) = Ok tt.
Proof. vm_compute. reflexivity. Qed.

(** test_assign.cpp:2018-2040 *)
Example assign_mat_constant_test_allrowscols_no_accum :
 (x_c <- mnew 3 4 ;;
  x_c_1 <- mbuild TyD qsecond x_c [0; 0; 0; 1; 1; 1; 2; 2; 2] [1; 2; 3; 0; 2; 3; 0; 1; 2] [1; 2; 3;
    4; 6; 7; 8; 9; 1]%Q ;;
  x_result <- mnew 3 4 ;;
  x_result_1 <- mbuild TyD qsecond x_result [0; 0; 0; 0; 1; 1; 1; 1; 2; 2; 2; 2] [0; 1; 2; 3; 0; 1;
    2; 3; 0; 1; 2; 3] [99; 99; 99; 99; 99; 99; 99; 99; 99; 99; 99; 99]%Q ;;
  x_c_2 <- t_assign_const_m TyD (NoAcc (cast TyD)) TyD NoMask MERGE x_c_1 99%Q AllIdx AllIdx ;;
  x_q <- meq x_c_2 x_result_1 ;;
  _ <- check x_q ;;
  Ok tt) = Ok tt.
Proof. vm_compute. reflexivity. Qed.

(** test_assign.cpp:2043-2065 *)
Example assign_mat_constant_test_allrowscols_accum :
 (x_c <- mnew 3 4 ;;
  x_c_1 <- mbuild TyD qsecond x_c [0; 0; 0; 1; 1; 1; 2; 2; 2] [1; 2; 3; 0; 2; 3; 0; 1; 2] [1; 2; 3;
    4; 6; 7; 8; 9; 1]%Q ;;
  x_c_2 <- t_assign_const_m TyD (acc TyD qplus) TyD NoMask MERGE x_c_1 99%Q AllIdx AllIdx ;;
  x_result <- mnew 3 4 ;;
  x_result_1 <- mbuild TyD qsecond x_result [0; 0; 0; 0; 1; 1; 1; 1; 2; 2; 2; 2] [0; 1; 2; 3; 0; 1;
    2; 3; 0; 1; 2; 3] [99; 100; 101; 102; 103; 99; 105; 106; 107; 108; 100; 99]%Q ;;
  x_q <- meq x_c_2 x_result_1 ;;
  _ <- check x_q ;;
  Ok tt) = Ok tt.
Proof. vm_compute. reflexivity. Qed.
