(** The tests of /repo/src/test/test_apply.cpp, run on the model.  Generated translation. *)
From Verif Require Import TestRun.


(** test_apply.cpp:52-109 *)
Example apply_stdmat_test_bad_dimension :
 (x_A <- mnew 4 4 ;;
  x_A_1 <- mbuild TyD qsecond x_A [0; 0; 1; 1; 1; 2; 2; 2; 3; 3] [0; 1; 0; 1; 2; 1; 2; 3; 2; 3] [1;
    1; 1; 2; 2; 2; 3; 3; 3; 4]%Q ;;
  x_C <- mnew 3 4 ;;
  _ <- throws DimensionException (t_apply TyD noacc qinv NoMask MERGE x_C (Mat x_A_1)) ;;
  x_C_1 <- mnew 4 3 ;;
  _ <- throws DimensionException (t_apply TyD noacc qinv NoMask MERGE x_C_1 (Mat x_A_1)) ;;
  x_C_2 <- mnew 4 4 ;;
  x_M <- mnew 3 4 ;;
  _ <- throws DimensionException (t_apply TyD noacc qinv (MVal x_M) MERGE x_C_2 (Mat x_A_1)) ;;
  x_C_3 <- mnew 4 4 ;;
  x_M_1 <- mnew 4 3 ;;
  _ <- throws DimensionException (t_apply TyD noacc qinv (MVal x_M_1) MERGE x_C_3 (Mat x_A_1)) ;;
  Ok tt) = Ok tt.
Proof. vm_compute. reflexivity. Qed.

(** test_apply.cpp:113-138 *)
Example sparse_apply_matrix_nomask_noaccum :
 (x_mA <- mdense0 TyD [[8; 1; 6]; [3; 5; 7]; [4; 9; 0]]%Q 0%Q ;;
  x_mC <- mdense0 TyD [[1; 2; 3]; [4; 5; 6]; [7; 8; 0]]%Q 0%Q ;;
  x_answer <- mdense0 TyD [[(-8); (-1); (-6)]; [(-3); (-5); (-7)]; [(-4); (-9); 0]]%Q 0%Q ;;
  x_mC_1 <- t_apply TyD noacc qneg NoMask MERGE x_mC (Mat x_mA) ;;
  x_q <- meq x_mC_1 x_answer ;;
  _ <- check x_q ;;
  Ok tt) = Ok tt.
Proof. vm_compute. reflexivity. Qed.

(** test_apply.cpp:141-171 *)
Example sparse_apply_matrix_mask_merge_noaccum :
 (x_mA <- mdense0 TyD [[8; 1; 6]; [3; 5; 7]; [4; 9; 0]]%Q 0%Q ;;
  x_mC <- mdense0 TyD [[1; 2; 3]; [4; 5; 6]; [7; 8; 0]]%Q 0%Q ;;
  x_mask <- mdense0 TyB [[1; 0; 0]; [1; 1; 0]; [1; 1; 1]]%Q 0%Q ;;
  x_answer <- mdense0 TyD [[(-8); 2; 3]; [(-3); (-5); 6]; [(-4); (-9); 0]]%Q 0%Q ;;
  x_mC_1 <- t_apply TyD noacc qneg (MVal x_mask) MERGE x_mC (Mat x_mA) ;;
  x_q <- meq x_mC_1 x_answer ;;
  _ <- check x_q ;;
  Ok tt) = Ok tt.
Proof. vm_compute. reflexivity. Qed.

(** test_apply.cpp:174-205 *)
Example sparse_apply_matrix_mask_replace_noaccum :
 (x_mA <- mdense0 TyD [[8; 1; 6]; [3; 5; 7]; [4; 9; 0]]%Q 0%Q ;;
  x_mC <- mdense0 TyD [[1; 2; 3]; [4; 5; 6]; [7; 8; 0]]%Q 0%Q ;;
  x_mask <- mdense0 TyB [[1; 0; 0]; [1; 1; 0]; [1; 1; 1]]%Q 0%Q ;;
  x_answer <- mdense0 TyD [[(-8); 0; 0]; [(-3); (-5); 0]; [(-4); (-9); 0]]%Q 0%Q ;;
  x_mC_1 <- t_apply TyD noacc qneg (MVal x_mask) REPLACE x_mC (Mat x_mA) ;;
  x_q <- meq x_mC_1 x_answer ;;
  _ <- check x_q ;;
  Ok tt) = Ok tt.
Proof. vm_compute. reflexivity. Qed.

(** test_apply.cpp:208-309 *)
Example apply_stdmat_test_noaccum :
 (x_A <- mdense0 TyD [[1; 1; 0; 0]; [1; 2; 2; 0]; [0; 2; 3; 3]]%Q 0%Q ;;
  x_M <- mdense0 (TyU 8) [[1; 1; 1; 1]; [0; 1; 1; 1]; [0; 0; 1; 1]]%Q 0%Q ;;
  x_answer <- mdense0 TyD [[1; 1; 0; 0]; [1; (1 # 2); (1 # 2); 0]; [0; (1 # 2); (1 # 3); (1 # 3)]]%Q
    0%Q ;;
  x_C <- mnew 3 4 ;;
  x_C_1 <- t_apply TyD noacc qinv NoMask MERGE x_C (Mat x_A) ;;
  x_q <- meq x_C_1 x_answer ;;
  _ <- check x_q ;;
  x_answer_1 <- mdense0 TyD [[1; 1; 0; 0]; [0; (1 # 2); (1 # 2); 0]; [0; 0; (1 # 3); (1 # 3)]]%Q 0%Q
    ;;
  x_C_2 <- mdense0 TyD [[9; 9; 9; 9]; [9; 9; 9; 9]; [9; 9; 9; 9]]%Q 0%Q ;;
  x_C_3 <- t_apply TyD noacc qinv (MVal x_M) REPLACE x_C_2 (Mat x_A) ;;
  x_q_1 <- meq x_C_3 x_answer_1 ;;
  _ <- check x_q_1 ;;
  x_answer_2 <- mdense0 TyD [[1; 1; 0; 0]; [9; (1 # 2); (1 # 2); 0]; [9; 9; (1 # 3); (1 # 3)]]%Q 0%Q
    ;;
  x_C_4 <- mdense0 TyD [[9; 9; 9; 9]; [9; 9; 9; 9]; [9; 9; 9; 9]]%Q 0%Q ;;
  x_C_5 <- t_apply TyD noacc qinv (MVal x_M) MERGE x_C_4 (Mat x_A) ;;
  x_q_2 <- meq x_C_5 x_answer_2 ;;
  _ <- check x_q_2 ;;
  x_answer_3 <- mdense0 TyD [[0; 0; 0; 0]; [1; 0; 0; 0]; [0; (1 # 2); 0; 0]]%Q 0%Q ;;
  x_C_6 <- mdense0 TyD [[9; 9; 9; 9]; [9; 9; 9; 9]; [9; 9; 9; 9]]%Q 0%Q ;;
  x_C_7 <- t_apply TyD noacc qinv (MComp x_M) REPLACE x_C_6 (Mat x_A) ;;
  x_q_3 <- meq x_C_7 x_answer_3 ;;
  _ <- check x_q_3 ;;
  x_answer_4 <- mdense0 TyD [[9; 9; 9; 9]; [1; 9; 9; 9]; [0; (1 # 2); 9; 9]]%Q 0%Q ;;
  x_C_8 <- mdense0 TyD [[9; 9; 9; 9]; [9; 9; 9; 9]; [9; 9; 9; 9]]%Q 0%Q ;;
  x_C_9 <- t_apply TyD noacc qinv (MComp x_M) MERGE x_C_8 (Mat x_A) ;;
  x_q_4 <- meq x_C_9 x_answer_4 ;;
  _ <- check x_q_4 ;;
  Ok tt) = Ok tt.
Proof. vm_compute. reflexivity. Qed.

(** test_apply.cpp:312-337 *)
Example sparse_apply_matrix_nomask_plus_accum :
 (x_mA <- mdense0 TyD [[8; 1; 6]; [3; 5; 7]; [4; 9; 0]]%Q 0%Q ;;
  x_mC <- mdense0 TyD [[1; 2; 3]; [4; 5; 6]; [7; 8; 0]]%Q 0%Q ;;
  x_answer <- mdense0 TyD [[(-7); 1; (-3)]; [1; 0; (-1)]; [3; (-1); 1337]]%Q 1337%Q ;;
  x_mC_1 <- t_apply TyD (acc TyD qplus) qneg NoMask MERGE x_mC (Mat x_mA) ;;
  x_q <- meq x_mC_1 x_answer ;;
  _ <- check x_q ;;
  Ok tt) = Ok tt.
Proof. vm_compute. reflexivity. Qed.

(** test_apply.cpp:340-441 *)
Example apply_stdmat_test_plus_accum :
 (x_A <- mdense0 TyD [[1; 1; 0; 0]; [1; 2; 2; 0]; [0; 2; 3; 3]]%Q 0%Q ;;
  x_M <- mdense0 (TyU 8) [[1; 1; 1; 1]; [0; 1; 1; 1]; [0; 0; 1; 1]]%Q 0%Q ;;
  x_answer <- mdense0 TyD [[10; 10; 9; 0]; [10; (19 # 2); (1 # 2); 0]; [9; (1 # 2); (1 # 3); (1 #
    3)]]%Q 0%Q ;;
  x_C <- mdense0 TyD [[9; 9; 9; 0]; [9; 9; 0; 0]; [9; 0; 0; 0]]%Q 0%Q ;;
  x_C_1 <- t_apply TyD (acc TyD qplus) qinv NoMask MERGE x_C (Mat x_A) ;;
  x_q <- meq x_C_1 x_answer ;;
  _ <- check x_q ;;
  x_answer_1 <- mdense0 TyD [[10; 10; 9; 0]; [0; (19 # 2); (1 # 2); 0]; [0; 0; (1 # 3); (1 # 3)]]%Q
    0%Q ;;
  x_C_2 <- mdense0 TyD [[9; 9; 9; 0]; [9; 9; 0; 0]; [9; 0; 0; 0]]%Q 0%Q ;;
  x_C_3 <- t_apply TyD (acc TyD qplus) qinv (MVal x_M) REPLACE x_C_2 (Mat x_A) ;;
  x_q_1 <- meq x_C_3 x_answer_1 ;;
  _ <- check x_q_1 ;;
  x_answer_2 <- mdense0 TyD [[10; 10; 9; 0]; [9; (19 # 2); (1 # 2); 0]; [9; 0; (1 # 3); (1 # 3)]]%Q
    0%Q ;;
  x_C_4 <- mdense0 TyD [[9; 9; 9; 0]; [9; 9; 0; 0]; [9; 0; 0; 0]]%Q 0%Q ;;
  x_C_5 <- t_apply TyD (acc TyD qplus) qinv (MVal x_M) MERGE x_C_4 (Mat x_A) ;;
  x_q_2 <- meq x_C_5 x_answer_2 ;;
  _ <- check x_q_2 ;;
  x_answer_3 <- mdense0 TyD [[0; 0; 0; 0]; [10; 0; 0; 0]; [9; (1 # 2); 0; 0]]%Q 0%Q ;;
  x_C_6 <- mdense0 TyD [[9; 9; 9; 0]; [9; 9; 0; 0]; [9; 0; 0; 0]]%Q 0%Q ;;
  x_C_7 <- t_apply TyD (acc TyD qplus) qinv (MComp x_M) REPLACE x_C_6 (Mat x_A) ;;
  x_q_3 <- meq x_C_7 x_answer_3 ;;
  _ <- check x_q_3 ;;
  x_answer_4 <- mdense0 TyD [[9; 9; 9; 0]; [10; 9; 0; 0]; [9; (1 # 2); 0; 0]]%Q 0%Q ;;
  x_C_8 <- mdense0 TyD [[9; 9; 9; 0]; [9; 9; 0; 0]; [9; 0; 0; 0]]%Q 0%Q ;;
  x_C_9 <- t_apply TyD (acc TyD qplus) qinv (MComp x_M) MERGE x_C_8 (Mat x_A) ;;
  x_q_4 <- meq x_C_9 x_answer_4 ;;
  _ <- check x_q_4 ;;
  Ok tt) = Ok tt.
Proof. vm_compute. reflexivity. Qed.

(** test_apply.cpp:444-466 *)
Example apply_stdmat_test_second_accum :
 (x_A <- mnew 4 4 ;;
  x_A_1 <- mbuild TyD qsecond x_A [0; 0; 1; 1; 1; 2; 2; 2; 3; 3] [0; 1; 0; 1; 2; 1; 2; 3; 2; 3] [1;
    1; 1; 2; 2; 2; 3; 3; 3; 4]%Q ;;
  x_C <- mnew 4 4 ;;
  x_answer <- mnew 4 4 ;;
  x_answer_1 <- mbuild TyD qsecond x_answer [0; 0; 1; 1; 1; 2; 2; 2; 3; 3] [0; 1; 0; 1; 2; 1; 2; 3;
    2; 3] [1; 1; 1; (1 # 2); (1 # 2); (1 # 2); (1 # 3); (1 # 3); (1 # 3); (1 # 4)]%Q ;;
  x_C_1 <- t_apply TyD (acc TyD qsecond) qinv NoMask MERGE x_C (Mat x_A_1) ;;
  x_q <- meq x_C_1 x_answer_1 ;;
  _ <- check x_q ;;
  Ok tt) = Ok tt.
Proof. vm_compute. reflexivity. Qed.

(** test_apply.cpp:469-505 *)
Example apply_stdmat_test_noaccum_transpose :
 (x_A <- mdense0 TyD [[1; 1; 0]; [1; 2; 2]; [0; 2; 3]; [0; 0; 3]]%Q 0%Q ;;
  x_M <- mdense0 (TyU 8) [[1; 1; 1; 1]; [0; 1; 1; 1]; [0; 0; 1; 1]]%Q 0%Q ;;
  x_answer <- mdense0 TyD [[1; 1; 0; 0]; [1; (1 # 2); (1 # 2); 0]; [0; (1 # 2); (1 # 3); (1 # 3)]]%Q
    0%Q ;;
  x_C <- mnew 3 4 ;;
  x_C_1 <- t_apply TyD noacc qinv NoMask MERGE x_C (Trn x_A) ;;
  x_q <- meq x_C_1 x_answer ;;
  _ <- check x_q ;;
  Ok tt) = Ok tt.
Proof. vm_compute. reflexivity. Qed.

(** test_apply.cpp:512-542 *)
Example apply_stdvec_test_bad_dimension :
 (x_u <- vdense0 TyD [0; 2; 3; 3]%Q 0%Q ;;
  x_w <- vnew 3 ;;
  _ <- throws DimensionException (t_apply_v TyD noacc qinv NoMask MERGE x_w x_u) ;;
  x_w_1 <- vnew 4 ;;
  x_m <- vnew 3 ;;
  _ <- throws DimensionException (t_apply_v TyD noacc qinv (MVal x_m) MERGE x_w_1 x_u) ;;
  Ok tt) = Ok tt.
Proof. vm_compute. reflexivity. Qed.

(** test_apply.cpp:546-564 *)
Example sparse_apply_vector_nomask_noaccum :
 (x_vA <- vdense0 TyD [8; 0; 6; 0]%Q 0%Q ;;
  x_vC <- vdense0 TyD [1; 2; 0; 0]%Q 0%Q ;;
  x_answer <- vdense0 TyD [(-8); 0; (-6); 0]%Q 0%Q ;;
  x_vC_1 <- t_apply_v TyD noacc qneg NoMask MERGE x_vC x_vA ;;
  x_q <- veq x_vC_1 x_answer ;;
  _ <- check x_q ;;
  Ok tt) = Ok tt.
Proof. vm_compute. reflexivity. Qed.

(** test_apply.cpp:568-587 *)
Example sparse_apply_vector_nomask_noaccum_bool :
 (x_vA <- vdense0 TyB [1; 0; 1; 0]%Q 0%Q ;;
  x_vC <- vdense0 TyB [1; 1; 0; 0]%Q 0%Q ;;
  x_answer <- vdense0 TyB [0; 1; 0; 1]%Q 1%Q ;;
  x_vC_1 <- t_apply_v TyB noacc (op13 TyB TyB qnot) NoMask REPLACE x_vC x_vA ;;
  x_q <- veq x_vC_1 x_answer ;;
  _ <- check x_q ;;
  Ok tt) = Ok tt.
Proof. vm_compute. reflexivity. Qed.

(** test_apply.cpp:591-610 *)
Example sparse_apply_vector_nomask_noaccum_int :
 (x_vA <- vdense0 TyI [1; 0; 1; 0]%Q 0%Q ;;
  x_vC <- vdense0 TyI [1; 1; 0; 0]%Q 0%Q ;;
  x_answer <- vdense0 TyI [(-1); 0; (-1); 0]%Q 0%Q ;;
  x_vC_1 <- t_apply_v TyI noacc (op13 TyI TyI qneg) NoMask MERGE x_vC x_vA ;;
  x_q <- veq x_vC_1 x_answer ;;
  _ <- check x_q ;;
  Ok tt) = Ok tt.
Proof. vm_compute. reflexivity. Qed.

(** test_apply.cpp:613-634 *)
Example sparse_apply_vector_mask_merge_noaccum :
 (x_vA <- vdense0 TyD [8; 8; 0; 0; 6; 6; 0; 0]%Q 0%Q ;;
  x_vC <- vdense0 TyD [1; 1; 2; 2; 0; 0; 0; 0]%Q 0%Q ;;
  x_mask <- vdense0 TyB [1; 0; 1; 0; 1; 0; 1; 0]%Q 0%Q ;;
  x_answer <- vdense0 TyD [(-8); 1; 0; 2; (-6); 0; 0; 0]%Q 0%Q ;;
  x_vC_1 <- t_apply_v TyD noacc qneg (MVal x_mask) MERGE x_vC x_vA ;;
  x_q <- veq x_vC_1 x_answer ;;
  _ <- check x_q ;;
  Ok tt) = Ok tt.
Proof. vm_compute. reflexivity. Qed.

(** test_apply.cpp:637-659 *)
Example sparse_apply_vector_mask_replace_noaccum :
 (x_vA <- vdense0 TyD [8; 8; 0; 0; 6; 6; 0; 0]%Q 0%Q ;;
  x_vC <- vdense0 TyD [1; 1; 2; 2; 0; 0; 0; 0]%Q 0%Q ;;
  x_mask <- vdense0 TyB [1; 0; 1; 0; 1; 0; 1; 0]%Q 0%Q ;;
  x_answer <- vdense0 TyD [(-8); 0; 0; 0; (-6); 0; 0; 0]%Q 0%Q ;;
  x_vC_1 <- t_apply_v TyD noacc qneg (MVal x_mask) REPLACE x_vC x_vA ;;
  x_q <- veq x_vC_1 x_answer ;;
  _ <- check x_q ;;
  Ok tt) = Ok tt.
Proof. vm_compute. reflexivity. Qed.

(** test_apply.cpp:662-744 *)
Example apply_stdvec_test_noaccum :
 (x_u <- vdense0 TyD [4; 5; 2; 3; 0; 0]%Q 0%Q ;;
  x_m <- vdense0 (TyU 8) [0; 0; 1; 1; 1; 1]%Q 0%Q ;;
  x_answer <- vdense0 TyD [(1 # 4); (1 # 5); (1 # 2); (1 # 3); 0; 0]%Q 0%Q ;;
  x_w <- vnew 6 ;;
  x_w_1 <- t_apply_v TyD noacc qinv NoMask MERGE x_w x_u ;;
  x_q <- veq x_w_1 x_answer ;;
  _ <- check x_q ;;
  x_answer_1 <- vdense0 TyD [0; 0; (1 # 2); (1 # 3); 0; 0]%Q 0%Q ;;
  x_w_2 <- vdense0 TyD [9; 0; 9; 0; 9; 0]%Q 0%Q ;;
  x_w_3 <- t_apply_v TyD noacc qinv (MVal x_m) REPLACE x_w_2 x_u ;;
  x_q_1 <- veq x_w_3 x_answer_1 ;;
  _ <- check x_q_1 ;;
  x_answer_2 <- vdense0 TyD [9; 0; (1 # 2); (1 # 3); 0; 0]%Q 0%Q ;;
  x_w_4 <- vdense0 TyD [9; 0; 9; 0; 9; 0]%Q 0%Q ;;
  x_w_5 <- t_apply_v TyD noacc qinv (MVal x_m) MERGE x_w_4 x_u ;;
  x_q_2 <- veq x_w_5 x_answer_2 ;;
  _ <- check x_q_2 ;;
  x_answer_3 <- vdense0 TyD [(1 # 4); (1 # 5); 0; 0; 0; 0]%Q 0%Q ;;
  x_w_6 <- vdense0 TyD [9; 0; 9; 0; 9; 0]%Q 0%Q ;;
  x_w_7 <- t_apply_v TyD noacc qinv (MComp x_m) REPLACE x_w_6 x_u ;;
  x_q_3 <- veq x_w_7 x_answer_3 ;;
  _ <- check x_q_3 ;;
  x_answer_4 <- vdense0 TyD [(1 # 4); (1 # 5); 9; 0; 9; 0]%Q 0%Q ;;
  x_w_8 <- vdense0 TyD [9; 0; 9; 0; 9; 0]%Q 0%Q ;;
  x_w_9 <- t_apply_v TyD noacc qinv (MComp x_m) MERGE x_w_8 x_u ;;
  x_q_4 <- veq x_w_9 x_answer_4 ;;
  _ <- check x_q_4 ;;
  Ok tt) = Ok tt.
Proof. vm_compute. reflexivity. Qed.

(** test_apply.cpp:748-767 *)
Example sparse_apply_vector_accum :
 (x_vA <- vdense0 TyD [8; 0; 6; 0]%Q 0%Q ;;
  x_vC <- vdense0 TyD [8; 2; 0; 0]%Q 0%Q ;;
  x_answer <- vdense0 TyD [0; 2; (-6); 666]%Q 666%Q ;;
  x_vC_1 <- t_apply_v TyD (acc TyD qplus) qneg NoMask MERGE x_vC x_vA ;;
  x_q <- veq x_vC_1 x_answer ;;
  _ <- check x_q ;;
  Ok tt) = Ok tt.
Proof. vm_compute. reflexivity. Qed.

(** test_apply.cpp:770-852 *)
Example apply_stdvec_test_plus_accum :
 (x_u <- vdense0 TyD [4; 5; 2; 3; 0; 0]%Q 0%Q ;;
  x_m <- vdense0 (TyU 8) [0; 0; 1; 1; 1; 1]%Q 0%Q ;;
  x_answer <- vdense0 TyD [(37 # 4); (1 # 5); (19 # 2); (1 # 3); 9; 0]%Q 0%Q ;;
  x_w <- vdense0 TyD [9; 0; 9; 0; 9; 0]%Q 0%Q ;;
  x_w_1 <- t_apply_v TyD (acc TyD qplus) qinv NoMask MERGE x_w x_u ;;
  x_q <- veq x_w_1 x_answer ;;
  _ <- check x_q ;;
  x_answer_1 <- vdense0 TyD [0; 0; (19 # 2); (1 # 3); 9; 0]%Q 0%Q ;;
  x_w_2 <- vdense0 TyD [9; 0; 9; 0; 9; 0]%Q 0%Q ;;
  x_w_3 <- t_apply_v TyD (acc TyD qplus) qinv (MVal x_m) REPLACE x_w_2 x_u ;;
  x_q_1 <- veq x_w_3 x_answer_1 ;;
  _ <- check x_q_1 ;;
  x_answer_2 <- vdense0 TyD [9; 0; (19 # 2); (1 # 3); 9; 0]%Q 0%Q ;;
  x_w_4 <- vdense0 TyD [9; 0; 9; 0; 9; 0]%Q 0%Q ;;
  x_w_5 <- t_apply_v TyD (acc TyD qplus) qinv (MVal x_m) MERGE x_w_4 x_u ;;
  x_q_2 <- veq x_w_5 x_answer_2 ;;
  _ <- check x_q_2 ;;
  x_answer_3 <- vdense0 TyD [(37 # 4); (1 # 5); 0; 0; 0; 0]%Q 0%Q ;;
  x_w_6 <- vdense0 TyD [9; 0; 9; 0; 9; 0]%Q 0%Q ;;
  x_w_7 <- t_apply_v TyD (acc TyD qplus) qinv (MComp x_m) REPLACE x_w_6 x_u ;;
  x_q_3 <- veq x_w_7 x_answer_3 ;;
  _ <- check x_q_3 ;;
  x_answer_4 <- vdense0 TyD [(37 # 4); (1 # 5); 9; 0; 9; 0]%Q 0%Q ;;
  x_w_8 <- vdense0 TyD [9; 0; 9; 0; 9; 0]%Q 0%Q ;;
  x_w_9 <- t_apply_v TyD (acc TyD qplus) qinv (MComp x_m) MERGE x_w_8 x_u ;;
  x_q_4 <- veq x_w_9 x_answer_4 ;;
  _ <- check x_q_4 ;;
  Ok tt) = Ok tt.
Proof. vm_compute. reflexivity. Qed.

(** test_apply.cpp:861-898 *)
Example bind_sparse_apply_matrix_nomask_noaccum :
 (x_mA <- mdense0 TyD [[8; 1; 6]; [3; 5; 7]; [4; 9; 0]]%Q 0%Q ;;
  x_mC <- mdense0 TyD [[1; 2; 3]; [4; 5; 6]; [7; 8; 0]]%Q 0%Q ;;
  x_answer <- mdense0 TyD [[(-8); (-1); (-6)]; [(-3); (-5); (-7)]; [(-4); (-9); 0]]%Q 0%Q ;;
  x_mC_1 <- t_apply TyD noacc (fun y => qtimes (-1)%Q y) NoMask MERGE x_mC (Mat x_mA) ;;
  x_q <- meq x_mC_1 x_answer ;;
  _ <- check x_q ;;
  x_mC_2 <- t_apply TyD noacc (fun y => qtimes y (-1)%Q) NoMask MERGE x_mC_1 (Mat x_mA) ;;
  x_q_1 <- meq x_mC_2 x_answer ;;
  _ <- check x_q_1 ;;
  Ok tt) = Ok tt.
Proof. vm_compute. reflexivity. Qed.

(** test_apply.cpp:901-948 *)
Example bind_sparse_apply_matrix_mask_merge_noaccum :
 (x_mA <- mdense0 TyD [[8; 1; 6]; [3; 5; 7]; [4; 9; 0]]%Q 0%Q ;;
  x_mask <- mdense0 TyB [[1; 0; 0]; [1; 1; 0]; [1; 1; 1]]%Q 0%Q ;;
  x_answer <- mdense0 TyD [[(-8); 2; 3]; [(-3); (-5); 6]; [(-4); (-9); 0]]%Q 0%Q ;;
  x_mC <- mdense0 TyD [[1; 2; 3]; [4; 5; 6]; [7; 8; 0]]%Q 0%Q ;;
  x_mC_1 <- t_apply TyD noacc (fun y => qtimes (-1)%Q y) (MVal x_mask) MERGE x_mC (Mat x_mA) ;;
  x_q <- meq x_mC_1 x_answer ;;
  _ <- check x_q ;;
  x_mC_2 <- mdense0 TyD [[1; 2; 3]; [4; 5; 6]; [7; 8; 0]]%Q 0%Q ;;
  x_mC_3 <- t_apply TyD noacc (fun y => qtimes y (-1)%Q) (MVal x_mask) MERGE x_mC_2 (Mat x_mA) ;;
  x_q_1 <- meq x_mC_3 x_answer ;;
  _ <- check x_q_1 ;;
  Ok tt) = Ok tt.
Proof. vm_compute. reflexivity. Qed.

(** test_apply.cpp:951-999 *)
Example bind_sparse_apply_matrix_mask_replace_noaccum :
 (x_mA <- mdense0 TyD [[8; 1; 6]; [3; 5; 7]; [4; 9; 0]]%Q 0%Q ;;
  x_mask <- mdense0 TyB [[1; 0; 0]; [1; 1; 0]; [1; 1; 1]]%Q 0%Q ;;
  x_answer <- mdense0 TyD [[(-8); 0; 0]; [(-3); (-5); 0]; [(-4); (-9); 0]]%Q 0%Q ;;
  x_mC <- mdense0 TyD [[1; 2; 3]; [4; 5; 6]; [7; 8; 0]]%Q 0%Q ;;
  x_mC_1 <- t_apply TyD noacc (fun y => qtimes (-1)%Q y) (MVal x_mask) REPLACE x_mC (Mat x_mA) ;;
  x_q <- meq x_mC_1 x_answer ;;
  _ <- check x_q ;;
  x_mC_2 <- mdense0 TyD [[1; 2; 3]; [4; 5; 6]; [7; 8; 0]]%Q 0%Q ;;
  x_mC_3 <- t_apply TyD noacc (fun y => qtimes y (-1)%Q) (MVal x_mask) REPLACE x_mC_2 (Mat x_mA) ;;
  x_q_1 <- meq x_mC_3 x_answer ;;
  _ <- check x_q_1 ;;
  Ok tt) = Ok tt.
Proof. vm_compute. reflexivity. Qed.

(** test_apply.cpp:1002-1168 *)
Example bind_apply_stdmat_test_noaccum :
 (x_A <- mdense0 TyD [[1; 1; 0; 0]; [1; 2; 2; 0]; [0; 2; 3; 3]]%Q 0%Q ;;
  x_M <- mdense0 (TyU 8) [[1; 1; 1; 1]; [0; 1; 1; 1]; [0; 0; 1; 1]]%Q 0%Q ;;
  x_answer <- mdense0 TyD [[(3 # 2); (3 # 2); 0; 0]; [(3 # 2); (5 # 2); (5 # 2); 0]; [0; (5 # 2); (7
    # 2); (7 # 2)]]%Q 0%Q ;;
  x_C <- mnew 3 4 ;;
  x_C_1 <- t_apply TyD noacc (fun y => qplus (1 # 2)%Q y) NoMask MERGE x_C (Mat x_A) ;;
  x_q <- meq x_C_1 x_answer ;;
  _ <- check x_q ;;
  x_C2 <- mnew 3 4 ;;
  x_C2_1 <- t_apply TyD noacc (fun y => qplus y (1 # 2)%Q) NoMask MERGE x_C2 (Mat x_A) ;;
  x_q_1 <- meq x_C2_1 x_answer ;;
  _ <- check x_q_1 ;;
  x_answer_1 <- mdense0 TyD [[(3 # 2); (3 # 2); 0; 0]; [0; (5 # 2); (5 # 2); 0]; [0; 0; (7 # 2); (7
    # 2)]]%Q 0%Q ;;
  x_C_2 <- mdense0 TyD [[9; 9; 9; 9]; [9; 9; 9; 9]; [9; 9; 9; 9]]%Q 0%Q ;;
  x_C_3 <- t_apply TyD noacc (fun y => qplus (1 # 2)%Q y) (MVal x_M) REPLACE x_C_2 (Mat x_A) ;;
  x_q_2 <- meq x_C_3 x_answer_1 ;;
  _ <- check x_q_2 ;;
  x_C2_2 <- mdense0 TyD [[9; 9; 9; 9]; [9; 9; 9; 9]; [9; 9; 9; 9]]%Q 0%Q ;;
  x_C2_3 <- t_apply TyD noacc (fun y => qplus y (1 # 2)%Q) (MVal x_M) REPLACE x_C2_2 (Mat x_A) ;;
  x_q_3 <- meq x_C2_3 x_answer_1 ;;
  _ <- check x_q_3 ;;
  x_answer_2 <- mdense0 TyD [[(3 # 2); (3 # 2); 0; 0]; [9; (5 # 2); (5 # 2); 0]; [9; 9; (7 # 2); (7
    # 2)]]%Q 0%Q ;;
  x_C_4 <- mdense0 TyD [[9; 9; 9; 9]; [9; 9; 9; 9]; [9; 9; 9; 9]]%Q 0%Q ;;
  x_C_5 <- t_apply TyD noacc (fun y => qplus (1 # 2)%Q y) (MVal x_M) MERGE x_C_4 (Mat x_A) ;;
  x_q_4 <- meq x_C_5 x_answer_2 ;;
  _ <- check x_q_4 ;;
  x_C2_4 <- mdense0 TyD [[9; 9; 9; 9]; [9; 9; 9; 9]; [9; 9; 9; 9]]%Q 0%Q ;;
  x_C2_5 <- t_apply TyD noacc (fun y => qplus y (1 # 2)%Q) (MVal x_M) MERGE x_C2_4 (Mat x_A) ;;
  x_q_5 <- meq x_C2_5 x_answer_2 ;;
  _ <- check x_q_5 ;;
  x_answer_3 <- mdense0 TyD [[0; 0; 0; 0]; [(3 # 2); 0; 0; 0]; [0; (5 # 2); 0; 0]]%Q 0%Q ;;
  x_C_6 <- mdense0 TyD [[9; 9; 9; 9]; [9; 9; 9; 9]; [9; 9; 9; 9]]%Q 0%Q ;;
  x_C_7 <- t_apply TyD noacc (fun y => qplus (1 # 2)%Q y) (MComp x_M) REPLACE x_C_6 (Mat x_A) ;;
  x_q_6 <- meq x_C_7 x_answer_3 ;;
  _ <- check x_q_6 ;;
  x_C2_6 <- mdense0 TyD [[9; 9; 9; 9]; [9; 9; 9; 9]; [9; 9; 9; 9]]%Q 0%Q ;;
  x_C2_7 <- t_apply TyD noacc (fun y => qplus y (1 # 2)%Q) (MComp x_M) REPLACE x_C2_6 (Mat x_A) ;;
  x_q_7 <- meq x_C2_7 x_answer_3 ;;
  _ <- check x_q_7 ;;
  x_answer_4 <- mdense0 TyD [[9; 9; 9; 9]; [(3 # 2); 9; 9; 9]; [0; (5 # 2); 9; 9]]%Q 0%Q ;;
  x_C_8 <- mdense0 TyD [[9; 9; 9; 9]; [9; 9; 9; 9]; [9; 9; 9; 9]]%Q 0%Q ;;
  x_C_9 <- t_apply TyD noacc (fun y => qplus (1 # 2)%Q y) (MComp x_M) MERGE x_C_8 (Mat x_A) ;;
  x_q_8 <- meq x_C_9 x_answer_4 ;;
  _ <- check x_q_8 ;;
  x_C2_8 <- mdense0 TyD [[9; 9; 9; 9]; [9; 9; 9; 9]; [9; 9; 9; 9]]%Q 0%Q ;;
  x_C2_9 <- t_apply TyD noacc (fun y => qplus y (1 # 2)%Q) (MComp x_M) MERGE x_C2_8 (Mat x_A) ;;
  x_q_9 <- meq x_C2_9 x_answer_4 ;;
  _ <- check x_q_9 ;;
  Ok tt) = Ok tt.
Proof. vm_compute. reflexivity. Qed.

(** test_apply.cpp:1171-1212 *)
Example bind_sparse_apply_matrix_nomask_plus_accum :
 (x_mA <- mdense0 TyD [[8; 1; 6]; [3; 5; 7]; [4; 9; 0]]%Q 0%Q ;;
  x_answer <- mdense0 TyD [[(-7); 1; (-3)]; [1; 0; (-1)]; [3; (-1); 1337]]%Q 1337%Q ;;
  x_mC <- mdense0 TyD [[1; 2; 3]; [4; 5; 6]; [7; 8; 0]]%Q 0%Q ;;
  x_mC_1 <- t_apply TyD (acc TyD qplus) (fun y => qtimes (-1)%Q y) NoMask MERGE x_mC (Mat x_mA) ;;
  x_q <- meq x_mC_1 x_answer ;;
  _ <- check x_q ;;
  x_mC_2 <- mdense0 TyD [[1; 2; 3]; [4; 5; 6]; [7; 8; 0]]%Q 0%Q ;;
  x_mC_3 <- t_apply TyD (acc TyD qplus) (fun y => qtimes y (-1)%Q) NoMask MERGE x_mC_2 (Mat x_mA) ;;
  x_q_1 <- meq x_mC_3 x_answer ;;
  _ <- check x_q_1 ;;
  Ok tt) = Ok tt.
Proof. vm_compute. reflexivity. Qed.

(** test_apply.cpp:1215-1380 *)
Example bind_apply_stdmat_test_plus_accum :
 (x_A <- mdense0 TyD [[1; 1; 0; 0]; [1; 2; 2; 0]; [0; 2; 3; 3]]%Q 0%Q ;;
  x_M <- mdense0 (TyU 8) [[1; 1; 1; 1]; [0; 1; 1; 1]; [0; 0; 1; 1]]%Q 0%Q ;;
  x_answer <- mdense0 TyD [[(19 # 2); (19 # 2); 9; 0]; [(19 # 2); 10; 1; 0]; [9; 1; (3 # 2); (3 #
    2)]]%Q 0%Q ;;
  x_C <- mdense0 TyD [[9; 9; 9; 0]; [9; 9; 0; 0]; [9; 0; 0; 0]]%Q 0%Q ;;
  x_C_1 <- t_apply TyD (acc TyD qplus) (fun y => qtimes (1 # 2)%Q y) NoMask MERGE x_C (Mat x_A) ;;
  x_q <- meq x_C_1 x_answer ;;
  _ <- check x_q ;;
  x_C2 <- mdense0 TyD [[9; 9; 9; 0]; [9; 9; 0; 0]; [9; 0; 0; 0]]%Q 0%Q ;;
  x_C2_1 <- t_apply TyD (acc TyD qplus) (fun y => qtimes y (1 # 2)%Q) NoMask MERGE x_C2 (Mat x_A) ;;
  x_q_1 <- meq x_C2_1 x_answer ;;
  _ <- check x_q_1 ;;
  x_answer_1 <- mdense0 TyD [[(19 # 2); (19 # 2); 9; 0]; [0; 10; 1; 0]; [0; 0; (3 # 2); (3 # 2)]]%Q
    0%Q ;;
  x_C_2 <- mdense0 TyD [[9; 9; 9; 0]; [9; 9; 0; 0]; [9; 0; 0; 0]]%Q 0%Q ;;
  x_C_3 <- t_apply TyD (acc TyD qplus) (fun y => qtimes (1 # 2)%Q y) (MVal x_M) REPLACE x_C_2 (Mat
    x_A) ;;
  x_q_2 <- meq x_C_3 x_answer_1 ;;
  _ <- check x_q_2 ;;
  x_C2_2 <- mdense0 TyD [[9; 9; 9; 0]; [9; 9; 0; 0]; [9; 0; 0; 0]]%Q 0%Q ;;
  x_C2_3 <- t_apply TyD (acc TyD qplus) (fun y => qtimes y (1 # 2)%Q) (MVal x_M) REPLACE x_C2_2 (Mat
    x_A) ;;
  x_q_3 <- meq x_C2_3 x_answer_1 ;;
  _ <- check x_q_3 ;;
  x_answer_2 <- mdense0 TyD [[(19 # 2); (19 # 2); 9; 0]; [9; 10; 1; 0]; [9; 0; (3 # 2); (3 # 2)]]%Q
    0%Q ;;
  x_C_4 <- mdense0 TyD [[9; 9; 9; 0]; [9; 9; 0; 0]; [9; 0; 0; 0]]%Q 0%Q ;;
  x_C_5 <- t_apply TyD (acc TyD qplus) (fun y => qtimes (1 # 2)%Q y) (MVal x_M) MERGE x_C_4 (Mat
    x_A) ;;
  x_q_4 <- meq x_C_5 x_answer_2 ;;
  _ <- check x_q_4 ;;
  x_C2_4 <- mdense0 TyD [[9; 9; 9; 0]; [9; 9; 0; 0]; [9; 0; 0; 0]]%Q 0%Q ;;
  x_C2_5 <- t_apply TyD (acc TyD qplus) (fun y => qtimes y (1 # 2)%Q) (MVal x_M) MERGE x_C2_4 (Mat
    x_A) ;;
  x_q_5 <- meq x_C2_5 x_answer_2 ;;
  _ <- check x_q_5 ;;
  x_answer_3 <- mdense0 TyD [[0; 0; 0; 0]; [(19 # 2); 0; 0; 0]; [9; 1; 0; 0]]%Q 0%Q ;;
  x_C_6 <- mdense0 TyD [[9; 9; 9; 0]; [9; 9; 0; 0]; [9; 0; 0; 0]]%Q 0%Q ;;
  x_C_7 <- t_apply TyD (acc TyD qplus) (fun y => qtimes (1 # 2)%Q y) (MComp x_M) REPLACE x_C_6 (Mat
    x_A) ;;
  x_q_6 <- meq x_C_7 x_answer_3 ;;
  _ <- check x_q_6 ;;
  x_C2_6 <- mdense0 TyD [[9; 9; 9; 0]; [9; 9; 0; 0]; [9; 0; 0; 0]]%Q 0%Q ;;
  x_C2_7 <- t_apply TyD (acc TyD qplus) (fun y => qtimes y (1 # 2)%Q) (MComp x_M) REPLACE x_C2_6
    (Mat x_A) ;;
  x_q_7 <- meq x_C2_7 x_answer_3 ;;
  _ <- check x_q_7 ;;
  x_answer_4 <- mdense0 TyD [[9; 9; 9; 0]; [(19 # 2); 9; 0; 0]; [9; 1; 0; 0]]%Q 0%Q ;;
  x_C_8 <- mdense0 TyD [[9; 9; 9; 0]; [9; 9; 0; 0]; [9; 0; 0; 0]]%Q 0%Q ;;
  x_C_9 <- t_apply TyD (acc TyD qplus) (fun y => qtimes (1 # 2)%Q y) (MComp x_M) MERGE x_C_8 (Mat
    x_A) ;;
  x_q_8 <- meq x_C_9 x_answer_4 ;;
  _ <- check x_q_8 ;;
  x_C2_8 <- mdense0 TyD [[9; 9; 9; 0]; [9; 9; 0; 0]; [9; 0; 0; 0]]%Q 0%Q ;;
  x_C2_9 <- t_apply TyD (acc TyD qplus) (fun y => qtimes y (1 # 2)%Q) (MComp x_M) MERGE x_C2_8 (Mat
    x_A) ;;
  x_q_9 <- meq x_C2_9 x_answer_4 ;;
  _ <- check x_q_9 ;;
  Ok tt) = Ok tt.
Proof. vm_compute. reflexivity. Qed.

(** test_apply.cpp:1383-1422 *)
Example bind_apply_stdmat_test_second_accum :
 (x_A <- mnew 4 4 ;;
  x_A_1 <- mbuild TyD qsecond x_A [0; 0; 1; 1; 1; 2; 2; 2; 3; 3] [0; 1; 0; 1; 2; 1; 2; 3; 2; 3] [1;
    1; 1; 2; 2; 2; 3; 3; 3; 4]%Q ;;
  x_answer <- mnew 4 4 ;;
  x_answer_1 <- mbuild TyD qsecond x_answer [0; 0; 1; 1; 1; 2; 2; 2; 3; 3] [0; 1; 0; 1; 2; 1; 2; 3;
    2; 3] [(1 # 2); (1 # 2); (1 # 2); 1; 1; 1; (3 # 2); (3 # 2); (3 # 2); 2]%Q ;;
  x_C <- mnew 4 4 ;;
  x_C_1 <- t_apply TyD (acc TyD qsecond) (fun y => qtimes (1 # 2)%Q y) NoMask MERGE x_C (Mat x_A_1)
    ;;
  x_q <- meq x_C_1 x_answer_1 ;;
  _ <- check x_q ;;
  x_C2 <- mnew 4 4 ;;
  x_C2_1 <- t_apply TyD (acc TyD qsecond) (fun y => qtimes y (1 # 2)%Q) NoMask MERGE x_C2 (Mat
    x_A_1) ;;
  x_q_1 <- meq x_C2_1 x_answer_1 ;;
  _ <- check x_q_1 ;;
  Ok tt) = Ok tt.
Proof. vm_compute. reflexivity. Qed.

(** test_apply.cpp:1425-1473 *)
Example bind_apply_stdmat_test_noaccum_transpose :
 (x_A <- mdense0 TyD [[1; 1; 0]; [1; 2; 2]; [0; 2; 3]; [0; 0; 3]]%Q 0%Q ;;
  x_M <- mdense0 (TyU 8) [[1; 1; 1; 1]; [0; 1; 1; 1]; [0; 0; 1; 1]]%Q 0%Q ;;
  x_answer <- mdense0 TyD [[(1 # 2); (1 # 2); 0; 0]; [(1 # 2); 1; 1; 0]; [0; 1; (3 # 2); (3 # 2)]]%Q
    0%Q ;;
  x_C <- mnew 3 4 ;;
  x_C_1 <- t_apply TyD noacc (fun y => qtimes (1 # 2)%Q y) NoMask MERGE x_C (Trn x_A) ;;
  x_q <- meq x_C_1 x_answer ;;
  _ <- check x_q ;;
  x_C2 <- mnew 3 4 ;;
  x_C2_1 <- t_apply TyD noacc (fun y => qtimes y (1 # 2)%Q) NoMask MERGE x_C2 (Trn x_A) ;;
  x_q_1 <- meq x_C2_1 x_answer ;;
  _ <- check x_q_1 ;;
  Ok tt) = Ok tt.
Proof. vm_compute. reflexivity. Qed.

(** test_apply.cpp:1480-1533 *)
Example bind_apply_stdvec_test_bad_dimension :
 (x_u <- vdense0 TyD [0; 2; 3; 3]%Q 0%Q ;;
  x_w <- vnew 3 ;;
  _ <- throws DimensionException (t_apply_v TyD noacc (fun y => qtimes (1 # 2)%Q y) NoMask MERGE x_w
    x_u) ;;
  _ <- throws DimensionException (t_apply_v TyD noacc (fun y => qtimes y (1 # 2)%Q) NoMask MERGE x_w
    x_u) ;;
  x_w_1 <- vnew 4 ;;
  x_m <- vnew 3 ;;
  _ <- throws DimensionException (t_apply_v TyD noacc (fun y => qtimes (1 # 2)%Q y) (MVal x_m) MERGE
    x_w_1 x_u) ;;
  _ <- throws DimensionException (t_apply_v TyD noacc (fun y => qtimes y (1 # 2)%Q) (MVal x_m) MERGE
    x_w_1 x_u) ;;
  Ok tt) = Ok tt.
Proof. vm_compute. reflexivity. Qed.

(** test_apply.cpp:1537-1571 *)
Example bind_sparse_apply_vector_nomask_noaccum :
 (x_vA <- vdense0 TyD [8; 0; 6; 0]%Q 0%Q ;;
  x_answer <- vdense0 TyD [(-8); 0; (-6); 0]%Q 0%Q ;;
  x_vC <- vdense0 TyD [1; 2; 0; 0]%Q 0%Q ;;
  x_vC_1 <- t_apply_v TyD noacc (fun y => qtimes (-1)%Q y) NoMask MERGE x_vC x_vA ;;
  x_q <- veq x_vC_1 x_answer ;;
  _ <- check x_q ;;
  x_vC_2 <- vdense0 TyD [1; 2; 0; 0]%Q 0%Q ;;
  x_vC_3 <- t_apply_v TyD noacc (fun y => qtimes y (-1)%Q) NoMask MERGE x_vC_2 x_vA ;;
  x_q_1 <- veq x_vC_3 x_answer ;;
  _ <- check x_q_1 ;;
  Ok tt) = Ok tt.
Proof. vm_compute. reflexivity. Qed.

(** test_apply.cpp:1575-1609 *)
Example bind_sparse_apply_vector_nomask_noaccum_bool :
 (x_vA <- vdense0 TyB [1; 0; 1; 0]%Q 0%Q ;;
  x_answer <- vdense0 TyB [1; 0; 1; 0]%Q 0%Q ;;
  x_vC <- vdense0 TyB [1; 1; 0; 0]%Q 0%Q ;;
  x_vC_1 <- t_apply_v TyB noacc (fun y => (op3 TyB TyB TyB qxor) 0%Q y) NoMask MERGE x_vC x_vA ;;
  x_q <- veq x_vC_1 x_answer ;;
  _ <- check x_q ;;
  x_vC_2 <- vdense0 TyB [1; 1; 0; 0]%Q 0%Q ;;
  x_vC_3 <- t_apply_v TyB noacc (fun y => (op3 TyB TyB TyB qxor) y 0%Q) NoMask MERGE x_vC_2 x_vA ;;
  x_q_1 <- veq x_vC_3 x_answer ;;
  _ <- check x_q_1 ;;
  Ok tt) = Ok tt.
Proof. vm_compute. reflexivity. Qed.

(** test_apply.cpp:1613-1647 *)
Example bind_sparse_apply_vector_nomask_noaccum_int :
 (x_vA <- vdense0 TyI [1; 0; 1; 0]%Q 0%Q ;;
  x_answer <- vdense0 TyI [2; 0; 2; 0]%Q 0%Q ;;
  x_vC <- vdense0 TyI [1; 1; 0; 0]%Q 0%Q ;;
  x_vC_1 <- t_apply_v TyI noacc (fun y => (op3 TyI TyI TyI qplus) 1%Q y) NoMask MERGE x_vC x_vA ;;
  x_q <- veq x_vC_1 x_answer ;;
  _ <- check x_q ;;
  x_vC_2 <- vdense0 TyI [1; 1; 0; 0]%Q 0%Q ;;
  x_vC_3 <- t_apply_v TyI noacc (fun y => (op3 TyI TyI TyI qplus) y 1%Q) NoMask MERGE x_vC_2 x_vA ;;
  x_q_1 <- veq x_vC_3 x_answer ;;
  _ <- check x_q_1 ;;
  Ok tt) = Ok tt.
Proof. vm_compute. reflexivity. Qed.

(** test_apply.cpp:1650-1687 *)
Example bind_sparse_apply_vector_mask_merge_noaccum :
 (x_vA <- vdense0 TyD [8; 8; 0; 0; 6; 6; 0; 0]%Q 0%Q ;;
  x_mask <- vdense0 TyB [1; 0; 1; 0; 1; 0; 1; 0]%Q 0%Q ;;
  x_answer <- vdense0 TyD [(-8); 1; 0; 2; (-6); 0; 0; 0]%Q 0%Q ;;
  x_vC <- vdense0 TyD [1; 1; 2; 2; 0; 0; 0; 0]%Q 0%Q ;;
  x_vC_1 <- t_apply_v TyD noacc (fun y => qtimes (-1)%Q y) (MVal x_mask) MERGE x_vC x_vA ;;
  x_q <- veq x_vC_1 x_answer ;;
  _ <- check x_q ;;
  x_vC_2 <- vdense0 TyD [1; 1; 2; 2; 0; 0; 0; 0]%Q 0%Q ;;
  x_vC_3 <- t_apply_v TyD noacc (fun y => qtimes y (-1)%Q) (MVal x_mask) MERGE x_vC_2 x_vA ;;
  x_q_1 <- veq x_vC_3 x_answer ;;
  _ <- check x_q_1 ;;
  Ok tt) = Ok tt.
Proof. vm_compute. reflexivity. Qed.

(** test_apply.cpp:1690-1730 *)
Example bind_sparse_apply_vector_mask_replace_noaccum :
 (x_vA <- vdense0 TyD [8; 8; 0; 0; 6; 6; 0; 0]%Q 0%Q ;;
  x_mask <- vdense0 TyB [1; 0; 1; 0; 1; 0; 1; 0]%Q 0%Q ;;
  x_answer <- vdense0 TyD [(-8); 0; 0; 0; (-6); 0; 0; 0]%Q 0%Q ;;
  x_vC <- vdense0 TyD [1; 1; 2; 2; 0; 0; 0; 0]%Q 0%Q ;;
  x_vC_1 <- t_apply_v TyD noacc (fun y => qtimes (-1)%Q y) (MVal x_mask) REPLACE x_vC x_vA ;;
  x_q <- veq x_vC_1 x_answer ;;
  _ <- check x_q ;;
  x_vC_2 <- vdense0 TyD [1; 1; 2; 2; 0; 0; 0; 0]%Q 0%Q ;;
  x_vC_3 <- t_apply_v TyD noacc (fun y => qtimes y (-1)%Q) (MVal x_mask) REPLACE x_vC_2 x_vA ;;
  x_q_1 <- veq x_vC_3 x_answer ;;
  _ <- check x_q_1 ;;
  Ok tt) = Ok tt.
Proof. vm_compute. reflexivity. Qed.

(** test_apply.cpp:1733-1879 *)
Example bind_apply_stdvec_test_noaccum :
 (x_u <- vdense0 TyD [4; 5; 2; 3; 0; 0]%Q 0%Q ;;
  x_m <- vdense0 (TyU 8) [0; 0; 1; 1; 1; 1]%Q 0%Q ;;
  x_answer <- vdense0 TyD [(-4); (-5); (-2); (-3); 0; 0]%Q 0%Q ;;
  x_w <- vnew 6 ;;
  x_w_1 <- t_apply_v TyD noacc (fun y => qtimes (-1)%Q y) NoMask MERGE x_w x_u ;;
  x_q <- veq x_w_1 x_answer ;;
  _ <- check x_q ;;
  x_w2 <- vnew 6 ;;
  x_w2_1 <- t_apply_v TyD noacc (fun y => qtimes y (-1)%Q) NoMask MERGE x_w2 x_u ;;
  x_q_1 <- veq x_w2_1 x_answer ;;
  _ <- check x_q_1 ;;
  x_answer_1 <- vdense0 TyD [0; 0; (-2); (-3); 0; 0]%Q 0%Q ;;
  x_w_2 <- vdense0 TyD [9; 0; 9; 0; 9; 0]%Q 0%Q ;;
  x_w_3 <- t_apply_v TyD noacc (fun y => qtimes (-1)%Q y) (MVal x_m) REPLACE x_w_2 x_u ;;
  x_q_2 <- veq x_w_3 x_answer_1 ;;
  _ <- check x_q_2 ;;
  x_w2_2 <- vdense0 TyD [9; 0; 9; 0; 9; 0]%Q 0%Q ;;
  x_w2_3 <- t_apply_v TyD noacc (fun y => qtimes y (-1)%Q) (MVal x_m) REPLACE x_w2_2 x_u ;;
  x_q_3 <- veq x_w2_3 x_answer_1 ;;
  _ <- check x_q_3 ;;
  x_answer_2 <- vdense0 TyD [9; 0; (-2); (-3); 0; 0]%Q 0%Q ;;
  x_w_4 <- vdense0 TyD [9; 0; 9; 0; 9; 0]%Q 0%Q ;;
  x_w_5 <- t_apply_v TyD noacc (fun y => qtimes (-1)%Q y) (MVal x_m) MERGE x_w_4 x_u ;;
  x_q_4 <- veq x_w_5 x_answer_2 ;;
  _ <- check x_q_4 ;;
  x_w2_4 <- vdense0 TyD [9; 0; 9; 0; 9; 0]%Q 0%Q ;;
  x_w2_5 <- t_apply_v TyD noacc (fun y => qtimes y (-1)%Q) (MVal x_m) MERGE x_w2_4 x_u ;;
  x_q_5 <- veq x_w2_5 x_answer_2 ;;
  _ <- check x_q_5 ;;
  x_answer_3 <- vdense0 TyD [(-4); (-5); 0; 0; 0; 0]%Q 0%Q ;;
  x_w_6 <- vdense0 TyD [9; 0; 9; 0; 9; 0]%Q 0%Q ;;
  x_w_7 <- t_apply_v TyD noacc (fun y => qtimes (-1)%Q y) (MComp x_m) REPLACE x_w_6 x_u ;;
  x_q_6 <- veq x_w_7 x_answer_3 ;;
  _ <- check x_q_6 ;;
  x_w2_6 <- vdense0 TyD [9; 0; 9; 0; 9; 0]%Q 0%Q ;;
  x_w2_7 <- t_apply_v TyD noacc (fun y => qtimes y (-1)%Q) (MComp x_m) REPLACE x_w2_6 x_u ;;
  x_q_7 <- veq x_w2_7 x_answer_3 ;;
  _ <- check x_q_7 ;;
  x_answer_4 <- vdense0 TyD [(-4); (-5); 9; 0; 9; 0]%Q 0%Q ;;
  x_w_8 <- vdense0 TyD [9; 0; 9; 0; 9; 0]%Q 0%Q ;;
  x_w_9 <- t_apply_v TyD noacc (fun y => qtimes (-1)%Q y) (MComp x_m) MERGE x_w_8 x_u ;;
  x_q_8 <- veq x_w_9 x_answer_4 ;;
  _ <- check x_q_8 ;;
  x_w2_8 <- vdense0 TyD [9; 0; 9; 0; 9; 0]%Q 0%Q ;;
  x_w2_9 <- t_apply_v TyD noacc (fun y => qtimes y (-1)%Q) (MComp x_m) MERGE x_w2_8 x_u ;;
  x_q_9 <- veq x_w2_9 x_answer_4 ;;
  _ <- check x_q_9 ;;
  Ok tt) = Ok tt.
Proof. vm_compute. reflexivity. Qed.

(** test_apply.cpp:1883-1919 *)
Example bind_sparse_apply_vector_accum :
 (x_vA <- vdense0 TyD [8; 0; 6; 0]%Q 0%Q ;;
  x_answer <- vdense0 TyD [0; 2; (-6); 666]%Q 666%Q ;;
  x_vC <- vdense0 TyD [8; 2; 0; 0]%Q 0%Q ;;
  x_vC_1 <- t_apply_v TyD (acc TyD qplus) (fun y => qtimes (-1)%Q y) NoMask MERGE x_vC x_vA ;;
  x_q <- veq x_vC_1 x_answer ;;
  _ <- check x_q ;;
  x_vC_2 <- vdense0 TyD [8; 2; 0; 0]%Q 0%Q ;;
  x_vC_3 <- t_apply_v TyD (acc TyD qplus) (fun y => qtimes y (-1)%Q) NoMask MERGE x_vC_2 x_vA ;;
  x_q_1 <- veq x_vC_3 x_answer ;;
  _ <- check x_q_1 ;;
  Ok tt) = Ok tt.
Proof. vm_compute. reflexivity. Qed.

(** test_apply.cpp:1922-2068 *)
Example bind_apply_stdvec_test_plus_accum :
 (x_u <- vdense0 TyD [4; 5; 2; 3; 0; 0]%Q 0%Q ;;
  x_m <- vdense0 (TyU 8) [0; 0; 1; 1; 1; 1]%Q 0%Q ;;
  x_answer <- vdense0 TyD [5; (-5); 7; (-3); 9; 0]%Q 0%Q ;;
  x_w <- vdense0 TyD [9; 0; 9; 0; 9; 0]%Q 0%Q ;;
  x_w_1 <- t_apply_v TyD (acc TyD qplus) (fun y => qtimes (-1)%Q y) NoMask MERGE x_w x_u ;;
  x_q <- veq x_w_1 x_answer ;;
  _ <- check x_q ;;
  x_w2 <- vdense0 TyD [9; 0; 9; 0; 9; 0]%Q 0%Q ;;
  x_w2_1 <- t_apply_v TyD (acc TyD qplus) (fun y => qtimes y (-1)%Q) NoMask MERGE x_w2 x_u ;;
  x_q_1 <- veq x_w2_1 x_answer ;;
  _ <- check x_q_1 ;;
  x_answer_1 <- vdense0 TyD [0; 0; 7; (-3); 9; 0]%Q 0%Q ;;
  x_w_2 <- vdense0 TyD [9; 0; 9; 0; 9; 0]%Q 0%Q ;;
  x_w_3 <- t_apply_v TyD (acc TyD qplus) (fun y => qtimes (-1)%Q y) (MVal x_m) REPLACE x_w_2 x_u ;;
  x_q_2 <- veq x_w_3 x_answer_1 ;;
  _ <- check x_q_2 ;;
  x_w2_2 <- vdense0 TyD [9; 0; 9; 0; 9; 0]%Q 0%Q ;;
  x_w2_3 <- t_apply_v TyD (acc TyD qplus) (fun y => qtimes y (-1)%Q) (MVal x_m) REPLACE x_w2_2 x_u
    ;;
  x_q_3 <- veq x_w2_3 x_answer_1 ;;
  _ <- check x_q_3 ;;
  x_answer_2 <- vdense0 TyD [9; 0; 7; (-3); 9; 0]%Q 0%Q ;;
  x_w2_4 <- vdense0 TyD [9; 0; 9; 0; 9; 0]%Q 0%Q ;;
  x_w2_5 <- t_apply_v TyD (acc TyD qplus) (fun y => qtimes (-1)%Q y) (MVal x_m) MERGE x_w2_4 x_u ;;
  x_q_4 <- veq x_w2_5 x_answer_2 ;;
  _ <- check x_q_4 ;;
  x_w_4 <- vdense0 TyD [9; 0; 9; 0; 9; 0]%Q 0%Q ;;
  x_w_5 <- t_apply_v TyD (acc TyD qplus) (fun y => qtimes y (-1)%Q) (MVal x_m) MERGE x_w_4 x_u ;;
  x_q_5 <- veq x_w_5 x_answer_2 ;;
  _ <- check x_q_5 ;;
  x_answer_3 <- vdense0 TyD [5; (-5); 0; 0; 0; 0]%Q 0%Q ;;
  x_w_6 <- vdense0 TyD [9; 0; 9; 0; 9; 0]%Q 0%Q ;;
  x_w_7 <- t_apply_v TyD (acc TyD qplus) (fun y => qtimes (-1)%Q y) (MComp x_m) REPLACE x_w_6 x_u ;;
  x_q_6 <- veq x_w_7 x_answer_3 ;;
  _ <- check x_q_6 ;;
  x_w2_6 <- vdense0 TyD [9; 0; 9; 0; 9; 0]%Q 0%Q ;;
  x_w2_7 <- t_apply_v TyD (acc TyD qplus) (fun y => qtimes y (-1)%Q) (MComp x_m) REPLACE x_w2_6 x_u
    ;;
  x_q_7 <- veq x_w2_7 x_answer_3 ;;
  _ <- check x_q_7 ;;
  x_answer_4 <- vdense0 TyD [5; (-5); 9; 0; 9; 0]%Q 0%Q ;;
  x_w_8 <- vdense0 TyD [9; 0; 9; 0; 9; 0]%Q 0%Q ;;
  x_w_9 <- t_apply_v TyD (acc TyD qplus) (fun y => qtimes (-1)%Q y) (MComp x_m) MERGE x_w_8 x_u ;;
  x_q_8 <- veq x_w_9 x_answer_4 ;;
  _ <- check x_q_8 ;;
  x_w2_8 <- vdense0 TyD [9; 0; 9; 0; 9; 0]%Q 0%Q ;;
  x_w2_9 <- t_apply_v TyD (acc TyD qplus) (fun y => qtimes y (-1)%Q) (MComp x_m) MERGE x_w2_8 x_u ;;
  x_q_9 <- veq x_w2_9 x_answer_4 ;;
  _ <- check x_q_9 ;;
  Ok tt) = Ok tt.
Proof. vm_compute. reflexivity. Qed.
