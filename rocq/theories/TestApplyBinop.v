(** The tests of /repo/src/test/test_apply_binop.cpp, run on the model.  Generated translation. *)
From Verif Require Import TestRun.


(** test_apply_binop.cpp:52-164 *)
Example apply_stdmat_test_bad_dimension :
 (x_A <- mnew 4 4 ;;
  x_A_1 <- mbuild TyD qsecond x_A [0; 0; 1; 1; 1; 2; 2; 2; 3; 3] [0; 1; 0; 1; 2; 1; 2; 3; 2; 3] [1;
    1; 1; 2; 2; 2; 3; 3; 3; 4]%Q ;;
  x_C <- mnew 3 4 ;;
  _ <- throws DimensionException (t_apply_2nd TyD noacc qtimes 2%Q NoMask MERGE x_C (Mat x_A_1)) ;;
  x_C_1 <- mnew 4 3 ;;
  _ <- throws DimensionException (t_apply_1st TyD noacc qtimes 2%Q NoMask MERGE x_C_1 (Mat x_A_1))
    ;;
  x_C_2 <- mnew 4 4 ;;
  x_M <- mnew 3 4 ;;
  _ <- throws DimensionException (t_apply_1st TyD noacc qtimes 2%Q (MVal x_M) MERGE x_C_2 (Mat
    x_A_1)) ;;
  x_C_3 <- mnew 4 4 ;;
  x_M_1 <- mnew 4 3 ;;
  _ <- throws DimensionException (t_apply_1st TyD noacc qtimes 2%Q (MVal x_M_1) MERGE x_C_3 (Mat
    x_A_1)) ;;
  x_C_4 <- mnew 3 4 ;;
  _ <- throws DimensionException (t_apply_2nd TyD noacc qtimes 2%Q NoMask MERGE x_C_4 (Mat x_A_1))
    ;;
  x_C_5 <- mnew 4 3 ;;
  _ <- throws DimensionException (t_apply_2nd TyD noacc qtimes 2%Q NoMask MERGE x_C_5 (Mat x_A_1))
    ;;
  x_C_6 <- mnew 4 4 ;;
  x_M_2 <- mnew 3 4 ;;
  _ <- throws DimensionException (t_apply_2nd TyD noacc qtimes 2%Q (MVal x_M_2) MERGE x_C_6 (Mat
    x_A_1)) ;;
  x_C_7 <- mnew 4 4 ;;
  x_M_3 <- mnew 4 3 ;;
  _ <- throws DimensionException (t_apply_2nd TyD noacc qtimes 2%Q (MVal x_M_3) MERGE x_C_7 (Mat
    x_A_1)) ;;
  Ok tt) = Ok tt.
Proof. vm_compute. reflexivity. Qed.

(** test_apply_binop.cpp:168-203 *)
Example sparse_apply_matrix_nomask_noaccum :
 (x_mA <- mdense0 TyD [[8; 1; 6]; [3; 5; 7]; [4; 9; 0]]%Q 0%Q ;;
  x_mC <- mdense0 TyD [[1; 2; 3]; [4; 5; 6]; [7; 8; 0]]%Q 0%Q ;;
  x_answer <- mdense0 TyD [[(-8); (-1); (-6)]; [(-3); (-5); (-7)]; [(-4); (-9); 0]]%Q 0%Q ;;
  x_mC_1 <- t_apply_1st TyD noacc qtimes (-1)%Q NoMask MERGE x_mC (Mat x_mA) ;;
  x_q <- meq x_mC_1 x_answer ;;
  _ <- check x_q ;;
  x_mC_2 <- t_apply_2nd TyD noacc qtimes (-1)%Q NoMask MERGE x_mC_1 (Mat x_mA) ;;
  x_q_1 <- meq x_mC_2 x_answer ;;
  _ <- check x_q_1 ;;
  Ok tt) = Ok tt.
Proof. vm_compute. reflexivity. Qed.

(** test_apply_binop.cpp:206-251 *)
Example sparse_apply_matrix_mask_merge_noaccum :
 (x_mA <- mdense0 TyD [[8; 1; 6]; [3; 5; 7]; [4; 9; 0]]%Q 0%Q ;;
  x_mask <- mdense0 TyB [[1; 0; 0]; [1; 1; 0]; [1; 1; 1]]%Q 0%Q ;;
  x_answer <- mdense0 TyD [[(-8); 2; 3]; [(-3); (-5); 6]; [(-4); (-9); 0]]%Q 0%Q ;;
  x_mC <- mdense0 TyD [[1; 2; 3]; [4; 5; 6]; [7; 8; 0]]%Q 0%Q ;;
  x_mC_1 <- t_apply_1st TyD noacc qtimes (-1)%Q (MVal x_mask) MERGE x_mC (Mat x_mA) ;;
  x_q <- meq x_mC_1 x_answer ;;
  _ <- check x_q ;;
  x_mC_2 <- mdense0 TyD [[1; 2; 3]; [4; 5; 6]; [7; 8; 0]]%Q 0%Q ;;
  x_mC_3 <- t_apply_2nd TyD noacc qtimes (-1)%Q (MVal x_mask) MERGE x_mC_2 (Mat x_mA) ;;
  x_q_1 <- meq x_mC_3 x_answer ;;
  _ <- check x_q_1 ;;
  Ok tt) = Ok tt.
Proof. vm_compute. reflexivity. Qed.

(** test_apply_binop.cpp:254-300 *)
Example sparse_apply_matrix_mask_replace_noaccum :
 (x_mA <- mdense0 TyD [[8; 1; 6]; [3; 5; 7]; [4; 9; 0]]%Q 0%Q ;;
  x_mask <- mdense0 TyB [[1; 0; 0]; [1; 1; 0]; [1; 1; 1]]%Q 0%Q ;;
  x_answer <- mdense0 TyD [[(-8); 0; 0]; [(-3); (-5); 0]; [(-4); (-9); 0]]%Q 0%Q ;;
  x_mC <- mdense0 TyD [[1; 2; 3]; [4; 5; 6]; [7; 8; 0]]%Q 0%Q ;;
  x_mC_1 <- t_apply_1st TyD noacc qtimes (-1)%Q (MVal x_mask) REPLACE x_mC (Mat x_mA) ;;
  x_q <- meq x_mC_1 x_answer ;;
  _ <- check x_q ;;
  x_mC_2 <- mdense0 TyD [[1; 2; 3]; [4; 5; 6]; [7; 8; 0]]%Q 0%Q ;;
  x_mC_3 <- t_apply_2nd TyD noacc qtimes (-1)%Q (MVal x_mask) REPLACE x_mC_2 (Mat x_mA) ;;
  x_q_1 <- meq x_mC_3 x_answer ;;
  _ <- check x_q_1 ;;
  Ok tt) = Ok tt.
Proof. vm_compute. reflexivity. Qed.

(** test_apply_binop.cpp:303-459 *)
Example apply_stdmat_test_noaccum :
 (x_A <- mdense0 TyD [[1; 1; 0; 0]; [1; 2; 2; 0]; [0; 2; 3; 3]]%Q 0%Q ;;
  x_M <- mdense0 (TyU 8) [[1; 1; 1; 1]; [0; 1; 1; 1]; [0; 0; 1; 1]]%Q 0%Q ;;
  x_answer <- mdense0 TyD [[(3 # 2); (3 # 2); 0; 0]; [(3 # 2); (5 # 2); (5 # 2); 0]; [0; (5 # 2); (7
    # 2); (7 # 2)]]%Q 0%Q ;;
  x_C <- mnew 3 4 ;;
  x_C_1 <- t_apply_1st TyD noacc qplus (1 # 2)%Q NoMask MERGE x_C (Mat x_A) ;;
  x_q <- meq x_C_1 x_answer ;;
  _ <- check x_q ;;
  x_C2 <- mnew 3 4 ;;
  x_C2_1 <- t_apply_2nd TyD noacc qplus (1 # 2)%Q NoMask MERGE x_C2 (Mat x_A) ;;
  x_q_1 <- meq x_C2_1 x_answer ;;
  _ <- check x_q_1 ;;
  x_answer_1 <- mdense0 TyD [[(3 # 2); (3 # 2); 0; 0]; [0; (5 # 2); (5 # 2); 0]; [0; 0; (7 # 2); (7
    # 2)]]%Q 0%Q ;;
  x_C_2 <- mdense0 TyD [[9; 9; 9; 9]; [9; 9; 9; 9]; [9; 9; 9; 9]]%Q 0%Q ;;
  x_C_3 <- t_apply_1st TyD noacc qplus (1 # 2)%Q (MVal x_M) REPLACE x_C_2 (Mat x_A) ;;
  x_q_2 <- meq x_C_3 x_answer_1 ;;
  _ <- check x_q_2 ;;
  x_C2_2 <- mdense0 TyD [[9; 9; 9; 9]; [9; 9; 9; 9]; [9; 9; 9; 9]]%Q 0%Q ;;
  x_C2_3 <- t_apply_2nd TyD noacc qplus (1 # 2)%Q (MVal x_M) REPLACE x_C2_2 (Mat x_A) ;;
  x_q_3 <- meq x_C2_3 x_answer_1 ;;
  _ <- check x_q_3 ;;
  x_answer_2 <- mdense0 TyD [[(3 # 2); (3 # 2); 0; 0]; [9; (5 # 2); (5 # 2); 0]; [9; 9; (7 # 2); (7
    # 2)]]%Q 0%Q ;;
  x_C_4 <- mdense0 TyD [[9; 9; 9; 9]; [9; 9; 9; 9]; [9; 9; 9; 9]]%Q 0%Q ;;
  x_C_5 <- t_apply_1st TyD noacc qplus (1 # 2)%Q (MVal x_M) MERGE x_C_4 (Mat x_A) ;;
  x_q_4 <- meq x_C_5 x_answer_2 ;;
  _ <- check x_q_4 ;;
  x_C2_4 <- mdense0 TyD [[9; 9; 9; 9]; [9; 9; 9; 9]; [9; 9; 9; 9]]%Q 0%Q ;;
  x_C2_5 <- t_apply_2nd TyD noacc qplus (1 # 2)%Q (MVal x_M) MERGE x_C2_4 (Mat x_A) ;;
  x_q_5 <- meq x_C2_5 x_answer_2 ;;
  _ <- check x_q_5 ;;
  x_answer_3 <- mdense0 TyD [[0; 0; 0; 0]; [(3 # 2); 0; 0; 0]; [0; (5 # 2); 0; 0]]%Q 0%Q ;;
  x_C_6 <- mdense0 TyD [[9; 9; 9; 9]; [9; 9; 9; 9]; [9; 9; 9; 9]]%Q 0%Q ;;
  x_C_7 <- t_apply_1st TyD noacc qplus (1 # 2)%Q (MComp x_M) REPLACE x_C_6 (Mat x_A) ;;
  x_q_6 <- meq x_C_7 x_answer_3 ;;
  _ <- check x_q_6 ;;
  x_C2_6 <- mdense0 TyD [[9; 9; 9; 9]; [9; 9; 9; 9]; [9; 9; 9; 9]]%Q 0%Q ;;
  x_C2_7 <- t_apply_2nd TyD noacc qplus (1 # 2)%Q (MComp x_M) REPLACE x_C2_6 (Mat x_A) ;;
  x_q_7 <- meq x_C2_7 x_answer_3 ;;
  _ <- check x_q_7 ;;
  x_answer_4 <- mdense0 TyD [[9; 9; 9; 9]; [(3 # 2); 9; 9; 9]; [0; (5 # 2); 9; 9]]%Q 0%Q ;;
  x_C_8 <- mdense0 TyD [[9; 9; 9; 9]; [9; 9; 9; 9]; [9; 9; 9; 9]]%Q 0%Q ;;
  x_C_9 <- t_apply_1st TyD noacc qplus (1 # 2)%Q (MComp x_M) MERGE x_C_8 (Mat x_A) ;;
  x_q_8 <- meq x_C_9 x_answer_4 ;;
  _ <- check x_q_8 ;;
  x_C2_8 <- mdense0 TyD [[9; 9; 9; 9]; [9; 9; 9; 9]; [9; 9; 9; 9]]%Q 0%Q ;;
  x_C2_9 <- t_apply_2nd TyD noacc qplus (1 # 2)%Q (MComp x_M) MERGE x_C2_8 (Mat x_A) ;;
  x_q_9 <- meq x_C2_9 x_answer_4 ;;
  _ <- check x_q_9 ;;
  Ok tt) = Ok tt.
Proof. vm_compute. reflexivity. Qed.

(** test_apply_binop.cpp:462-501 *)
Example sparse_apply_matrix_nomask_plus_accum :
 (x_mA <- mdense0 TyD [[8; 1; 6]; [3; 5; 7]; [4; 9; 0]]%Q 0%Q ;;
  x_answer <- mdense0 TyD [[(-7); 1; (-3)]; [1; 0; (-1)]; [3; (-1); 1337]]%Q 1337%Q ;;
  x_mC <- mdense0 TyD [[1; 2; 3]; [4; 5; 6]; [7; 8; 0]]%Q 0%Q ;;
  x_mC_1 <- t_apply_1st TyD (acc TyD qplus) qtimes (-1)%Q NoMask MERGE x_mC (Mat x_mA) ;;
  x_q <- meq x_mC_1 x_answer ;;
  _ <- check x_q ;;
  x_mC_2 <- mdense0 TyD [[1; 2; 3]; [4; 5; 6]; [7; 8; 0]]%Q 0%Q ;;
  x_mC_3 <- t_apply_2nd TyD (acc TyD qplus) qtimes (-1)%Q NoMask MERGE x_mC_2 (Mat x_mA) ;;
  x_q_1 <- meq x_mC_3 x_answer ;;
  _ <- check x_q_1 ;;
  Ok tt) = Ok tt.
Proof. vm_compute. reflexivity. Qed.

(** test_apply_binop.cpp:504-659 *)
Example apply_stdmat_test_plus_accum :
 (x_A <- mdense0 TyD [[1; 1; 0; 0]; [1; 2; 2; 0]; [0; 2; 3; 3]]%Q 0%Q ;;
  x_M <- mdense0 (TyU 8) [[1; 1; 1; 1]; [0; 1; 1; 1]; [0; 0; 1; 1]]%Q 0%Q ;;
  x_answer <- mdense0 TyD [[(19 # 2); (19 # 2); 9; 0]; [(19 # 2); 10; 1; 0]; [9; 1; (3 # 2); (3 #
    2)]]%Q 0%Q ;;
  x_C <- mdense0 TyD [[9; 9; 9; 0]; [9; 9; 0; 0]; [9; 0; 0; 0]]%Q 0%Q ;;
  x_C_1 <- t_apply_1st TyD (acc TyD qplus) qtimes (1 # 2)%Q NoMask MERGE x_C (Mat x_A) ;;
  x_q <- meq x_C_1 x_answer ;;
  _ <- check x_q ;;
  x_C2 <- mdense0 TyD [[9; 9; 9; 0]; [9; 9; 0; 0]; [9; 0; 0; 0]]%Q 0%Q ;;
  x_C2_1 <- t_apply_2nd TyD (acc TyD qplus) qtimes (1 # 2)%Q NoMask MERGE x_C2 (Mat x_A) ;;
  x_q_1 <- meq x_C2_1 x_answer ;;
  _ <- check x_q_1 ;;
  x_answer_1 <- mdense0 TyD [[(19 # 2); (19 # 2); 9; 0]; [0; 10; 1; 0]; [0; 0; (3 # 2); (3 # 2)]]%Q
    0%Q ;;
  x_C_2 <- mdense0 TyD [[9; 9; 9; 0]; [9; 9; 0; 0]; [9; 0; 0; 0]]%Q 0%Q ;;
  x_C_3 <- t_apply_1st TyD (acc TyD qplus) qtimes (1 # 2)%Q (MVal x_M) REPLACE x_C_2 (Mat x_A) ;;
  x_q_2 <- meq x_C_3 x_answer_1 ;;
  _ <- check x_q_2 ;;
  x_C2_2 <- mdense0 TyD [[9; 9; 9; 0]; [9; 9; 0; 0]; [9; 0; 0; 0]]%Q 0%Q ;;
  x_C2_3 <- t_apply_2nd TyD (acc TyD qplus) qtimes (1 # 2)%Q (MVal x_M) REPLACE x_C2_2 (Mat x_A) ;;
  x_q_3 <- meq x_C2_3 x_answer_1 ;;
  _ <- check x_q_3 ;;
  x_answer_2 <- mdense0 TyD [[(19 # 2); (19 # 2); 9; 0]; [9; 10; 1; 0]; [9; 0; (3 # 2); (3 # 2)]]%Q
    0%Q ;;
  x_C_4 <- mdense0 TyD [[9; 9; 9; 0]; [9; 9; 0; 0]; [9; 0; 0; 0]]%Q 0%Q ;;
  x_C_5 <- t_apply_1st TyD (acc TyD qplus) qtimes (1 # 2)%Q (MVal x_M) MERGE x_C_4 (Mat x_A) ;;
  x_q_4 <- meq x_C_5 x_answer_2 ;;
  _ <- check x_q_4 ;;
  x_C2_4 <- mdense0 TyD [[9; 9; 9; 0]; [9; 9; 0; 0]; [9; 0; 0; 0]]%Q 0%Q ;;
  x_C2_5 <- t_apply_2nd TyD (acc TyD qplus) qtimes (1 # 2)%Q (MVal x_M) MERGE x_C2_4 (Mat x_A) ;;
  x_q_5 <- meq x_C2_5 x_answer_2 ;;
  _ <- check x_q_5 ;;
  x_answer_3 <- mdense0 TyD [[0; 0; 0; 0]; [(19 # 2); 0; 0; 0]; [9; 1; 0; 0]]%Q 0%Q ;;
  x_C_6 <- mdense0 TyD [[9; 9; 9; 0]; [9; 9; 0; 0]; [9; 0; 0; 0]]%Q 0%Q ;;
  x_C_7 <- t_apply_1st TyD (acc TyD qplus) qtimes (1 # 2)%Q (MComp x_M) REPLACE x_C_6 (Mat x_A) ;;
  x_q_6 <- meq x_C_7 x_answer_3 ;;
  _ <- check x_q_6 ;;
  x_C2_6 <- mdense0 TyD [[9; 9; 9; 0]; [9; 9; 0; 0]; [9; 0; 0; 0]]%Q 0%Q ;;
  x_C2_7 <- t_apply_2nd TyD (acc TyD qplus) qtimes (1 # 2)%Q (MComp x_M) REPLACE x_C2_6 (Mat x_A) ;;
  x_q_7 <- meq x_C2_7 x_answer_3 ;;
  _ <- check x_q_7 ;;
  x_answer_4 <- mdense0 TyD [[9; 9; 9; 0]; [(19 # 2); 9; 0; 0]; [9; 1; 0; 0]]%Q 0%Q ;;
  x_C_8 <- mdense0 TyD [[9; 9; 9; 0]; [9; 9; 0; 0]; [9; 0; 0; 0]]%Q 0%Q ;;
  x_C_9 <- t_apply_1st TyD (acc TyD qplus) qtimes (1 # 2)%Q (MComp x_M) MERGE x_C_8 (Mat x_A) ;;
  x_q_8 <- meq x_C_9 x_answer_4 ;;
  _ <- check x_q_8 ;;
  x_C2_8 <- mdense0 TyD [[9; 9; 9; 0]; [9; 9; 0; 0]; [9; 0; 0; 0]]%Q 0%Q ;;
  x_C2_9 <- t_apply_2nd TyD (acc TyD qplus) qtimes (1 # 2)%Q (MComp x_M) MERGE x_C2_8 (Mat x_A) ;;
  x_q_9 <- meq x_C2_9 x_answer_4 ;;
  _ <- check x_q_9 ;;
  Ok tt) = Ok tt.
Proof. vm_compute. reflexivity. Qed.

(** test_apply_binop.cpp:662-699 *)
Example apply_stdmat_test_second_accum :
 (x_A <- mnew 4 4 ;;
  x_A_1 <- mbuild TyD qsecond x_A [0; 0; 1; 1; 1; 2; 2; 2; 3; 3] [0; 1; 0; 1; 2; 1; 2; 3; 2; 3] [1;
    1; 1; 2; 2; 2; 3; 3; 3; 4]%Q ;;
  x_answer <- mnew 4 4 ;;
  x_answer_1 <- mbuild TyD qsecond x_answer [0; 0; 1; 1; 1; 2; 2; 2; 3; 3] [0; 1; 0; 1; 2; 1; 2; 3;
    2; 3] [(1 # 2); (1 # 2); (1 # 2); 1; 1; 1; (3 # 2); (3 # 2); (3 # 2); 2]%Q ;;
  x_C <- mnew 4 4 ;;
  x_C_1 <- t_apply_1st TyD (acc TyD qsecond) qtimes (1 # 2)%Q NoMask MERGE x_C (Mat x_A_1) ;;
  x_q <- meq x_C_1 x_answer_1 ;;
  _ <- check x_q ;;
  x_C2 <- mnew 4 4 ;;
  x_C2_1 <- t_apply_2nd TyD (acc TyD qsecond) qtimes (1 # 2)%Q NoMask MERGE x_C2 (Mat x_A_1) ;;
  x_q_1 <- meq x_C2_1 x_answer_1 ;;
  _ <- check x_q_1 ;;
  Ok tt) = Ok tt.
Proof. vm_compute. reflexivity. Qed.

(** test_apply_binop.cpp:702-748 *)
Example apply_stdmat_test_noaccum_transpose :
 (x_A <- mdense0 TyD [[1; 1; 0]; [1; 2; 2]; [0; 2; 3]; [0; 0; 3]]%Q 0%Q ;;
  x_M <- mdense0 (TyU 8) [[1; 1; 1; 1]; [0; 1; 1; 1]; [0; 0; 1; 1]]%Q 0%Q ;;
  x_answer <- mdense0 TyD [[(1 # 2); (1 # 2); 0; 0]; [(1 # 2); 1; 1; 0]; [0; 1; (3 # 2); (3 # 2)]]%Q
    0%Q ;;
  x_C <- mnew 3 4 ;;
  x_C_1 <- t_apply_2nd TyD noacc qtimes (1 # 2)%Q NoMask MERGE x_C (Trn x_A) ;;
  x_q <- meq x_C_1 x_answer ;;
  _ <- check x_q ;;
  x_C2 <- mnew 3 4 ;;
  x_C2_1 <- t_apply_2nd TyD noacc qtimes (1 # 2)%Q NoMask MERGE x_C2 (Trn x_A) ;;
  x_q_1 <- meq x_C2_1 x_answer ;;
  _ <- check x_q_1 ;;
  Ok tt) = Ok tt.
Proof. vm_compute. reflexivity. Qed.

(** test_apply_binop.cpp:755-804 *)
Example apply_stdvec_test_bad_dimension :
 (x_u <- vdense0 TyD [0; 2; 3; 3]%Q 0%Q ;;
  x_w <- vnew 3 ;;
  _ <- throws DimensionException (t_apply_1st_v TyD noacc qtimes (1 # 2)%Q NoMask MERGE x_w x_u) ;;
  _ <- throws DimensionException (t_apply_2nd_v TyD noacc qtimes (1 # 2)%Q NoMask MERGE x_w x_u) ;;
  x_w_1 <- vnew 4 ;;
  x_m <- vnew 3 ;;
  _ <- throws DimensionException (t_apply_1st_v TyD noacc qtimes (1 # 2)%Q (MVal x_m) MERGE x_w_1
    x_u) ;;
  _ <- throws DimensionException (t_apply_2nd_v TyD noacc qtimes (1 # 2)%Q (MVal x_m) MERGE x_w_1
    x_u) ;;
  Ok tt) = Ok tt.
Proof. vm_compute. reflexivity. Qed.

(** test_apply_binop.cpp:808-840 *)
Example sparse_apply_vector_nomask_noaccum :
 (x_vA <- vdense0 TyD [8; 0; 6; 0]%Q 0%Q ;;
  x_answer <- vdense0 TyD [(-8); 0; (-6); 0]%Q 0%Q ;;
  x_vC <- vdense0 TyD [1; 2; 0; 0]%Q 0%Q ;;
  x_vC_1 <- t_apply_1st_v TyD noacc qtimes (-1)%Q NoMask MERGE x_vC x_vA ;;
  x_q <- veq x_vC_1 x_answer ;;
  _ <- check x_q ;;
  x_vC_2 <- vdense0 TyD [1; 2; 0; 0]%Q 0%Q ;;
  x_vC_3 <- t_apply_2nd_v TyD noacc qtimes (-1)%Q NoMask MERGE x_vC_2 x_vA ;;
  x_q_1 <- veq x_vC_3 x_answer ;;
  _ <- check x_q_1 ;;
  Ok tt) = Ok tt.
Proof. vm_compute. reflexivity. Qed.

(** test_apply_binop.cpp:844-876 *)
Example sparse_apply_vector_nomask_noaccum_bool :
 (x_vA <- vdense0 TyB [1; 0; 1; 0]%Q 0%Q ;;
  x_answer <- vdense0 TyB [1; 0; 1; 0]%Q 0%Q ;;
  x_vC <- vdense0 TyB [1; 1; 0; 0]%Q 0%Q ;;
  x_vC_1 <- t_apply_1st_v TyB noacc (op3 TyB TyB TyB qxor) 0%Q NoMask MERGE x_vC x_vA ;;
  x_q <- veq x_vC_1 x_answer ;;
  _ <- check x_q ;;
  x_vC_2 <- vdense0 TyB [1; 1; 0; 0]%Q 0%Q ;;
  x_vC_3 <- t_apply_2nd_v TyB noacc (op3 TyB TyB TyB qxor) 0%Q NoMask MERGE x_vC_2 x_vA ;;
  x_q_1 <- veq x_vC_3 x_answer ;;
  _ <- check x_q_1 ;;
  Ok tt) = Ok tt.
Proof. vm_compute. reflexivity. Qed.

(** test_apply_binop.cpp:880-912 *)
Example sparse_apply_vector_nomask_noaccum_int :
 (x_vA <- vdense0 TyI [1; 0; 1; 0]%Q 0%Q ;;
  x_answer <- vdense0 TyI [2; 0; 2; 0]%Q 0%Q ;;
  x_vC <- vdense0 TyI [1; 1; 0; 0]%Q 0%Q ;;
  x_vC_1 <- t_apply_1st_v TyI noacc (op3 TyI TyI TyI qplus) 1%Q NoMask MERGE x_vC x_vA ;;
  x_q <- veq x_vC_1 x_answer ;;
  _ <- check x_q ;;
  x_vC_2 <- vdense0 TyI [1; 1; 0; 0]%Q 0%Q ;;
  x_vC_3 <- t_apply_2nd_v TyI noacc (op3 TyI TyI TyI qplus) 1%Q NoMask MERGE x_vC_2 x_vA ;;
  x_q_1 <- veq x_vC_3 x_answer ;;
  _ <- check x_q_1 ;;
  Ok tt) = Ok tt.
Proof. vm_compute. reflexivity. Qed.

(** test_apply_binop.cpp:915-950 *)
Example sparse_apply_vector_mask_merge_noaccum :
 (x_vA <- vdense0 TyD [8; 8; 0; 0; 6; 6; 0; 0]%Q 0%Q ;;
  x_mask <- vdense0 TyB [1; 0; 1; 0; 1; 0; 1; 0]%Q 0%Q ;;
  x_answer <- vdense0 TyD [(-8); 1; 0; 2; (-6); 0; 0; 0]%Q 0%Q ;;
  x_vC <- vdense0 TyD [1; 1; 2; 2; 0; 0; 0; 0]%Q 0%Q ;;
  x_vC_1 <- t_apply_1st_v TyD noacc qtimes (-1)%Q (MVal x_mask) MERGE x_vC x_vA ;;
  x_q <- veq x_vC_1 x_answer ;;
  _ <- check x_q ;;
  x_vC_2 <- vdense0 TyD [1; 1; 2; 2; 0; 0; 0; 0]%Q 0%Q ;;
  x_vC_3 <- t_apply_2nd_v TyD noacc qtimes (-1)%Q (MVal x_mask) MERGE x_vC_2 x_vA ;;
  x_q_1 <- veq x_vC_3 x_answer ;;
  _ <- check x_q_1 ;;
  Ok tt) = Ok tt.
Proof. vm_compute. reflexivity. Qed.

(** test_apply_binop.cpp:953-991 *)
Example sparse_apply_vector_mask_replace_noaccum :
 (x_vA <- vdense0 TyD [8; 8; 0; 0; 6; 6; 0; 0]%Q 0%Q ;;
  x_mask <- vdense0 TyB [1; 0; 1; 0; 1; 0; 1; 0]%Q 0%Q ;;
  x_answer <- vdense0 TyD [(-8); 0; 0; 0; (-6); 0; 0; 0]%Q 0%Q ;;
  x_vC <- vdense0 TyD [1; 1; 2; 2; 0; 0; 0; 0]%Q 0%Q ;;
  x_vC_1 <- t_apply_1st_v TyD noacc qtimes (-1)%Q (MVal x_mask) REPLACE x_vC x_vA ;;
  x_q <- veq x_vC_1 x_answer ;;
  _ <- check x_q ;;
  x_vC_2 <- vdense0 TyD [1; 1; 2; 2; 0; 0; 0; 0]%Q 0%Q ;;
  x_vC_3 <- t_apply_2nd_v TyD noacc qtimes (-1)%Q (MVal x_mask) REPLACE x_vC_2 x_vA ;;
  x_q_1 <- veq x_vC_3 x_answer ;;
  _ <- check x_q_1 ;;
  Ok tt) = Ok tt.
Proof. vm_compute. reflexivity. Qed.

(** test_apply_binop.cpp:994-1130 *)
Example apply_stdvec_test_noaccum :
 (x_u <- vdense0 TyD [4; 5; 2; 3; 0; 0]%Q 0%Q ;;
  x_m <- vdense0 (TyU 8) [0; 0; 1; 1; 1; 1]%Q 0%Q ;;
  x_answer <- vdense0 TyD [(-4); (-5); (-2); (-3); 0; 0]%Q 0%Q ;;
  x_w <- vnew 6 ;;
  x_w_1 <- t_apply_1st_v TyD noacc qtimes (-1)%Q NoMask MERGE x_w x_u ;;
  x_q <- veq x_w_1 x_answer ;;
  _ <- check x_q ;;
  x_w2 <- vnew 6 ;;
  x_w2_1 <- t_apply_2nd_v TyD noacc qtimes (-1)%Q NoMask MERGE x_w2 x_u ;;
  x_q_1 <- veq x_w2_1 x_answer ;;
  _ <- check x_q_1 ;;
  x_answer_1 <- vdense0 TyD [0; 0; (-2); (-3); 0; 0]%Q 0%Q ;;
  x_w_2 <- vdense0 TyD [9; 0; 9; 0; 9; 0]%Q 0%Q ;;
  x_w_3 <- t_apply_1st_v TyD noacc qtimes (-1)%Q (MVal x_m) REPLACE x_w_2 x_u ;;
  x_q_2 <- veq x_w_3 x_answer_1 ;;
  _ <- check x_q_2 ;;
  x_w2_2 <- vdense0 TyD [9; 0; 9; 0; 9; 0]%Q 0%Q ;;
  x_w2_3 <- t_apply_2nd_v TyD noacc qtimes (-1)%Q (MVal x_m) REPLACE x_w2_2 x_u ;;
  x_q_3 <- veq x_w2_3 x_answer_1 ;;
  _ <- check x_q_3 ;;
  x_answer_2 <- vdense0 TyD [9; 0; (-2); (-3); 0; 0]%Q 0%Q ;;
  x_w_4 <- vdense0 TyD [9; 0; 9; 0; 9; 0]%Q 0%Q ;;
  x_w_5 <- t_apply_1st_v TyD noacc qtimes (-1)%Q (MVal x_m) MERGE x_w_4 x_u ;;
  x_q_4 <- veq x_w_5 x_answer_2 ;;
  _ <- check x_q_4 ;;
  x_w2_4 <- vdense0 TyD [9; 0; 9; 0; 9; 0]%Q 0%Q ;;
  x_w2_5 <- t_apply_2nd_v TyD noacc qtimes (-1)%Q (MVal x_m) MERGE x_w2_4 x_u ;;
  x_q_5 <- veq x_w2_5 x_answer_2 ;;
  _ <- check x_q_5 ;;
  x_answer_3 <- vdense0 TyD [(-4); (-5); 0; 0; 0; 0]%Q 0%Q ;;
  x_w_6 <- vdense0 TyD [9; 0; 9; 0; 9; 0]%Q 0%Q ;;
  x_w_7 <- t_apply_1st_v TyD noacc qtimes (-1)%Q (MComp x_m) REPLACE x_w_6 x_u ;;
  x_q_6 <- veq x_w_7 x_answer_3 ;;
  _ <- check x_q_6 ;;
  x_w2_6 <- vdense0 TyD [9; 0; 9; 0; 9; 0]%Q 0%Q ;;
  x_w2_7 <- t_apply_2nd_v TyD noacc qtimes (-1)%Q (MComp x_m) REPLACE x_w2_6 x_u ;;
  x_q_7 <- veq x_w2_7 x_answer_3 ;;
  _ <- check x_q_7 ;;
  x_answer_4 <- vdense0 TyD [(-4); (-5); 9; 0; 9; 0]%Q 0%Q ;;
  x_w_8 <- vdense0 TyD [9; 0; 9; 0; 9; 0]%Q 0%Q ;;
  x_w_9 <- t_apply_1st_v TyD noacc qtimes (-1)%Q (MComp x_m) MERGE x_w_8 x_u ;;
  x_q_8 <- veq x_w_9 x_answer_4 ;;
  _ <- check x_q_8 ;;
  x_w2_8 <- vdense0 TyD [9; 0; 9; 0; 9; 0]%Q 0%Q ;;
  x_w2_9 <- t_apply_2nd_v TyD noacc qtimes (-1)%Q (MComp x_m) MERGE x_w2_8 x_u ;;
  x_q_9 <- veq x_w2_9 x_answer_4 ;;
  _ <- check x_q_9 ;;
  Ok tt) = Ok tt.
Proof. vm_compute. reflexivity. Qed.

(** test_apply_binop.cpp:1134-1168 *)
Example sparse_apply_vector_accum :
 (x_vA <- vdense0 TyD [8; 0; 6; 0]%Q 0%Q ;;
  x_answer <- vdense0 TyD [0; 2; (-6); 666]%Q 666%Q ;;
  x_vC <- vdense0 TyD [8; 2; 0; 0]%Q 0%Q ;;
  x_vC_1 <- t_apply_1st_v TyD (acc TyD qplus) qtimes (-1)%Q NoMask MERGE x_vC x_vA ;;
  x_q <- veq x_vC_1 x_answer ;;
  _ <- check x_q ;;
  x_vC_2 <- vdense0 TyD [8; 2; 0; 0]%Q 0%Q ;;
  x_vC_3 <- t_apply_2nd_v TyD (acc TyD qplus) qtimes (-1)%Q NoMask MERGE x_vC_2 x_vA ;;
  x_q_1 <- veq x_vC_3 x_answer ;;
  _ <- check x_q_1 ;;
  Ok tt) = Ok tt.
Proof. vm_compute. reflexivity. Qed.

(** test_apply_binop.cpp:1171-1307 *)
Example apply_stdvec_test_plus_accum :
 (x_u <- vdense0 TyD [4; 5; 2; 3; 0; 0]%Q 0%Q ;;
  x_m <- vdense0 (TyU 8) [0; 0; 1; 1; 1; 1]%Q 0%Q ;;
  x_answer <- vdense0 TyD [5; (-5); 7; (-3); 9; 0]%Q 0%Q ;;
  x_w <- vdense0 TyD [9; 0; 9; 0; 9; 0]%Q 0%Q ;;
  x_w_1 <- t_apply_1st_v TyD (acc TyD qplus) qtimes (-1)%Q NoMask MERGE x_w x_u ;;
  x_q <- veq x_w_1 x_answer ;;
  _ <- check x_q ;;
  x_w2 <- vdense0 TyD [9; 0; 9; 0; 9; 0]%Q 0%Q ;;
  x_w2_1 <- t_apply_2nd_v TyD (acc TyD qplus) qtimes (-1)%Q NoMask MERGE x_w2 x_u ;;
  x_q_1 <- veq x_w2_1 x_answer ;;
  _ <- check x_q_1 ;;
  x_answer_1 <- vdense0 TyD [0; 0; 7; (-3); 9; 0]%Q 0%Q ;;
  x_w_2 <- vdense0 TyD [9; 0; 9; 0; 9; 0]%Q 0%Q ;;
  x_w_3 <- t_apply_1st_v TyD (acc TyD qplus) qtimes (-1)%Q (MVal x_m) REPLACE x_w_2 x_u ;;
  x_q_2 <- veq x_w_3 x_answer_1 ;;
  _ <- check x_q_2 ;;
  x_w2_2 <- vdense0 TyD [9; 0; 9; 0; 9; 0]%Q 0%Q ;;
  x_w2_3 <- t_apply_2nd_v TyD (acc TyD qplus) qtimes (-1)%Q (MVal x_m) REPLACE x_w2_2 x_u ;;
  x_q_3 <- veq x_w2_3 x_answer_1 ;;
  _ <- check x_q_3 ;;
  x_answer_2 <- vdense0 TyD [9; 0; 7; (-3); 9; 0]%Q 0%Q ;;
  x_w2_4 <- vdense0 TyD [9; 0; 9; 0; 9; 0]%Q 0%Q ;;
  x_w2_5 <- t_apply_1st_v TyD (acc TyD qplus) qtimes (-1)%Q (MVal x_m) MERGE x_w2_4 x_u ;;
  x_q_4 <- veq x_w2_5 x_answer_2 ;;
  _ <- check x_q_4 ;;
  x_w_4 <- vdense0 TyD [9; 0; 9; 0; 9; 0]%Q 0%Q ;;
  x_w_5 <- t_apply_2nd_v TyD (acc TyD qplus) qtimes (-1)%Q (MVal x_m) MERGE x_w_4 x_u ;;
  x_q_5 <- veq x_w_5 x_answer_2 ;;
  _ <- check x_q_5 ;;
  x_answer_3 <- vdense0 TyD [5; (-5); 0; 0; 0; 0]%Q 0%Q ;;
  x_w_6 <- vdense0 TyD [9; 0; 9; 0; 9; 0]%Q 0%Q ;;
  x_w_7 <- t_apply_1st_v TyD (acc TyD qplus) qtimes (-1)%Q (MComp x_m) REPLACE x_w_6 x_u ;;
  x_q_6 <- veq x_w_7 x_answer_3 ;;
  _ <- check x_q_6 ;;
  x_w2_6 <- vdense0 TyD [9; 0; 9; 0; 9; 0]%Q 0%Q ;;
  x_w2_7 <- t_apply_2nd_v TyD (acc TyD qplus) qtimes (-1)%Q (MComp x_m) REPLACE x_w2_6 x_u ;;
  x_q_7 <- veq x_w2_7 x_answer_3 ;;
  _ <- check x_q_7 ;;
  x_answer_4 <- vdense0 TyD [5; (-5); 9; 0; 9; 0]%Q 0%Q ;;
  x_w_8 <- vdense0 TyD [9; 0; 9; 0; 9; 0]%Q 0%Q ;;
  x_w_9 <- t_apply_1st_v TyD (acc TyD qplus) qtimes (-1)%Q (MComp x_m) MERGE x_w_8 x_u ;;
  x_q_8 <- veq x_w_9 x_answer_4 ;;
  _ <- check x_q_8 ;;
  x_w2_8 <- vdense0 TyD [9; 0; 9; 0; 9; 0]%Q 0%Q ;;
  x_w2_9 <- t_apply_2nd_v TyD (acc TyD qplus) qtimes (-1)%Q (MComp x_m) MERGE x_w2_8 x_u ;;
  x_q_9 <- veq x_w2_9 x_answer_4 ;;
  _ <- check x_q_9 ;;
  Ok tt) = Ok tt.
Proof. vm_compute. reflexivity. Qed.
