(** The tests of /repo/src/test/test_extract_column.cpp, run on the model.  Generated translation. *)
From Verif Require Import TestRun.


(** test_extract_column.cpp:49-119 *)
Example extract_col_test_bad_dimensions :
 (x_mA <- mdense0 TyD [[8; 1; 6; 0]; [3; 0; 7; 9]; [4; 9; 2; 0]]%Q 0%Q ;;
  x_result <- vnew 1 ;;
  _ <- throws DimensionException (t_extract_col TyD noacc NoMask MERGE x_result (Mat x_mA) (IdxArr
    [0; 2]) 1) ;;
  x_result_1 <- vnew 3 ;;
  _ <- throws DimensionException (t_extract_col TyD noacc NoMask MERGE x_result_1 (Mat x_mA) (IdxArr
    [0; 2]) 1) ;;
  x_result_2 <- vnew 2 ;;
  x_mask <- vnew 1 ;;
  _ <- throws DimensionException (t_extract_col TyD noacc (MVal x_mask) MERGE x_result_2 (Mat x_mA)
    (IdxArr [0; 2]) 1) ;;
  x_result_3 <- vnew 2 ;;
  x_mask_1 <- vnew 3 ;;
  _ <- throws DimensionException (t_extract_col TyD noacc (MVal x_mask_1) MERGE x_result_3 (Mat
    x_mA) (IdxArr [0; 2]) 1) ;;
  Ok tt) = Ok tt.
Proof. vm_compute. reflexivity. Qed.

(** test_extract_column.cpp:122-148 *)
Example extract_col_test_invalid_index :
 (x_mA <- mdense0 TyD [[8; 1; 6]; [3; 0; 7]; [4; 9; 2]]%Q 0%Q ;;
  x_result <- vnew 2 ;;
  _ <- throws InvalidIndexException (t_extract_col TyD noacc NoMask MERGE x_result (Mat x_mA)
    (IdxArr [0; 2]) 4) ;;
  Ok tt) = Ok tt.
Proof. vm_compute. reflexivity. Qed.

(** test_extract_column.cpp:151-177 *)
Example extract_col_test_index_out_of_bounds :
 (x_mA <- mdense0 TyD [[8; 1; 6]; [3; 0; 7]; [4; 9; 2]]%Q 0%Q ;;
  x_result <- vnew 2 ;;
  _ <- throws IndexOutOfBoundsException (t_extract_col TyD noacc NoMask MERGE x_result (Mat x_mA)
    (IdxArr [0; 4]) 1) ;;
  Ok tt) = Ok tt.
Proof. vm_compute. reflexivity. Qed.

(** test_extract_column.cpp:180-224 *)
Example extract_col_test_allindices_too_small :
 (x_mA <- mdense0 TyD [[8; 1; 6; 0]; [0; 5; 7; 9]; [4; 0; 2; 0]]%Q 0%Q ;;
  x_answer <- vdense0 TyD [0; 5; 7]%Q 0%Q ;;
  x_result <- vnew 3 ;;
  x_result_1 <- t_extract_col TyD noacc NoMask MERGE x_result (Trn x_mA) AllIdx 1 ;;
  x_q <- veq x_result_1 x_answer ;;
  _ <- check x_q ;;
  x_answer_1 <- vdense0 TyD [0; 5; 7; 9; 0; 0]%Q 0%Q ;;
  x_result_2 <- vnew 6 ;;
  x_result_3 <- t_extract_col TyD noacc NoMask MERGE x_result_2 (Trn x_mA) AllIdx 1 ;;
  x_q_1 <- veq x_result_3 x_answer_1 ;;
  _ <- check x_q_1 ;;
  Ok tt) = Ok tt.
Proof. vm_compute. reflexivity. Qed.

(** test_extract_column.cpp:242-331 *)
Example extract_col_test_nomask_noaccum_notrans :
 (x_mA <- mdense0 TyD [[8; 1; 6; 0]; [0; 5; 7; 9]; [4; 0; 2; 0]]%Q 0%Q ;;
  x_answer <- vdense0 TyD [1; 5; 0]%Q 0%Q ;;
  x_result <- vnew 3 ;;
  x_result_1 <- t_extract_col TyD noacc NoMask MERGE x_result (Mat x_mA) AllIdx 1 ;;
  x_q <- veq x_result_1 x_answer ;;
  _ <- check x_q ;;
  x_answer_1 <- vdense0 TyD [6; 2]%Q 0%Q ;;
  x_result_2 <- vnew 2 ;;
  x_result_3 <- t_extract_col TyD noacc NoMask MERGE x_result_2 (Mat x_mA) (IdxArr [0; 2]) 2 ;;
  x_q_1 <- veq x_result_3 x_answer_1 ;;
  _ <- check x_q_1 ;;
  x_answer_2 <- vdense0 TyD [2; 6]%Q 0%Q ;;
  x_result_4 <- vnew 2 ;;
  x_result_5 <- t_extract_col TyD noacc NoMask MERGE x_result_4 (Mat x_mA) (IdxArr [2; 0]) 2 ;;
  x_q_2 <- veq x_result_5 x_answer_2 ;;
  _ <- check x_q_2 ;;
  x_answer_3 <- vdense0 TyD [0; 9; 9; 0]%Q 0%Q ;;
  x_result_6 <- vnew 4 ;;
  x_result_7 <- t_extract_col TyD noacc NoMask MERGE x_result_6 (Mat x_mA) (IdxArr [0; 1; 1; 2]) 3
    ;;
  x_q_3 <- veq x_result_7 x_answer_3 ;;
  _ <- check x_q_3 ;;
  x_answer_4 <- vdense0 TyD [8; 4; 4; 0]%Q 0%Q ;;
  x_result_8 <- vnew 4 ;;
  x_result_9 <- t_extract_col TyD noacc NoMask MERGE x_result_8 (Mat x_mA) (IdxArr [0; 2; 2; 1]) 0
    ;;
  x_q_4 <- veq x_result_9 x_answer_4 ;;
  _ <- check x_q_4 ;;
  Ok tt) = Ok tt.
Proof. vm_compute. reflexivity. Qed.

(** test_extract_column.cpp:334-435 *)
Example extract_col_test_nomask_noaccum_trans :
 (x_mA <- mdense0 TyD [[8; 1; 6; 0]; [0; 5; 7; 9]; [4; 0; 2; 0]]%Q 0%Q ;;
  x_answer <- vdense0 TyD [0; 5; 7; 9]%Q 0%Q ;;
  x_result <- vnew 4 ;;
  x_result_1 <- t_extract_col TyD noacc NoMask MERGE x_result (Trn x_mA) AllIdx 1 ;;
  x_q <- veq x_result_1 x_answer ;;
  _ <- check x_q ;;
  x_answer_1 <- vdense0 TyD [4; 2; 0]%Q 0%Q ;;
  x_result_2 <- vnew 3 ;;
  x_result_3 <- t_extract_col TyD noacc NoMask MERGE x_result_2 (Trn x_mA) (IdxArr [0; 2; 3]) 2 ;;
  x_q_1 <- veq x_result_3 x_answer_1 ;;
  _ <- check x_q_1 ;;
  x_answer_2 <- vdense0 TyD [4; 0; 2]%Q 0%Q ;;
  x_result_4 <- vnew 3 ;;
  x_result_5 <- t_extract_col TyD noacc NoMask MERGE x_result_4 (Trn x_mA) (IdxArr [0; 3; 2]) 2 ;;
  x_q_2 <- veq x_result_5 x_answer_2 ;;
  _ <- check x_q_2 ;;
  x_answer_3 <- vdense0 TyD [4; 2; 0; 0]%Q 0%Q ;;
  x_result_6 <- vnew 4 ;;
  x_result_7 <- t_extract_col TyD noacc NoMask MERGE x_result_6 (Trn x_mA) (IdxArr [0; 2; 3; 3]) 2
    ;;
  x_q_3 <- veq x_result_7 x_answer_3 ;;
  _ <- check x_q_3 ;;
  x_answer_4 <- vdense0 TyD [4; 2; 0; 4]%Q 0%Q ;;
  x_result_8 <- vnew 4 ;;
  x_result_9 <- t_extract_col TyD noacc NoMask MERGE x_result_8 (Trn x_mA) (IdxArr [0; 2; 3; 0]) 2
    ;;
  x_q_4 <- veq x_result_9 x_answer_4 ;;
  _ <- check x_q_4 ;;
  Ok tt) = Ok tt.
Proof. vm_compute. reflexivity. Qed.

(** test_extract_column.cpp:438-547 *)
Example extract_col_test_nomask_accum_notrans :
 (x_mA <- mdense0 TyD [[8; 1; 6; 0]; [0; 5; 7; 9]; [4; 0; 2; 0]]%Q 0%Q ;;
  x_answer <- vdense0 TyD [2; 5; 1]%Q 0%Q ;;
  x_result <- vdense0 TyD [1; 0; 1]%Q 0%Q ;;
  x_result_1 <- t_extract_col TyD (acc TyD qplus) NoMask MERGE x_result (Mat x_mA) AllIdx 1 ;;
  x_q <- veq x_result_1 x_answer ;;
  _ <- check x_q ;;
  x_answer_1 <- vdense0 TyD [7; 2]%Q 0%Q ;;
  x_result_2 <- vdense0 TyD [1; 0]%Q 0%Q ;;
  x_result_3 <- t_extract_col TyD (acc TyD qplus) NoMask MERGE x_result_2 (Mat x_mA) (IdxArr [0; 2])
    2 ;;
  x_q_1 <- veq x_result_3 x_answer_1 ;;
  _ <- check x_q_1 ;;
  x_answer_2 <- vdense0 TyD [3; 6]%Q 0%Q ;;
  x_result_4 <- vdense0 TyD [1; 0]%Q 0%Q ;;
  x_result_5 <- t_extract_col TyD (acc TyD qplus) NoMask MERGE x_result_4 (Mat x_mA) (IdxArr [2; 0])
    2 ;;
  x_q_2 <- veq x_result_5 x_answer_2 ;;
  _ <- check x_q_2 ;;
  x_answer_3 <- vdense0 TyD [1; 9; 10; 0]%Q 0%Q ;;
  x_result_6 <- vdense0 TyD [1; 0; 1; 0]%Q 0%Q ;;
  x_result_7 <- t_extract_col TyD (acc TyD qplus) NoMask MERGE x_result_6 (Mat x_mA) (IdxArr [0; 1;
    1; 2]) 3 ;;
  x_q_3 <- veq x_result_7 x_answer_3 ;;
  _ <- check x_q_3 ;;
  x_answer_4 <- vdense0 TyD [8; 4; 5; 1]%Q 0%Q ;;
  x_result_8 <- vdense0 TyD [0; 0; 1; 1]%Q 0%Q ;;
  x_result_9 <- t_extract_col TyD (acc TyD qplus) NoMask MERGE x_result_8 (Mat x_mA) (IdxArr [0; 2;
    2; 1]) 0 ;;
  x_q_4 <- veq x_result_9 x_answer_4 ;;
  _ <- check x_q_4 ;;
  Ok tt) = Ok tt.
Proof. vm_compute. reflexivity. Qed.

(** test_extract_column.cpp:550-659 *)
Example extract_col_test_nomask_accum_trans :
 (x_mA <- mdense0 TyD [[8; 1; 6; 0]; [0; 5; 7; 9]; [4; 0; 2; 0]]%Q 0%Q ;;
  x_answer <- vdense0 TyD [1; 5; 8; 10]%Q 0%Q ;;
  x_result <- vdense0 TyD [1; 0; 1; 1]%Q 0%Q ;;
  x_result_1 <- t_extract_col TyD (acc TyD qplus) NoMask MERGE x_result (Trn x_mA) AllIdx 1 ;;
  x_q <- veq x_result_1 x_answer ;;
  _ <- check x_q ;;
  x_answer_1 <- vdense0 TyD [5; 2]%Q 0%Q ;;
  x_result_2 <- vdense0 TyD [1; 0]%Q 0%Q ;;
  x_result_3 <- t_extract_col TyD (acc TyD qplus) NoMask MERGE x_result_2 (Trn x_mA) (IdxArr [0; 2])
    2 ;;
  x_q_1 <- veq x_result_3 x_answer_1 ;;
  _ <- check x_q_1 ;;
  x_answer_2 <- vdense0 TyD [3; 4]%Q 0%Q ;;
  x_result_4 <- vdense0 TyD [1; 0]%Q 0%Q ;;
  x_result_5 <- t_extract_col TyD (acc TyD qplus) NoMask MERGE x_result_4 (Trn x_mA) (IdxArr [2; 0])
    2 ;;
  x_q_2 <- veq x_result_5 x_answer_2 ;;
  _ <- check x_q_2 ;;
  x_answer_3 <- vdense0 TyD [5; 0; 1; 2]%Q 0%Q ;;
  x_result_6 <- vdense0 TyD [1; 0; 1; 0]%Q 0%Q ;;
  x_result_7 <- t_extract_col TyD (acc TyD qplus) NoMask MERGE x_result_6 (Trn x_mA) (IdxArr [0; 1;
    1; 2]) 2 ;;
  x_q_3 <- veq x_result_7 x_answer_3 ;;
  _ <- check x_q_3 ;;
  x_answer_4 <- vdense0 TyD [8; 6; 7; 2]%Q 0%Q ;;
  x_result_8 <- vdense0 TyD [0; 0; 1; 1]%Q 0%Q ;;
  x_result_9 <- t_extract_col TyD (acc TyD qplus) NoMask MERGE x_result_8 (Trn x_mA) (IdxArr [0; 2;
    2; 1]) 0 ;;
  x_q_4 <- veq x_result_9 x_answer_4 ;;
  _ <- check x_q_4 ;;
  Ok tt) = Ok tt.
Proof. vm_compute. reflexivity. Qed.

(** test_extract_column.cpp:662-840 *)
Example extract_col_test_noscmp_noaccum_notrans :
 (x_mA <- mdense0 TyD [[8; 1; 6; 0]; [0; 5; 0; 9]; [4; 0; 2; 0]]%Q 0%Q ;;
  x_mask3 <- vdense0 (TyU 8) [1; 0; 99]%Q 99%Q ;;
  x_mask2 <- vdense0 (TyU 8) [1; 0]%Q 99%Q ;;
  x_answer <- vdense0 TyD [6; 0; 0]%Q 0%Q ;;
  x_result <- vdense0 TyD [1; 1; 1]%Q 0%Q ;;
  x_result_1 <- t_extract_col TyD noacc (MVal x_mask3) REPLACE x_result (Mat x_mA) AllIdx 2 ;;
  x_q <- veq x_result_1 x_answer ;;
  _ <- check x_q ;;
  x_answer_1 <- vdense0 TyD [6; 1; 1]%Q 0%Q ;;
  x_result_2 <- vdense0 TyD [1; 1; 1]%Q 0%Q ;;
  x_result_3 <- t_extract_col TyD noacc (MVal x_mask3) MERGE x_result_2 (Mat x_mA) AllIdx 2 ;;
  x_q_1 <- veq x_result_3 x_answer_1 ;;
  _ <- check x_q_1 ;;
  x_answer_2 <- vdense0 TyD [1; 0]%Q 0%Q ;;
  x_result_4 <- vdense0 TyD [1; 1]%Q 0%Q ;;
  x_result_5 <- t_extract_col TyD noacc (MVal x_mask2) REPLACE x_result_4 (Mat x_mA) (IdxArr [0; 2])
    1 ;;
  x_q_2 <- veq x_result_5 x_answer_2 ;;
  _ <- check x_q_2 ;;
  x_answer_3 <- vdense0 TyD [1; 1]%Q 0%Q ;;
  x_result_6 <- vdense0 TyD [1; 1]%Q 0%Q ;;
  x_result_7 <- t_extract_col TyD noacc (MVal x_mask2) MERGE x_result_6 (Mat x_mA) (IdxArr [0; 2]) 1
    ;;
  x_q_3 <- veq x_result_7 x_answer_3 ;;
  _ <- check x_q_3 ;;
  x_answer_4 <- vdense0 TyD [0; 0]%Q 0%Q ;;
  x_result_8 <- vdense0 TyD [0; 1]%Q 0%Q ;;
  x_result_9 <- t_extract_col TyD noacc (MVal x_mask2) REPLACE x_result_8 (Mat x_mA) (IdxArr [2; 0])
    1 ;;
  x_q_4 <- veq x_result_9 x_answer_4 ;;
  _ <- check x_q_4 ;;
  x_answer_5 <- vdense0 TyD [0; 1]%Q 0%Q ;;
  x_result_10 <- vdense0 TyD [1; 1]%Q 0%Q ;;
  x_result_11 <- t_extract_col TyD noacc (MVal x_mask2) MERGE x_result_10 (Mat x_mA) (IdxArr [2; 0])
    1 ;;
  x_q_5 <- veq x_result_11 x_answer_5 ;;
  _ <- check x_q_5 ;;
  x_answer_6 <- vdense0 TyD [1; 0; 0]%Q 0%Q ;;
  x_result_12 <- vdense0 TyD [9; 9; 9]%Q 0%Q ;;
  x_result_13 <- t_extract_col TyD noacc (MVal x_mask3) REPLACE x_result_12 (Mat x_mA) (IdxArr [0;
    0; 2]) 1 ;;
  x_q_6 <- veq x_result_13 x_answer_6 ;;
  _ <- check x_q_6 ;;
  x_answer_7 <- vdense0 TyD [1; 9; 9]%Q 0%Q ;;
  x_result_14 <- vdense0 TyD [9; 9; 9]%Q 0%Q ;;
  x_result_15 <- t_extract_col TyD noacc (MVal x_mask3) MERGE x_result_14 (Mat x_mA) (IdxArr [0; 0;
    2]) 1 ;;
  x_q_7 <- veq x_result_15 x_answer_7 ;;
  _ <- check x_q_7 ;;
  x_answer_8 <- vdense0 TyD [0; 0; 0]%Q 0%Q ;;
  x_result_16 <- vdense0 TyD [9; 9; 9]%Q 0%Q ;;
  x_result_17 <- t_extract_col TyD noacc (MVal x_mask3) REPLACE x_result_16 (Mat x_mA) (IdxArr [2;
    0; 0]) 1 ;;
  x_q_8 <- veq x_result_17 x_answer_8 ;;
  _ <- check x_q_8 ;;
  x_answer_9 <- vdense0 TyD [0; 9; 9]%Q 0%Q ;;
  x_result_18 <- vdense0 TyD [9; 9; 9]%Q 0%Q ;;
  x_result_19 <- t_extract_col TyD noacc (MVal x_mask3) MERGE x_result_18 (Mat x_mA) (IdxArr [2; 0;
    0]) 1 ;;
  x_q_9 <- veq x_result_19 x_answer_9 ;;
  _ <- check x_q_9 ;;
  Ok tt) = Ok tt.
Proof. vm_compute. reflexivity. Qed.

(** test_extract_column.cpp:843-1002 *)
Example extract_col_test_noscmp_noaccum_trans :
 (x_mA <- mdense0 TyD [[8; 1; 6; 0]; [0; 5; 7; 9]; [4; 0; 2; 0]]%Q 0%Q ;;
  x_mask3 <- vdense0 (TyU 8) [1; 0; 99]%Q 99%Q ;;
  x_mask4 <- vdense0 (TyU 8) [1; 0; 99; 1]%Q 99%Q ;;
  x_answer <- vdense0 TyD [4; 0; 0; 0]%Q 0%Q ;;
  x_result <- vdense TyD [9; 9; 9; 9]%Q ;;
  x_result_1 <- t_extract_col TyD noacc (MVal x_mask4) REPLACE x_result (Trn x_mA) AllIdx 2 ;;
  x_q <- veq x_result_1 x_answer ;;
  _ <- check x_q ;;
  x_answer_1 <- vdense0 TyD [4; 9; 9; 0]%Q 0%Q ;;
  x_result_2 <- vdense TyD [9; 9; 9; 9]%Q ;;
  x_result_3 <- t_extract_col TyD noacc (MVal x_mask4) MERGE x_result_2 (Trn x_mA) AllIdx 2 ;;
  x_q_1 <- veq x_result_3 x_answer_1 ;;
  _ <- check x_q_1 ;;
  x_answer_2 <- vdense0 TyD [4; 0; 0]%Q 0%Q ;;
  x_result_4 <- vdense TyD [9; 9; 9]%Q ;;
  x_result_5 <- t_extract_col TyD noacc (MVal x_mask3) REPLACE x_result_4 (Trn x_mA) (IdxArr [0; 2;
    3]) 2 ;;
  x_q_2 <- veq x_result_5 x_answer_2 ;;
  _ <- check x_q_2 ;;
  x_answer_3 <- vdense0 TyD [4; 9; 9]%Q 0%Q ;;
  x_result_6 <- vdense TyD [9; 9; 9]%Q ;;
  x_result_7 <- t_extract_col TyD noacc (MVal x_mask3) MERGE x_result_6 (Trn x_mA) (IdxArr [0; 2;
    3]) 2 ;;
  x_q_3 <- veq x_result_7 x_answer_3 ;;
  _ <- check x_q_3 ;;
  x_answer_4 <- vdense0 TyD [2; 0; 0]%Q 0%Q ;;
  x_result_8 <- vdense TyD [9; 9; 9]%Q ;;
  x_result_9 <- t_extract_col TyD noacc (MVal x_mask3) REPLACE x_result_8 (Trn x_mA) (IdxArr [2; 3;
    0]) 2 ;;
  x_q_4 <- veq x_result_9 x_answer_4 ;;
  _ <- check x_q_4 ;;
  x_answer_5 <- vdense0 TyD [2; 9; 9]%Q 0%Q ;;
  x_result_10 <- vdense TyD [9; 9; 9]%Q ;;
  x_result_11 <- t_extract_col TyD noacc (MVal x_mask3) MERGE x_result_10 (Trn x_mA) (IdxArr [2; 3;
    0]) 2 ;;
  x_q_5 <- veq x_result_11 x_answer_5 ;;
  _ <- check x_q_5 ;;
  x_answer_6 <- vdense0 TyD [4; 0; 0; 0]%Q 0%Q ;;
  x_result_12 <- vdense TyD [9; 9; 9; 9]%Q ;;
  x_result_13 <- t_extract_col TyD noacc (MVal x_mask4) REPLACE x_result_12 (Trn x_mA) (IdxArr [0;
    2; 3; 3]) 2 ;;
  x_q_6 <- veq x_result_13 x_answer_6 ;;
  _ <- check x_q_6 ;;
  x_answer_7 <- vdense0 TyD [4; 9; 9; 0]%Q 0%Q ;;
  x_result_14 <- vdense TyD [9; 9; 9; 9]%Q ;;
  x_result_15 <- t_extract_col TyD noacc (MVal x_mask4) MERGE x_result_14 (Trn x_mA) (IdxArr [0; 2;
    3; 3]) 2 ;;
  x_q_7 <- veq x_result_15 x_answer_7 ;;
  _ <- check x_q_7 ;;
  x_answer_8 <- vdense0 TyD [4; 0; 0; 4]%Q 0%Q ;;
  x_result_16 <- vdense TyD [9; 9; 9; 9]%Q ;;
  x_result_17 <- t_extract_col TyD noacc (MVal x_mask4) REPLACE x_result_16 (Trn x_mA) (IdxArr [0;
    2; 3; 0]) 2 ;;
  x_q_8 <- veq x_result_17 x_answer_8 ;;
  _ <- check x_q_8 ;;
  x_answer_9 <- vdense0 TyD [4; 9; 9; 4]%Q 0%Q ;;
  x_result_18 <- vdense TyD [9; 9; 9; 9]%Q ;;
  x_result_19 <- t_extract_col TyD noacc (MVal x_mask4) MERGE x_result_18 (Trn x_mA) (IdxArr [0; 2;
    3; 0]) 2 ;;
  x_q_9 <- veq x_result_19 x_answer_9 ;;
  _ <- check x_q_9 ;;
  Ok tt) = Ok tt.
Proof. vm_compute. reflexivity. Qed.

(** test_extract_column.cpp:1005-1162 *)
Example extract_col_test_noscmp_accum_notrans :
 (x_mA <- mdense0 TyD [[8; 1; 6; 0]; [0; 5; 0; 9]; [4; 0; 2; 0]]%Q 0%Q ;;
  x_mask3 <- vdense0 (TyU 8) [1; 0; 99]%Q 99%Q ;;
  x_mask2 <- vdense0 (TyU 8) [1; 0]%Q 99%Q ;;
  x_answer <- vdense0 TyD [15; 0; 0]%Q 0%Q ;;
  x_result <- vdense0 TyD [9; 9; 9]%Q 0%Q ;;
  x_result_1 <- t_extract_col TyD (acc TyD qplus) (MVal x_mask3) REPLACE x_result (Mat x_mA) AllIdx
    2 ;;
  x_q <- veq x_result_1 x_answer ;;
  _ <- check x_q ;;
  x_answer_1 <- vdense0 TyD [15; 9; 9]%Q 0%Q ;;
  x_result_2 <- vdense0 TyD [9; 9; 9]%Q 0%Q ;;
  x_result_3 <- t_extract_col TyD (acc TyD qplus) (MVal x_mask3) MERGE x_result_2 (Mat x_mA) AllIdx
    2 ;;
  x_q_1 <- veq x_result_3 x_answer_1 ;;
  _ <- check x_q_1 ;;
  x_answer_2 <- vdense0 TyD [10; 0]%Q 0%Q ;;
  x_result_4 <- vdense0 TyD [9; 9]%Q 0%Q ;;
  x_result_5 <- t_extract_col TyD (acc TyD qplus) (MVal x_mask2) REPLACE x_result_4 (Mat x_mA)
    (IdxArr [0; 2]) 1 ;;
  x_q_2 <- veq x_result_5 x_answer_2 ;;
  _ <- check x_q_2 ;;
  x_answer_3 <- vdense0 TyD [10; 9]%Q 0%Q ;;
  x_result_6 <- vdense0 TyD [9; 9]%Q 0%Q ;;
  x_result_7 <- t_extract_col TyD (acc TyD qplus) (MVal x_mask2) MERGE x_result_6 (Mat x_mA) (IdxArr
    [0; 2]) 1 ;;
  x_q_3 <- veq x_result_7 x_answer_3 ;;
  _ <- check x_q_3 ;;
  x_answer_4 <- vdense0 TyD [9; 0]%Q 0%Q ;;
  x_result_8 <- vdense0 TyD [9; 9]%Q 0%Q ;;
  x_result_9 <- t_extract_col TyD (acc TyD qplus) (MVal x_mask2) REPLACE x_result_8 (Mat x_mA)
    (IdxArr [2; 0]) 1 ;;
  x_q_4 <- veq x_result_9 x_answer_4 ;;
  _ <- check x_q_4 ;;
  x_answer_5 <- vdense0 TyD [9; 9]%Q 0%Q ;;
  x_result_10 <- vdense0 TyD [9; 9]%Q 0%Q ;;
  x_result_11 <- t_extract_col TyD (acc TyD qplus) (MVal x_mask2) MERGE x_result_10 (Mat x_mA)
    (IdxArr [2; 0]) 1 ;;
  x_q_5 <- veq x_result_11 x_answer_5 ;;
  _ <- check x_q_5 ;;
  x_answer_6 <- vdense0 TyD [10; 0; 0]%Q 0%Q ;;
  x_result_12 <- vdense0 TyD [9; 9; 9]%Q 0%Q ;;
  x_result_13 <- t_extract_col TyD (acc TyD qplus) (MVal x_mask3) REPLACE x_result_12 (Mat x_mA)
    (IdxArr [0; 0; 2]) 1 ;;
  x_q_6 <- veq x_result_13 x_answer_6 ;;
  _ <- check x_q_6 ;;
  x_answer_7 <- vdense0 TyD [10; 9; 9]%Q 0%Q ;;
  x_result_14 <- vdense0 TyD [9; 9; 9]%Q 0%Q ;;
  x_result_15 <- t_extract_col TyD (acc TyD qplus) (MVal x_mask3) MERGE x_result_14 (Mat x_mA)
    (IdxArr [0; 0; 2]) 1 ;;
  x_q_7 <- veq x_result_15 x_answer_7 ;;
  _ <- check x_q_7 ;;
  x_answer_8 <- vdense0 TyD [9; 0; 0]%Q 0%Q ;;
  x_result_16 <- vdense0 TyD [9; 9; 9]%Q 0%Q ;;
  x_result_17 <- t_extract_col TyD (acc TyD qplus) (MVal x_mask3) REPLACE x_result_16 (Mat x_mA)
    (IdxArr [2; 0; 0]) 1 ;;
  x_q_8 <- veq x_result_17 x_answer_8 ;;
  _ <- check x_q_8 ;;
  x_answer_9 <- vdense0 TyD [9; 9; 9]%Q 0%Q ;;
  x_result_18 <- vdense0 TyD [9; 9; 9]%Q 0%Q ;;
  x_result_19 <- t_extract_col TyD (acc TyD qplus) (MVal x_mask3) MERGE x_result_18 (Mat x_mA)
    (IdxArr [2; 0; 0]) 1 ;;
  x_q_9 <- veq x_result_19 x_answer_9 ;;
  _ <- check x_q_9 ;;
  Ok tt) = Ok tt.
Proof. vm_compute. reflexivity. Qed.

(** test_extract_column.cpp:1165-1323 *)
Example extract_col_test_noscmp_accum_trans :
 (x_mA <- mdense0 TyD [[8; 1; 6; 0]; [0; 5; 7; 9]; [4; 0; 2; 0]]%Q 0%Q ;;
  x_mask3 <- vdense0 (TyU 8) [1; 0; 99]%Q 99%Q ;;
  x_mask4 <- vdense0 (TyU 8) [1; 0; 99; 1]%Q 99%Q ;;
  x_answer <- vdense0 TyD [13; 0; 0; 9]%Q 0%Q ;;
  x_result <- vdense TyD [9; 9; 9; 9]%Q ;;
  x_result_1 <- t_extract_col TyD (acc TyD qplus) (MVal x_mask4) REPLACE x_result (Trn x_mA) AllIdx
    2 ;;
  x_q <- veq x_result_1 x_answer ;;
  _ <- check x_q ;;
  x_answer_1 <- vdense0 TyD [13; 9; 9; 9]%Q 0%Q ;;
  x_result_2 <- vdense TyD [9; 9; 9; 9]%Q ;;
  x_result_3 <- t_extract_col TyD (acc TyD qplus) (MVal x_mask4) MERGE x_result_2 (Trn x_mA) AllIdx
    2 ;;
  x_q_1 <- veq x_result_3 x_answer_1 ;;
  _ <- check x_q_1 ;;
  x_answer_2 <- vdense0 TyD [13; 0; 0]%Q 0%Q ;;
  x_result_4 <- vdense TyD [9; 9; 9]%Q ;;
  x_result_5 <- t_extract_col TyD (acc TyD qplus) (MVal x_mask3) REPLACE x_result_4 (Trn x_mA)
    (IdxArr [0; 2; 3]) 2 ;;
  x_q_2 <- veq x_result_5 x_answer_2 ;;
  _ <- check x_q_2 ;;
  x_answer_3 <- vdense0 TyD [13; 9; 9]%Q 0%Q ;;
  x_result_6 <- vdense TyD [9; 9; 9]%Q ;;
  x_result_7 <- t_extract_col TyD (acc TyD qplus) (MVal x_mask3) MERGE x_result_6 (Trn x_mA) (IdxArr
    [0; 2; 3]) 2 ;;
  x_q_3 <- veq x_result_7 x_answer_3 ;;
  _ <- check x_q_3 ;;
  x_answer_4 <- vdense0 TyD [11; 0; 0]%Q 0%Q ;;
  x_result_8 <- vdense TyD [9; 9; 9]%Q ;;
  x_result_9 <- t_extract_col TyD (acc TyD qplus) (MVal x_mask3) REPLACE x_result_8 (Trn x_mA)
    (IdxArr [2; 3; 0]) 2 ;;
  x_q_4 <- veq x_result_9 x_answer_4 ;;
  _ <- check x_q_4 ;;
  x_answer_5 <- vdense0 TyD [11; 9; 9]%Q 0%Q ;;
  x_result_10 <- vdense TyD [9; 9; 9]%Q ;;
  x_result_11 <- t_extract_col TyD (acc TyD qplus) (MVal x_mask3) MERGE x_result_10 (Trn x_mA)
    (IdxArr [2; 3; 0]) 2 ;;
  x_q_5 <- veq x_result_11 x_answer_5 ;;
  _ <- check x_q_5 ;;
  x_answer_6 <- vdense0 TyD [13; 0; 0; 9]%Q 0%Q ;;
  x_result_12 <- vdense TyD [9; 9; 9; 9]%Q ;;
  x_result_13 <- t_extract_col TyD (acc TyD qplus) (MVal x_mask4) REPLACE x_result_12 (Trn x_mA)
    (IdxArr [0; 2; 3; 3]) 2 ;;
  x_q_6 <- veq x_result_13 x_answer_6 ;;
  _ <- check x_q_6 ;;
  x_answer_7 <- vdense0 TyD [13; 9; 9; 9]%Q 0%Q ;;
  x_result_14 <- vdense TyD [9; 9; 9; 9]%Q ;;
  x_result_15 <- t_extract_col TyD (acc TyD qplus) (MVal x_mask4) MERGE x_result_14 (Trn x_mA)
    (IdxArr [0; 2; 3; 3]) 2 ;;
  x_q_7 <- veq x_result_15 x_answer_7 ;;
  _ <- check x_q_7 ;;
  x_answer_8 <- vdense0 TyD [13; 0; 0; 13]%Q 0%Q ;;
  x_result_16 <- vdense TyD [9; 9; 9; 9]%Q ;;
  x_result_17 <- t_extract_col TyD (acc TyD qplus) (MVal x_mask4) REPLACE x_result_16 (Trn x_mA)
    (IdxArr [0; 2; 3; 0]) 2 ;;
  x_q_8 <- veq x_result_17 x_answer_8 ;;
  _ <- check x_q_8 ;;
  x_answer_9 <- vdense0 TyD [13; 9; 9; 13]%Q 0%Q ;;
  x_result_18 <- vdense TyD [9; 9; 9; 9]%Q ;;
  x_result_19 <- t_extract_col TyD (acc TyD qplus) (MVal x_mask4) MERGE x_result_18 (Trn x_mA)
    (IdxArr [0; 2; 3; 0]) 2 ;;
  x_q_9 <- veq x_result_19 x_answer_9 ;;
  _ <- check x_q_9 ;;
  Ok tt) = Ok tt.
Proof. vm_compute. reflexivity. Qed.

(** test_extract_column.cpp:1326-1472 *)
Example extract_col_test_scmp_noaccum_notrans :
 (x_mA <- mdense0 TyD [[8; 1; 6; 0]; [0; 5; 0; 9]; [4; 0; 2; 0]]%Q 0%Q ;;
  x_mask3 <- vdense0 (TyU 8) [1; 0; 99]%Q 99%Q ;;
  x_mask2 <- vdense0 (TyU 8) [1; 0]%Q 99%Q ;;
  x_answer <- vdense0 TyD [0; 0; 2]%Q 0%Q ;;
  x_result <- vdense0 TyD [9; 9; 9]%Q 0%Q ;;
  x_result_1 <- t_extract_col TyD noacc (MComp x_mask3) REPLACE x_result (Mat x_mA) AllIdx 2 ;;
  x_q <- veq x_result_1 x_answer ;;
  _ <- check x_q ;;
  x_answer_1 <- vdense0 TyD [9; 0; 2]%Q 0%Q ;;
  x_result_2 <- vdense0 TyD [9; 9; 9]%Q 0%Q ;;
  x_result_3 <- t_extract_col TyD noacc (MComp x_mask3) MERGE x_result_2 (Mat x_mA) AllIdx 2 ;;
  x_q_1 <- veq x_result_3 x_answer_1 ;;
  _ <- check x_q_1 ;;
  x_answer_2 <- vdense0 TyD [0; 0]%Q 0%Q ;;
  x_result_4 <- vdense0 TyD [9; 9]%Q 0%Q ;;
  x_result_5 <- t_extract_col TyD noacc (MComp x_mask2) REPLACE x_result_4 (Mat x_mA) (IdxArr [0;
    2]) 1 ;;
  x_q_2 <- veq x_result_5 x_answer_2 ;;
  _ <- check x_q_2 ;;
  x_answer_3 <- vdense0 TyD [9; 0]%Q 0%Q ;;
  x_result_6 <- vdense0 TyD [9; 9]%Q 0%Q ;;
  x_result_7 <- t_extract_col TyD noacc (MComp x_mask2) MERGE x_result_6 (Mat x_mA) (IdxArr [0; 2])
    1 ;;
  x_q_3 <- veq x_result_7 x_answer_3 ;;
  _ <- check x_q_3 ;;
  x_answer_4 <- vdense0 TyD [0; 1]%Q 0%Q ;;
  x_result_8 <- vdense0 TyD [9; 9]%Q 0%Q ;;
  x_result_9 <- t_extract_col TyD noacc (MComp x_mask2) REPLACE x_result_8 (Mat x_mA) (IdxArr [2;
    0]) 1 ;;
  x_q_4 <- veq x_result_9 x_answer_4 ;;
  _ <- check x_q_4 ;;
  x_answer_5 <- vdense0 TyD [9; 1]%Q 0%Q ;;
  x_result_10 <- vdense0 TyD [9; 9]%Q 0%Q ;;
  x_result_11 <- t_extract_col TyD noacc (MComp x_mask2) MERGE x_result_10 (Mat x_mA) (IdxArr [2;
    0]) 1 ;;
  x_q_5 <- veq x_result_11 x_answer_5 ;;
  _ <- check x_q_5 ;;
  x_answer_6 <- vdense0 TyD [0; 1; 0]%Q 0%Q ;;
  x_result_12 <- vdense0 TyD [9; 9; 9]%Q 0%Q ;;
  x_result_13 <- t_extract_col TyD noacc (MComp x_mask3) REPLACE x_result_12 (Mat x_mA) (IdxArr [0;
    0; 2]) 1 ;;
  x_q_6 <- veq x_result_13 x_answer_6 ;;
  _ <- check x_q_6 ;;
  x_answer_7 <- vdense0 TyD [9; 1; 0]%Q 0%Q ;;
  x_result_14 <- vdense0 TyD [9; 9; 9]%Q 0%Q ;;
  x_result_15 <- t_extract_col TyD noacc (MComp x_mask3) MERGE x_result_14 (Mat x_mA) (IdxArr [0; 0;
    2]) 1 ;;
  x_q_7 <- veq x_result_15 x_answer_7 ;;
  _ <- check x_q_7 ;;
  x_answer_8 <- vdense0 TyD [0; 1; 1]%Q 0%Q ;;
  x_result_16 <- vdense0 TyD [9; 9; 9]%Q 0%Q ;;
  x_result_17 <- t_extract_col TyD noacc (MComp x_mask3) REPLACE x_result_16 (Mat x_mA) (IdxArr [2;
    0; 0]) 1 ;;
  x_q_8 <- veq x_result_17 x_answer_8 ;;
  _ <- check x_q_8 ;;
  x_answer_9 <- vdense0 TyD [9; 1; 1]%Q 0%Q ;;
  x_result_18 <- vdense0 TyD [9; 9; 9]%Q 0%Q ;;
  x_result_19 <- t_extract_col TyD noacc (MComp x_mask3) MERGE x_result_18 (Mat x_mA) (IdxArr [2; 0;
    0]) 1 ;;
  x_q_9 <- veq x_result_19 x_answer_9 ;;
  _ <- check x_q_9 ;;
  Ok tt) = Ok tt.
Proof. vm_compute. reflexivity. Qed.

(** test_extract_column.cpp:1475-1634 *)
Example extract_col_test_scmp_noaccum_trans :
 (x_mA <- mdense0 TyD [[8; 1; 6; 0]; [0; 5; 7; 9]; [4; 0; 2; 0]]%Q 0%Q ;;
  x_mask3 <- vdense0 (TyU 8) [1; 0; 99]%Q 99%Q ;;
  x_mask4 <- vdense0 (TyU 8) [1; 0; 99; 1]%Q 99%Q ;;
  x_answer <- vdense0 TyD [0; 0; 2; 0]%Q 0%Q ;;
  x_result <- vdense TyD [9; 9; 9; 9]%Q ;;
  x_result_1 <- t_extract_col TyD noacc (MComp x_mask4) REPLACE x_result (Trn x_mA) AllIdx 2 ;;
  x_q <- veq x_result_1 x_answer ;;
  _ <- check x_q ;;
  x_answer_1 <- vdense0 TyD [9; 0; 2; 9]%Q 0%Q ;;
  x_result_2 <- vdense TyD [9; 9; 9; 9]%Q ;;
  x_result_3 <- t_extract_col TyD noacc (MComp x_mask4) MERGE x_result_2 (Trn x_mA) AllIdx 2 ;;
  x_q_1 <- veq x_result_3 x_answer_1 ;;
  _ <- check x_q_1 ;;
  x_answer_2 <- vdense0 TyD [0; 2; 0]%Q 0%Q ;;
  x_result_4 <- vdense TyD [9; 9; 9]%Q ;;
  x_result_5 <- t_extract_col TyD noacc (MComp x_mask3) REPLACE x_result_4 (Trn x_mA) (IdxArr [0; 2;
    3]) 2 ;;
  x_q_2 <- veq x_result_5 x_answer_2 ;;
  _ <- check x_q_2 ;;
  x_answer_3 <- vdense0 TyD [9; 2; 0]%Q 0%Q ;;
  x_result_6 <- vdense TyD [9; 9; 9]%Q ;;
  x_result_7 <- t_extract_col TyD noacc (MComp x_mask3) MERGE x_result_6 (Trn x_mA) (IdxArr [0; 2;
    3]) 2 ;;
  x_q_3 <- veq x_result_7 x_answer_3 ;;
  _ <- check x_q_3 ;;
  x_answer_4 <- vdense0 TyD [0; 0; 4]%Q 0%Q ;;
  x_result_8 <- vdense TyD [9; 9; 9]%Q ;;
  x_result_9 <- t_extract_col TyD noacc (MComp x_mask3) REPLACE x_result_8 (Trn x_mA) (IdxArr [2; 3;
    0]) 2 ;;
  x_q_4 <- veq x_result_9 x_answer_4 ;;
  _ <- check x_q_4 ;;
  x_answer_5 <- vdense0 TyD [9; 0; 4]%Q 0%Q ;;
  x_result_10 <- vdense TyD [9; 9; 9]%Q ;;
  x_result_11 <- t_extract_col TyD noacc (MComp x_mask3) MERGE x_result_10 (Trn x_mA) (IdxArr [2; 3;
    0]) 2 ;;
  x_q_5 <- veq x_result_11 x_answer_5 ;;
  _ <- check x_q_5 ;;
  x_answer_6 <- vdense0 TyD [0; 2; 0; 0]%Q 0%Q ;;
  x_result_12 <- vdense TyD [9; 9; 9; 9]%Q ;;
  x_result_13 <- t_extract_col TyD noacc (MComp x_mask4) REPLACE x_result_12 (Trn x_mA) (IdxArr [0;
    2; 3; 3]) 2 ;;
  x_q_6 <- veq x_result_13 x_answer_6 ;;
  _ <- check x_q_6 ;;
  x_answer_7 <- vdense0 TyD [9; 2; 0; 9]%Q 0%Q ;;
  x_result_14 <- vdense TyD [9; 9; 9; 9]%Q ;;
  x_result_15 <- t_extract_col TyD noacc (MComp x_mask4) MERGE x_result_14 (Trn x_mA) (IdxArr [0; 2;
    3; 3]) 2 ;;
  x_q_7 <- veq x_result_15 x_answer_7 ;;
  _ <- check x_q_7 ;;
  x_answer_8 <- vdense0 TyD [0; 2; 0; 0]%Q 0%Q ;;
  x_result_16 <- vdense TyD [9; 9; 9; 9]%Q ;;
  x_result_17 <- t_extract_col TyD noacc (MComp x_mask4) REPLACE x_result_16 (Trn x_mA) (IdxArr [0;
    2; 3; 0]) 2 ;;
  x_q_8 <- veq x_result_17 x_answer_8 ;;
  _ <- check x_q_8 ;;
  x_answer_9 <- vdense0 TyD [9; 2; 0; 9]%Q 0%Q ;;
  x_result_18 <- vdense TyD [9; 9; 9; 9]%Q ;;
  x_result_19 <- t_extract_col TyD noacc (MComp x_mask4) MERGE x_result_18 (Trn x_mA) (IdxArr [0; 2;
    3; 0]) 2 ;;
  x_q_9 <- veq x_result_19 x_answer_9 ;;
  _ <- check x_q_9 ;;
  Ok tt) = Ok tt.
Proof. vm_compute. reflexivity. Qed.

(** test_extract_column.cpp:1637-1794 *)
Example extract_col_test_scmp_accum_notrans :
 (x_mA <- mdense0 TyD [[8; 1; 6; 0]; [0; 5; 0; 9]; [4; 0; 2; 0]]%Q 0%Q ;;
  x_mask3 <- vdense0 (TyU 8) [1; 0; 99]%Q 99%Q ;;
  x_mask2 <- vdense0 (TyU 8) [1; 0]%Q 99%Q ;;
  x_answer <- vdense0 TyD [0; 14; 9]%Q 0%Q ;;
  x_result <- vdense0 TyD [9; 9; 9]%Q 0%Q ;;
  x_result_1 <- t_extract_col TyD (acc TyD qplus) (MComp x_mask3) REPLACE x_result (Mat x_mA) AllIdx
    1 ;;
  x_q <- veq x_result_1 x_answer ;;
  _ <- check x_q ;;
  x_answer_1 <- vdense0 TyD [9; 14; 9]%Q 0%Q ;;
  x_result_2 <- vdense0 TyD [9; 9; 9]%Q 0%Q ;;
  x_result_3 <- t_extract_col TyD (acc TyD qplus) (MComp x_mask3) MERGE x_result_2 (Mat x_mA) AllIdx
    1 ;;
  x_q_1 <- veq x_result_3 x_answer_1 ;;
  _ <- check x_q_1 ;;
  x_answer_2 <- vdense0 TyD [0; 9]%Q 0%Q ;;
  x_result_4 <- vdense0 TyD [9; 9]%Q 0%Q ;;
  x_result_5 <- t_extract_col TyD (acc TyD qplus) (MComp x_mask2) REPLACE x_result_4 (Mat x_mA)
    (IdxArr [0; 2]) 1 ;;
  x_q_2 <- veq x_result_5 x_answer_2 ;;
  _ <- check x_q_2 ;;
  x_answer_3 <- vdense0 TyD [9; 9]%Q 0%Q ;;
  x_result_6 <- vdense0 TyD [9; 9]%Q 0%Q ;;
  x_result_7 <- t_extract_col TyD (acc TyD qplus) (MComp x_mask2) MERGE x_result_6 (Mat x_mA)
    (IdxArr [0; 2]) 1 ;;
  x_q_3 <- veq x_result_7 x_answer_3 ;;
  _ <- check x_q_3 ;;
  x_answer_4 <- vdense0 TyD [0; 10]%Q 0%Q ;;
  x_result_8 <- vdense0 TyD [9; 9]%Q 0%Q ;;
  x_result_9 <- t_extract_col TyD (acc TyD qplus) (MComp x_mask2) REPLACE x_result_8 (Mat x_mA)
    (IdxArr [2; 0]) 1 ;;
  x_q_4 <- veq x_result_9 x_answer_4 ;;
  _ <- check x_q_4 ;;
  x_answer_5 <- vdense0 TyD [9; 10]%Q 0%Q ;;
  x_result_10 <- vdense0 TyD [9; 9]%Q 0%Q ;;
  x_result_11 <- t_extract_col TyD (acc TyD qplus) (MComp x_mask2) MERGE x_result_10 (Mat x_mA)
    (IdxArr [2; 0]) 1 ;;
  x_q_5 <- veq x_result_11 x_answer_5 ;;
  _ <- check x_q_5 ;;
  x_answer_6 <- vdense0 TyD [0; 10; 9]%Q 0%Q ;;
  x_result_12 <- vdense0 TyD [9; 9; 9]%Q 0%Q ;;
  x_result_13 <- t_extract_col TyD (acc TyD qplus) (MComp x_mask3) REPLACE x_result_12 (Mat x_mA)
    (IdxArr [0; 0; 2]) 1 ;;
  x_q_6 <- veq x_result_13 x_answer_6 ;;
  _ <- check x_q_6 ;;
  x_answer_7 <- vdense0 TyD [9; 10; 9]%Q 0%Q ;;
  x_result_14 <- vdense0 TyD [9; 9; 9]%Q 0%Q ;;
  x_result_15 <- t_extract_col TyD (acc TyD qplus) (MComp x_mask3) MERGE x_result_14 (Mat x_mA)
    (IdxArr [0; 0; 2]) 1 ;;
  x_q_7 <- veq x_result_15 x_answer_7 ;;
  _ <- check x_q_7 ;;
  x_answer_8 <- vdense0 TyD [0; 10; 10]%Q 0%Q ;;
  x_result_16 <- vdense0 TyD [9; 9; 9]%Q 0%Q ;;
  x_result_17 <- t_extract_col TyD (acc TyD qplus) (MComp x_mask3) REPLACE x_result_16 (Mat x_mA)
    (IdxArr [2; 0; 0]) 1 ;;
  x_q_8 <- veq x_result_17 x_answer_8 ;;
  _ <- check x_q_8 ;;
  x_answer_9 <- vdense0 TyD [9; 10; 10]%Q 0%Q ;;
  x_result_18 <- vdense0 TyD [9; 9; 9]%Q 0%Q ;;
  x_result_19 <- t_extract_col TyD (acc TyD qplus) (MComp x_mask3) MERGE x_result_18 (Mat x_mA)
    (IdxArr [2; 0; 0]) 1 ;;
  x_q_9 <- veq x_result_19 x_answer_9 ;;
  _ <- check x_q_9 ;;
  Ok tt) = Ok tt.
Proof. vm_compute. reflexivity. Qed.

(** test_extract_column.cpp:1797-1955 *)
Example extract_col_test_scmp_accum_trans :
 (x_mA <- mdense0 TyD [[8; 1; 6; 0]; [0; 5; 7; 9]; [4; 0; 2; 0]]%Q 0%Q ;;
  x_mask3 <- vdense0 (TyU 8) [1; 0; 99]%Q 99%Q ;;
  x_mask4 <- vdense0 (TyU 8) [1; 0; 99; 1]%Q 99%Q ;;
  x_answer <- vdense0 TyD [0; 9; 11; 0]%Q 0%Q ;;
  x_result <- vdense TyD [9; 9; 9; 9]%Q ;;
  x_result_1 <- t_extract_col TyD (acc TyD qplus) (MComp x_mask4) REPLACE x_result (Trn x_mA) AllIdx
    2 ;;
  x_q <- veq x_result_1 x_answer ;;
  _ <- check x_q ;;
  x_answer_1 <- vdense0 TyD [9; 9; 11; 9]%Q 0%Q ;;
  x_result_2 <- vdense TyD [9; 9; 9; 9]%Q ;;
  x_result_3 <- t_extract_col TyD (acc TyD qplus) (MComp x_mask4) MERGE x_result_2 (Trn x_mA) AllIdx
    2 ;;
  x_q_1 <- veq x_result_3 x_answer_1 ;;
  _ <- check x_q_1 ;;
  x_answer_2 <- vdense0 TyD [0; 11; 9]%Q 0%Q ;;
  x_result_4 <- vdense TyD [9; 9; 9]%Q ;;
  x_result_5 <- t_extract_col TyD (acc TyD qplus) (MComp x_mask3) REPLACE x_result_4 (Trn x_mA)
    (IdxArr [0; 2; 3]) 2 ;;
  x_q_2 <- veq x_result_5 x_answer_2 ;;
  _ <- check x_q_2 ;;
  x_answer_3 <- vdense0 TyD [9; 11; 9]%Q 0%Q ;;
  x_result_6 <- vdense TyD [9; 9; 9]%Q ;;
  x_result_7 <- t_extract_col TyD (acc TyD qplus) (MComp x_mask3) MERGE x_result_6 (Trn x_mA)
    (IdxArr [0; 2; 3]) 2 ;;
  x_q_3 <- veq x_result_7 x_answer_3 ;;
  _ <- check x_q_3 ;;
  x_answer_4 <- vdense0 TyD [0; 9; 13]%Q 0%Q ;;
  x_result_8 <- vdense TyD [9; 9; 9]%Q ;;
  x_result_9 <- t_extract_col TyD (acc TyD qplus) (MComp x_mask3) REPLACE x_result_8 (Trn x_mA)
    (IdxArr [2; 3; 0]) 2 ;;
  x_q_4 <- veq x_result_9 x_answer_4 ;;
  _ <- check x_q_4 ;;
  x_answer_5 <- vdense0 TyD [9; 9; 13]%Q 0%Q ;;
  x_result_10 <- vdense TyD [9; 9; 9]%Q ;;
  x_result_11 <- t_extract_col TyD (acc TyD qplus) (MComp x_mask3) MERGE x_result_10 (Trn x_mA)
    (IdxArr [2; 3; 0]) 2 ;;
  x_q_5 <- veq x_result_11 x_answer_5 ;;
  _ <- check x_q_5 ;;
  x_answer_6 <- vdense0 TyD [0; 11; 9; 0]%Q 0%Q ;;
  x_result_12 <- vdense TyD [9; 9; 9; 9]%Q ;;
  x_result_13 <- t_extract_col TyD (acc TyD qplus) (MComp x_mask4) REPLACE x_result_12 (Trn x_mA)
    (IdxArr [0; 2; 3; 3]) 2 ;;
  x_q_6 <- veq x_result_13 x_answer_6 ;;
  _ <- check x_q_6 ;;
  x_answer_7 <- vdense0 TyD [9; 11; 9; 9]%Q 0%Q ;;
  x_result_14 <- vdense TyD [9; 9; 9; 9]%Q ;;
  x_result_15 <- t_extract_col TyD (acc TyD qplus) (MComp x_mask4) MERGE x_result_14 (Trn x_mA)
    (IdxArr [0; 2; 3; 3]) 2 ;;
  x_q_7 <- veq x_result_15 x_answer_7 ;;
  _ <- check x_q_7 ;;
  x_answer_8 <- vdense0 TyD [0; 11; 9; 0]%Q 0%Q ;;
  x_result_16 <- vdense TyD [9; 9; 9; 9]%Q ;;
  x_result_17 <- t_extract_col TyD (acc TyD qplus) (MComp x_mask4) REPLACE x_result_16 (Trn x_mA)
    (IdxArr [0; 2; 3; 0]) 2 ;;
  x_q_8 <- veq x_result_17 x_answer_8 ;;
  _ <- check x_q_8 ;;
  x_answer_9 <- vdense0 TyD [9; 11; 9; 9]%Q 0%Q ;;
  x_result_18 <- vdense TyD [9; 9; 9; 9]%Q ;;
  x_result_19 <- t_extract_col TyD (acc TyD qplus) (MComp x_mask4) MERGE x_result_18 (Trn x_mA)
    (IdxArr [0; 2; 3; 0]) 2 ;;
  x_q_9 <- veq x_result_19 x_answer_9 ;;
  _ <- check x_q_9 ;;
  Ok tt) = Ok tt.
Proof. vm_compute. reflexivity. Qed.
