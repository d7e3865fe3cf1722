(** The tests of /repo/src/test/test_extract_stdmat.cpp, run on the model.  Generated translation. *)
From Verif Require Import TestRun.


(** test_extract_stdmat.cpp:47-143 *)
Example extract_stdmat_test_bad_dimensions :
 (x_A <- mnew 3 4 ;;
  x_A_1 <- mbuild TyD qsecond x_A [0; 0; 0; 1; 1; 1; 2; 2] [1; 2; 3; 0; 2; 3; 0; 1] [1; 2; 3; 4; 6;
    7; 8; 9]%Q ;;
  x_C <- mnew 2 3 ;;
  x_M <- mdense0 TyB [[1; 0; 1]; [1; 1; 0]; [0; 1; 1]]%Q 0%Q ;;
  _ <- throws DimensionException (t_extract_m TyD noacc (MVal x_M) MERGE x_C (Mat x_A_1) (IdxArr [0;
    2]) (IdxArr [0; 1; 2])) ;;
  x_M_1 <- mdense0 TyB [[0; 1; 1]]%Q 0%Q ;;
  _ <- throws DimensionException (t_extract_m TyD noacc (MVal x_M_1) MERGE x_C (Mat x_A_1) (IdxArr
    [0; 2]) (IdxArr [0; 1; 2])) ;;
  x_M_2 <- mdense0 TyB [[0; 1; 0; 1]; [1; 1; 0; 0]]%Q 0%Q ;;
  _ <- throws DimensionException (t_extract_m TyD noacc (MVal x_M_2) MERGE x_C (Mat x_A_1) (IdxArr
    [0; 2]) (IdxArr [0; 1; 2])) ;;
  x_M_3 <- mdense0 TyB [[0; 1]; [1; 1]]%Q 0%Q ;;
  _ <- throws DimensionException (t_extract_m TyD noacc (MVal x_M_3) MERGE x_C (Mat x_A_1) (IdxArr
    [0; 2]) (IdxArr [0; 1; 2])) ;;
  _ <- throws DimensionException (t_extract_m TyD noacc NoMask MERGE x_C (Mat x_A_1) (IdxArr [0; 2;
    1]) (IdxArr [0; 1; 2])) ;;
  _ <- throws DimensionException (t_extract_m TyD noacc NoMask MERGE x_C (Mat x_A_1) (IdxArr [0])
    (IdxArr [0; 1; 2])) ;;
  _ <- throws DimensionException (t_extract_m TyD noacc NoMask MERGE x_C (Mat x_A_1) (IdxArr [0; 2])
    (IdxArr [0; 2; 1; 2])) ;;
  _ <- throws DimensionException (t_extract_m TyD noacc NoMask MERGE x_C (Mat x_A_1) (IdxArr [0; 2])
    (IdxArr [0; 1])) ;;
  Ok tt) = Ok tt.
Proof. vm_compute. reflexivity. Qed.

(** test_extract_stdmat.cpp:146-188 *)
Example extract_stdmat_index_out_of_bounds :
 (x_A <- mnew 3 4 ;;
  x_A_1 <- mbuild TyD qsecond x_A [0; 0; 0; 1; 1; 1; 2; 2] [1; 2; 3; 0; 2; 3; 0; 1] [1; 2; 3; 4; 6;
    7; 8; 9]%Q ;;
  x_C <- mnew 2 3 ;;
  x_M <- mdense0 TyB [[1; 0; 1]; [1; 1; 0]]%Q 0%Q ;;
  _ <- throws IndexOutOfBoundsException (t_extract_m TyD noacc (MVal x_M) MERGE x_C (Mat x_A_1)
    (IdxArr [0; 2]) (IdxArr [0; 4; 2])) ;;
  _ <- throws IndexOutOfBoundsException (t_extract_m TyD noacc NoMask MERGE x_C (Mat x_A_1) (IdxArr
    [0; 2]) (IdxArr [0; 4; 2])) ;;
  x_M_1 <- mdense0 TyB [[1; 0; 1]; [1; 1; 0]]%Q 0%Q ;;
  _ <- throws IndexOutOfBoundsException (t_extract_m TyD noacc (MVal x_M_1) MERGE x_C (Mat x_A_1)
    (IdxArr [3; 2]) (IdxArr [0; 1; 2])) ;;
  _ <- throws IndexOutOfBoundsException (t_extract_m TyD noacc NoMask MERGE x_C (Mat x_A_1) (IdxArr
    [3; 2]) (IdxArr [0; 1; 2])) ;;
  Ok tt) = Ok tt.
Proof. vm_compute. reflexivity. Qed.

(** test_extract_stdmat.cpp:191-225 *)
Example extract_stdmat_test_allindices_too_small :
 (x_mA <- mdense0 TyD [[8; 1; 6; 0]; [0; 5; 7; 9]; [4; 0; 2; 0]]%Q 0%Q ;;
  x_answer <- mdense0 TyD [[8; 1; 6]; [0; 5; 7]]%Q 0%Q ;;
  x_result <- mnew 2 3 ;;
  x_result_1 <- t_extract_m TyD noacc NoMask MERGE x_result (Mat x_mA) AllIdx AllIdx ;;
  x_q <- meq x_result_1 x_answer ;;
  _ <- check x_q ;;
  x_answer_1 <- mdense0 TyD [[8; 1; 6; 0; 0; 0]; [0; 5; 7; 9; 0; 0]; [4; 0; 2; 0; 0; 0]; [0; 0; 0;
    0; 0; 0]]%Q 0%Q ;;
  x_result_2 <- mnew 4 6 ;;
  x_result_3 <- t_extract_m TyD noacc NoMask MERGE x_result_2 (Mat x_mA) AllIdx AllIdx ;;
  x_q_1 <- meq x_result_3 x_answer_1 ;;
  _ <- check x_q_1 ;;
  Ok tt) = Ok tt.
Proof. vm_compute. reflexivity. Qed.

(** test_extract_stdmat.cpp:243-316 *)
Example extract_stdmat_test_nomask_noaccum_notrans :
 (x_A <- mdense0 TyD [[8; 1; 6; 0]; [0; 5; 7; 9]; [4; 0; 2; 0]]%Q 0%Q ;;
  x_C <- mnew 3 4 ;;
  x_C_1 <- t_extract_m TyD noacc NoMask MERGE x_C (Mat x_A) AllIdx AllIdx ;;
  x_q <- meq x_C_1 x_A ;;
  _ <- check x_q ;;
  x_C_2 <- mnew 2 3 ;;
  x_C_3 <- t_extract_m TyD noacc NoMask MERGE x_C_2 (Mat x_A) (IdxArr [0; 2]) (IdxArr [0; 1; 3]) ;;
  x_answer <- mdense0 TyD [[8; 1; 0]; [4; 0; 0]]%Q 0%Q ;;
  x_q_1 <- meq x_C_3 x_answer ;;
  _ <- check x_q_1 ;;
  x_C_4 <- mnew 2 3 ;;
  x_C_5 <- t_extract_m TyD noacc NoMask MERGE x_C_4 (Mat x_A) (IdxArr [2; 0]) (IdxArr [3; 0; 1]) ;;
  x_answer_1 <- mdense0 TyD [[0; 4; 0]; [0; 8; 1]]%Q 0%Q ;;
  x_q_2 <- meq x_C_5 x_answer_1 ;;
  _ <- check x_q_2 ;;
  x_C_6 <- mnew 3 4 ;;
  x_C_7 <- t_extract_m TyD noacc NoMask MERGE x_C_6 (Mat x_A) (IdxArr [0; 0; 2]) (IdxArr [0; 1; 1;
    3]) ;;
  x_answer_2 <- mdense0 TyD [[8; 1; 1; 0]; [8; 1; 1; 0]; [4; 0; 0; 0]]%Q 0%Q ;;
  x_q_3 <- meq x_C_7 x_answer_2 ;;
  _ <- check x_q_3 ;;
  x_C_8 <- mnew 3 4 ;;
  x_C_9 <- t_extract_m TyD noacc NoMask MERGE x_C_8 (Mat x_A) (IdxArr [2; 0; 2]) (IdxArr [3; 0; 1;
    0]) ;;
  x_answer_3 <- mdense0 TyD [[0; 4; 0; 4]; [0; 8; 1; 8]; [0; 4; 0; 4]]%Q 0%Q ;;
  x_q_4 <- meq x_C_9 x_answer_3 ;;
  _ <- check x_q_4 ;;
  Ok tt) = Ok tt.
Proof. vm_compute. reflexivity. Qed.

(** test_extract_stdmat.cpp:319-401 *)
Example extract_stdmat_test_nomask_noaccum_trans :
 (x_A <- mdense0 TyD [[8; 1; 6; 0]; [0; 5; 7; 9]; [4; 0; 2; 0]]%Q 0%Q ;;
  x_C <- mnew 4 3 ;;
  x_C_1 <- t_extract_m TyD noacc NoMask MERGE x_C (Trn x_A) AllIdx AllIdx ;;
  x_answer <- mdense0 TyD [[8; 0; 4]; [1; 5; 0]; [6; 7; 2]; [0; 9; 0]]%Q 0%Q ;;
  x_q <- meq x_C_1 x_answer ;;
  _ <- check x_q ;;
  x_C_2 <- mnew 3 2 ;;
  x_C_3 <- t_extract_m TyD noacc NoMask MERGE x_C_2 (Trn x_A) (IdxArr [0; 1; 3]) (IdxArr [0; 2]) ;;
  x_answer_1 <- mdense0 TyD [[8; 4]; [1; 0]; [0; 0]]%Q 0%Q ;;
  x_q_1 <- meq x_C_3 x_answer_1 ;;
  _ <- check x_q_1 ;;
  x_C_4 <- mnew 3 2 ;;
  x_C_5 <- t_extract_m TyD noacc NoMask MERGE x_C_4 (Trn x_A) (IdxArr [3; 0; 1]) (IdxArr [2; 0]) ;;
  x_answer_2 <- mdense0 TyD [[0; 0]; [4; 8]; [0; 1]]%Q 0%Q ;;
  x_q_2 <- meq x_C_5 x_answer_2 ;;
  _ <- check x_q_2 ;;
  x_C_6 <- mnew 4 3 ;;
  x_C_7 <- t_extract_m TyD noacc NoMask MERGE x_C_6 (Trn x_A) (IdxArr [0; 1; 1; 3]) (IdxArr [0; 0;
    2]) ;;
  x_answer_3 <- mdense0 TyD [[8; 8; 4]; [1; 1; 0]; [1; 1; 0]; [0; 0; 0]]%Q 0%Q ;;
  x_q_3 <- meq x_C_7 x_answer_3 ;;
  _ <- check x_q_3 ;;
  x_C_8 <- mnew 4 3 ;;
  x_C_9 <- t_extract_m TyD noacc NoMask MERGE x_C_8 (Trn x_A) (IdxArr [3; 0; 1; 0]) (IdxArr [2; 0;
    2]) ;;
  x_answer_4 <- mdense0 TyD [[0; 0; 0]; [4; 8; 4]; [0; 1; 0]; [4; 8; 4]]%Q 0%Q ;;
  x_q_4 <- meq x_C_9 x_answer_4 ;;
  _ <- check x_q_4 ;;
  Ok tt) = Ok tt.
Proof. vm_compute. reflexivity. Qed.

(** test_extract_stdmat.cpp:404-485 *)
Example extract_stdmat_test_nomask_accum_notrans :
 (x_A <- mdense0 TyD [[8; 1; 6; 0]; [0; 5; 7; 9]; [4; 0; 2; 0]]%Q 0%Q ;;
  x_C <- mdense0 TyD [[9; 9; 9; 9]; [9; 9; 9; 9]; [9; 9; 9; 0]]%Q 0%Q ;;
  x_C_1 <- t_extract_m TyD (acc TyD qplus) NoMask MERGE x_C (Mat x_A) AllIdx AllIdx ;;
  x_answer <- mdense0 TyD [[17; 10; 15; 9]; [9; 14; 16; 18]; [13; 9; 11; 0]]%Q 0%Q ;;
  x_q <- meq x_C_1 x_answer ;;
  _ <- check x_q ;;
  x_C_2 <- mdense0 TyD [[9; 9; 9]; [9; 9; 0]]%Q 0%Q ;;
  x_C_3 <- t_extract_m TyD (acc TyD qplus) NoMask MERGE x_C_2 (Mat x_A) (IdxArr [0; 2]) (IdxArr [0;
    1; 3]) ;;
  x_answer_1 <- mdense0 TyD [[17; 10; 9]; [13; 9; 0]]%Q 0%Q ;;
  x_q_1 <- meq x_C_3 x_answer_1 ;;
  _ <- check x_q_1 ;;
  x_C_4 <- mdense0 TyD [[9; 9; 9]; [9; 9; 0]]%Q 0%Q ;;
  x_C_5 <- t_extract_m TyD (acc TyD qplus) NoMask MERGE x_C_4 (Mat x_A) (IdxArr [2; 0]) (IdxArr [3;
    0; 1]) ;;
  x_answer_2 <- mdense0 TyD [[9; 13; 9]; [9; 17; 1]]%Q 0%Q ;;
  x_q_2 <- meq x_C_5 x_answer_2 ;;
  _ <- check x_q_2 ;;
  x_C_6 <- mdense0 TyD [[9; 9; 9; 9]; [9; 9; 9; 9]; [9; 9; 9; 0]]%Q 0%Q ;;
  x_C_7 <- t_extract_m TyD (acc TyD qplus) NoMask MERGE x_C_6 (Mat x_A) (IdxArr [0; 0; 2]) (IdxArr
    [0; 1; 1; 3]) ;;
  x_answer_3 <- mdense0 TyD [[17; 10; 10; 9]; [17; 10; 10; 9]; [13; 9; 9; 0]]%Q 0%Q ;;
  x_q_3 <- meq x_C_7 x_answer_3 ;;
  _ <- check x_q_3 ;;
  x_C_8 <- mdense0 TyD [[9; 9; 9; 9]; [9; 9; 9; 9]; [9; 9; 9; 0]]%Q 0%Q ;;
  x_C_9 <- t_extract_m TyD (acc TyD qplus) NoMask MERGE x_C_8 (Mat x_A) (IdxArr [2; 0; 2]) (IdxArr
    [3; 0; 1; 0]) ;;
  x_answer_4 <- mdense0 TyD [[9; 13; 9; 13]; [9; 17; 10; 17]; [9; 13; 9; 4]]%Q 0%Q ;;
  x_q_4 <- meq x_C_9 x_answer_4 ;;
  _ <- check x_q_4 ;;
  Ok tt) = Ok tt.
Proof. vm_compute. reflexivity. Qed.

(** test_extract_stdmat.cpp:488-577 *)
Example extract_stdmat_test_nomask_accum_trans :
 (x_A <- mdense0 TyD [[8; 1; 6; 0]; [0; 5; 7; 9]; [4; 0; 2; 0]]%Q 0%Q ;;
  x_C <- mdense0 TyD [[9; 9; 9]; [9; 9; 9]; [9; 9; 9]; [9; 9; 0]]%Q 0%Q ;;
  x_C_1 <- t_extract_m TyD (acc TyD qplus) NoMask MERGE x_C (Trn x_A) AllIdx AllIdx ;;
  x_answer <- mdense0 TyD [[17; 9; 13]; [10; 14; 9]; [15; 16; 11]; [9; 18; 0]]%Q 0%Q ;;
  x_q <- meq x_C_1 x_answer ;;
  _ <- check x_q ;;
  x_C_2 <- mdense0 TyD [[9; 9]; [9; 9]; [9; 0]]%Q 0%Q ;;
  x_C_3 <- t_extract_m TyD (acc TyD qplus) NoMask MERGE x_C_2 (Trn x_A) (IdxArr [0; 1; 3]) (IdxArr
    [0; 2]) ;;
  x_answer_1 <- mdense0 TyD [[17; 13]; [10; 9]; [9; 0]]%Q 0%Q ;;
  x_q_1 <- meq x_C_3 x_answer_1 ;;
  _ <- check x_q_1 ;;
  x_C_4 <- mdense0 TyD [[9; 9]; [9; 9]; [9; 0]]%Q 0%Q ;;
  x_C_5 <- t_extract_m TyD (acc TyD qplus) NoMask MERGE x_C_4 (Trn x_A) (IdxArr [3; 0; 1]) (IdxArr
    [2; 0]) ;;
  x_answer_2 <- mdense0 TyD [[9; 9]; [13; 17]; [9; 1]]%Q 0%Q ;;
  x_q_2 <- meq x_C_5 x_answer_2 ;;
  _ <- check x_q_2 ;;
  x_C_6 <- mdense0 TyD [[9; 9; 9]; [9; 9; 9]; [9; 9; 9]; [9; 9; 0]]%Q 0%Q ;;
  x_C_7 <- t_extract_m TyD (acc TyD qplus) NoMask MERGE x_C_6 (Trn x_A) (IdxArr [0; 1; 1; 3])
    (IdxArr [0; 0; 2]) ;;
  x_answer_3 <- mdense0 TyD [[17; 17; 13]; [10; 10; 9]; [10; 10; 9]; [9; 9; 0]]%Q 0%Q ;;
  x_q_3 <- meq x_C_7 x_answer_3 ;;
  _ <- check x_q_3 ;;
  x_C_8 <- mdense0 TyD [[9; 9; 9]; [9; 9; 9]; [9; 9; 9]; [9; 9; 0]]%Q 0%Q ;;
  x_C_9 <- t_extract_m TyD (acc TyD qplus) NoMask MERGE x_C_8 (Trn x_A) (IdxArr [3; 0; 1; 0])
    (IdxArr [2; 0; 2]) ;;
  x_answer_4 <- mdense0 TyD [[9; 9; 9]; [13; 17; 13]; [9; 10; 9]; [13; 17; 4]]%Q 0%Q ;;
  x_q_4 <- meq x_C_9 x_answer_4 ;;
  _ <- check x_q_4 ;;
  Ok tt) = Ok tt.
Proof. vm_compute. reflexivity. Qed.

(** test_extract_stdmat.cpp:580-730 *)
Example extract_stdmat_test_noscmp_noaccum_notrans :
 (x_A <- mdense0 TyD [[8; 1; 6; 0]; [0; 5; 7; 9]; [4; 0; 2; 0]]%Q 0%Q ;;
  x_mask2x3 <- mdense0 (TyU 8) [[1; 1; 0]; [1; 99; 0]]%Q 99%Q ;;
  x_mask3x4 <- mdense0 (TyU 8) [[1; 1; 1; 0]; [1; 1; 99; 0]; [1; 99; 99; 0]]%Q 99%Q ;;
  x_C <- mdense0 TyD [[9; 9; 9; 9]; [9; 9; 9; 9]; [9; 9; 9; 0]]%Q 0%Q ;;
  x_C_1 <- t_extract_m TyD noacc (MVal x_mask3x4) REPLACE x_C (Mat x_A) AllIdx AllIdx ;;
  x_answer <- mdense0 TyD [[8; 1; 6; 0]; [0; 5; 0; 0]; [4; 0; 0; 0]]%Q 0%Q ;;
  x_q <- meq x_C_1 x_answer ;;
  _ <- check x_q ;;
  x_C_2 <- mdense0 TyD [[9; 9; 9; 9]; [9; 9; 9; 9]; [9; 9; 9; 0]]%Q 0%Q ;;
  x_C_3 <- t_extract_m TyD noacc (MVal x_mask3x4) MERGE x_C_2 (Mat x_A) AllIdx AllIdx ;;
  x_answer_1 <- mdense0 TyD [[8; 1; 6; 9]; [0; 5; 9; 9]; [4; 9; 9; 0]]%Q 0%Q ;;
  x_q_1 <- meq x_C_3 x_answer_1 ;;
  _ <- check x_q_1 ;;
  x_C_4 <- mdense0 TyD [[9; 9; 9]; [9; 9; 0]]%Q 0%Q ;;
  x_C_5 <- t_extract_m TyD noacc (MVal x_mask2x3) REPLACE x_C_4 (Mat x_A) (IdxArr [0; 2]) (IdxArr
    [0; 1; 3]) ;;
  x_answer_2 <- mdense0 TyD [[8; 1; 0]; [4; 0; 0]]%Q 0%Q ;;
  x_q_2 <- meq x_C_5 x_answer_2 ;;
  _ <- check x_q_2 ;;
  x_C_6 <- mdense0 TyD [[9; 9; 9]; [9; 9; 0]]%Q 0%Q ;;
  x_C_7 <- t_extract_m TyD noacc (MVal x_mask2x3) MERGE x_C_6 (Mat x_A) (IdxArr [0; 2]) (IdxArr [0;
    1; 3]) ;;
  x_answer_3 <- mdense0 TyD [[8; 1; 9]; [4; 9; 0]]%Q 0%Q ;;
  x_q_3 <- meq x_C_7 x_answer_3 ;;
  _ <- check x_q_3 ;;
  x_C_8 <- mdense0 TyD [[9; 9; 9]; [9; 9; 0]]%Q 0%Q ;;
  x_C_9 <- t_extract_m TyD noacc (MVal x_mask2x3) REPLACE x_C_8 (Mat x_A) (IdxArr [2; 0]) (IdxArr
    [3; 0; 1]) ;;
  x_answer_4 <- mdense0 TyD [[0; 4; 0]; [0; 0; 0]]%Q 0%Q ;;
  x_q_4 <- meq x_C_9 x_answer_4 ;;
  _ <- check x_q_4 ;;
  x_C_10 <- mdense0 TyD [[9; 9; 9]; [9; 9; 0]]%Q 0%Q ;;
  x_C_11 <- t_extract_m TyD noacc (MVal x_mask2x3) MERGE x_C_10 (Mat x_A) (IdxArr [2; 0]) (IdxArr
    [3; 0; 1]) ;;
  x_answer_5 <- mdense0 TyD [[0; 4; 9]; [0; 9; 0]]%Q 0%Q ;;
  x_q_5 <- meq x_C_11 x_answer_5 ;;
  _ <- check x_q_5 ;;
  x_C_12 <- mdense0 TyD [[9; 9; 9; 9]; [9; 9; 9; 9]; [9; 9; 9; 0]]%Q 0%Q ;;
  x_C_13 <- t_extract_m TyD noacc (MVal x_mask3x4) REPLACE x_C_12 (Mat x_A) (IdxArr [0; 0; 2])
    (IdxArr [0; 1; 1; 3]) ;;
  x_answer_6 <- mdense0 TyD [[8; 1; 1; 0]; [8; 1; 0; 0]; [4; 0; 0; 0]]%Q 0%Q ;;
  x_q_6 <- meq x_C_13 x_answer_6 ;;
  _ <- check x_q_6 ;;
  x_C_14 <- mdense0 TyD [[9; 9; 9; 9]; [9; 9; 9; 9]; [9; 9; 9; 0]]%Q 0%Q ;;
  x_C_15 <- t_extract_m TyD noacc (MVal x_mask3x4) MERGE x_C_14 (Mat x_A) (IdxArr [0; 0; 2]) (IdxArr
    [0; 1; 1; 3]) ;;
  x_answer_7 <- mdense0 TyD [[8; 1; 1; 9]; [8; 1; 9; 9]; [4; 9; 9; 0]]%Q 0%Q ;;
  x_q_7 <- meq x_C_15 x_answer_7 ;;
  _ <- check x_q_7 ;;
  x_C_16 <- mdense0 TyD [[9; 9; 9; 9]; [9; 9; 9; 9]; [9; 9; 9; 0]]%Q 0%Q ;;
  x_C_17 <- t_extract_m TyD noacc (MVal x_mask3x4) REPLACE x_C_16 (Mat x_A) (IdxArr [2; 0; 2])
    (IdxArr [3; 0; 1; 0]) ;;
  x_answer_8 <- mdense0 TyD [[0; 4; 0; 0]; [0; 8; 0; 0]; [0; 0; 0; 0]]%Q 0%Q ;;
  x_q_8 <- meq x_C_17 x_answer_8 ;;
  _ <- check x_q_8 ;;
  x_C_18 <- mdense0 TyD [[9; 9; 9; 9]; [9; 9; 9; 9]; [9; 9; 9; 0]]%Q 0%Q ;;
  x_C_19 <- t_extract_m TyD noacc (MVal x_mask3x4) MERGE x_C_18 (Mat x_A) (IdxArr [2; 0; 2]) (IdxArr
    [3; 0; 1; 0]) ;;
  x_answer_9 <- mdense0 TyD [[0; 4; 0; 9]; [0; 8; 9; 9]; [0; 9; 9; 0]]%Q 0%Q ;;
  x_q_9 <- meq x_C_19 x_answer_9 ;;
  _ <- check x_q_9 ;;
  Ok tt) = Ok tt.
Proof. vm_compute. reflexivity. Qed.

(** test_extract_stdmat.cpp:733-898 *)
Example extract_stdmat_test_noscmp_noaccum_trans :
 (x_A <- mdense0 TyD [[8; 1; 6; 0]; [0; 5; 7; 9]; [4; 0; 2; 0]]%Q 0%Q ;;
  x_mask3x2 <- mdense0 (TyU 8) [[1; 1]; [1; 99]; [0; 0]]%Q 99%Q ;;
  x_mask4x3 <- mdense0 (TyU 8) [[1; 1; 1]; [1; 1; 99]; [1; 99; 99]; [0; 0; 0]]%Q 99%Q ;;
  x_C <- mdense0 TyD [[9; 9; 9]; [9; 9; 9]; [9; 9; 9]; [9; 9; 0]]%Q 0%Q ;;
  x_C_1 <- t_extract_m TyD noacc (MVal x_mask4x3) REPLACE x_C (Trn x_A) AllIdx AllIdx ;;
  x_answer <- mdense0 TyD [[8; 0; 4]; [1; 5; 0]; [6; 0; 0]; [0; 0; 0]]%Q 0%Q ;;
  x_q <- meq x_C_1 x_answer ;;
  _ <- check x_q ;;
  x_C_2 <- mdense0 TyD [[9; 9; 9]; [9; 9; 9]; [9; 9; 9]; [9; 9; 0]]%Q 0%Q ;;
  x_C_3 <- t_extract_m TyD noacc (MVal x_mask4x3) MERGE x_C_2 (Trn x_A) AllIdx AllIdx ;;
  x_answer_1 <- mdense0 TyD [[8; 0; 4]; [1; 5; 9]; [6; 9; 9]; [9; 9; 0]]%Q 0%Q ;;
  x_q_1 <- meq x_C_3 x_answer_1 ;;
  _ <- check x_q_1 ;;
  x_C_4 <- mdense0 TyD [[9; 9]; [9; 9]; [9; 0]]%Q 0%Q ;;
  x_C_5 <- t_extract_m TyD noacc (MVal x_mask3x2) REPLACE x_C_4 (Trn x_A) (IdxArr [0; 1; 3]) (IdxArr
    [0; 2]) ;;
  x_answer_2 <- mdense0 TyD [[8; 4]; [1; 0]; [0; 0]]%Q 0%Q ;;
  x_q_2 <- meq x_C_5 x_answer_2 ;;
  _ <- check x_q_2 ;;
  x_C_6 <- mdense0 TyD [[9; 9]; [9; 9]; [9; 0]]%Q 0%Q ;;
  x_C_7 <- t_extract_m TyD noacc (MVal x_mask3x2) MERGE x_C_6 (Trn x_A) (IdxArr [0; 1; 3]) (IdxArr
    [0; 2]) ;;
  x_answer_3 <- mdense0 TyD [[8; 4]; [1; 9]; [9; 0]]%Q 0%Q ;;
  x_q_3 <- meq x_C_7 x_answer_3 ;;
  _ <- check x_q_3 ;;
  x_C_8 <- mdense0 TyD [[9; 9]; [9; 9]; [9; 0]]%Q 0%Q ;;
  x_C_9 <- t_extract_m TyD noacc (MVal x_mask3x2) REPLACE x_C_8 (Trn x_A) (IdxArr [3; 0; 1]) (IdxArr
    [2; 0]) ;;
  x_answer_4 <- mdense0 TyD [[0; 0]; [4; 0]; [0; 0]]%Q 0%Q ;;
  x_q_4 <- meq x_C_9 x_answer_4 ;;
  _ <- check x_q_4 ;;
  x_C_10 <- mdense0 TyD [[9; 9]; [9; 9]; [9; 0]]%Q 0%Q ;;
  x_C_11 <- t_extract_m TyD noacc (MVal x_mask3x2) MERGE x_C_10 (Trn x_A) (IdxArr [3; 0; 1]) (IdxArr
    [2; 0]) ;;
  x_answer_5 <- mdense0 TyD [[0; 0]; [4; 9]; [9; 0]]%Q 0%Q ;;
  x_q_5 <- meq x_C_11 x_answer_5 ;;
  _ <- check x_q_5 ;;
  x_C_12 <- mdense0 TyD [[9; 9; 9]; [9; 9; 9]; [9; 9; 9]; [9; 9; 0]]%Q 0%Q ;;
  x_C_13 <- t_extract_m TyD noacc (MVal x_mask4x3) REPLACE x_C_12 (Trn x_A) (IdxArr [0; 1; 1; 3])
    (IdxArr [0; 0; 2]) ;;
  x_answer_6 <- mdense0 TyD [[8; 8; 4]; [1; 1; 0]; [1; 0; 0]; [0; 0; 0]]%Q 0%Q ;;
  x_q_6 <- meq x_C_13 x_answer_6 ;;
  _ <- check x_q_6 ;;
  x_C_14 <- mdense0 TyD [[9; 9; 9]; [9; 9; 9]; [9; 9; 9]; [9; 9; 0]]%Q 0%Q ;;
  x_C_15 <- t_extract_m TyD noacc (MVal x_mask4x3) MERGE x_C_14 (Trn x_A) (IdxArr [0; 1; 1; 3])
    (IdxArr [0; 0; 2]) ;;
  x_answer_7 <- mdense0 TyD [[8; 8; 4]; [1; 1; 9]; [1; 9; 9]; [9; 9; 0]]%Q 0%Q ;;
  x_q_7 <- meq x_C_15 x_answer_7 ;;
  _ <- check x_q_7 ;;
  x_C_16 <- mdense0 TyD [[9; 9; 9]; [9; 9; 9]; [9; 9; 9]; [9; 9; 0]]%Q 0%Q ;;
  x_C_17 <- t_extract_m TyD noacc (MVal x_mask4x3) REPLACE x_C_16 (Trn x_A) (IdxArr [3; 0; 1; 0])
    (IdxArr [2; 0; 2]) ;;
  x_answer_8 <- mdense0 TyD [[0; 0; 0]; [4; 8; 0]; [0; 0; 0]; [0; 0; 0]]%Q 0%Q ;;
  x_q_8 <- meq x_C_17 x_answer_8 ;;
  _ <- check x_q_8 ;;
  x_C_18 <- mdense0 TyD [[9; 9; 9]; [9; 9; 9]; [9; 9; 9]; [9; 9; 0]]%Q 0%Q ;;
  x_C_19 <- t_extract_m TyD noacc (MVal x_mask4x3) MERGE x_C_18 (Trn x_A) (IdxArr [3; 0; 1; 0])
    (IdxArr [2; 0; 2]) ;;
  x_answer_9 <- mdense0 TyD [[0; 0; 0]; [4; 8; 9]; [0; 9; 9]; [9; 9; 0]]%Q 0%Q ;;
  x_q_9 <- meq x_C_19 x_answer_9 ;;
  _ <- check x_q_9 ;;
  Ok tt) = Ok tt.
Proof. vm_compute. reflexivity. Qed.

(** test_extract_stdmat.cpp:901-1051 *)
Example extract_stdmat_test_noscmp_accum_notrans :
 (x_A <- mdense0 TyD [[8; 1; 6; 0]; [0; 5; 7; 9]; [4; 0; 2; 0]]%Q 0%Q ;;
  x_mask2x3 <- mdense0 (TyU 8) [[1; 1; 0]; [1; 99; 0]]%Q 99%Q ;;
  x_mask3x4 <- mdense0 (TyU 8) [[1; 1; 1; 0]; [1; 1; 99; 0]; [1; 99; 99; 0]]%Q 99%Q ;;
  x_C <- mdense0 TyD [[9; 9; 9; 9]; [9; 9; 9; 9]; [9; 9; 9; 0]]%Q 0%Q ;;
  x_C_1 <- t_extract_m TyD (acc TyD qplus) (MVal x_mask3x4) REPLACE x_C (Mat x_A) AllIdx AllIdx ;;
  x_answer <- mdense0 TyD [[17; 10; 15; 0]; [9; 14; 0; 0]; [13; 0; 0; 0]]%Q 0%Q ;;
  x_q <- meq x_C_1 x_answer ;;
  _ <- check x_q ;;
  x_C_2 <- mdense0 TyD [[9; 9; 9; 9]; [9; 9; 9; 9]; [9; 9; 9; 0]]%Q 0%Q ;;
  x_C_3 <- t_extract_m TyD (acc TyD qplus) (MVal x_mask3x4) MERGE x_C_2 (Mat x_A) AllIdx AllIdx ;;
  x_answer_1 <- mdense0 TyD [[17; 10; 15; 9]; [9; 14; 9; 9]; [13; 9; 9; 0]]%Q 0%Q ;;
  x_q_1 <- meq x_C_3 x_answer_1 ;;
  _ <- check x_q_1 ;;
  x_C_4 <- mdense0 TyD [[9; 9; 9]; [9; 9; 0]]%Q 0%Q ;;
  x_C_5 <- t_extract_m TyD (acc TyD qplus) (MVal x_mask2x3) REPLACE x_C_4 (Mat x_A) (IdxArr [0; 2])
    (IdxArr [0; 1; 3]) ;;
  x_answer_2 <- mdense0 TyD [[17; 10; 0]; [13; 0; 0]]%Q 0%Q ;;
  x_q_2 <- meq x_C_5 x_answer_2 ;;
  _ <- check x_q_2 ;;
  x_C_6 <- mdense0 TyD [[9; 9; 9]; [9; 9; 0]]%Q 0%Q ;;
  x_C_7 <- t_extract_m TyD (acc TyD qplus) (MVal x_mask2x3) MERGE x_C_6 (Mat x_A) (IdxArr [0; 2])
    (IdxArr [0; 1; 3]) ;;
  x_answer_3 <- mdense0 TyD [[17; 10; 9]; [13; 9; 0]]%Q 0%Q ;;
  x_q_3 <- meq x_C_7 x_answer_3 ;;
  _ <- check x_q_3 ;;
  x_C_8 <- mdense0 TyD [[9; 9; 9]; [9; 9; 0]]%Q 0%Q ;;
  x_C_9 <- t_extract_m TyD (acc TyD qplus) (MVal x_mask2x3) REPLACE x_C_8 (Mat x_A) (IdxArr [2; 0])
    (IdxArr [3; 0; 1]) ;;
  x_answer_4 <- mdense0 TyD [[9; 13; 0]; [9; 0; 0]]%Q 0%Q ;;
  x_q_4 <- meq x_C_9 x_answer_4 ;;
  _ <- check x_q_4 ;;
  x_C_10 <- mdense0 TyD [[9; 9; 9]; [9; 9; 0]]%Q 0%Q ;;
  x_C_11 <- t_extract_m TyD (acc TyD qplus) (MVal x_mask2x3) MERGE x_C_10 (Mat x_A) (IdxArr [2; 0])
    (IdxArr [3; 0; 1]) ;;
  x_answer_5 <- mdense0 TyD [[9; 13; 9]; [9; 9; 0]]%Q 0%Q ;;
  x_q_5 <- meq x_C_11 x_answer_5 ;;
  _ <- check x_q_5 ;;
  x_C_12 <- mdense0 TyD [[9; 9; 9; 9]; [9; 9; 9; 9]; [9; 9; 9; 0]]%Q 0%Q ;;
  x_C_13 <- t_extract_m TyD (acc TyD qplus) (MVal x_mask3x4) REPLACE x_C_12 (Mat x_A) (IdxArr [0; 0;
    2]) (IdxArr [0; 1; 1; 3]) ;;
  x_answer_6 <- mdense0 TyD [[17; 10; 10; 0]; [17; 10; 0; 0]; [13; 0; 0; 0]]%Q 0%Q ;;
  x_q_6 <- meq x_C_13 x_answer_6 ;;
  _ <- check x_q_6 ;;
  x_C_14 <- mdense0 TyD [[9; 9; 9; 9]; [9; 9; 9; 9]; [9; 9; 9; 0]]%Q 0%Q ;;
  x_C_15 <- t_extract_m TyD (acc TyD qplus) (MVal x_mask3x4) MERGE x_C_14 (Mat x_A) (IdxArr [0; 0;
    2]) (IdxArr [0; 1; 1; 3]) ;;
  x_answer_7 <- mdense0 TyD [[17; 10; 10; 9]; [17; 10; 9; 9]; [13; 9; 9; 0]]%Q 0%Q ;;
  x_q_7 <- meq x_C_15 x_answer_7 ;;
  _ <- check x_q_7 ;;
  x_C_16 <- mdense0 TyD [[9; 9; 9; 9]; [9; 9; 9; 9]; [9; 9; 9; 0]]%Q 0%Q ;;
  x_C_17 <- t_extract_m TyD (acc TyD qplus) (MVal x_mask3x4) REPLACE x_C_16 (Mat x_A) (IdxArr [2; 0;
    2]) (IdxArr [3; 0; 1; 0]) ;;
  x_answer_8 <- mdense0 TyD [[9; 13; 9; 0]; [9; 17; 0; 0]; [9; 0; 0; 0]]%Q 0%Q ;;
  x_q_8 <- meq x_C_17 x_answer_8 ;;
  _ <- check x_q_8 ;;
  x_C_18 <- mdense0 TyD [[9; 9; 9; 9]; [9; 9; 9; 9]; [9; 9; 9; 0]]%Q 0%Q ;;
  x_C_19 <- t_extract_m TyD (acc TyD qplus) (MVal x_mask3x4) MERGE x_C_18 (Mat x_A) (IdxArr [2; 0;
    2]) (IdxArr [3; 0; 1; 0]) ;;
  x_answer_9 <- mdense0 TyD [[9; 13; 9; 9]; [9; 17; 9; 9]; [9; 9; 9; 0]]%Q 0%Q ;;
  x_q_9 <- meq x_C_19 x_answer_9 ;;
  _ <- check x_q_9 ;;
  Ok tt) = Ok tt.
Proof. vm_compute. reflexivity. Qed.

(** test_extract_stdmat.cpp:1054-1219 *)
Example extract_stdmat_test_noscmp_accum_trans :
 (x_A <- mdense0 TyD [[8; 1; 6; 0]; [0; 5; 7; 9]; [4; 0; 2; 0]]%Q 0%Q ;;
  x_mask3x2 <- mdense0 (TyU 8) [[1; 1]; [1; 99]; [0; 0]]%Q 99%Q ;;
  x_mask4x3 <- mdense0 (TyU 8) [[1; 1; 1]; [1; 1; 99]; [1; 99; 99]; [0; 0; 0]]%Q 99%Q ;;
  x_C <- mdense0 TyD [[9; 9; 9]; [9; 9; 9]; [9; 9; 9]; [9; 9; 0]]%Q 0%Q ;;
  x_C_1 <- t_extract_m TyD (acc TyD qplus) (MVal x_mask4x3) REPLACE x_C (Trn x_A) AllIdx AllIdx ;;
  x_answer <- mdense0 TyD [[17; 9; 13]; [10; 14; 0]; [15; 0; 0]; [0; 0; 0]]%Q 0%Q ;;
  x_q <- meq x_C_1 x_answer ;;
  _ <- check x_q ;;
  x_C_2 <- mdense0 TyD [[9; 9; 9]; [9; 9; 9]; [9; 9; 9]; [9; 9; 0]]%Q 0%Q ;;
  x_C_3 <- t_extract_m TyD (acc TyD qplus) (MVal x_mask4x3) MERGE x_C_2 (Trn x_A) AllIdx AllIdx ;;
  x_answer_1 <- mdense0 TyD [[17; 9; 13]; [10; 14; 9]; [15; 9; 9]; [9; 9; 0]]%Q 0%Q ;;
  x_q_1 <- meq x_C_3 x_answer_1 ;;
  _ <- check x_q_1 ;;
  x_C_4 <- mdense0 TyD [[9; 9]; [9; 9]; [9; 0]]%Q 0%Q ;;
  x_C_5 <- t_extract_m TyD (acc TyD qplus) (MVal x_mask3x2) REPLACE x_C_4 (Trn x_A) (IdxArr [0; 1;
    3]) (IdxArr [0; 2]) ;;
  x_answer_2 <- mdense0 TyD [[17; 13]; [10; 0]; [0; 0]]%Q 0%Q ;;
  x_q_2 <- meq x_C_5 x_answer_2 ;;
  _ <- check x_q_2 ;;
  x_C_6 <- mdense0 TyD [[9; 9]; [9; 9]; [9; 0]]%Q 0%Q ;;
  x_C_7 <- t_extract_m TyD (acc TyD qplus) (MVal x_mask3x2) MERGE x_C_6 (Trn x_A) (IdxArr [0; 1; 3])
    (IdxArr [0; 2]) ;;
  x_answer_3 <- mdense0 TyD [[17; 13]; [10; 9]; [9; 0]]%Q 0%Q ;;
  x_q_3 <- meq x_C_7 x_answer_3 ;;
  _ <- check x_q_3 ;;
  x_C_8 <- mdense0 TyD [[9; 9]; [9; 9]; [9; 0]]%Q 0%Q ;;
  x_C_9 <- t_extract_m TyD (acc TyD qplus) (MVal x_mask3x2) REPLACE x_C_8 (Trn x_A) (IdxArr [3; 0;
    1]) (IdxArr [2; 0]) ;;
  x_answer_4 <- mdense0 TyD [[9; 9]; [13; 0]; [0; 0]]%Q 0%Q ;;
  x_q_4 <- meq x_C_9 x_answer_4 ;;
  _ <- check x_q_4 ;;
  x_C_10 <- mdense0 TyD [[9; 9]; [9; 9]; [9; 0]]%Q 0%Q ;;
  x_C_11 <- t_extract_m TyD (acc TyD qplus) (MVal x_mask3x2) MERGE x_C_10 (Trn x_A) (IdxArr [3; 0;
    1]) (IdxArr [2; 0]) ;;
  x_answer_5 <- mdense0 TyD [[9; 9]; [13; 9]; [9; 0]]%Q 0%Q ;;
  x_q_5 <- meq x_C_11 x_answer_5 ;;
  _ <- check x_q_5 ;;
  x_C_12 <- mdense0 TyD [[9; 9; 9]; [9; 9; 9]; [9; 9; 9]; [9; 9; 0]]%Q 0%Q ;;
  x_C_13 <- t_extract_m TyD (acc TyD qplus) (MVal x_mask4x3) REPLACE x_C_12 (Trn x_A) (IdxArr [0; 1;
    1; 3]) (IdxArr [0; 0; 2]) ;;
  x_answer_6 <- mdense0 TyD [[17; 17; 13]; [10; 10; 0]; [10; 0; 0]; [0; 0; 0]]%Q 0%Q ;;
  x_q_6 <- meq x_C_13 x_answer_6 ;;
  _ <- check x_q_6 ;;
  x_C_14 <- mdense0 TyD [[9; 9; 9]; [9; 9; 9]; [9; 9; 9]; [9; 9; 0]]%Q 0%Q ;;
  x_C_15 <- t_extract_m TyD (acc TyD qplus) (MVal x_mask4x3) MERGE x_C_14 (Trn x_A) (IdxArr [0; 1;
    1; 3]) (IdxArr [0; 0; 2]) ;;
  x_answer_7 <- mdense0 TyD [[17; 17; 13]; [10; 10; 9]; [10; 9; 9]; [9; 9; 0]]%Q 0%Q ;;
  x_q_7 <- meq x_C_15 x_answer_7 ;;
  _ <- check x_q_7 ;;
  x_C_16 <- mdense0 TyD [[9; 9; 9]; [9; 9; 9]; [9; 9; 9]; [9; 9; 0]]%Q 0%Q ;;
  x_C_17 <- t_extract_m TyD (acc TyD qplus) (MVal x_mask4x3) REPLACE x_C_16 (Trn x_A) (IdxArr [3; 0;
    1; 0]) (IdxArr [2; 0; 2]) ;;
  x_answer_8 <- mdense0 TyD [[9; 9; 9]; [13; 17; 0]; [9; 0; 0]; [0; 0; 0]]%Q 0%Q ;;
  x_q_8 <- meq x_C_17 x_answer_8 ;;
  _ <- check x_q_8 ;;
  x_C_18 <- mdense0 TyD [[9; 9; 9]; [9; 9; 9]; [9; 9; 9]; [9; 9; 0]]%Q 0%Q ;;
  x_C_19 <- t_extract_m TyD (acc TyD qplus) (MVal x_mask4x3) MERGE x_C_18 (Trn x_A) (IdxArr [3; 0;
    1; 0]) (IdxArr [2; 0; 2]) ;;
  x_answer_9 <- mdense0 TyD [[9; 9; 9]; [13; 17; 9]; [9; 9; 9]; [9; 9; 0]]%Q 0%Q ;;
  x_q_9 <- meq x_C_19 x_answer_9 ;;
  _ <- check x_q_9 ;;
  Ok tt) = Ok tt.
Proof. vm_compute. reflexivity. Qed.

(** test_extract_stdmat.cpp:1222-1373 *)
Example extract_stdmat_test_scmp_noaccum_notrans :
 (x_A <- mdense0 TyD [[8; 1; 6; 0]; [0; 5; 7; 9]; [4; 0; 2; 0]]%Q 0%Q ;;
  x_mask2x3 <- mdense0 (TyU 8) [[0; 99; 1]; [0; 1; 1]]%Q 99%Q ;;
  x_mask3x4 <- mdense0 (TyU 8) [[0; 99; 99; 1]; [0; 99; 1; 1]; [0; 1; 1; 1]]%Q 99%Q ;;
  x_C <- mdense0 TyD [[9; 9; 9; 9]; [9; 9; 9; 9]; [9; 9; 9; 0]]%Q 0%Q ;;
  x_C_1 <- t_extract_m TyD noacc (MComp x_mask3x4) REPLACE x_C (Mat x_A) AllIdx AllIdx ;;
  x_answer <- mdense0 TyD [[8; 1; 6; 0]; [0; 5; 0; 0]; [4; 0; 0; 0]]%Q 0%Q ;;
  x_q <- meq x_C_1 x_answer ;;
  _ <- check x_q ;;
  x_C_2 <- mdense0 TyD [[9; 9; 9; 9]; [9; 9; 9; 9]; [9; 9; 9; 0]]%Q 0%Q ;;
  x_C_3 <- t_extract_m TyD noacc (MComp x_mask3x4) MERGE x_C_2 (Mat x_A) AllIdx AllIdx ;;
  x_answer_1 <- mdense0 TyD [[8; 1; 6; 9]; [0; 5; 9; 9]; [4; 9; 9; 0]]%Q 0%Q ;;
  x_q_1 <- meq x_C_3 x_answer_1 ;;
  _ <- check x_q_1 ;;
  x_C_4 <- mdense0 TyD [[9; 9; 9]; [9; 9; 0]]%Q 0%Q ;;
  x_C_5 <- t_extract_m TyD noacc (MComp x_mask2x3) REPLACE x_C_4 (Mat x_A) (IdxArr [0; 2]) (IdxArr
    [0; 1; 3]) ;;
  x_answer_2 <- mdense0 TyD [[8; 1; 0]; [4; 0; 0]]%Q 0%Q ;;
  x_q_2 <- meq x_C_5 x_answer_2 ;;
  _ <- check x_q_2 ;;
  x_C_6 <- mdense0 TyD [[9; 9; 9]; [9; 9; 0]]%Q 0%Q ;;
  x_C_7 <- t_extract_m TyD noacc (MComp x_mask2x3) MERGE x_C_6 (Mat x_A) (IdxArr [0; 2]) (IdxArr [0;
    1; 3]) ;;
  x_answer_3 <- mdense0 TyD [[8; 1; 9]; [4; 9; 0]]%Q 0%Q ;;
  x_q_3 <- meq x_C_7 x_answer_3 ;;
  _ <- check x_q_3 ;;
  x_C_8 <- mdense0 TyD [[9; 9; 9]; [9; 9; 0]]%Q 0%Q ;;
  x_C_9 <- t_extract_m TyD noacc (MComp x_mask2x3) REPLACE x_C_8 (Mat x_A) (IdxArr [2; 0]) (IdxArr
    [3; 0; 1]) ;;
  x_answer_4 <- mdense0 TyD [[0; 4; 0]; [0; 0; 0]]%Q 0%Q ;;
  x_q_4 <- meq x_C_9 x_answer_4 ;;
  _ <- check x_q_4 ;;
  x_C_10 <- mdense0 TyD [[9; 9; 9]; [9; 9; 0]]%Q 0%Q ;;
  x_C_11 <- t_extract_m TyD noacc (MComp x_mask2x3) MERGE x_C_10 (Mat x_A) (IdxArr [2; 0]) (IdxArr
    [3; 0; 1]) ;;
  x_answer_5 <- mdense0 TyD [[0; 4; 9]; [0; 9; 0]]%Q 0%Q ;;
  x_q_5 <- meq x_C_11 x_answer_5 ;;
  _ <- check x_q_5 ;;
  x_C_12 <- mdense0 TyD [[9; 9; 9; 9]; [9; 9; 9; 9]; [9; 9; 9; 0]]%Q 0%Q ;;
  x_C_13 <- t_extract_m TyD noacc (MComp x_mask3x4) REPLACE x_C_12 (Mat x_A) (IdxArr [0; 0; 2])
    (IdxArr [0; 1; 1; 3]) ;;
  x_answer_6 <- mdense0 TyD [[8; 1; 1; 0]; [8; 1; 0; 0]; [4; 0; 0; 0]]%Q 0%Q ;;
  x_q_6 <- meq x_C_13 x_answer_6 ;;
  _ <- check x_q_6 ;;
  x_C_14 <- mdense0 TyD [[9; 9; 9; 9]; [9; 9; 9; 9]; [9; 9; 9; 0]]%Q 0%Q ;;
  x_C_15 <- t_extract_m TyD noacc (MComp x_mask3x4) MERGE x_C_14 (Mat x_A) (IdxArr [0; 0; 2])
    (IdxArr [0; 1; 1; 3]) ;;
  x_answer_7 <- mdense0 TyD [[8; 1; 1; 9]; [8; 1; 9; 9]; [4; 9; 9; 0]]%Q 0%Q ;;
  x_q_7 <- meq x_C_15 x_answer_7 ;;
  _ <- check x_q_7 ;;
  x_C_16 <- mdense0 TyD [[9; 9; 9; 9]; [9; 9; 9; 9]; [9; 9; 9; 0]]%Q 0%Q ;;
  x_C_17 <- t_extract_m TyD noacc (MComp x_mask3x4) REPLACE x_C_16 (Mat x_A) (IdxArr [2; 0; 2])
    (IdxArr [3; 0; 1; 0]) ;;
  x_answer_8 <- mdense0 TyD [[0; 4; 0; 0]; [0; 8; 0; 0]; [0; 0; 0; 0]]%Q 0%Q ;;
  x_q_8 <- meq x_C_17 x_answer_8 ;;
  _ <- check x_q_8 ;;
  x_C_18 <- mdense0 TyD [[9; 9; 9; 9]; [9; 9; 9; 9]; [9; 9; 9; 0]]%Q 0%Q ;;
  x_C_19 <- t_extract_m TyD noacc (MComp x_mask3x4) MERGE x_C_18 (Mat x_A) (IdxArr [2; 0; 2])
    (IdxArr [3; 0; 1; 0]) ;;
  x_answer_9 <- mdense0 TyD [[0; 4; 0; 9]; [0; 8; 9; 9]; [0; 9; 9; 0]]%Q 0%Q ;;
  x_q_9 <- meq x_C_19 x_answer_9 ;;
  _ <- check x_q_9 ;;
  Ok tt) = Ok tt.
Proof. vm_compute. reflexivity. Qed.

(** test_extract_stdmat.cpp:1376-1541 *)
Example extract_stdmat_test_scmp_noaccum_trans :
 (x_A <- mdense0 TyD [[8; 1; 6; 0]; [0; 5; 7; 9]; [4; 0; 2; 0]]%Q 0%Q ;;
  x_mask3x2 <- mdense0 (TyU 8) [[0; 0]; [99; 1]; [1; 1]]%Q 99%Q ;;
  x_mask4x3 <- mdense0 (TyU 8) [[0; 0; 0]; [99; 99; 1]; [99; 1; 1]; [1; 1; 1]]%Q 99%Q ;;
  x_C <- mdense0 TyD [[9; 9; 9]; [9; 9; 9]; [9; 9; 9]; [9; 9; 0]]%Q 0%Q ;;
  x_C_1 <- t_extract_m TyD noacc (MComp x_mask4x3) REPLACE x_C (Trn x_A) AllIdx AllIdx ;;
  x_answer <- mdense0 TyD [[8; 0; 4]; [1; 5; 0]; [6; 0; 0]; [0; 0; 0]]%Q 0%Q ;;
  x_q <- meq x_C_1 x_answer ;;
  _ <- check x_q ;;
  x_C_2 <- mdense0 TyD [[9; 9; 9]; [9; 9; 9]; [9; 9; 9]; [9; 9; 0]]%Q 0%Q ;;
  x_C_3 <- t_extract_m TyD noacc (MComp x_mask4x3) MERGE x_C_2 (Trn x_A) AllIdx AllIdx ;;
  x_answer_1 <- mdense0 TyD [[8; 0; 4]; [1; 5; 9]; [6; 9; 9]; [9; 9; 0]]%Q 0%Q ;;
  x_q_1 <- meq x_C_3 x_answer_1 ;;
  _ <- check x_q_1 ;;
  x_C_4 <- mdense0 TyD [[9; 9]; [9; 9]; [9; 0]]%Q 0%Q ;;
  x_C_5 <- t_extract_m TyD noacc (MComp x_mask3x2) REPLACE x_C_4 (Trn x_A) (IdxArr [0; 1; 3])
    (IdxArr [0; 2]) ;;
  x_answer_2 <- mdense0 TyD [[8; 4]; [1; 0]; [0; 0]]%Q 0%Q ;;
  x_q_2 <- meq x_C_5 x_answer_2 ;;
  _ <- check x_q_2 ;;
  x_C_6 <- mdense0 TyD [[9; 9]; [9; 9]; [9; 0]]%Q 0%Q ;;
  x_C_7 <- t_extract_m TyD noacc (MComp x_mask3x2) MERGE x_C_6 (Trn x_A) (IdxArr [0; 1; 3]) (IdxArr
    [0; 2]) ;;
  x_answer_3 <- mdense0 TyD [[8; 4]; [1; 9]; [9; 0]]%Q 0%Q ;;
  x_q_3 <- meq x_C_7 x_answer_3 ;;
  _ <- check x_q_3 ;;
  x_C_8 <- mdense0 TyD [[9; 9]; [9; 9]; [9; 0]]%Q 0%Q ;;
  x_C_9 <- t_extract_m TyD noacc (MComp x_mask3x2) REPLACE x_C_8 (Trn x_A) (IdxArr [3; 0; 1])
    (IdxArr [2; 0]) ;;
  x_answer_4 <- mdense0 TyD [[0; 0]; [4; 0]; [0; 0]]%Q 0%Q ;;
  x_q_4 <- meq x_C_9 x_answer_4 ;;
  _ <- check x_q_4 ;;
  x_C_10 <- mdense0 TyD [[9; 9]; [9; 9]; [9; 0]]%Q 0%Q ;;
  x_C_11 <- t_extract_m TyD noacc (MComp x_mask3x2) MERGE x_C_10 (Trn x_A) (IdxArr [3; 0; 1])
    (IdxArr [2; 0]) ;;
  x_answer_5 <- mdense0 TyD [[0; 0]; [4; 9]; [9; 0]]%Q 0%Q ;;
  x_q_5 <- meq x_C_11 x_answer_5 ;;
  _ <- check x_q_5 ;;
  x_C_12 <- mdense0 TyD [[9; 9; 9]; [9; 9; 9]; [9; 9; 9]; [9; 9; 0]]%Q 0%Q ;;
  x_C_13 <- t_extract_m TyD noacc (MComp x_mask4x3) REPLACE x_C_12 (Trn x_A) (IdxArr [0; 1; 1; 3])
    (IdxArr [0; 0; 2]) ;;
  x_answer_6 <- mdense0 TyD [[8; 8; 4]; [1; 1; 0]; [1; 0; 0]; [0; 0; 0]]%Q 0%Q ;;
  x_q_6 <- meq x_C_13 x_answer_6 ;;
  _ <- check x_q_6 ;;
  x_C_14 <- mdense0 TyD [[9; 9; 9]; [9; 9; 9]; [9; 9; 9]; [9; 9; 0]]%Q 0%Q ;;
  x_C_15 <- t_extract_m TyD noacc (MComp x_mask4x3) MERGE x_C_14 (Trn x_A) (IdxArr [0; 1; 1; 3])
    (IdxArr [0; 0; 2]) ;;
  x_answer_7 <- mdense0 TyD [[8; 8; 4]; [1; 1; 9]; [1; 9; 9]; [9; 9; 0]]%Q 0%Q ;;
  x_q_7 <- meq x_C_15 x_answer_7 ;;
  _ <- check x_q_7 ;;
  x_C_16 <- mdense0 TyD [[9; 9; 9]; [9; 9; 9]; [9; 9; 9]; [9; 9; 0]]%Q 0%Q ;;
  x_C_17 <- t_extract_m TyD noacc (MComp x_mask4x3) REPLACE x_C_16 (Trn x_A) (IdxArr [3; 0; 1; 0])
    (IdxArr [2; 0; 2]) ;;
  x_answer_8 <- mdense0 TyD [[0; 0; 0]; [4; 8; 0]; [0; 0; 0]; [0; 0; 0]]%Q 0%Q ;;
  x_q_8 <- meq x_C_17 x_answer_8 ;;
  _ <- check x_q_8 ;;
  x_C_18 <- mdense0 TyD [[9; 9; 9]; [9; 9; 9]; [9; 9; 9]; [9; 9; 0]]%Q 0%Q ;;
  x_C_19 <- t_extract_m TyD noacc (MComp x_mask4x3) MERGE x_C_18 (Trn x_A) (IdxArr [3; 0; 1; 0])
    (IdxArr [2; 0; 2]) ;;
  x_answer_9 <- mdense0 TyD [[0; 0; 0]; [4; 8; 9]; [0; 9; 9]; [9; 9; 0]]%Q 0%Q ;;
  x_q_9 <- meq x_C_19 x_answer_9 ;;
  _ <- check x_q_9 ;;
  Ok tt) = Ok tt.
Proof. vm_compute. reflexivity. Qed.

(** test_extract_stdmat.cpp:1544-1694 *)
Example extract_stdmat_test_scmp_accum_notrans :
 (x_A <- mdense0 TyD [[8; 1; 6; 0]; [0; 5; 7; 9]; [4; 0; 2; 0]]%Q 0%Q ;;
  x_mask2x3 <- mdense0 (TyU 8) [[0; 99; 1]; [0; 1; 1]]%Q 99%Q ;;
  x_mask3x4 <- mdense0 (TyU 8) [[0; 99; 99; 1]; [0; 99; 1; 1]; [0; 1; 1; 1]]%Q 99%Q ;;
  x_C <- mdense0 TyD [[9; 9; 9; 9]; [9; 9; 9; 9]; [9; 9; 9; 0]]%Q 0%Q ;;
  x_C_1 <- t_extract_m TyD (acc TyD qplus) (MComp x_mask3x4) REPLACE x_C (Mat x_A) AllIdx AllIdx ;;
  x_answer <- mdense0 TyD [[17; 10; 15; 0]; [9; 14; 0; 0]; [13; 0; 0; 0]]%Q 0%Q ;;
  x_q <- meq x_C_1 x_answer ;;
  _ <- check x_q ;;
  x_C_2 <- mdense0 TyD [[9; 9; 9; 9]; [9; 9; 9; 9]; [9; 9; 9; 0]]%Q 0%Q ;;
  x_C_3 <- t_extract_m TyD (acc TyD qplus) (MComp x_mask3x4) MERGE x_C_2 (Mat x_A) AllIdx AllIdx ;;
  x_answer_1 <- mdense0 TyD [[17; 10; 15; 9]; [9; 14; 9; 9]; [13; 9; 9; 0]]%Q 0%Q ;;
  x_q_1 <- meq x_C_3 x_answer_1 ;;
  _ <- check x_q_1 ;;
  x_C_4 <- mdense0 TyD [[9; 9; 9]; [9; 9; 0]]%Q 0%Q ;;
  x_C_5 <- t_extract_m TyD (acc TyD qplus) (MComp x_mask2x3) REPLACE x_C_4 (Mat x_A) (IdxArr [0; 2])
    (IdxArr [0; 1; 3]) ;;
  x_answer_2 <- mdense0 TyD [[17; 10; 0]; [13; 0; 0]]%Q 0%Q ;;
  x_q_2 <- meq x_C_5 x_answer_2 ;;
  _ <- check x_q_2 ;;
  x_C_6 <- mdense0 TyD [[9; 9; 9]; [9; 9; 0]]%Q 0%Q ;;
  x_C_7 <- t_extract_m TyD (acc TyD qplus) (MComp x_mask2x3) MERGE x_C_6 (Mat x_A) (IdxArr [0; 2])
    (IdxArr [0; 1; 3]) ;;
  x_answer_3 <- mdense0 TyD [[17; 10; 9]; [13; 9; 0]]%Q 0%Q ;;
  x_q_3 <- meq x_C_7 x_answer_3 ;;
  _ <- check x_q_3 ;;
  x_C_8 <- mdense0 TyD [[9; 9; 9]; [9; 9; 0]]%Q 0%Q ;;
  x_C_9 <- t_extract_m TyD (acc TyD qplus) (MComp x_mask2x3) REPLACE x_C_8 (Mat x_A) (IdxArr [2; 0])
    (IdxArr [3; 0; 1]) ;;
  x_answer_4 <- mdense0 TyD [[9; 13; 0]; [9; 0; 0]]%Q 0%Q ;;
  x_q_4 <- meq x_C_9 x_answer_4 ;;
  _ <- check x_q_4 ;;
  x_C_10 <- mdense0 TyD [[9; 9; 9]; [9; 9; 0]]%Q 0%Q ;;
  x_C_11 <- t_extract_m TyD (acc TyD qplus) (MComp x_mask2x3) MERGE x_C_10 (Mat x_A) (IdxArr [2; 0])
    (IdxArr [3; 0; 1]) ;;
  x_answer_5 <- mdense0 TyD [[9; 13; 9]; [9; 9; 0]]%Q 0%Q ;;
  x_q_5 <- meq x_C_11 x_answer_5 ;;
  _ <- check x_q_5 ;;
  x_C_12 <- mdense0 TyD [[9; 9; 9; 9]; [9; 9; 9; 9]; [9; 9; 9; 0]]%Q 0%Q ;;
  x_C_13 <- t_extract_m TyD (acc TyD qplus) (MComp x_mask3x4) REPLACE x_C_12 (Mat x_A) (IdxArr [0;
    0; 2]) (IdxArr [0; 1; 1; 3]) ;;
  x_answer_6 <- mdense0 TyD [[17; 10; 10; 0]; [17; 10; 0; 0]; [13; 0; 0; 0]]%Q 0%Q ;;
  x_q_6 <- meq x_C_13 x_answer_6 ;;
  _ <- check x_q_6 ;;
  x_C_14 <- mdense0 TyD [[9; 9; 9; 9]; [9; 9; 9; 9]; [9; 9; 9; 0]]%Q 0%Q ;;
  x_C_15 <- t_extract_m TyD (acc TyD qplus) (MComp x_mask3x4) MERGE x_C_14 (Mat x_A) (IdxArr [0; 0;
    2]) (IdxArr [0; 1; 1; 3]) ;;
  x_answer_7 <- mdense0 TyD [[17; 10; 10; 9]; [17; 10; 9; 9]; [13; 9; 9; 0]]%Q 0%Q ;;
  x_q_7 <- meq x_C_15 x_answer_7 ;;
  _ <- check x_q_7 ;;
  x_C_16 <- mdense0 TyD [[9; 9; 9; 9]; [9; 9; 9; 9]; [9; 9; 9; 0]]%Q 0%Q ;;
  x_C_17 <- t_extract_m TyD (acc TyD qplus) (MComp x_mask3x4) REPLACE x_C_16 (Mat x_A) (IdxArr [2;
    0; 2]) (IdxArr [3; 0; 1; 0]) ;;
  x_answer_8 <- mdense0 TyD [[9; 13; 9; 0]; [9; 17; 0; 0]; [9; 0; 0; 0]]%Q 0%Q ;;
  x_q_8 <- meq x_C_17 x_answer_8 ;;
  _ <- check x_q_8 ;;
  x_C_18 <- mdense0 TyD [[9; 9; 9; 9]; [9; 9; 9; 9]; [9; 9; 9; 0]]%Q 0%Q ;;
  x_C_19 <- t_extract_m TyD (acc TyD qplus) (MComp x_mask3x4) MERGE x_C_18 (Mat x_A) (IdxArr [2; 0;
    2]) (IdxArr [3; 0; 1; 0]) ;;
  x_answer_9 <- mdense0 TyD [[9; 13; 9; 9]; [9; 17; 9; 9]; [9; 9; 9; 0]]%Q 0%Q ;;
  x_q_9 <- meq x_C_19 x_answer_9 ;;
  _ <- check x_q_9 ;;
  Ok tt) = Ok tt.
Proof. vm_compute. reflexivity. Qed.

(** test_extract_stdmat.cpp:1697-1862 *)
Example extract_stdmat_test_scmp_accum_trans :
 (x_A <- mdense0 TyD [[8; 1; 6; 0]; [0; 5; 7; 9]; [4; 0; 2; 0]]%Q 0%Q ;;
  x_mask3x2 <- mdense0 (TyU 8) [[0; 0]; [99; 1]; [1; 1]]%Q 99%Q ;;
  x_mask4x3 <- mdense0 (TyU 8) [[0; 0; 0]; [99; 99; 1]; [99; 1; 1]; [1; 1; 1]]%Q 99%Q ;;
  x_C <- mdense0 TyD [[9; 9; 9]; [9; 9; 9]; [9; 9; 9]; [9; 9; 0]]%Q 0%Q ;;
  x_C_1 <- t_extract_m TyD (acc TyD qplus) (MComp x_mask4x3) REPLACE x_C (Trn x_A) AllIdx AllIdx ;;
  x_answer <- mdense0 TyD [[17; 9; 13]; [10; 14; 0]; [15; 0; 0]; [0; 0; 0]]%Q 0%Q ;;
  x_q <- meq x_C_1 x_answer ;;
  _ <- check x_q ;;
  x_C_2 <- mdense0 TyD [[9; 9; 9]; [9; 9; 9]; [9; 9; 9]; [9; 9; 0]]%Q 0%Q ;;
  x_C_3 <- t_extract_m TyD (acc TyD qplus) (MComp x_mask4x3) MERGE x_C_2 (Trn x_A) AllIdx AllIdx ;;
  x_answer_1 <- mdense0 TyD [[17; 9; 13]; [10; 14; 9]; [15; 9; 9]; [9; 9; 0]]%Q 0%Q ;;
  x_q_1 <- meq x_C_3 x_answer_1 ;;
  _ <- check x_q_1 ;;
  x_C_4 <- mdense0 TyD [[9; 9]; [9; 9]; [9; 0]]%Q 0%Q ;;
  x_C_5 <- t_extract_m TyD (acc TyD qplus) (MComp x_mask3x2) REPLACE x_C_4 (Trn x_A) (IdxArr [0; 1;
    3]) (IdxArr [0; 2]) ;;
  x_answer_2 <- mdense0 TyD [[17; 13]; [10; 0]; [0; 0]]%Q 0%Q ;;
  x_q_2 <- meq x_C_5 x_answer_2 ;;
  _ <- check x_q_2 ;;
  x_C_6 <- mdense0 TyD [[9; 9]; [9; 9]; [9; 0]]%Q 0%Q ;;
  x_C_7 <- t_extract_m TyD (acc TyD qplus) (MComp x_mask3x2) MERGE x_C_6 (Trn x_A) (IdxArr [0; 1;
    3]) (IdxArr [0; 2]) ;;
  x_answer_3 <- mdense0 TyD [[17; 13]; [10; 9]; [9; 0]]%Q 0%Q ;;
  x_q_3 <- meq x_C_7 x_answer_3 ;;
  _ <- check x_q_3 ;;
  x_C_8 <- mdense0 TyD [[9; 9]; [9; 9]; [9; 0]]%Q 0%Q ;;
  x_C_9 <- t_extract_m TyD (acc TyD qplus) (MComp x_mask3x2) REPLACE x_C_8 (Trn x_A) (IdxArr [3; 0;
    1]) (IdxArr [2; 0]) ;;
  x_answer_4 <- mdense0 TyD [[9; 9]; [13; 0]; [0; 0]]%Q 0%Q ;;
  x_q_4 <- meq x_C_9 x_answer_4 ;;
  _ <- check x_q_4 ;;
  x_C_10 <- mdense0 TyD [[9; 9]; [9; 9]; [9; 0]]%Q 0%Q ;;
  x_C_11 <- t_extract_m TyD (acc TyD qplus) (MComp x_mask3x2) MERGE x_C_10 (Trn x_A) (IdxArr [3; 0;
    1]) (IdxArr [2; 0]) ;;
  x_answer_5 <- mdense0 TyD [[9; 9]; [13; 9]; [9; 0]]%Q 0%Q ;;
  x_q_5 <- meq x_C_11 x_answer_5 ;;
  _ <- check x_q_5 ;;
  x_C_12 <- mdense0 TyD [[9; 9; 9]; [9; 9; 9]; [9; 9; 9]; [9; 9; 0]]%Q 0%Q ;;
  x_C_13 <- t_extract_m TyD (acc TyD qplus) (MComp x_mask4x3) REPLACE x_C_12 (Trn x_A) (IdxArr [0;
    1; 1; 3]) (IdxArr [0; 0; 2]) ;;
  x_answer_6 <- mdense0 TyD [[17; 17; 13]; [10; 10; 0]; [10; 0; 0]; [0; 0; 0]]%Q 0%Q ;;
  x_q_6 <- meq x_C_13 x_answer_6 ;;
  _ <- check x_q_6 ;;
  x_C_14 <- mdense0 TyD [[9; 9; 9]; [9; 9; 9]; [9; 9; 9]; [9; 9; 0]]%Q 0%Q ;;
  x_C_15 <- t_extract_m TyD (acc TyD qplus) (MComp x_mask4x3) MERGE x_C_14 (Trn x_A) (IdxArr [0; 1;
    1; 3]) (IdxArr [0; 0; 2]) ;;
  x_answer_7 <- mdense0 TyD [[17; 17; 13]; [10; 10; 9]; [10; 9; 9]; [9; 9; 0]]%Q 0%Q ;;
  x_q_7 <- meq x_C_15 x_answer_7 ;;
  _ <- check x_q_7 ;;
  x_C_16 <- mdense0 TyD [[9; 9; 9]; [9; 9; 9]; [9; 9; 9]; [9; 9; 0]]%Q 0%Q ;;
  x_C_17 <- t_extract_m TyD (acc TyD qplus) (MComp x_mask4x3) REPLACE x_C_16 (Trn x_A) (IdxArr [3;
    0; 1; 0]) (IdxArr [2; 0; 2]) ;;
  x_answer_8 <- mdense0 TyD [[9; 9; 9]; [13; 17; 0]; [9; 0; 0]; [0; 0; 0]]%Q 0%Q ;;
  x_q_8 <- meq x_C_17 x_answer_8 ;;
  _ <- check x_q_8 ;;
  x_C_18 <- mdense0 TyD [[9; 9; 9]; [9; 9; 9]; [9; 9; 9]; [9; 9; 0]]%Q 0%Q ;;
  x_C_19 <- t_extract_m TyD (acc TyD qplus) (MComp x_mask4x3) MERGE x_C_18 (Trn x_A) (IdxArr [3; 0;
    1; 0]) (IdxArr [2; 0; 2]) ;;
  x_answer_9 <- mdense0 TyD [[9; 9; 9]; [13; 17; 9]; [9; 9; 9]; [9; 9; 0]]%Q 0%Q ;;
  x_q_9 <- meq x_C_19 x_answer_9 ;;
  _ <- check x_q_9 ;;
  Ok tt) = Ok tt.
Proof. vm_compute. reflexivity. Qed.
