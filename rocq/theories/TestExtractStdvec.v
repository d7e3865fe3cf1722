(** The tests of /repo/src/test/test_extract_stdvec.cpp, run on the model.  Generated translation. *)
From Verif Require Import TestRun.


(** test_extract_stdvec.cpp:49-122 *)
Example extract_stdvec_test_bad_dimensions :
 (x_vU <- vdense TyD [1; 2; 3; 4; 5; 6]%Q ;;
  x_answer <- vdense TyD [1; 3; 5]%Q ;;
  x_mask <- vdense TyB [1; 1; 1]%Q ;;
  x_result <- vnew 3 ;;
  x_bad_result <- vnew 2 ;;
  _ <- throws DimensionException (t_extract_v TyD noacc (MVal x_mask) MERGE x_bad_result x_vU
    (IdxArr [0; 2; 1])) ;;
  x_bad_result_1 <- vnew 4 ;;
  _ <- throws DimensionException (t_extract_v TyD noacc (MVal x_mask) MERGE x_bad_result_1 x_vU
    (IdxArr [0; 2; 1])) ;;
  _ <- throws DimensionException (t_extract_v TyD noacc NoMask MERGE x_result x_vU (IdxArr [2; 1]))
    ;;
  _ <- throws DimensionException (t_extract_v TyD noacc NoMask MERGE x_result x_vU (IdxArr [2; 2; 1;
    0])) ;;
  Ok tt) = Ok tt.
Proof. vm_compute. reflexivity. Qed.

(** test_extract_stdvec.cpp:125-163 *)
Example extract_stdvec_test_index_out_of_bounds :
 (x_vU <- vdense TyD [1; 2; 3; 4; 5; 6]%Q ;;
  x_answer <- vdense TyD [1; 3; 5]%Q ;;
  x_mask <- vdense TyB [1; 1; 1]%Q ;;
  x_result <- vnew 3 ;;
  _ <- throws IndexOutOfBoundsException (t_extract_v TyD noacc (MVal x_mask) MERGE x_result x_vU
    (IdxArr [0; 7; 1])) ;;
  _ <- throws IndexOutOfBoundsException (t_extract_v TyD noacc NoMask MERGE x_result x_vU (IdxArr
    [0; 7; 1])) ;;
  Ok tt) = Ok tt.
Proof. vm_compute. reflexivity. Qed.

(** test_extract_stdvec.cpp:166-206 *)
Example extract_stdvec_test_allindices_too_small :
 (x_vU <- vdense0 TyD [4; 0; 2; 0]%Q 0%Q ;;
  x_answer <- vdense0 TyD [4; 0; 2]%Q 0%Q ;;
  x_result <- vnew 3 ;;
  x_result_1 <- t_extract_v TyD noacc NoMask MERGE x_result x_vU AllIdx ;;
  x_q <- veq x_result_1 x_answer ;;
  _ <- check x_q ;;
  x_answer_1 <- vdense0 TyD [4; 0; 2; 0; 0; 0]%Q 0%Q ;;
  x_result_2 <- vnew 6 ;;
  x_result_3 <- t_extract_v TyD noacc NoMask MERGE x_result_2 x_vU AllIdx ;;
  x_q_1 <- veq x_result_3 x_answer_1 ;;
  _ <- check x_q_1 ;;
  Ok tt) = Ok tt.
Proof. vm_compute. reflexivity. Qed.

(** test_extract_stdvec.cpp:224-311 *)
Example extract_stdvec_test_nomask_noaccum :
 (x_vU <- vdense0 TyD [4; 0; 2; 0]%Q 0%Q ;;
  x_answer <- vdense0 TyD [4; 0; 2; 0]%Q 0%Q ;;
  x_result <- vnew 4 ;;
  x_result_1 <- t_extract_v TyD noacc NoMask MERGE x_result x_vU AllIdx ;;
  x_q <- veq x_result_1 x_answer ;;
  _ <- check x_q ;;
  x_answer_1 <- vdense0 TyD [4; 2]%Q 0%Q ;;
  x_result_2 <- vnew 2 ;;
  x_result_3 <- t_extract_v TyD noacc NoMask MERGE x_result_2 x_vU (IdxArr [0; 2]) ;;
  x_q_1 <- veq x_result_3 x_answer_1 ;;
  _ <- check x_q_1 ;;
  x_answer_2 <- vdense0 TyD [2; 4]%Q 0%Q ;;
  x_result_4 <- vnew 2 ;;
  x_result_5 <- t_extract_v TyD noacc NoMask MERGE x_result_4 x_vU (IdxArr [2; 0]) ;;
  x_q_2 <- veq x_result_5 x_answer_2 ;;
  _ <- check x_q_2 ;;
  x_answer_3 <- vdense0 TyD [4; 0; 0; 2]%Q 0%Q ;;
  x_result_6 <- vnew 4 ;;
  x_result_7 <- t_extract_v TyD noacc NoMask MERGE x_result_6 x_vU (IdxArr [0; 1; 1; 2]) ;;
  x_q_3 <- veq x_result_7 x_answer_3 ;;
  _ <- check x_q_3 ;;
  x_answer_4 <- vdense0 TyD [4; 2; 2; 0]%Q 0%Q ;;
  x_result_8 <- vnew 4 ;;
  x_result_9 <- t_extract_v TyD noacc NoMask MERGE x_result_8 x_vU (IdxArr [0; 2; 2; 1]) ;;
  x_q_4 <- veq x_result_9 x_answer_4 ;;
  _ <- check x_q_4 ;;
  Ok tt) = Ok tt.
Proof. vm_compute. reflexivity. Qed.

(** test_extract_stdvec.cpp:314-396 *)
Example extract_stdvec_test_nomask_accum :
 (x_vU <- vdense TyD [4; 0; 2; 0]%Q ;;
  x_answer <- vdense0 TyD [13; 9; 11; 9]%Q 0%Q ;;
  x_result <- vdense0 TyD [9; 9; 9; 9]%Q 0%Q ;;
  x_result_1 <- t_extract_v TyD (acc TyD qplus) NoMask MERGE x_result x_vU AllIdx ;;
  x_q <- veq x_result_1 x_answer ;;
  _ <- check x_q ;;
  x_answer_1 <- vdense0 TyD [13; 9]%Q 0%Q ;;
  x_result_2 <- vdense0 TyD [9; 9]%Q 0%Q ;;
  x_result_3 <- t_extract_v TyD (acc TyD qplus) NoMask MERGE x_result_2 x_vU (IdxArr [0; 3]) ;;
  x_q_1 <- veq x_result_3 x_answer_1 ;;
  _ <- check x_q_1 ;;
  x_answer_2 <- vdense0 TyD [9; 13]%Q 0%Q ;;
  x_result_4 <- vdense0 TyD [9; 9]%Q 0%Q ;;
  x_result_5 <- t_extract_v TyD (acc TyD qplus) NoMask MERGE x_result_4 x_vU (IdxArr [3; 0]) ;;
  x_q_2 <- veq x_result_5 x_answer_2 ;;
  _ <- check x_q_2 ;;
  x_answer_3 <- vdense0 TyD [13; 9; 9; 11]%Q 0%Q ;;
  x_result_6 <- vdense0 TyD [9; 9; 9; 9]%Q 0%Q ;;
  x_result_7 <- t_extract_v TyD (acc TyD qplus) NoMask MERGE x_result_6 x_vU (IdxArr [0; 1; 1; 2])
    ;;
  x_q_3 <- veq x_result_7 x_answer_3 ;;
  _ <- check x_q_3 ;;
  x_answer_4 <- vdense0 TyD [13; 11; 11; 9]%Q 0%Q ;;
  x_result_8 <- vdense0 TyD [9; 9; 9; 9]%Q 0%Q ;;
  x_result_9 <- t_extract_v TyD (acc TyD qplus) NoMask MERGE x_result_8 x_vU (IdxArr [0; 2; 2; 1])
    ;;
  x_q_4 <- veq x_result_9 x_answer_4 ;;
  _ <- check x_q_4 ;;
  Ok tt) = Ok tt.
Proof. vm_compute. reflexivity. Qed.

(** test_extract_stdvec.cpp:399-556 *)
Example extract_stdvec_test_noscmp_noaccum :
 (x_vU <- vdense0 TyD [4; 0; 2; 0]%Q 0%Q ;;
  x_mask3 <- vdense0 (TyU 8) [1; 0; 99]%Q 99%Q ;;
  x_mask4 <- vdense0 (TyU 8) [1; 0; 99; 1]%Q 99%Q ;;
  x_answer <- vdense0 TyD [4; 0; 0; 0]%Q 0%Q ;;
  x_result <- vdense0 TyD [9; 9; 9; 9]%Q 0%Q ;;
  x_result_1 <- t_extract_v TyD noacc (MVal x_mask4) REPLACE x_result x_vU AllIdx ;;
  x_q <- veq x_result_1 x_answer ;;
  _ <- check x_q ;;
  x_answer_1 <- vdense0 TyD [4; 9; 9; 0]%Q 0%Q ;;
  x_result_2 <- vdense0 TyD [9; 9; 9; 9]%Q 0%Q ;;
  x_result_3 <- t_extract_v TyD noacc (MVal x_mask4) MERGE x_result_2 x_vU AllIdx ;;
  x_q_1 <- veq x_result_3 x_answer_1 ;;
  _ <- check x_q_1 ;;
  x_answer_2 <- vdense0 TyD [4; 0; 0]%Q 0%Q ;;
  x_result_4 <- vdense0 TyD [9; 9; 9]%Q 0%Q ;;
  x_result_5 <- t_extract_v TyD noacc (MVal x_mask3) REPLACE x_result_4 x_vU (IdxArr [0; 2; 3]) ;;
  x_q_2 <- veq x_result_5 x_answer_2 ;;
  _ <- check x_q_2 ;;
  x_answer_3 <- vdense0 TyD [4; 9; 9]%Q 0%Q ;;
  x_result_6 <- vdense0 TyD [9; 9; 9]%Q 0%Q ;;
  x_result_7 <- t_extract_v TyD noacc (MVal x_mask3) MERGE x_result_6 x_vU (IdxArr [0; 2; 3]) ;;
  x_q_3 <- veq x_result_7 x_answer_3 ;;
  _ <- check x_q_3 ;;
  x_answer_4 <- vdense0 TyD [2; 0; 0]%Q 0%Q ;;
  x_result_8 <- vdense0 TyD [9; 9; 9]%Q 0%Q ;;
  x_result_9 <- t_extract_v TyD noacc (MVal x_mask3) REPLACE x_result_8 x_vU (IdxArr [2; 3; 0]) ;;
  x_q_4 <- veq x_result_9 x_answer_4 ;;
  _ <- check x_q_4 ;;
  x_answer_5 <- vdense0 TyD [2; 9; 9]%Q 0%Q ;;
  x_result_10 <- vdense0 TyD [9; 9; 9]%Q 0%Q ;;
  x_result_11 <- t_extract_v TyD noacc (MVal x_mask3) MERGE x_result_10 x_vU (IdxArr [2; 3; 0]) ;;
  x_q_5 <- veq x_result_11 x_answer_5 ;;
  _ <- check x_q_5 ;;
  x_answer_6 <- vdense0 TyD [4; 0; 0; 0]%Q 0%Q ;;
  x_result_12 <- vdense0 TyD [9; 9; 9; 9]%Q 0%Q ;;
  x_result_13 <- t_extract_v TyD noacc (MVal x_mask4) REPLACE x_result_12 x_vU (IdxArr [0; 0; 2; 3])
    ;;
  x_q_6 <- veq x_result_13 x_answer_6 ;;
  _ <- check x_q_6 ;;
  x_answer_7 <- vdense0 TyD [4; 9; 9; 0]%Q 0%Q ;;
  x_result_14 <- vdense0 TyD [9; 9; 9; 9]%Q 0%Q ;;
  x_result_15 <- t_extract_v TyD noacc (MVal x_mask4) MERGE x_result_14 x_vU (IdxArr [0; 0; 2; 3])
    ;;
  x_q_7 <- veq x_result_15 x_answer_7 ;;
  _ <- check x_q_7 ;;
  x_answer_8 <- vdense0 TyD [2; 0; 0; 4]%Q 0%Q ;;
  x_result_16 <- vdense0 TyD [9; 9; 9; 9]%Q 0%Q ;;
  x_result_17 <- t_extract_v TyD noacc (MVal x_mask4) REPLACE x_result_16 x_vU (IdxArr [2; 3; 0; 0])
    ;;
  x_q_8 <- veq x_result_17 x_answer_8 ;;
  _ <- check x_q_8 ;;
  x_answer_9 <- vdense0 TyD [2; 9; 9; 4]%Q 0%Q ;;
  x_result_18 <- vdense0 TyD [9; 9; 9; 9]%Q 0%Q ;;
  x_result_19 <- t_extract_v TyD noacc (MVal x_mask4) MERGE x_result_18 x_vU (IdxArr [2; 3; 0; 0])
    ;;
  x_q_9 <- veq x_result_19 x_answer_9 ;;
  _ <- check x_q_9 ;;
  Ok tt) = Ok tt.
Proof. vm_compute. reflexivity. Qed.

(** test_extract_stdvec.cpp:559-714 *)
Example extract_stdvec_test_noscmp_accum :
 (x_vU <- vdense0 TyD [4; 0; 2; 0]%Q 0%Q ;;
  x_mask3 <- vdense0 (TyU 8) [1; 0; 99]%Q 99%Q ;;
  x_mask4 <- vdense0 (TyU 8) [1; 0; 99; 1]%Q 99%Q ;;
  x_answer <- vdense0 TyD [13; 0; 0; 9]%Q 0%Q ;;
  x_result <- vdense0 TyD [9; 9; 9; 9]%Q 0%Q ;;
  x_result_1 <- t_extract_v TyD (acc TyD qplus) (MVal x_mask4) REPLACE x_result x_vU AllIdx ;;
  x_q <- veq x_result_1 x_answer ;;
  _ <- check x_q ;;
  x_answer_1 <- vdense0 TyD [13; 9; 9; 9]%Q 0%Q ;;
  x_result_2 <- vdense0 TyD [9; 9; 9; 9]%Q 0%Q ;;
  x_result_3 <- t_extract_v TyD (acc TyD qplus) (MVal x_mask4) MERGE x_result_2 x_vU AllIdx ;;
  x_q_1 <- veq x_result_3 x_answer_1 ;;
  _ <- check x_q_1 ;;
  x_answer_2 <- vdense0 TyD [13; 0; 0]%Q 0%Q ;;
  x_result_4 <- vdense0 TyD [9; 9; 9]%Q 0%Q ;;
  x_result_5 <- t_extract_v TyD (acc TyD qplus) (MVal x_mask3) REPLACE x_result_4 x_vU (IdxArr [0;
    2; 3]) ;;
  x_q_2 <- veq x_result_5 x_answer_2 ;;
  _ <- check x_q_2 ;;
  x_answer_3 <- vdense0 TyD [13; 9; 9]%Q 0%Q ;;
  x_result_6 <- vdense0 TyD [9; 9; 9]%Q 0%Q ;;
  x_result_7 <- t_extract_v TyD (acc TyD qplus) (MVal x_mask3) MERGE x_result_6 x_vU (IdxArr [0; 2;
    3]) ;;
  x_q_3 <- veq x_result_7 x_answer_3 ;;
  _ <- check x_q_3 ;;
  x_answer_4 <- vdense0 TyD [11; 0; 0]%Q 0%Q ;;
  x_result_8 <- vdense0 TyD [9; 9; 9]%Q 0%Q ;;
  x_result_9 <- t_extract_v TyD (acc TyD qplus) (MVal x_mask3) REPLACE x_result_8 x_vU (IdxArr [2;
    3; 0]) ;;
  x_q_4 <- veq x_result_9 x_answer_4 ;;
  _ <- check x_q_4 ;;
  x_answer_5 <- vdense0 TyD [11; 9; 9]%Q 0%Q ;;
  x_result_10 <- vdense0 TyD [9; 9; 9]%Q 0%Q ;;
  x_result_11 <- t_extract_v TyD (acc TyD qplus) (MVal x_mask3) MERGE x_result_10 x_vU (IdxArr [2;
    3; 0]) ;;
  x_q_5 <- veq x_result_11 x_answer_5 ;;
  _ <- check x_q_5 ;;
  x_answer_6 <- vdense0 TyD [13; 0; 0; 9]%Q 0%Q ;;
  x_result_12 <- vdense0 TyD [9; 9; 9; 9]%Q 0%Q ;;
  x_result_13 <- t_extract_v TyD (acc TyD qplus) (MVal x_mask4) REPLACE x_result_12 x_vU (IdxArr [0;
    0; 2; 3]) ;;
  x_q_6 <- veq x_result_13 x_answer_6 ;;
  _ <- check x_q_6 ;;
  x_answer_7 <- vdense0 TyD [13; 9; 9; 9]%Q 0%Q ;;
  x_result_14 <- vdense0 TyD [9; 9; 9; 9]%Q 0%Q ;;
  x_result_15 <- t_extract_v TyD (acc TyD qplus) (MVal x_mask4) MERGE x_result_14 x_vU (IdxArr [0;
    0; 2; 3]) ;;
  x_q_7 <- veq x_result_15 x_answer_7 ;;
  _ <- check x_q_7 ;;
  x_answer_8 <- vdense0 TyD [11; 0; 0; 13]%Q 0%Q ;;
  x_result_16 <- vdense0 TyD [9; 9; 9; 9]%Q 0%Q ;;
  x_result_17 <- t_extract_v TyD (acc TyD qplus) (MVal x_mask4) REPLACE x_result_16 x_vU (IdxArr [2;
    3; 0; 0]) ;;
  x_q_8 <- veq x_result_17 x_answer_8 ;;
  _ <- check x_q_8 ;;
  x_answer_9 <- vdense0 TyD [11; 9; 9; 13]%Q 0%Q ;;
  x_result_18 <- vdense0 TyD [9; 9; 9; 9]%Q 0%Q ;;
  x_result_19 <- t_extract_v TyD (acc TyD qplus) (MVal x_mask4) MERGE x_result_18 x_vU (IdxArr [2;
    3; 0; 0]) ;;
  x_q_9 <- veq x_result_19 x_answer_9 ;;
  _ <- check x_q_9 ;;
  Ok tt) = Ok tt.
Proof. vm_compute. reflexivity. Qed.

(** test_extract_stdvec.cpp:717-861 *)
Example extract_stdvec_test_scmp_noaccum :
 (x_vU <- vdense0 TyD [4; 0; 2; 0]%Q 0%Q ;;
  x_mask3 <- vdense0 (TyU 8) [1; 0; 99]%Q 99%Q ;;
  x_mask4 <- vdense0 (TyU 8) [1; 0; 99; 1]%Q 99%Q ;;
  x_answer <- vdense0 TyD [0; 0; 2; 0]%Q 0%Q ;;
  x_result <- vdense0 TyD [9; 9; 9; 9]%Q 0%Q ;;
  x_result_1 <- t_extract_v TyD noacc (MComp x_mask4) REPLACE x_result x_vU AllIdx ;;
  x_q <- veq x_result_1 x_answer ;;
  _ <- check x_q ;;
  x_answer_1 <- vdense0 TyD [9; 0; 2; 9]%Q 0%Q ;;
  x_result_2 <- vdense0 TyD [9; 9; 9; 9]%Q 0%Q ;;
  x_result_3 <- t_extract_v TyD noacc (MComp x_mask4) MERGE x_result_2 x_vU AllIdx ;;
  x_q_1 <- veq x_result_3 x_answer_1 ;;
  _ <- check x_q_1 ;;
  x_answer_2 <- vdense0 TyD [0; 2; 0]%Q 0%Q ;;
  x_result_4 <- vdense0 TyD [9; 9; 9]%Q 0%Q ;;
  x_result_5 <- t_extract_v TyD noacc (MComp x_mask3) REPLACE x_result_4 x_vU (IdxArr [0; 2; 3]) ;;
  x_q_2 <- veq x_result_5 x_answer_2 ;;
  _ <- check x_q_2 ;;
  x_answer_3 <- vdense0 TyD [9; 2; 0]%Q 0%Q ;;
  x_result_6 <- vdense0 TyD [9; 9; 9]%Q 0%Q ;;
  x_result_7 <- t_extract_v TyD noacc (MComp x_mask3) MERGE x_result_6 x_vU (IdxArr [0; 2; 3]) ;;
  x_q_3 <- veq x_result_7 x_answer_3 ;;
  _ <- check x_q_3 ;;
  x_answer_4 <- vdense0 TyD [0; 0; 4]%Q 0%Q ;;
  x_result_8 <- vdense0 TyD [9; 9; 9]%Q 0%Q ;;
  x_result_9 <- t_extract_v TyD noacc (MComp x_mask3) REPLACE x_result_8 x_vU (IdxArr [2; 3; 0]) ;;
  x_q_4 <- veq x_result_9 x_answer_4 ;;
  _ <- check x_q_4 ;;
  x_answer_5 <- vdense0 TyD [9; 0; 4]%Q 0%Q ;;
  x_result_10 <- vdense0 TyD [9; 9; 9]%Q 0%Q ;;
  x_result_11 <- t_extract_v TyD noacc (MComp x_mask3) MERGE x_result_10 x_vU (IdxArr [2; 3; 0]) ;;
  x_q_5 <- veq x_result_11 x_answer_5 ;;
  _ <- check x_q_5 ;;
  x_answer_6 <- vdense0 TyD [0; 4; 2; 0]%Q 0%Q ;;
  x_result_12 <- vdense0 TyD [9; 9; 9; 9]%Q 0%Q ;;
  x_result_13 <- t_extract_v TyD noacc (MComp x_mask4) REPLACE x_result_12 x_vU (IdxArr [0; 0; 2;
    3]) ;;
  x_q_6 <- veq x_result_13 x_answer_6 ;;
  _ <- check x_q_6 ;;
  x_answer_7 <- vdense0 TyD [9; 4; 2; 9]%Q 0%Q ;;
  x_result_14 <- vdense0 TyD [9; 9; 9; 9]%Q 0%Q ;;
  x_result_15 <- t_extract_v TyD noacc (MComp x_mask4) MERGE x_result_14 x_vU (IdxArr [0; 0; 2; 3])
    ;;
  x_q_7 <- veq x_result_15 x_answer_7 ;;
  _ <- check x_q_7 ;;
  x_answer_8 <- vdense0 TyD [0; 0; 4; 0]%Q 0%Q ;;
  x_result_16 <- vdense0 TyD [9; 9; 9; 9]%Q 0%Q ;;
  x_result_17 <- t_extract_v TyD noacc (MComp x_mask4) REPLACE x_result_16 x_vU (IdxArr [2; 3; 0;
    0]) ;;
  x_q_8 <- veq x_result_17 x_answer_8 ;;
  _ <- check x_q_8 ;;
  x_answer_9 <- vdense0 TyD [9; 0; 4; 9]%Q 0%Q ;;
  x_result_18 <- vdense0 TyD [9; 9; 9; 9]%Q 0%Q ;;
  x_result_19 <- t_extract_v TyD noacc (MComp x_mask4) MERGE x_result_18 x_vU (IdxArr [2; 3; 0; 0])
    ;;
  x_q_9 <- veq x_result_19 x_answer_9 ;;
  _ <- check x_q_9 ;;
  Ok tt) = Ok tt.
Proof. vm_compute. reflexivity. Qed.

(** test_extract_stdvec.cpp:864-1019 *)
Example extract_stdvec_test_scmp_accum :
 (x_vU <- vdense0 TyD [4; 0; 2; 0]%Q 0%Q ;;
  x_mask3 <- vdense0 (TyU 8) [1; 0; 99]%Q 99%Q ;;
  x_mask4 <- vdense0 (TyU 8) [1; 0; 99; 1]%Q 99%Q ;;
  x_answer <- vdense0 TyD [0; 9; 11; 0]%Q 0%Q ;;
  x_result <- vdense0 TyD [9; 9; 9; 9]%Q 0%Q ;;
  x_result_1 <- t_extract_v TyD (acc TyD qplus) (MComp x_mask4) REPLACE x_result x_vU AllIdx ;;
  x_q <- veq x_result_1 x_answer ;;
  _ <- check x_q ;;
  x_answer_1 <- vdense0 TyD [9; 9; 11; 9]%Q 0%Q ;;
  x_result_2 <- vdense0 TyD [9; 9; 9; 9]%Q 0%Q ;;
  x_result_3 <- t_extract_v TyD (acc TyD qplus) (MComp x_mask4) MERGE x_result_2 x_vU AllIdx ;;
  x_q_1 <- veq x_result_3 x_answer_1 ;;
  _ <- check x_q_1 ;;
  x_answer_2 <- vdense0 TyD [0; 11; 9]%Q 0%Q ;;
  x_result_4 <- vdense0 TyD [9; 9; 9]%Q 0%Q ;;
  x_result_5 <- t_extract_v TyD (acc TyD qplus) (MComp x_mask3) REPLACE x_result_4 x_vU (IdxArr [0;
    2; 3]) ;;
  x_q_2 <- veq x_result_5 x_answer_2 ;;
  _ <- check x_q_2 ;;
  x_answer_3 <- vdense0 TyD [9; 11; 9]%Q 0%Q ;;
  x_result_6 <- vdense0 TyD [9; 9; 9]%Q 0%Q ;;
  x_result_7 <- t_extract_v TyD (acc TyD qplus) (MComp x_mask3) MERGE x_result_6 x_vU (IdxArr [0; 2;
    3]) ;;
  x_q_3 <- veq x_result_7 x_answer_3 ;;
  _ <- check x_q_3 ;;
  x_answer_4 <- vdense0 TyD [0; 9; 13]%Q 0%Q ;;
  x_result_8 <- vdense0 TyD [9; 9; 9]%Q 0%Q ;;
  x_result_9 <- t_extract_v TyD (acc TyD qplus) (MComp x_mask3) REPLACE x_result_8 x_vU (IdxArr [2;
    3; 0]) ;;
  x_q_4 <- veq x_result_9 x_answer_4 ;;
  _ <- check x_q_4 ;;
  x_answer_5 <- vdense0 TyD [9; 9; 13]%Q 0%Q ;;
  x_result_10 <- vdense0 TyD [9; 9; 9]%Q 0%Q ;;
  x_result_11 <- t_extract_v TyD (acc TyD qplus) (MComp x_mask3) MERGE x_result_10 x_vU (IdxArr [2;
    3; 0]) ;;
  x_q_5 <- veq x_result_11 x_answer_5 ;;
  _ <- check x_q_5 ;;
  x_answer_6 <- vdense0 TyD [0; 13; 11; 0]%Q 0%Q ;;
  x_result_12 <- vdense0 TyD [9; 9; 9; 9]%Q 0%Q ;;
  x_result_13 <- t_extract_v TyD (acc TyD qplus) (MComp x_mask4) REPLACE x_result_12 x_vU (IdxArr
    [0; 0; 2; 3]) ;;
  x_q_6 <- veq x_result_13 x_answer_6 ;;
  _ <- check x_q_6 ;;
  x_answer_7 <- vdense0 TyD [9; 13; 11; 9]%Q 0%Q ;;
  x_result_14 <- vdense0 TyD [9; 9; 9; 9]%Q 0%Q ;;
  x_result_15 <- t_extract_v TyD (acc TyD qplus) (MComp x_mask4) MERGE x_result_14 x_vU (IdxArr [0;
    0; 2; 3]) ;;
  x_q_7 <- veq x_result_15 x_answer_7 ;;
  _ <- check x_q_7 ;;
  x_answer_8 <- vdense0 TyD [0; 9; 13; 0]%Q 0%Q ;;
  x_result_16 <- vdense0 TyD [9; 9; 9; 9]%Q 0%Q ;;
  x_result_17 <- t_extract_v TyD (acc TyD qplus) (MComp x_mask4) REPLACE x_result_16 x_vU (IdxArr
    [2; 3; 0; 0]) ;;
  x_q_8 <- veq x_result_17 x_answer_8 ;;
  _ <- check x_q_8 ;;
  x_answer_9 <- vdense0 TyD [9; 9; 13; 9]%Q 0%Q ;;
  x_result_18 <- vdense0 TyD [9; 9; 9; 9]%Q 0%Q ;;
  x_result_19 <- t_extract_v TyD (acc TyD qplus) (MComp x_mask4) MERGE x_result_18 x_vU (IdxArr [2;
    3; 0; 0]) ;;
  x_q_9 <- veq x_result_19 x_answer_9 ;;
  _ <- check x_q_9 ;;
  Ok tt) = Ok tt.
Proof. vm_compute. reflexivity. Qed.
