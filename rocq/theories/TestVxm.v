(** The tests of /repo/src/test/test_vxm.cpp, run on the model.  Generated translation. *)
From Verif Require Import TestRun.

Definition d_m3x3_dense : list (list Q) :=
  [[12; 0; 7];
   [1; 0; 0];
   [3; 6; 9]]%Q.
Definition d_m4x3_dense : list (list Q) :=
  [[5; 6; 4];
   [0; 7; 5];
   [1; 0; 0];
   [2; 0; 1]]%Q.

(** test_vxm.cpp:68-93 *)
Example test_vxm_bad_dimensions :
 (x_mA <- mdense0 TyD d_m3x3_dense 0%Q ;;
  x_mB <- mdense0 TyD d_m4x3_dense 0%Q ;;
  x_u3 <- vdense0 TyD [1; 1; 0]%Q 0%Q ;;
  x_w4 <- vnew 4 ;;
  x_w3 <- vnew 3 ;;
  _ <- throws DimensionException (t_vxm TyD noacc (mkSr qplus qtimes TyD) NoMask MERGE x_w3 x_u3
    (Mat x_mB)) ;;
  _ <- throws DimensionException (t_vxm TyD noacc (mkSr qplus qtimes TyD) NoMask MERGE x_w4 x_u3
    (Mat x_mA)) ;;
  Ok tt) = Ok tt.
Proof. vm_compute. reflexivity. Qed.

(** test_vxm.cpp:96-117 *)
Example test_vxm_reg :
 (x_mA <- mdense0 TyD d_m3x3_dense 0%Q ;;
  x_mB <- mdense0 TyD d_m4x3_dense 0%Q ;;
  x_u3 <- vdense0 TyD [1; 1; 0]%Q 0%Q ;;
  x_u4 <- vdense0 TyD [0; 0; 1; 1]%Q 0%Q ;;
  x_result <- vnew 3 ;;
  x_ansA <- vdense0 TyD [13; 0; 7]%Q 0%Q ;;
  x_ansB <- vdense0 TyD [3; 0; 1]%Q 0%Q ;;
  x_result_1 <- t_vxm TyD noacc (mkSr qplus qtimes TyD) NoMask MERGE x_result x_u3 (Mat x_mA) ;;
  x_q <- veq x_result_1 x_ansA ;;
  _ <- check x_q ;;
  x_result_2 <- t_vxm TyD noacc (mkSr qplus qtimes TyD) NoMask MERGE x_result_1 x_u4 (Mat x_mB) ;;
  x_q_1 <- veq x_result_2 x_ansB ;;
  _ <- check x_q_1 ;;
  Ok tt) = Ok tt.
Proof. vm_compute. reflexivity. Qed.

(** test_vxm.cpp:120-143 *)
Example test_vxm_stored_zero_result :
 (x_mA <- mdense0 TyI [[1; 1; 0; 0]; [1; 2; 2; 0]; [0; 2; 3; 3]; [0; 0; 3; 4]]%Q 0%Q ;;
  x_u <- vdense0 TyI [1; (-1); 0; 0]%Q 0%Q ;;
  x_result <- vnew 4 ;;
  x_answer <- vdense0 TyI [0; (-1); (-2); 666]%Q 666%Q ;;
  x_result_1 <- t_vxm TyI noacc (mkSr (op3 TyI TyI TyI qplus) (op3 TyI TyI TyI qtimes) TyI) NoMask
    MERGE x_result x_u (Mat x_mA) ;;
  x_q <- veq x_result_1 x_answer ;;
  _ <- check x_q ;;
  _ <- check (Qeq_bool (inject_Z (vnvals x_result_1)) 3%Q) ;;
  Ok tt) = Ok tt.
Proof. vm_compute. reflexivity. Qed.

(** test_vxm.cpp:146-182 *)
Example test_a_transpose :
 (x_mA <- mdense0 TyD d_m3x3_dense 0%Q ;;
  x_mB <- mdense0 TyD d_m4x3_dense 0%Q ;;
  x_u3 <- vdense0 TyD [1; 1; 0]%Q 0%Q ;;
  x_u4 <- vdense0 TyD [0; 0; 1; 1]%Q 0%Q ;;
  x_result3 <- vnew 3 ;;
  x_result4 <- vnew 4 ;;
  x_ansA <- vdense0 TyD [12; 1; 9]%Q 0%Q ;;
  x_ansB <- vdense0 TyD [11; 7; 1; 2]%Q 0%Q ;;
  x_result3_1 <- t_vxm TyD noacc (mkSr qplus qtimes TyD) NoMask MERGE x_result3 x_u3 (Trn x_mA) ;;
  x_q <- veq x_result3_1 x_ansA ;;
  _ <- check x_q ;;
  _ <- throws DimensionException (t_vxm TyD noacc (mkSr qplus qtimes TyD) NoMask MERGE x_result4
    x_u4 (Trn x_mB)) ;;
  x_result4_1 <- t_vxm TyD noacc (mkSr qplus qtimes TyD) NoMask MERGE x_result4 x_u3 (Trn x_mB) ;;
  x_q_1 <- veq x_result4_1 x_ansB ;;
  _ <- check x_q_1 ;;
  Ok tt) = Ok tt.
Proof. vm_compute. reflexivity. Qed.

(** test_vxm.cpp:189-205 *)
Example test_vxm_masked_replace_bad_dimensions :
 (x_mA <- mdense0 TyD d_m3x3_dense 0%Q ;;
  x_u3 <- vdense0 TyD [1; 1; 0]%Q 0%Q ;;
  x_m4 <- vdense0 TyD [0; 0; 1; 1]%Q 0%Q ;;
  x_w3 <- vnew 3 ;;
  _ <- throws DimensionException (t_vxm TyD noacc (mkSr qplus qtimes TyD) (MVal x_m4) REPLACE x_w3
    x_u3 (Mat x_mA)) ;;
  Ok tt) = Ok tt.
Proof. vm_compute. reflexivity. Qed.

(** test_vxm.cpp:208-247 *)
Example test_vxm_masked_replace_reg :
 (x_mA <- mdense0 TyD d_m3x3_dense 0%Q ;;
  x_u3 <- vdense0 TyD [1; 1; 0]%Q 0%Q ;;
  x_m3 <- vdense0 TyD [1; 1; 0]%Q 0%Q ;;
  _ <- check (Qeq_bool (inject_Z (vnvals x_m3)) 2%Q) ;;
  x_result <- vdense0 TyD [1; 1; 1]%Q 0%Q ;;
  x_answer <- vdense0 TyD [13; 1; 0]%Q 0%Q ;;
  x_result_1 <- t_vxm TyD (acc TyD qsecond) (mkSr qplus qtimes TyD) (MVal x_m3) REPLACE x_result
    x_u3 (Mat x_mA) ;;
  _ <- check (Qeq_bool (inject_Z (vnvals x_result_1)) 2%Q) ;;
  x_q <- veq x_result_1 x_answer ;;
  _ <- check x_q ;;
  x_result_2 <- vdense0 TyD [1; 1; 1]%Q 0%Q ;;
  x_answer_1 <- vdense0 TyD [13; 0; 0]%Q 0%Q ;;
  x_result_3 <- t_vxm TyD noacc (mkSr qplus qtimes TyD) (MVal x_m3) REPLACE x_result_2 x_u3 (Mat
    x_mA) ;;
  _ <- check (Qeq_bool (inject_Z (vnvals x_result_3)) 1%Q) ;;
  x_q_1 <- veq x_result_3 x_answer_1 ;;
  _ <- check x_q_1 ;;
  Ok tt) = Ok tt.
Proof. vm_compute. reflexivity. Qed.

(** test_vxm.cpp:250-283 *)
Example test_vxm_masked_replace_reg_stored_zero :
 (x_A <- mdense0 TyI [[1; 1; 0; 0]; [1; 2; 2; 0]; [0; 2; 3; 3]; [0; 0; 3; 4]]%Q 0%Q ;;
  x_u <- vdense0 TyI [1; (-1); 1; 0]%Q 0%Q ;;
  x_mask <- vdense0 TyI [1; 1; 1; 0]%Q 0%Q ;;
  x_result <- vdense0 TyI [1; 1; 1; 1]%Q 0%Q ;;
  _ <- check (Qeq_bool (inject_Z (vnvals x_mask)) 3%Q) ;;
  x_mask_1 <- vec_setElement x_mask 3 (cast TyI 0%Q) ;;
  _ <- check (Qeq_bool (inject_Z (vnvals x_mask_1)) 4%Q) ;;
  x_answer <- vdense0 TyI [0; 1; 1; 666]%Q 666%Q ;;
  x_result_1 <- t_vxm TyI noacc (mkSr qplus qtimes TyD) (MVal x_mask_1) REPLACE x_result x_u (Mat
    x_A) ;;
  _ <- check (Qeq_bool (inject_Z (vnvals x_result_1)) 3%Q) ;;
  x_q <- veq x_result_1 x_answer ;;
  _ <- check x_q ;;
  Ok tt) = Ok tt.
Proof. vm_compute. reflexivity. Qed.

(** test_vxm.cpp:286-313 *)
Example test_vxm_masked_replace_a_transpose :
 (x_A <- mdense0 TyI [[1; 1; 0; 0]; [1; 2; 2; 0]; [0; 2; 3; 3]; [0; 0; 3; 4]; [1; 1; 1; 1]]%Q 0%Q ;;
  x_u <- vdense0 TyI [1; (-1); 1; 0]%Q 0%Q ;;
  x_mask <- vdense0 TyI [1; 0; 1; 0; 1]%Q 0%Q ;;
  x_result <- vdense0 TyI [1; 1; 1; 1; 1]%Q 0%Q ;;
  x_answer <- vdense0 TyI [0; 666; 1; 666; 1]%Q 666%Q ;;
  x_result_1 <- t_vxm TyI noacc (mkSr qplus qtimes TyD) (MVal x_mask) REPLACE x_result x_u (Trn x_A)
    ;;
  x_q <- veq x_result_1 x_answer ;;
  _ <- check x_q ;;
  Ok tt) = Ok tt.
Proof. vm_compute. reflexivity. Qed.

(** test_vxm.cpp:320-335 *)
Example test_vxm_masked_bad_dimensions :
 (x_mA <- mdense0 TyD d_m3x3_dense 0%Q ;;
  x_u3 <- vdense0 TyD [1; 1; 0]%Q 0%Q ;;
  x_m4 <- vdense0 TyD [0; 0; 1; 1]%Q 0%Q ;;
  x_w3 <- vdense0 TyD [1; 1; 1]%Q 0%Q ;;
  _ <- throws DimensionException (t_vxm TyD noacc (mkSr qplus qtimes TyD) (MVal x_m4) MERGE x_w3
    x_u3 (Mat x_mA)) ;;
  Ok tt) = Ok tt.
Proof. vm_compute. reflexivity. Qed.

(** test_vxm.cpp:338-375 *)
Example test_vxm_masked_reg :
 (x_mA <- mdense0 TyD d_m3x3_dense 0%Q ;;
  x_u3 <- vdense0 TyD [1; 1; 0]%Q 0%Q ;;
  x_m3 <- vdense0 TyD [1; 1; 0]%Q 0%Q ;;
  _ <- check (Qeq_bool (inject_Z (vnvals x_m3)) 2%Q) ;;
  x_result <- vdense0 TyD [1; 1; 1]%Q 0%Q ;;
  x_answer <- vdense0 TyD [13; 1; 1]%Q 0%Q ;;
  x_result_1 <- t_vxm TyD (acc TyD qsecond) (mkSr qplus qtimes TyD) (MVal x_m3) MERGE x_result x_u3
    (Mat x_mA) ;;
  _ <- check (Qeq_bool (inject_Z (vnvals x_result_1)) 3%Q) ;;
  x_q <- veq x_result_1 x_answer ;;
  _ <- check x_q ;;
  x_result_2 <- vdense0 TyD [1; 1; 1]%Q 0%Q ;;
  x_answer_1 <- vdense0 TyD [13; 0; 1]%Q 0%Q ;;
  x_result_3 <- t_vxm TyD noacc (mkSr qplus qtimes TyD) (MVal x_m3) MERGE x_result_2 x_u3 (Mat x_mA)
    ;;
  _ <- check (Qeq_bool (inject_Z (vnvals x_result_3)) 2%Q) ;;
  x_q_1 <- veq x_result_3 x_answer_1 ;;
  _ <- check x_q_1 ;;
  Ok tt) = Ok tt.
Proof. vm_compute. reflexivity. Qed.

(** test_vxm.cpp:378-415 *)
Example test_vxm_masked_reg_stored_zero :
 (x_mA <- mdense0 TyD d_m3x3_dense 0%Q ;;
  x_u3 <- vdense0 TyD [1; 1; 0]%Q 0%Q ;;
  x_m3 <- vdense TyD [1; 1; 0]%Q ;;
  _ <- check (Qeq_bool (inject_Z (vnvals x_m3)) 3%Q) ;;
  x_result <- vdense0 TyD [1; 1; 1]%Q 0%Q ;;
  x_answer <- vdense0 TyD [13; 1; 1]%Q 0%Q ;;
  x_result_1 <- t_vxm TyD (acc TyD qsecond) (mkSr qplus qtimes TyD) (MVal x_m3) MERGE x_result x_u3
    (Mat x_mA) ;;
  _ <- check (Qeq_bool (inject_Z (vnvals x_result_1)) 3%Q) ;;
  x_q <- veq x_result_1 x_answer ;;
  _ <- check x_q ;;
  x_result_2 <- vdense0 TyD [1; 1; 1]%Q 0%Q ;;
  x_answer_1 <- vdense0 TyD [13; 0; 1]%Q 0%Q ;;
  x_result_3 <- t_vxm TyD noacc (mkSr qplus qtimes TyD) (MVal x_m3) MERGE x_result_2 x_u3 (Mat x_mA)
    ;;
  _ <- check (Qeq_bool (inject_Z (vnvals x_result_3)) 2%Q) ;;
  x_q_1 <- veq x_result_3 x_answer_1 ;;
  _ <- check x_q_1 ;;
  Ok tt) = Ok tt.
Proof. vm_compute. reflexivity. Qed.

(** test_vxm.cpp:418-438 *)
Example test_vxm_masked_a_transpose :
 (x_mA <- mdense0 TyD d_m3x3_dense 0%Q ;;
  x_u3 <- vdense0 TyD [1; 1; 0]%Q 0%Q ;;
  x_m3 <- vdense0 TyD [1; 1; 0]%Q 0%Q ;;
  x_result <- vdense0 TyD [1; 1; 1]%Q 0%Q ;;
  _ <- check (Qeq_bool (inject_Z (vnvals x_m3)) 2%Q) ;;
  x_answer <- vdense0 TyD [12; 1; 1]%Q 0%Q ;;
  x_result_1 <- t_vxm TyD noacc (mkSr qplus qtimes TyD) (MVal x_m3) MERGE x_result x_u3 (Trn x_mA)
    ;;
  _ <- check (Qeq_bool (inject_Z (vnvals x_result_1)) 3%Q) ;;
  x_q <- veq x_result_1 x_answer ;;
  _ <- check x_q ;;
  Ok tt) = Ok tt.
Proof. vm_compute. reflexivity. Qed.

(** test_vxm.cpp:445-461 *)
Example test_vxm_scmp_masked_replace_bad_dimensions :
 (x_mA <- mdense0 TyD d_m3x3_dense 0%Q ;;
  x_u3 <- vdense0 TyD [1; 1; 0]%Q 0%Q ;;
  x_m4 <- vdense0 TyD [0; 0; 1; 1]%Q 0%Q ;;
  x_w3 <- vnew 3 ;;
  _ <- throws DimensionException (t_vxm TyD noacc (mkSr qplus qtimes TyD) (MComp x_m4) REPLACE x_w3
    x_u3 (Mat x_mA)) ;;
  Ok tt) = Ok tt.
Proof. vm_compute. reflexivity. Qed.

(** test_vxm.cpp:463-504 *)
Example test_vxm_scmp_masked_replace_reg :
 (x_mA <- mdense0 TyD d_m3x3_dense 0%Q ;;
  x_u3 <- vdense0 TyD [1; 1; 0]%Q 0%Q ;;
  x_m3 <- vdense0 TyD [0; 0; 1]%Q 0%Q ;;
  _ <- check (Qeq_bool (inject_Z (vnvals x_m3)) 1%Q) ;;
  x_result <- vdense0 TyD [1; 1; 1]%Q 0%Q ;;
  x_answer <- vdense0 TyD [13; 1; 0]%Q 0%Q ;;
  x_result_1 <- t_vxm TyD (acc TyD qsecond) (mkSr qplus qtimes TyD) (MComp x_m3) REPLACE x_result
    x_u3 (Mat x_mA) ;;
  _ <- check (Qeq_bool (inject_Z (vnvals x_result_1)) 2%Q) ;;
  x_q <- veq x_result_1 x_answer ;;
  _ <- check x_q ;;
  x_result_2 <- vdense0 TyD [1; 1; 1]%Q 0%Q ;;
  x_answer_1 <- vdense0 TyD [13; 0; 0]%Q 0%Q ;;
  x_result_3 <- t_vxm TyD noacc (mkSr qplus qtimes TyD) (MComp x_m3) REPLACE x_result_2 x_u3 (Mat
    x_mA) ;;
  _ <- check (Qeq_bool (inject_Z (vnvals x_result_3)) 1%Q) ;;
  x_q_1 <- veq x_result_3 x_answer_1 ;;
  _ <- check x_q_1 ;;
  Ok tt) = Ok tt.
Proof. vm_compute. reflexivity. Qed.

(** test_vxm.cpp:507-537 *)
Example test_vxm_scmp_masked_replace_reg_stored_zero :
 (x_A <- mdense0 TyI [[1; 1; 0; 0]; [1; 2; 2; 0]; [0; 2; 3; 3]; [0; 0; 3; 4]]%Q 0%Q ;;
  x_u <- vdense0 TyI [1; (-1); 1; 0]%Q 0%Q ;;
  x_mask <- vdense TyI [0; 0; 0; 1]%Q ;;
  x_result <- vdense0 TyI [1; 1; 1; 1]%Q 0%Q ;;
  _ <- check (Qeq_bool (inject_Z (vnvals x_mask)) 4%Q) ;;
  x_answer <- vdense0 TyI [0; 1; 1; 666]%Q 666%Q ;;
  x_result_1 <- t_vxm TyI noacc (mkSr qplus qtimes TyD) (MComp x_mask) REPLACE x_result x_u (Mat
    x_A) ;;
  _ <- check (Qeq_bool (inject_Z (vnvals x_result_1)) 3%Q) ;;
  x_q <- veq x_result_1 x_answer ;;
  _ <- check x_q ;;
  Ok tt) = Ok tt.
Proof. vm_compute. reflexivity. Qed.

(** test_vxm.cpp:540-567 *)
Example test_vxm_scmp_masked_replace_a_transpose :
 (x_A <- mdense0 TyI [[1; 1; 0; 0]; [1; 2; 2; 0]; [0; 2; 3; 3]; [0; 0; 3; 4]; [1; 1; 1; 1]]%Q 0%Q ;;
  x_u <- vdense0 TyI [1; (-1); 1; 0]%Q 0%Q ;;
  x_mask <- vdense0 TyI [0; 1; 0; 1; 0]%Q 0%Q ;;
  x_result <- vdense0 TyI [1; 1; 1; 1; 1]%Q 0%Q ;;
  x_answer <- vdense0 TyI [0; 666; 1; 666; 1]%Q 666%Q ;;
  x_result_1 <- t_vxm TyI noacc (mkSr qplus qtimes TyD) (MComp x_mask) REPLACE x_result x_u (Trn
    x_A) ;;
  x_q <- veq x_result_1 x_answer ;;
  _ <- check x_q ;;
  Ok tt) = Ok tt.
Proof. vm_compute. reflexivity. Qed.

(** test_vxm.cpp:574-589 *)
Example test_vxm_scmp_masked_bad_dimensions :
 (x_mA <- mdense0 TyD d_m3x3_dense 0%Q ;;
  x_u3 <- vdense0 TyD [1; 1; 0]%Q 0%Q ;;
  x_m4 <- vdense0 TyD [0; 0; 1; 1]%Q 0%Q ;;
  x_w3 <- vdense0 TyD [1; 1; 1]%Q 0%Q ;;
  _ <- throws DimensionException (t_vxm TyD noacc (mkSr qplus qtimes TyD) (MComp x_m4) MERGE x_w3
    x_u3 (Mat x_mA)) ;;
  Ok tt) = Ok tt.
Proof. vm_compute. reflexivity. Qed.

(** test_vxm.cpp:591-611 *)
Example test_vxm_scmp_masked_reg :
 (x_mA <- mdense0 TyD d_m3x3_dense 0%Q ;;
  x_u3 <- vdense0 TyD [1; 1; 0]%Q 0%Q ;;
  x_m3 <- vdense0 TyD [1; 1; 0]%Q 0%Q ;;
  x_result <- vdense0 TyD [1; 1; 1]%Q 0%Q ;;
  _ <- check (Qeq_bool (inject_Z (vnvals x_m3)) 2%Q) ;;
  x_answer <- vdense0 TyD [1; 1; 7]%Q 0%Q ;;
  x_result_1 <- t_vxm TyD noacc (mkSr qplus qtimes TyD) (MComp x_m3) MERGE x_result x_u3 (Mat x_mA)
    ;;
  _ <- check (Qeq_bool (inject_Z (vnvals x_result_1)) 3%Q) ;;
  x_q <- veq x_result_1 x_answer ;;
  _ <- check x_q ;;
  Ok tt) = Ok tt.
Proof. vm_compute. reflexivity. Qed.

(** test_vxm.cpp:614-634 *)
Example test_vxm_scmp_masked_reg_stored_zero :
 (x_mA <- mdense0 TyD d_m3x3_dense 0%Q ;;
  x_u3 <- vdense0 TyD [1; 1; 0]%Q 0%Q ;;
  x_m3 <- vdense TyD [1; 1; 0]%Q ;;
  x_result <- vdense0 TyD [1; 1; 1]%Q 0%Q ;;
  _ <- check (Qeq_bool (inject_Z (vnvals x_m3)) 3%Q) ;;
  x_answer <- vdense0 TyD [1; 1; 7]%Q 0%Q ;;
  x_result_1 <- t_vxm TyD noacc (mkSr qplus qtimes TyD) (MComp x_m3) MERGE x_result x_u3 (Mat x_mA)
    ;;
  _ <- check (Qeq_bool (inject_Z (vnvals x_result_1)) 3%Q) ;;
  x_q <- veq x_result_1 x_answer ;;
  _ <- check x_q ;;
  Ok tt) = Ok tt.
Proof. vm_compute. reflexivity. Qed.

(** test_vxm.cpp:637-657 *)
Example test_vxm_scmp_masked_a_transpose :
 (x_mA <- mdense0 TyD d_m3x3_dense 0%Q ;;
  x_u3 <- vdense0 TyD [1; 1; 0]%Q 0%Q ;;
  x_m3 <- vdense0 TyD [1; 1; 0]%Q 0%Q ;;
  x_result <- vdense0 TyD [1; 1; 1]%Q 0%Q ;;
  _ <- check (Qeq_bool (inject_Z (vnvals x_m3)) 2%Q) ;;
  x_answer <- vdense0 TyD [1; 1; 9]%Q 0%Q ;;
  x_result_1 <- t_vxm TyD noacc (mkSr qplus qtimes TyD) (MComp x_m3) MERGE x_result x_u3 (Trn x_mA)
    ;;
  _ <- check (Qeq_bool (inject_Z (vnvals x_result_1)) 3%Q) ;;
  x_q <- veq x_result_1 x_answer ;;
  _ <- check x_q ;;
  Ok tt) = Ok tt.
Proof. vm_compute. reflexivity. Qed.
