(** The tests of /repo/src/test/test_matrix_methods.cpp, run on the model.  Generated translation. *)
From Verif Require Import TestRun.


(** test_matrix_methods.cpp:45-106 *)
Example matrix_resize_test :
 (x_m1 <- mnew 6 6 ;;
  x_m1_1 <- mbuild TyD qsecond x_m1 [1; 2; 3; 4] [1; 2; 3; 4] [1; 2; 3; 4]%Q ;;
  _ <- check (Qeq_bool (inject_Z (nvals x_m1_1)) 4%Q) ;;
  _ <- check (Qeq_bool (inject_Z (Z.of_nat (nrows x_m1_1))) 6%Q) ;;
  _ <- check (Qeq_bool (inject_Z (Z.of_nat (ncols x_m1_1))) 6%Q) ;;
  x_m1_2 <- Ok (lil_resize x_m1_1 12 12) ;;
  _ <- check (Qeq_bool (inject_Z (nvals x_m1_2)) 4%Q) ;;
  _ <- check (Qeq_bool (inject_Z (Z.of_nat (nrows x_m1_2))) 12%Q) ;;
  _ <- check (Qeq_bool (inject_Z (Z.of_nat (ncols x_m1_2))) 12%Q) ;;
  x_m1_3 <- lil_setElement x_m1_2 7 7 (cast TyD 99%Q) ;;
  _ <- check (Qeq_bool (inject_Z (nvals x_m1_3)) 5%Q) ;;
  x_e <- lil_extractElement x_m1_3 7 7 ;;
  _ <- check (Qeq_bool x_e 99%Q) ;;
  x_m1_4 <- Ok (lil_resize x_m1_3 12 4) ;;
  _ <- check (Qeq_bool (inject_Z (nvals x_m1_4)) 3%Q) ;;
  _ <- check (Qeq_bool (inject_Z (Z.of_nat (nrows x_m1_4))) 12%Q) ;;
  _ <- check (Qeq_bool (inject_Z (Z.of_nat (ncols x_m1_4))) 4%Q) ;;
  x_e_1 <- lil_extractElement x_m1_4 1 1 ;;
  _ <- check (Qeq_bool x_e_1 1%Q) ;;
  x_e_2 <- lil_extractElement x_m1_4 2 2 ;;
  _ <- check (Qeq_bool x_e_2 2%Q) ;;
  x_e_3 <- lil_extractElement x_m1_4 3 3 ;;
  _ <- check (Qeq_bool x_e_3 3%Q) ;;
  x_m1_5 <- Ok (lil_resize x_m1_4 3 4) ;;
  _ <- check (Qeq_bool (inject_Z (nvals x_m1_5)) 2%Q) ;;
  _ <- check (Qeq_bool (inject_Z (Z.of_nat (nrows x_m1_5))) 3%Q) ;;
  _ <- check (Qeq_bool (inject_Z (Z.of_nat (ncols x_m1_5))) 4%Q) ;;
  x_e_4 <- lil_extractElement x_m1_5 1 1 ;;
  _ <- check (Qeq_bool x_e_4 1%Q) ;;
  x_e_5 <- lil_extractElement x_m1_5 2 2 ;;
  _ <- check (Qeq_bool x_e_5 2%Q) ;;
  x_m1_6 <- Ok (lil_resize x_m1_5 2 2) ;;
  _ <- check (Qeq_bool (inject_Z (nvals x_m1_6)) 1%Q) ;;
  _ <- check (Qeq_bool (inject_Z (Z.of_nat (nrows x_m1_6))) 2%Q) ;;
  _ <- check (Qeq_bool (inject_Z (Z.of_nat (ncols x_m1_6))) 2%Q) ;;
  x_e_6 <- lil_extractElement x_m1_6 1 1 ;;
  _ <- check (Qeq_bool x_e_6 1%Q) ;;
  x_m1_7 <- Ok (lil_resize x_m1_6 12 12) ;;
  _ <- check (Qeq_bool (inject_Z (nvals x_m1_7)) 1%Q) ;;
  _ <- check (Qeq_bool (inject_Z (Z.of_nat (nrows x_m1_7))) 12%Q) ;;
  _ <- check (Qeq_bool (inject_Z (Z.of_nat (ncols x_m1_7))) 12%Q) ;;
  Ok tt) = Ok tt.
Proof. vm_compute. reflexivity. Qed.

(** test_matrix_methods.cpp:109-135 *)
Example matrix_removeElement_test :
 (x_m1 <- mnew 3 4 ;;
  x_m1_1 <- mbuild TyD qsecond x_m1 [0; 0; 0; 1; 1; 1; 2; 2] [1; 2; 3; 0; 2; 3; 0; 1] [1; 2; 3; 4;
    6; 7; 8; 9]%Q ;;
  _ <- check (Qeq_bool (inject_Z (nvals x_m1_1)) 8%Q) ;;
  x_h <- lil_hasElement x_m1_1 1 1 ;;
  _ <- check (nz (of_bool (negb (nz (of_bool x_h))))) ;;
  x_m1_2 <- lil_removeElement x_m1_1 1 1 ;;
  _ <- check (Qeq_bool (inject_Z (nvals x_m1_2)) 8%Q) ;;
  x_h_1 <- lil_hasElement x_m1_2 1 1 ;;
  _ <- check (nz (of_bool (negb (nz (of_bool x_h_1))))) ;;
  x_h_2 <- lil_hasElement x_m1_2 1 2 ;;
  _ <- check (nz (of_bool x_h_2)) ;;
  x_m1_3 <- lil_removeElement x_m1_2 1 2 ;;
  _ <- check (Qeq_bool (inject_Z (nvals x_m1_3)) 7%Q) ;;
  x_h_3 <- lil_hasElement x_m1_3 1 2 ;;
  _ <- check (nz (of_bool (negb (nz (of_bool x_h_3))))) ;;
  Ok tt) = Ok tt.
Proof. vm_compute. reflexivity. Qed.
