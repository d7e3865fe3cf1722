(** Support for running the library's own unit tests (/repo/src/test) on the model.  The scalars
    of the tests, built-in types, are rational numbers here; a conversion to a built-in type
    truncates.  The test programs in Test*.v are statement by statement translations. *)
From Coq Require Export QArith.
From Verif Require Export Base ModelLil ModelVec ModelHelpers ModelViews ModelMul ModelElem
  ModelIndex ModelUtils ModelOptMxm.
Close Scope Q_scope.
Delimit Scope Q_scope with Q.

(** Scalar types: floating point, signed integers, unsigned integers of some width, [bool]. *)
Inductive sty := TyD | TyI | TyU (bits : Z) | TyB.

Definition cast (t : sty) (x : Q) : Q :=
  match t with
  | TyD => x
  | TyI => inject_Z (Z.quot (Qnum x) (Zpos (Qden x)))
  | TyU b => inject_Z (Z.quot (Qnum x) (Zpos (Qden x)) mod 2 ^ b)
  | TyB => if Qeq_bool x 0 then 0%Q else 1%Q
  end.

(** Operators: [D3 operator()(D1, D2)]. *)
Definition op3 (d1 d2 d3 : sty) (f : Q -> Q -> Q) (a b : Q) : Q :=
  cast d3 (f (cast d1 a) (cast d2 b)).
Definition op13 (d1 d3 : sty) (f : Q -> Q) (a : Q) : Q := cast d3 (f (cast d1 a)).
Definition of_bool (b : bool) : Q := if b then 1%Q else 0%Q.
Definition nz (x : Q) : bool := negb (Qeq_bool x 0).
Definition qplus (a b : Q) := Qred (a + b).
Definition qminus (a b : Q) := Qred (a - b).
Definition qtimes (a b : Q) := Qred (a * b).
Definition qdiv (a b : Q) := Qred (a / b).
Definition qfirst (a b : Q) := a.
Definition qsecond (a b : Q) := b.
Definition qlt (a b : Q) : bool := negb (Qle_bool b a).
Definition qmin (a b : Q) := if qlt a b then a else b.
Definition qmax (a b : Q) := if qlt a b then b else a.
Definition qor (a b : Q) := of_bool (nz a || nz b).
Definition qand (a b : Q) := of_bool (nz a && nz b).
Definition qxor (a b : Q) := of_bool (xorb (nz a) (nz b)).
Definition qeq (a b : Q) := of_bool (Qeq_bool a b).
Definition qne (a b : Q) := of_bool (negb (Qeq_bool a b)).
Definition qgt (a b : Q) := of_bool (qlt b a).
Definition qlts (a b : Q) := of_bool (qlt a b).
Definition qge (a b : Q) := of_bool (Qle_bool b a).
Definition qle (a b : Q) := of_bool (Qle_bool a b).
Definition qident (a : Q) := a.
Definition qneg (a : Q) := Qred (- a).
Definition qinv (a : Q) := Qred (/ a).
Definition qnot (a : Q) := of_bool (negb (nz a)).
Definition qabs (a : Q) := if qlt a 0 then Qred (- a) else a.

(** Checks of the test framework: a failed check is no normal outcome. *)
Definition check (b : bool) : res unit := if b then Ok tt else UB.
Definition exn_eqb (a b : exn) : bool :=
  match a, b with
  | DimensionException, DimensionException
  | IndexOutOfBoundsException, IndexOutOfBoundsException
  | InvalidIndexException, InvalidIndexException
  | InvalidValueException, InvalidValueException
  | NoValueException, NoValueException
  | PanicException, PanicException => true
  | _, _ => false
  end.
Definition throws {X : Type} (e : exn) (r : res X) : res unit :=
  match r with
  | Throw e' => if exn_eqb e e' then Ok tt else UB
  | _ => UB
  end.

Definition mat := lil Q.
Definition vec := bvec Q.
Definition meq (A B : mat) : res bool := Ok (lil_eqb Qeq_bool A B).
Definition veq (u v : vec) : res bool := vec_eqb Qeq_bool u v.

(** Constructors and [build]. *)
Definition mnew (r c : nat) : res mat := Ok (lil_new r c).
Definition mdense (t : sty) (d : list (list Q)) : res mat :=
  lil_dense (fun _ => true) (map (map (cast t)) d).
Definition mdense0 (t : sty) (d : list (list Q)) (zero : Q) : res mat :=
  lil_dense (fun v => negb (Qeq_bool v (cast t zero))) (map (map (cast t)) d).
Definition vnew (n : nat) : res vec := vec_new 0%Q n.
Definition vdense (t : sty) (d : list Q) : res vec := vec_dense (map (cast t) d).
Definition vdense0 (t : sty) (d : list Q) (zero : Q) : res vec :=
  vec_dense_zero 0%Q (fun v => negb (Qeq_bool v (cast t zero))) (map (cast t) d).
Definition mbuild (t : sty) (dup : Q -> Q -> Q) (M : mat) (i j : list nat) (v : list Q) : res mat :=
  match lil_build dup M (combine (combine i j) (map (cast t) v)) with
  | (M', Ok _) => Ok M'
  | (_, Throw e) => Throw e
  | (_, UB) => UB
  end.
Definition vbuild (t : sty) (dup : Q -> Q -> Q) (w : vec) (i : list nat) (v : list Q) : res vec :=
  vec_build 0%Q dup w (combine i (map (cast t) v)).

(** The operations.  [tw] is the scalar type of the output, [tt] that of the temporary. *)
Definition noacc : accum Q Q Q := NoAcc (fun x => x).
Definition acc (d3 : sty) (f : Q -> Q -> Q) : accum Q Q Q := Acc f (cast d3) (cast d3).
(** The two semiring operators and the scalar type of the result. *)
Record semiring := mkSr { s_add : Q -> Q -> Q; s_mult : Q -> Q -> Q; s_ty : sty }.

Section Calls.
Context (tw : sty) (a : accum Q Q Q).
Definition t_mxm (s : semiring) (m : mask mat) (o : outmode) (C : mat) (A B : mview Q) : res mat :=
  mxm (s_add s) (s_mult s) (s_mult s) (cast tw) (cast (s_ty s)) nz (cast tw) a m o C A B.
Definition t_opt_mxm (ta : sty) (s : semiring) (m : mask (obj Q Q)) (o : outmode) (C : mat)
    (A B : oview Q) : res mat :=
  opt_mxm (s_add s) (s_mult s) (s_mult s) (cast ta) nz (cast tw) (cast (s_ty s)) (cast tw)
    a m o C A B.
Definition t_mxv (s : semiring) (m : mask vec) (o : outmode) (w : vec) (A : mview Q) (u : vec)
  : res vec :=
  mxv (s_add s) (s_mult s) (s_mult s) nz (cast tw) a m o w A u.
Definition t_vxm (s : semiring) (m : mask vec) (o : outmode) (w : vec) (u : vec) (A : mview Q)
  : res vec :=
  vxm (s_add s) (s_mult s) nz (cast tw) a m o w u A.
Definition t_eWiseAdd (ta d3 : sty) (f : Q -> Q -> Q) (m : mask mat) (o : outmode) (C : mat)
    (A B : mview Q) : res mat :=
  eWiseAdd f (cast d3) (cast d3) f (cast d3) (cast ta) nz (cast tw) a m o C A B.
Definition t_eWiseMult (ta d3 : sty) (f : Q -> Q -> Q) (m : mask mat) (o : outmode) (C : mat)
    (A B : mview Q) : res mat :=
  eWiseMult f f (cast ta) nz (cast tw) a m o C A B.
Definition t_eWiseAdd_v (d3 : sty) (f : Q -> Q -> Q) (m : mask vec) (o : outmode) (w u v : vec)
  : res vec :=
  eWiseAdd_v f (cast d3) (cast d3) nz (cast tw) a m o w u v.
Definition t_eWiseMult_v (d3 : sty) (f : Q -> Q -> Q) (m : mask vec) (o : outmode) (w u v : vec)
  : res vec :=
  eWiseMult_v f nz (cast tw) a m o w u v.
Definition t_apply (f : Q -> Q) (m : mask mat) (o : outmode) (C : mat) (A : mview Q) : res mat :=
  apply f nz (cast tw) a m o C A.
Definition t_apply_v (f : Q -> Q) (m : mask vec) (o : outmode) (w u : vec) : res vec :=
  apply_v f nz (cast tw) a m o w u.
Definition t_apply_1st (f : Q -> Q -> Q) (x : Q) (m : mask mat) (o : outmode) (C : mat)
    (A : mview Q) : res mat :=
  apply_binop_1st f x nz (cast tw) a m o C A.
Definition t_apply_2nd (f : Q -> Q -> Q) (x : Q) (m : mask mat) (o : outmode) (C : mat)
    (A : mview Q) : res mat :=
  apply_binop_2nd f x nz (cast tw) a m o C A.
Definition t_apply_1st_v (f : Q -> Q -> Q) (x : Q) (m : mask vec) (o : outmode) (w u : vec)
  : res vec :=
  apply_binop_1st_v f x nz (cast tw) a m o w u.
Definition t_apply_2nd_v (f : Q -> Q -> Q) (x : Q) (m : mask vec) (o : outmode) (w u : vec)
  : res vec :=
  apply_binop_2nd_v f x nz (cast tw) a m o w u.
Definition t_reduce (d3 : sty) (f : Q -> Q -> Q) (m : mask vec) (o : outmode) (w : vec)
    (A : mview Q) : res vec :=
  reduce (cast d3) f f nz (cast tw) a m o w A.
Definition t_reduce_vs (d3 : sty) (ident : Q) (f : Q -> Q -> Q) (x : Q) (u : vec) : res Q :=
  reduce_vs ident (cast d3) f f (cast tw) a x u.
Definition t_reduce_ms (d3 : sty) (ident : Q) (f : Q -> Q -> Q) (x : Q) (A : mat) : res Q :=
  reduce_ms ident (cast d3) f f f (cast tw) a x A.
Definition t_transpose (m : mask mat) (o : outmode) (C : mat) (A : mview Q) : res mat :=
  transpose nz (cast tw) a m o C A.
Definition t_kronecker (f : Q -> Q -> Q) (m : mask mat) (o : outmode) (C : mat) (A B : mview Q)
  : res mat :=
  kronecker f nz (cast tw) a m o C A B.
Definition t_extract_v (m : mask vec) (o : outmode) (w u : vec) (s : idxseq) : res vec :=
  extract_v nz (cast tw) a m o w u s.
Definition t_extract_m (m : mask mat) (o : outmode) (C : mat) (A : mview Q) (r c : idxseq)
  : res mat :=
  extract_m nz (cast tw) a m o C A r c.
Definition t_extract_col (m : mask vec) (o : outmode) (w : vec) (A : mview Q) (r : idxseq) (j : nat)
  : res vec :=
  extract_col nz (cast tw) a m o w A r j.
(** [tz] is the intermediate type of the assign operations. *)
Context (tz : sty).
Definition t_assign_v (m : mask vec) (o : outmode) (w u : vec) (s : idxseq) : res vec :=
  assign_v (cast tz) nz (cast tw) a m o w u s.
Definition t_assign_m (m : mask mat) (o : outmode) (C : mat) (A : mview Q) (r c : idxseq)
  : res mat :=
  assign_m (cast tz) nz (cast tw) a m o C A r c.
Definition t_assign_col (m : mask vec) (o : outmode) (C : mat) (u : vec) (r : idxseq) (j : nat)
  : res mat :=
  assign_col 0%Q (cast tz) nz (cast tw) a m o C u r j.
Definition t_assign_row (m : mask vec) (o : outmode) (C : mat) (u : vec) (i : nat) (c : idxseq)
  : res mat :=
  assign_row 0%Q (cast tz) nz (cast tw) a m o C u i c.
Definition t_assign_const_v (m : mask vec) (o : outmode) (w : vec) (x : Q) (s : idxseq) : res vec :=
  assign_const_v (cast tz) nz (cast tw) a m o w x s.
Definition t_assign_const_m (m : mask mat) (o : outmode) (C : mat) (x : Q) (r c : idxseq)
  : res mat :=
  assign_const_m (cast tz) nz (cast tw) a m o C x r c.
End Calls.
