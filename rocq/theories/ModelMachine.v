(** Programs: containers live in a store, operations name them by position, so that the
    output, the operands and the mask may be the same container.

    One scalar type [T] stands for all of them (a union of the C++ scalar types); operators
    and conversions are arbitrary functions on it, so mixed-type calls are included. *)
From Verif Require Import Base ModelLil ModelVec ModelHelpers ModelViews ModelMul ModelElem
  ModelIndex ModelCalls.

Record store (T : Type) : Type := mkStore { mats : list (lil T); vecs : list (bvec T) }.
Arguments mkStore {T} mats vecs.
Arguments mats {T} s.
Arguments vecs {T} s.

(** A matrix operand: a matrix of the store or its transposed view. *)
Inductive mref : Type := RMat (k : nat) | RTrn (k : nat).

(** The trailing arguments of an operation: conversions, accumulator, output mode. *)
Record wargs (T : Type) : Type := mkW {
  w_truthy : T -> bool; w_cz : T -> T; w_zc : T -> T; w_acc : accum T T T; w_outp : outmode }.
Arguments mkW {T} w_truthy w_cz w_zc w_acc w_outp.
Arguments w_truthy {T} w _.
Arguments w_cz {T} w _.
Arguments w_zc {T} w _.
Arguments w_acc {T} w.
Arguments w_outp {T} w.

(** Operations with a matrix result. *)
Inductive mop (T V : Type) : Type :=
| OMxm (add mult multS : T -> T -> T) (tc ct : T -> T) (A B : V)
| OEwiseMult (op opA : T -> T -> T) (ba : T -> T) (A B : V)
| OEwiseAdd (op : T -> T -> T) (c1 c2 : T -> T) (opA : T -> T -> T) (c2A ba : T -> T) (A B : V)
| OApply (f : T -> T) (A : V)
| OTranspose (A : V)
| OKron (op : T -> T -> T) (A B : V)
| OExtract (A : V) (rs cs : idxseq)
| OAssign (A : V) (rs cs : idxseq)
| OAssignC (val : T) (rs cs : idxseq).
Arguments OMxm {T V}.
Arguments OEwiseMult {T V}.
Arguments OEwiseAdd {T V}.
Arguments OApply {T V}.
Arguments OTranspose {T V}.
Arguments OKron {T V}.
Arguments OExtract {T V}.
Arguments OAssign {T V}.
Arguments OAssignC {T V}.

(** Operations with a vector result; [V] matrix operands, [U] vector operands. *)
Inductive vop (T V U : Type) : Type :=
| OMxv (add mult multS : T -> T -> T) (A : V) (u : U)
| OVxm (add mult : T -> T -> T) (u : U) (A : V)
| OEwiseMultV (op : T -> T -> T) (u v : U)
| OEwiseAddV (op : T -> T -> T) (c1 c2 : T -> T) (u v : U)
| OApplyV (f : T -> T) (u : U)
| OReduce (c1 : T -> T) (op01 op : T -> T -> T) (A : V)
| OExtractV (u : U) (s : idxseq)
| OExtractCol (A : V) (rs : idxseq) (col : nat)
| OAssignV (u : U) (s : idxseq)
| OAssignCV (val : T) (s : idxseq).
Arguments OMxv {T V U}.
Arguments OVxm {T V U}.
Arguments OEwiseMultV {T V U}.
Arguments OEwiseAddV {T V U}.
Arguments OApplyV {T V U}.
Arguments OReduce {T V U}.
Arguments OExtractV {T V U}.
Arguments OExtractCol {T V U}.
Arguments OAssignV {T V U}.
Arguments OAssignCV {T V U}.

(** Assignment of a vector to one column or row of a matrix. *)
Inductive rop (U : Type) : Type :=
| OAssignCol (u : U) (rs : idxseq) (col : nat)
| OAssignRow (u : U) (row : nat) (cs : idxseq).
Arguments OAssignCol {U}.
Arguments OAssignRow {U}.

(** Reductions to a scalar. *)
Inductive sop (T V U : Type) : Type :=
| OReduceVS (ident : T) (c1 : T -> T) (op01 op : T -> T -> T) (val : T) (u : U)
| OReduceMS (ident : T) (c1 : T -> T) (op01 op op2 : T -> T -> T) (val : T) (A : V).
Arguments OReduceVS {T V U}.
Arguments OReduceMS {T V U}.

Inductive call (T : Type) : Type :=
| CMat (c : mcall T)                                           (* container calls *)
| CVec (c : vcall T)
| CMop (out : nat) (m : mask nat) (w : wargs T) (o : mop T mref)
| CVop (out : nat) (m : mask nat) (w : wargs T) (o : vop T mref nat)
| CRop (out : nat) (m : mask nat) (w : wargs T) (o : rop nat)
| CSop (w : wargs T) (o : sop T nat nat).
Arguments CMat {T}.
Arguments CVec {T}.
Arguments CMop {T}.
Arguments CVop {T}.
Arguments CRop {T}.
Arguments CSop {T}.

(** ** The operations on values *)
Section Ops.
Context {T : Type} (dflt : T).

(** Everything a matrix operation does before it starts to write its output: the frontend
    checks, the temporary [T] and the temporary [Z].  None of it modifies an operand.
    (The functions [mxm] etc. of the other model files, without their last step.) *)
Definition mopZ (w : wargs T) (m : mask (lil T)) (C : lil T) (o : mop T (mview T))
  : res (lil T) :=
  let Z0 := lil_new (nrows C) (ncols C) in
  match o with
  | OMxm add mult multS tc ct A B =>
      _ <- check_mask_rows (nrows C) m ;;
      _ <- check_mask_cols (ncols C) m ;;
      _ <- check_eq (nrows C) (vrows A) ;;
      _ <- check_eq (ncols C) (vcols B) ;;
      _ <- check_eq (vcols A) (vrows B) ;;
      T <- mxm_T add mult multS tc ct (nrows C) (ncols C) A B ;;
      ewise_or_opt_accum (w_acc w) Z0 C T
  | OEwiseMult op opA ba A B =>
      _ <- ewise_checks m C A B ;;
      T <- match A, B with
           | Mat A, Mat B => ewm_T op A B
           | Trn A, Mat B => At <- staged_transpose (fun v => v) A ;; ewm_T op At B
           | Mat A, Trn B => Bt <- staged_transpose ba B ;; ewm_T opA A Bt
           | Trn A, Trn B => ewm_TT op A B
           end ;;
      ewise_or_opt_accum (w_acc w) Z0 C T
  | OEwiseAdd op c1 c2 opA c2A ba A B =>
      _ <- ewise_checks m C A B ;;
      T <- match A, B with
           | Mat A, Mat B => ewa_T op c1 c2 A B
           | Trn A, Mat B => At <- staged_transpose (fun v => v) A ;; ewa_T op c1 c2 At B
           | Mat A, Trn B => Bt <- staged_transpose ba B ;; ewa_T opA c1 c2A A Bt
           | Trn A, Trn B => ewa_TT op c1 c2 A B
           end ;;
      ewise_or_opt_accum (w_acc w) Z0 C T
  | OApply f A =>
      _ <- check_mask_cols (ncols C) m ;;
      _ <- check_mask_rows (nrows C) m ;;
      _ <- check_eq (ncols C) (vcols A) ;;
      _ <- check_eq (nrows C) (vrows A) ;;
      T <- apply_T f A ;;
      ewise_or_opt_accum (w_acc w) Z0 C T
  | OTranspose A =>
      _ <- check_mask_rows (nrows C) m ;;
      _ <- check_mask_cols (ncols C) m ;;
      _ <- check_eq (ncols C) (vrows A) ;;
      _ <- check_eq (vcols A) (nrows C) ;;
      match A with
      | Mat A => T <- transpose_T A ;; ewise_or_opt_accum (w_acc w) Z0 C T
      | Trn A => ewise_or_opt_accum (w_acc w) Z0 C A
      end
  | OKron op A B =>
      _ <- check_mask_rows (nrows C) m ;;
      _ <- check_mask_cols (ncols C) m ;;
      _ <- check_eq_prod (ncols C) (vcols A) (vcols B) ;;
      _ <- check_eq_prod (nrows C) (vrows A) (vrows B) ;;
      T <- kron_T op (nrows C) (ncols C) A B ;;
      ewise_or_opt_accum (w_acc w) Z0 C T
  | OExtract A rs cs =>
      _ <- check_mask_rows (nrows C) m ;;
      _ <- check_mask_cols (ncols C) m ;;
      _ <- check_nindices (nrows C) rs ;;
      _ <- check_nindices (ncols C) cs ;;
      _ <- check_index_array_content rs (vrows A) ;;
      _ <- check_index_array_content cs (vcols A) ;;
      T <- matrixExtract (nrows C) (ncols C) A
             (idx_list (setupIndices rs (Nat.min (vrows A) (nrows C))))
             (idx_list (setupIndices cs (Nat.min (vcols A) (ncols C)))) ;;
      ewise_or_opt_accum (w_acc w) Z0 C T
  | OAssign A rs cs =>
      _ <- check_mask_rows (nrows C) m ;;
      _ <- check_mask_cols (ncols C) m ;;
      _ <- check_nindices (vrows A) rs ;;
      _ <- check_nindices (vcols A) cs ;;
      _ <- check_index_array_content rs (nrows C) ;;
      _ <- check_index_array_content cs (ncols C) ;;
      let rs' := setupIndices rs (vrows A) in
      let cs' := setupIndices cs (vcols A) in
      T <- matrixExpand (nrows C) (ncols C) A (idx_list rs') (idx_list cs') ;;
      ewise_or_stencil_opt_accum (w_acc w) (w_cz w) Z0 C T rs' cs'
  | OAssignC val rs cs =>
      _ <- check_mask_rows (nrows C) m ;;
      _ <- check_mask_cols (ncols C) m ;;
      _ <- check_nindices_within rs (nrows C) ;;
      _ <- check_nindices_within cs (ncols C) ;;
      _ <- check_index_array_content rs (nrows C) ;;
      _ <- check_index_array_content cs (ncols C) ;;
      let rs' := setupIndices rs (nrows C) in
      let cs' := setupIndices cs (ncols C) in
      T <- mfor (idx_list rs')
             (fun row_it T' =>
                let out_row := map (fun j => (j, val)) (idx_list cs') in
                if empty out_row then Ok T' else setRow (fun x => x) T' row_it out_row)
             (lil_new (nrows C) (ncols C)) ;;
      ewise_or_stencil_opt_accum (w_acc w) (w_cz w) Z0 C T rs' cs'
  end.

(** The same operations as functions of separate values. *)
Definition mop_fun (w : wargs T) (m : mask (lil T)) (C : lil T) (o : mop T (mview T))
  : res (lil T) :=
  let tr := w_truthy w in let zc := w_zc w in let a := w_acc w in let outp := w_outp w in
  match o with
  | OMxm add mult multS tc ct A B => mxm add mult multS tc ct tr zc a m outp C A B
  | OEwiseMult op opA ba A B => eWiseMult op opA ba tr zc a m outp C A B
  | OEwiseAdd op c1 c2 opA c2A ba A B => eWiseAdd op c1 c2 opA c2A ba tr zc a m outp C A B
  | OApply f A => apply f tr zc a m outp C A
  | OTranspose A => transpose tr zc a m outp C A
  | OKron op A B => kronecker op tr zc a m outp C A B
  | OExtract A rs cs => extract_m tr zc a m outp C A rs cs
  | OAssign A rs cs => assign_m (w_cz w) tr zc a m outp C A rs cs
  | OAssignC val rs cs => assign_const_m (w_cz w) tr zc a m outp C val rs cs
  end.

Definition vop_fun (w : wargs T) (m : mask (bvec T)) (x : bvec T) (o : vop T (mview T) (bvec T))
  : res (bvec T) :=
  let tr := w_truthy w in let zc := w_zc w in let a := w_acc w in let outp := w_outp w in
  match o with
  | OMxv add mult multS A u => mxv add mult multS tr zc a m outp x A u
  | OVxm add mult u A => vxm add mult tr zc a m outp x u A
  | OEwiseMultV op u v => eWiseMult_v op tr zc a m outp x u v
  | OEwiseAddV op c1 c2 u v => eWiseAdd_v op c1 c2 tr zc a m outp x u v
  | OApplyV f u => apply_v f tr zc a m outp x u
  | OReduce c1 op01 op A => reduce c1 op01 op tr zc a m outp x A
  | OExtractV u s => extract_v tr zc a m outp x u s
  | OExtractCol A rs col => extract_col tr zc a m outp x A rs col
  | OAssignV u s => assign_v (w_cz w) tr zc a m outp x u s
  | OAssignCV val s => assign_const_v (w_cz w) tr zc a m outp x val s
  end.

Definition rop_fun (w : wargs T) (m : mask (bvec T)) (C : lil T) (o : rop (bvec T))
  : res (lil T) :=
  let tr := w_truthy w in let zc := w_zc w in let a := w_acc w in let outp := w_outp w in
  match o with
  | OAssignCol u rs col => assign_col dflt (w_cz w) tr zc a m outp C u rs col
  | OAssignRow u row cs => assign_row dflt (w_cz w) tr zc a m outp C u row cs
  end.

Definition sop_fun (w : wargs T) (o : sop T (lil T) (bvec T)) : res T :=
  match o with
  | OReduceVS ident c1 op01 op val u => reduce_vs ident c1 op01 op (w_zc w) (w_acc w) val u
  | OReduceMS ident c1 op01 op op2 val A =>
      reduce_ms ident c1 op01 op op2 (w_zc w) (w_acc w) val A
  end.

(** ** Naming containers *)

Definition mlook (ms : list (lil T)) (r : mref) : option (mview T) :=
  match r with
  | RMat k => option_map Mat (nth_error ms k)
  | RTrn k => option_map Trn (nth_error ms k)
  end.

Definition mask_look {X : Type} (l : list X) (m : mask nat) : option (mask X) :=
  match m with
  | NoMask => Some NoMask
  | MVal k => option_map MVal (nth_error l k)
  | MComp k => option_map MComp (nth_error l k)
  | MStruct k => option_map MStruct (nth_error l k)
  | MSComp k => option_map MSComp (nth_error l k)
  end.

Definition oapp {A B : Type} (f : option (A -> B)) (x : option A) : option B :=
  match f, x with Some g, Some a => Some (g a) | _, _ => None end.

Definition mop_look (ms : list (lil T)) (o : mop T mref) : option (mop T (mview T)) :=
  match o with
  | OMxm add mult multS tc ct A B =>
      oapp (option_map (OMxm add mult multS tc ct) (mlook ms A)) (mlook ms B)
  | OEwiseMult op opA ba A B => oapp (option_map (OEwiseMult op opA ba) (mlook ms A)) (mlook ms B)
  | OEwiseAdd op c1 c2 opA c2A ba A B =>
      oapp (option_map (OEwiseAdd op c1 c2 opA c2A ba) (mlook ms A)) (mlook ms B)
  | OApply f A => option_map (OApply f) (mlook ms A)
  | OTranspose A => option_map OTranspose (mlook ms A)
  | OKron op A B => oapp (option_map (OKron op) (mlook ms A)) (mlook ms B)
  | OExtract A rs cs => option_map (fun A => OExtract A rs cs) (mlook ms A)
  | OAssign A rs cs => option_map (fun A => OAssign A rs cs) (mlook ms A)
  | OAssignC val rs cs => Some (OAssignC val rs cs)
  end.

Definition vop_look (ms : list (lil T)) (vs : list (bvec T)) (o : vop T mref nat)
  : option (vop T (mview T) (bvec T)) :=
  match o with
  | OMxv add mult multS A u =>
      oapp (option_map (OMxv add mult multS) (mlook ms A)) (nth_error vs u)
  | OVxm add mult u A => oapp (option_map (OVxm add mult) (nth_error vs u)) (mlook ms A)
  | OEwiseMultV op u v => oapp (option_map (OEwiseMultV op) (nth_error vs u)) (nth_error vs v)
  | OEwiseAddV op c1 c2 u v =>
      oapp (option_map (OEwiseAddV op c1 c2) (nth_error vs u)) (nth_error vs v)
  | OApplyV f u => option_map (OApplyV f) (nth_error vs u)
  | OReduce c1 op01 op A => option_map (OReduce c1 op01 op) (mlook ms A)
  | OExtractV u s => option_map (fun u => OExtractV u s) (nth_error vs u)
  | OExtractCol A rs col => option_map (fun A => OExtractCol A rs col) (mlook ms A)
  | OAssignV u s => option_map (fun u => OAssignV u s) (nth_error vs u)
  | OAssignCV val s => Some (OAssignCV val s)
  end.

Definition rop_look (vs : list (bvec T)) (o : rop nat) : option (rop (bvec T)) :=
  match o with
  | OAssignCol u rs col => option_map (fun u => OAssignCol u rs col) (nth_error vs u)
  | OAssignRow u row cs => option_map (fun u => OAssignRow u row cs) (nth_error vs u)
  end.

Definition sop_look (ms : list (lil T)) (vs : list (bvec T)) (o : sop T nat nat)
  : option (sop T (lil T) (bvec T)) :=
  match o with
  | OReduceVS ident c1 op01 op val u => option_map (OReduceVS ident c1 op01 op val) (nth_error vs u)
  | OReduceMS ident c1 op01 op op2 val A =>
      option_map (OReduceMS ident c1 op01 op op2 val) (nth_error ms A)
  end.

(** ** Writing in place *)

(** Run a computation that yields a new value for matrix [c]; the store keeps what has been
    written when an exception is thrown later. *)
Definition poke (ms : list (lil T)) (c : nat) (r : res (lil T)) : list (lil T) * res unit :=
  match r with
  | Ok C => (upd ms c C, Ok tt)
  | Throw e => (ms, Throw e)
  | UB => (ms, UB)
  end.

Fixpoint hfor (l : list nat) (body : nat -> list (lil T) -> list (lil T) * res unit)
    (ms : list (lil T)) : list (lil T) * res unit :=
  match l with
  | [] => (ms, Ok tt)
  | i :: l' =>
      match body i ms with
      | (ms', Ok _) => hfor l' body ms'
      | r => r
      end
  end.

(** [write_with_opt_mask], sparse_helpers.hpp:956-1070 (and [sparse_copy], 67-93): the
    output row, the row of [Z] and the mask row are read from the store at every step. *)
Definition hwrite (w : wargs T) (ms : list (lil T)) (c : nat) (Z : lil T) (m : mask nat)
  : list (lil T) * res unit :=
  match nth_error ms c with
  | None => (ms, UB)
  | Some C =>
      match m with
      | NoMask =>
          hfor (seq 0 (nrows C))
            (fun i ms' => poke ms' c
               (C' <- vat ms' c ;;
                r <- getrow Z i ;;
                match r with
                | [] => Ok C'
                | _ => setRow (fun x => x) C' i (cast_row (w_zc w) r)
                end))
            (upd ms c (lil_clear C))
      | _ =>
          hfor (seq 0 (nrows C))
            (fun i ms' => poke ms' c
               (C' <- vat ms' c ;;
                c_row <- getrow C' i ;;
                z_row <- getrow Z i ;;
                m_row <- match mask_look ms' m with
                         | Some m' => mask_row (w_truthy w) m' i
                         | None => UB
                         end ;;
                setRow (fun x => x) C' i (apply_with_mask (w_zc w) (w_outp w) c_row z_row m_row)))
            ms
      end
  end.

(** ** One call.  A call naming no container does nothing. *)
Context (eqb : T -> T -> bool).

Definition done (r : res unit) : res (answer T) := res_map (fun _ => ADone) r.

Definition step (st : store T) (c : call T) : store T * res (answer T) :=
  match c with
  | CMat c => let '(ms, r) := mstep eqb (mats st) c in (mkStore ms (vecs st), r)
  | CVec c => let '(vs, r) := vstep dflt eqb (vecs st) c in (mkStore (mats st) vs, r)
  | CMop out m w o =>
      match nth_error (mats st) out, mask_look (mats st) m, mop_look (mats st) o with
      | Some C, Some m', Some o' =>
          match mopZ w m' C o' with
          | Ok Z => let '(ms, r) := hwrite w (mats st) out Z m in (mkStore ms (vecs st), done r)
          | Throw e => (st, Throw e)
          | UB => (st, UB)
          end
      | _, _, _ => (st, Ok ADone)
      end
  | CVop out m w o =>
      match nth_error (vecs st) out, mask_look (vecs st) m, vop_look (mats st) (vecs st) o with
      | Some x, Some m', Some o' =>
          match vop_fun w m' x o' with
          | Ok x' => (mkStore (mats st) (upd (vecs st) out x'), Ok ADone)
          | Throw e => (st, Throw e)
          | UB => (st, UB)
          end
      | _, _, _ => (st, Ok ADone)
      end
  | CRop out m w o =>
      match nth_error (mats st) out, mask_look (vecs st) m, rop_look (vecs st) o with
      | Some C, Some m', Some o' =>
          match rop_fun w m' C o' with
          | Ok C' => (mkStore (upd (mats st) out C') (vecs st), Ok ADone)
          | Throw e => (st, Throw e)
          | UB => (st, UB)
          end
      | _, _, _ => (st, Ok ADone)
      end
  | CSop w o =>
      match sop_look (mats st) (vecs st) o with
      | Some o' => (st, res_map AVal (sop_fun w o'))
      | None => (st, Ok ADone)
      end
  end.

Fixpoint exec (st : store T) (cs : list (call T)) : store T * list (res (answer T)) :=
  match cs with
  | [] => (st, [])
  | c :: cs' =>
      let '(st', r) := step st c in
      let '(st'', rs) := exec st' cs' in
      (st'', r :: rs)
  end.
End Ops.
