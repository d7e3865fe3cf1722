{"id": "C01", "title": "Matrix stored-value count is exact after any history", "statement": "After any sequence of Matrix calls (construct, setElement, setElement with a merge function, removeElement, build, clear, resize, dense construction, whole-row replacement), whether or not some calls threw, nvals() equals the number of positions (i,j) inside nrows() x ncols() for which hasElement(i,j) is true, and no position outside the bounds is stored.", "quantifier": "all element types, all initial dimensions, all finite histories of matrix calls including throwing ones", "why_tests_cant": "the count is maintained incrementally in several places; drift appears only for particular call orders, of which there are infinitely many", "anchors": ["src/graphblas/platforms/sequential/LilSparseMatrix.hpp: setElement, removeElement, build, clear, resize, setRow, recomputeNvals", "src/graphblas/Matrix.hpp"]}
{"id": "C02", "title": "Matrix element interface refines a finite partial map", "statement": "For any history of matrix calls, hasElement/extractElement answer exactly as a partial map from (row, column) to value updated by the same calls: set overwrites, set-with-merge combines old and new with merge(old,new), remove deletes, clear empties, resize restricts the map to the new bounds; extractElement on an absent position raises NoValueException, any access outside the bounds raises IndexOutOfBoundsException, and a raising call leaves the map unchanged (build excepted, see C10).", "quantifier": "all element types, dimensions, positions and finite call histories", "why_tests_cant": "requires agreement with the map after every possible call sequence, not after a few scripted ones", "anchors": ["src/graphblas/platforms/sequential/LilSparseMatrix.hpp: setElement, hasElement, extractElement, removeElement, clear, resize", "src/graphblas/Matrix.hpp"]}
{"id": "C03", "title": "Vector element interface refines a finite partial map", "statement": "For any history of vector calls (setElement, removeElement, clear, resize, build, assignment), hasElement/extractElement answer exactly as a partial map from index to value updated by the same calls; out-of-range accesses raise IndexOutOfBoundsException, reading an absent element raises NoValueException, and a raising call leaves the vector unchanged.", "quantifier": "all element types, sizes, indices and finite call histories", "why_tests_cant": "requires agreement after every possible call sequence", "anchors": ["src/graphblas/platforms/sequential/BitmapSparseVector.hpp: setElement, removeElement, hasElement, extractElement, clear, resize, build", "src/graphblas/Vector.hpp"]}
{"id": "C04", "title": "Vector stored-value count is exact after any history", "statement": "After any sequence of vector calls, nvals() equals the number of indices i < size() for which hasElement(i) is true.  (Expected to fail for build/constructors given duplicate indices and for the fill constructor; it must hold for all other histories.)", "quantifier": "all element types, sizes and finite call histories", "why_tests_cant": "drift depends on call order and on duplicates in user-supplied index arrays", "anchors": ["src/graphblas/platforms/sequential/BitmapSparseVector.hpp: constructors, setElement, removeElement, resize, build, setContents"]}
{"id": "C05", "title": "Matrix equality is extensional", "statement": "operator== on two matrices returns true exactly when they have the same dimensions and the same set of stored (row, column, value) triples, regardless of how either matrix was built.", "quantifier": "all pairs of matrices reachable by any histories, all element types with decidable equality", "why_tests_cant": "depends on the representation being canonical in every reachable state", "anchors": ["src/graphblas/platforms/sequential/LilSparseMatrix.hpp: operator=="]}
{"id": "C06", "title": "Vector equality is extensional", "statement": "operator== on two vectors returns true exactly when they have the same size and the same stored (index, value) pairs, regardless of history.  (Values left behind in unstored slots must not matter.)", "quantifier": "all pairs of vectors reachable by any histories", "why_tests_cant": "stale values in cleared slots and count drift are history dependent", "anchors": ["src/graphblas/platforms/sequential/BitmapSparseVector.hpp: operator=="]}
{"id": "C07", "title": "extractTuples then build is the identity", "statement": "extractTuples lists every stored element exactly once in ascending (row-major) index order, exactly nvals() of them, and building a fresh container of the same shape from those tuples, in any order, yields a container equal to the original.  Holds for matrices and for vectors.", "quantifier": "all well-formed matrices and vectors, all permutations of the extracted tuples", "why_tests_cant": "round trip over every content and every permutation", "anchors": ["src/graphblas/platforms/sequential/LilSparseMatrix.hpp: extractTuples, build", "src/graphblas/platforms/sequential/BitmapSparseVector.hpp: extractTuples, build"]}
{"id": "C08", "title": "build combines duplicates left to right with the dup operator", "statement": "After build on an empty container, the value stored at a position is dup(...dup(dup(v1,v2),v3)...,vn), where v1..vn are the values supplied for that position in input order, and positions without a tuple are empty.", "quantifier": "all tuple lists (any length, order, multiplicity), all dup functions, both containers", "why_tests_cant": "order of combination matters only for non-associative or non-commutative dup and arbitrary multiplicities", "anchors": ["src/graphblas/platforms/sequential/LilSparseMatrix.hpp: build, setElement(merge)", "src/graphblas/platforms/sequential/BitmapSparseVector.hpp: build"]}
{"id": "C09", "title": "resize keeps exactly the elements inside the new bounds", "statement": "resize to new positive dimensions keeps every stored element whose position lies inside the new bounds with its value, drops all the others, adds none, and leaves nvals() exact; growing then shrinking back is the identity.", "quantifier": "all containers and all new dimensions (growing, shrinking, mixed)", "why_tests_cant": "four combinations of grow/shrink with arbitrary contents", "anchors": ["src/graphblas/platforms/sequential/LilSparseMatrix.hpp: resize", "src/graphblas/platforms/sequential/BitmapSparseVector.hpp: resize", "src/graphblas/Matrix.hpp: resize", "src/graphblas/Vector.hpp: resize"]}
{"id": "C10", "title": "A throwing build leaves the container unchanged", "statement": "If build throws because a tuple is out of bounds, the container is exactly as before the call.  (True for Vector; for Matrix a prefix of the tuples stays inserted.)", "quantifier": "all containers and all tuple lists containing an out-of-bounds tuple", "why_tests_cant": "needs every split of the input into valid prefix and first bad tuple", "anchors": ["src/graphblas/platforms/sequential/LilSparseMatrix.hpp: build", "src/graphblas/platforms/sequential/BitmapSparseVector.hpp: build"]}
{"id": "C11", "title": "Mask/accumulate/replace write rule", "statement": "For every operation with output C, result T, accumulator and mask: where the mask allows, the new element is accum(C,T) if both exist, else whichever exists (without accumulator: T, absent if T is absent); where the mask forbids, the element is unchanged under MERGE and deleted under REPLACE; without a mask every element is written.", "quantifier": "all scalar types and cast functions, all dimensions, all well-formed operand matrices/vectors, all masks of every kind, both output modes, every accumulator or none", "why_tests_cant": "every combination of presence, mask kind, mode and accumulator at every position", "anchors": ["src/graphblas/platforms/sequential/sparse_helpers.hpp: ewise_or_opt_accum, ewise_or_opt_accum_1D, write_with_opt_mask, write_with_opt_mask_1D, apply_with_mask"]}
{"id": "C12", "title": "mxm computes the semiring product (A*B)", "statement": "mxm(C,M,accum,sr,A,B) with conforming dimensions stores, through the write rule, T(i,j) = the left-to-right sum over ascending k of mult(A(i,k),B(k,j)) over exactly those k where both are stored; T(i,j) is absent iff there is no such k.  No associativity, commutativity or identity law is needed, so it holds bit-for-bit for floating point too.", "quantifier": "all scalar types and cast functions, all dimensions, all well-formed operand matrices/vectors, all masks of every kind, both output modes, every accumulator or none", "why_tests_cant": "all sparsity patterns and sizes; order of summation matters for non-associative adds", "anchors": ["src/graphblas/platforms/sequential/sparse_mxm.hpp: sparse_mxm_NoMask*/mxm AB", "src/graphblas/platforms/sequential/sparse_helpers.hpp: axpy"]}
{"id": "C13", "title": "mxm with transposed A or transposed B equals mxm with the explicit transpose", "statement": "mxm(C,M,accum,sr,transpose(A),B) and mxm(C,M,accum,sr,A,transpose(B)) give the same C as mxm on a matrix whose (j,i) element is the (i,j) element of the viewed matrix.", "quantifier": "all scalar types and cast functions, all dimensions, all well-formed operand matrices/vectors, all masks of every kind, both output modes, every accumulator or none", "why_tests_cant": "all shapes and sparsity patterns, different kernels (outer product, dot product) are used", "anchors": ["src/graphblas/platforms/sequential/sparse_mxm.hpp: A'B, AB'", "src/graphblas/platforms/sequential/sparse_helpers.hpp: dot, axpy", "src/graphblas/TransposeView.hpp"]}
{"id": "C14", "title": "mxm with both operands transposed", "statement": "mxm(C,M,accum,sr,transpose(A),transpose(B)) gives the same C as with explicit transposes, i.e. T(i,j) sums mult(A(k,i),B(j,k)).  (The code multiplies in the order mult(b,a); holds for commutative multiplies only.)", "quantifier": "all scalar types and cast functions, all dimensions, all well-formed operand matrices/vectors, all masks of every kind, both output modes, every accumulator or none", "why_tests_cant": "differs from the spec only for non-commutative multiply operators", "anchors": ["src/graphblas/platforms/sequential/sparse_mxm.hpp: A'B'", "src/graphblas/platforms/optimized_sequential/sparse_mxm_ATBT.hpp"]}
{"id": "C15", "title": "mxv computes the semiring matrix-vector product", "statement": "mxv(w,m,accum,sr,A,u) stores, through the write rule, t(i) = left-to-right sum over ascending j of mult(A(i,j),u(j)), for any u whose nvals() is not wrongly 0 (see C04, C56).", "quantifier": "all scalar types and cast functions, all dimensions, all well-formed operand matrices/vectors, all masks of every kind, both output modes, every accumulator or none", "why_tests_cant": "all sparsity patterns and sizes", "anchors": ["src/graphblas/platforms/sequential/sparse_mxv.hpp: A*u", "src/graphblas/platforms/sequential/sparse_helpers.hpp: dot_rev"]}
{"id": "C16", "title": "mxv with transposed matrix", "statement": "mxv(w,m,accum,sr,transpose(A),u) stores t(i) = sum over ascending k of mult(A(k,i),u(k)).  (The code calls mult(u(k),A(k,i)); holds for commutative multiplies only.)", "quantifier": "all scalar types and cast functions, all dimensions, all well-formed operand matrices/vectors, all masks of every kind, both output modes, every accumulator or none", "why_tests_cant": "differs from the spec only for non-commutative multiply operators", "anchors": ["src/graphblas/platforms/sequential/sparse_mxv.hpp: A'*u"]}
{"id": "C17", "title": "vxm computes the semiring vector-matrix product", "statement": "vxm(w,m,accum,sr,u,A) stores t(j) = sum over ascending k of mult(u(k),A(k,j)); with transpose(A), mult(u(k),A(j,k)); for any u whose nvals() is not wrongly 0 (see C04, C56).", "quantifier": "all scalar types and cast functions, all dimensions, all well-formed operand matrices/vectors, all masks of every kind, both output modes, every accumulator or none", "why_tests_cant": "all sparsity patterns and sizes; two different kernels", "anchors": ["src/graphblas/platforms/sequential/sparse_vxm.hpp"]}
{"id": "C18", "title": "eWiseAdd is the union merge", "statement": "eWiseAdd stores, through the write rule, op(a,b) where both operands are stored, the single stored operand (converted) where exactly one is, and nothing where neither is; for vectors and for matrices under all four transpose combinations (for A,transpose(B) see also C20; for vectors with a wrong count C56).", "quantifier": "all scalar types and cast functions, all dimensions, all well-formed operand matrices/vectors, all masks of every kind, both output modes, every accumulator or none", "why_tests_cant": "all interleavings of the two index sequences", "anchors": ["src/graphblas/platforms/sequential/sparse_ewiseadd.hpp", "src/graphblas/platforms/sequential/sparse_helpers.hpp: ewise_or"]}
{"id": "C19", "title": "eWiseMult is the intersection merge", "statement": "eWiseMult stores, through the write rule, op(a,b) exactly where both operands are stored; for vectors and for matrices under all four transpose combinations (for A,transpose(B) see also C20; for vectors with a wrong count C56).", "quantifier": "all scalar types and cast functions, all dimensions, all well-formed operand matrices/vectors, all masks of every kind, both output modes, every accumulator or none", "why_tests_cant": "all interleavings of the two index sequences", "anchors": ["src/graphblas/platforms/sequential/sparse_ewisemult.hpp", "src/graphblas/platforms/sequential/sparse_helpers.hpp: ewise_and"]}
{"id": "C20", "title": "Element-wise ops on a transposed second operand keep its values", "statement": "eWiseAdd/eWiseMult(C,..,op,A,transpose(B)) use the values of B as stored, for any scalar types of A and B.  (The code stages B' in a container of A's type; values are converted through A's scalar type first.)", "quantifier": "all matrices with differing scalar types", "why_tests_cant": "visible only with mixed scalar types where the conversion loses information", "anchors": ["src/graphblas/platforms/sequential/sparse_ewiseadd.hpp: A.+B'", "src/graphblas/platforms/sequential/sparse_ewisemult.hpp: A.*B'"]}
{"id": "C21", "title": "apply maps every stored element and nothing else", "statement": "apply(C,M,accum,f,A) stores f(A(i,j)) exactly where A (or its transpose view) is stored, through the write rule; the bound binary-operator forms use op(val,a) resp. op(a,val); likewise for vectors.", "quantifier": "all scalar types and cast functions, all dimensions, all well-formed operand matrices/vectors, all masks of every kind, both output modes, every accumulator or none", "why_tests_cant": "all contents; argument order of the bound forms", "anchors": ["src/graphblas/platforms/sequential/sparse_apply.hpp"]}
{"id": "C22", "title": "Row and column reduction", "statement": "reduce(w,m,accum,op,A) stores at i the left-to-right op-fold of the stored elements of row i (column i for transpose(A)) and nothing for empty rows, through the write rule.", "quantifier": "all scalar types and cast functions, all dimensions, all well-formed operand matrices/vectors, all masks of every kind, both output modes, every accumulator or none", "why_tests_cant": "all sparsity patterns; fold order for non-associative op", "anchors": ["src/graphblas/platforms/sequential/sparse_reduce.hpp", "src/graphblas/platforms/sequential/sparse_helpers.hpp: reduction, xpey"]}
{"id": "C23", "title": "Reduction to a scalar", "statement": "reduce(val,accum,monoid,X) sets val to accum(val,s) (or s) where s is the monoid fold of the stored elements in ascending order, and the monoid identity if X is empty; for matrices, if the monoid is associative with a left identity s equals the fold in row-major order, and reducing the transposed matrix gives the same value when it is also commutative.", "quantifier": "all vectors, matrices and monoids", "why_tests_cant": "all contents, including empty", "anchors": ["src/graphblas/platforms/sequential/sparse_reduce.hpp"]}
{"id": "C24", "title": "transpose is exact and involutive", "statement": "transpose(C,M,accum,A) stores T(j,i)=A(i,j) through the write rule; transposing a transposed view copies A; transposing twice restores the original matrix.", "quantifier": "all scalar types and cast functions, all dimensions, all well-formed operand matrices/vectors, all masks of every kind, both output modes, every accumulator or none", "why_tests_cant": "all shapes and contents", "anchors": ["src/graphblas/platforms/sequential/sparse_transpose.hpp", "src/graphblas/TransposeView.hpp"]}
{"id": "C25", "title": "extract selects by index list", "statement": "extract with in-range index lists stores T(i,j)=A(I[i],J[j]) (vectors t(i)=u(I[i]); column form t(i)=A(I[i],j)), for arbitrary order and repetition in the index lists, through the write rule, for plain and transposed A.", "quantifier": "all scalar types and cast functions, all dimensions, all well-formed operand matrices/vectors, all masks of every kind, both output modes, every accumulator or none, all index lists (repeated, unordered) or AllIndices", "why_tests_cant": "arbitrary order/repetition drives a cursor that can move backwards", "anchors": ["src/graphblas/platforms/sequential/sparse_extract.hpp"]}
{"id": "C26", "title": "assign scatters by index list", "statement": "assign(C,M,accum,A,I,J) with in-range duplicate-free index lists writes A(i,j) to C(I[i],J[j]); without accumulator positions I x J not stored in A are deleted, and positions outside I x J keep their value (subject to the mask and output mode); vectors likewise, for any order of the index lists and for a transposed source.", "quantifier": "all scalar types and cast functions, all dimensions, all well-formed operand matrices/vectors, all masks of every kind, both output modes, every accumulator or none, all duplicate-free index lists in any order", "why_tests_cant": "arbitrary permutations of the index lists", "anchors": ["src/graphblas/platforms/sequential/sparse_assign.hpp: vectorExpand, matrixExpand, assign"]}
{"id": "C27", "title": "assign to one row or column touches only that row or column", "statement": "assign(C,mask,accum,u,I,j) (column) and assign(C,mask,accum,u,i,J) (row) change only that column/row, which becomes the vector assign of u into it; all other elements and their count are unchanged.", "quantifier": "all scalar types and cast functions, all dimensions, all well-formed operand matrices/vectors, all masks of every kind, both output modes, every accumulator or none", "why_tests_cant": "all contents of the rest of the matrix", "anchors": ["src/graphblas/platforms/sequential/sparse_assign.hpp: assign (col), assign (row)", "src/graphblas/platforms/sequential/LilSparseMatrix.hpp: getCol, setCol, setRow"]}
{"id": "C28", "title": "assign of a constant fills the index region", "statement": "assign(w,mask,accum,val,I) (and the matrix form) with ascending duplicate-free in-range index lists (or AllIndices) makes every position of the region hold val (or accum(old,val)), subject to the write rule, and touches nothing else.", "quantifier": "all scalar types and cast functions, all dimensions, all well-formed operand matrices/vectors, all masks of every kind, both output modes, every accumulator or none", "why_tests_cant": "all regions and contents", "anchors": ["src/graphblas/platforms/sequential/sparse_assign.hpp: assignConstant, assign_constant"]}
{"id": "C29", "title": "assign of a constant with an arbitrary order of indices", "statement": "The result of assigning a constant does not depend on the order in which the indices of the region are listed.  (The code does not sort them; unordered lists corrupt the result.)", "quantifier": "all index lists", "why_tests_cant": "needs arbitrary permutations of the index list with arbitrary prior contents", "anchors": ["src/graphblas/platforms/sequential/sparse_assign.hpp: assignConstant"]}
{"id": "C30", "title": "kronecker product", "statement": "kronecker(C,M,accum,op,A,B) stores T(i,j)=op(A(i/rB, j/cB), B(i mod rB, j mod cB)) exactly where both are stored, through the write rule, in all four transpose combinations.", "quantifier": "all scalar types and cast functions, all dimensions, all well-formed operand matrices/vectors, all masks of every kind, both output modes, every accumulator or none", "why_tests_cant": "index arithmetic over all shapes", "anchors": ["src/graphblas/platforms/sequential/sparse_kronecker.hpp"]}
{"id": "C31", "title": "Mask views select the right positions", "statement": "A value mask allows exactly positions stored with a true value; structure(M) exactly stored positions; complement(M) exactly the positions not allowed by the value mask; complement(structure(M)) exactly unstored positions.  Hence for every operation, the parts of the output written under a mask and under its complement are disjoint and cover everything.", "quantifier": "all masks (with stored false values), all positions", "why_tests_cant": "stored-false and missing entries in every combination", "anchors": ["src/graphblas/ComplementView.hpp", "src/graphblas/StructureView.hpp", "src/graphblas/StructuralComplementView.hpp", "src/graphblas/platforms/sequential/sparse_helpers.hpp: get_complement_row, get_structure_row, get_structural_complement_row, get_*_contents"]}
{"id": "C32", "title": "Dimension errors are detected and are harmless", "statement": "An operation whose operand, mask or index-list dimensions do not conform throws DimensionException (an out-of-range row/column argument: InvalidIndexException; an out-of-range element of an index list: IndexOutOfBoundsException) and no operand is modified; an operation whose dimensions conform never throws.  (Excluding what the code does not test: backward ranges, see C55; AllIndices with a larger source, C34; repeated or unordered index lists in assign, C26/C29; dimension products of 2^64 or more, C51.)", "quantifier": "all operations, all dimension combinations", "why_tests_cant": "infinitely many dimension combinations; must be complete, not only sound", "anchors": ["src/graphblas/detail/checks.hpp", "src/graphblas/operations.hpp"]}
{"id": "C33", "title": "Conforming calls never touch memory out of range", "statement": "For well-formed operands with conforming dimensions no operation reads or writes outside a container, and none relies on an unset value; every out-of-range access is reported as an exception.  (Same exclusions as C32, plus dense construction from zero rows.)", "quantifier": "all operations and all well-formed operands", "why_tests_cant": "an out-of-range access may go unnoticed in a test run", "anchors": ["src/graphblas/platforms/sequential/sparse_*.hpp", "src/graphblas/platforms/sequential/BitmapSparseVector.hpp: setContents", "src/graphblas/platforms/sequential/LilSparseMatrix.hpp: operator[], setRow"]}
{"id": "C34", "title": "assign with AllIndices checks the source size", "statement": "assign(w,mask,accum,u,AllIndices()) with u.size() != w.size() is rejected like any other size mismatch.  (The code performs no check; a longer source writes past the end of w.)", "quantifier": "all sizes", "why_tests_cant": "memory corruption need not be observable in a test", "anchors": ["src/graphblas/detail/checks.hpp: check_size_nindices(AllIndices)", "src/graphblas/platforms/sequential/sparse_assign.hpp: assign", "src/graphblas/platforms/sequential/BitmapSparseVector.hpp: setContents"]}
{"id": "C35", "title": "Every operation preserves container well-formedness", "statement": "Starting from empty containers, after any program built from the library's operations (element calls, build, mxm, mxv, vxm, eWise*, apply, reduce, transpose, extract, assign, kronecker, with any masks, accumulators and output modes), every matrix and vector satisfies C01/C04, i.e. has an exact count and canonical contents.  (Same exclusions as C33; and no fill constructor and no duplicates in Vector::build, which miscount, see C04.)", "quantifier": "all finite programs over any number of containers", "why_tests_cant": "closure under arbitrary composition", "anchors": ["src/graphblas/platforms/sequential/sparse_*.hpp", "src/graphblas/platforms/sequential/LilSparseMatrix.hpp", "src/graphblas/platforms/sequential/BitmapSparseVector.hpp"]}
{"id": "C36", "title": "Output may alias inputs and mask", "statement": "Calling an operation with the output object also used as an input and/or the mask gives the same result as calling it with distinct copies.", "quantifier": "all operations with all aliasing patterns", "why_tests_cant": "the write-back loop reads the mask and old output while modifying the output", "anchors": ["src/graphblas/platforms/sequential/sparse_helpers.hpp: write_with_opt_mask", "src/graphblas/platforms/optimized_sequential/sparse_mxm_AB.hpp", "src/graphblas/platforms/sequential/sparse_mxm.hpp"]}
{"id": "C37", "title": "optimized_sequential mxm agrees with sequential mxm", "statement": "For every mask kind, output mode, accumulator and transpose combination, mxm on the optimized_sequential platform produces the same C as on the sequential platform.  Operands and mask may be the output object itself.  This holds for all scalar types when converting a result or an old element of C through the accumulator's type loses nothing and, for A'*B', converting a result through C's type loses nothing (see C14 for the sequential platform).  It fails in three cases (each refuted): for unmasked, unaccumulated A*B' the rows of C whose A row is empty are left stale; for A'*B' elements of B are converted to A's scalar type before multiplying; and when accumulating without a mask into a C that is also B, results are converted to C's scalar type before the accumulator sees them.", "quantifier": "all scalar types and cast functions, all dimensions, all well-formed operand matrices/vectors, all masks of every kind, both output modes, every accumulator or none", "why_tests_cant": "24 specialised kernels with short circuits and aliasing branches over all contents", "anchors": ["src/graphblas/platforms/optimized_sequential/sparse_mxm.hpp", "src/graphblas/platforms/optimized_sequential/sparse_mxm_AB.hpp", "src/graphblas/platforms/optimized_sequential/sparse_mxm_ABT.hpp", "src/graphblas/platforms/optimized_sequential/sparse_mxm_ATB.hpp", "src/graphblas/platforms/optimized_sequential/sparse_mxm_ATBT.hpp"]}
{"id": "C38", "title": "Predefined monoids satisfy the monoid laws", "statement": "For PlusMonoid, TimesMonoid, MinMonoid and MaxMonoid over bool and every built-in integer type, and for the four logical monoids over bool: results are values of the type, the operator is commutative, associative wherever both groupings are defined, and identity() is a two-sided identity.  Plus and Times are defined on all values except for int and int64_t overflow and uint16_t products (which overflow int after promotion).  The identity law of the logical monoids fails over integers (refuted).", "quantifier": "all values of bool and of all signed and unsigned 8-, 16-, 32- and 64-bit integer types", "why_tests_cant": "the value spaces are too large to enumerate", "anchors": ["src/graphblas/algebra.hpp: GEN_GRAPHBLAS_MONOID, PlusMonoid, TimesMonoid, MinMonoid, MaxMonoid, Logical*Monoid"]}
{"id": "C39", "title": "Which semiring laws the predefined semirings satisfy", "statement": "ArithmeticSemiring, MinMaxSemiring and MaxMinSemiring satisfy all semiring laws (additive monoid, associative multiplication, distributivity on both sides, annihilating zero()) over bool and every integer type; LogicalSemiring, AndOrSemiring, XorAndSemiring and XnorOrSemiring do over bool.  MinPlus and MaxPlus distribute over int and int64_t; MinTimes and MaxTimes distribute over unsigned values when the products fit; the First/Second semirings distribute and zero() annihilates on the selected side.  PlusMin is not distributive over unsigned integers, MinTimes not over signed integers, MinPlus not over unsigned integers, and zero() of MinPlus, MaxPlus and MinTimes does not annihilate (each refuted), contrary to the comments in the code.", "quantifier": "all values of the domains", "why_tests_cant": "the value spaces are too large to enumerate", "anchors": ["src/graphblas/algebra.hpp: GEN_GRAPHBLAS_SEMIRING and instances"]}
{"id": "C40", "title": "mxm is associative and transposition reverses products", "statement": "When add is associative and commutative and mult is associative and distributes, mxm(mxm(A,B),D) = mxm(A,mxm(B,D)); when mult is commutative, transpose(mxm(A,B)) = mxm(B',A').", "quantifier": "all conforming matrices over any such semiring", "why_tests_cant": "all sparsity patterns and sizes", "anchors": ["src/graphblas/platforms/sequential/sparse_mxm.hpp", "src/graphblas/platforms/sequential/sparse_transpose.hpp"]}
{"id": "C41", "title": "Level BFS computes shortest hop counts", "statement": "bfs_level, bfs_level_masked, bfs_level_masked_v2, batch_bfs_level_masked and the matrix bfs_level, on a square graph whose stored values all convert to true (see C58 for the others), given initially empty levels and root wavefronts holding ones, terminate and set levels[v] to one plus the least number of edges on a path from the source(s) to v, storing nothing for unreachable vertices.  (Levels as unbounded numbers; for the scalar types see C133 and C134.)", "quantifier": "all graphs with truthy stored values, all sources and source sets", "why_tests_cant": "all graphs", "anchors": ["src/algorithms/bfs.hpp: bfs_level, bfs_level_masked"]}
{"id": "C42", "title": "Parent BFS yields a shortest-path tree", "statement": "bfs terminates and stores, for exactly the vertices reachable from the source, a parent that is one hop closer to the source and adjacent to it (the least such vertex id); the root's parent is itself.", "quantifier": "all graphs and sources", "why_tests_cant": "all graphs", "anchors": ["src/algorithms/bfs.hpp: bfs"]}
{"id": "C43", "title": "sssp computes shortest path lengths and detects negative cycles", "statement": "sssp(graph,dist) returns true exactly when no negative cycle is reachable from the vertices with an initial distance, and then stores for every reachable vertex the least initial distance plus path weight (the minimal path weight for a single source at 0) and nothing for the others; it returns false exactly when a negative cycle is reachable.  batch_sssp does this for each row.", "quantifier": "all weighted digraphs (unbounded integer weights) and sources", "why_tests_cant": "all graphs and weights", "anchors": ["src/algorithms/sssp.hpp: sssp, batch_sssp"]}
{"id": "C44", "title": "filtered_sssp computes shortest path lengths", "statement": "filtered_sssp(graph,dist) returns the same flag and distances as C43 states for sssp.  (Fails when a vertex is newly reached at distance 0: it is dropped.)", "quantifier": "all weighted digraphs and sources", "why_tests_cant": "the failing condition is a stored zero meeting a mask-by-value", "anchors": ["src/algorithms/sssp.hpp: filtered_sssp"]}
{"id": "C45", "title": "apsp computes all-pairs shortest path lengths", "statement": "apsp(graph) returns, for graphs without negative cycles, the matrix of minimal path weights, with 0 on the diagonal and nothing for unreachable pairs.  (A positive self loop makes the diagonal positive.)", "quantifier": "all weighted digraphs without negative cycles", "why_tests_cant": "all graphs and weights", "anchors": ["src/algorithms/apsp.hpp"]}
{"id": "C46", "title": "Triangle counting is exact", "statement": "triangle_count on the 0/1 adjacency matrix of a simple undirected graph returns the number of 3-cliques, and the masked variants on its lower triangle return the same number.", "quantifier": "all simple undirected graphs", "why_tests_cant": "all graphs", "anchors": ["src/algorithms/triangle_count.hpp", "src/graphblas/matrix_utils.hpp: split"]}
{"id": "C47", "title": "mis returns a maximal independent set", "statement": "Whatever the random numbers drawn and whatever the result vector held before, mis raises no exception, and when it terminates the selected vertices form an independent set and every unselected vertex has a selected neighbour; it terminates when neighbours never draw the same number.  get_vertex_IDs returns the selected vertices in increasing order.", "quantifier": "all simple undirected graphs and all random sequences", "why_tests_cant": "all graphs and all random outcomes", "anchors": ["src/algorithms/mis.hpp"]}
{"id": "C48", "title": "Convenience matrix constructors and splitters", "statement": "diag(v) has v(i) at (i,i) and nothing else; scaled_identity(n,x) has x at each (i,i), i<n, and nothing else; split(A,L,U) puts exactly the elements with i>=j in L and i<j in U (outputs of the same shape keep what they stored at other positions).", "quantifier": "all vectors, sizes and matrices", "why_tests_cant": "all contents", "anchors": ["src/graphblas/matrix_utils.hpp: diag, scaled_identity, split"]}
{"id": "C49", "title": "Dense construction stores exactly the non-sentinel values", "statement": "Constructing from a dense array stores every element (or, given a sentinel, exactly those different from it) with exact nvals(), and ragged input throws DimensionException.", "quantifier": "all dense arrays and sentinels", "why_tests_cant": "all shapes and contents", "anchors": ["src/graphblas/platforms/sequential/LilSparseMatrix.hpp: dense constructors", "src/graphblas/platforms/sequential/BitmapSparseVector.hpp: dense constructors"]}
{"id": "C50", "title": "extract undoes assign", "statement": "With duplicate-free in-range indices, no mask and no accumulator, extract(assign(C,A,I,J),I,J) = A, and assigning an extracted sub-matrix back leaves C unchanged; same for vectors.", "quantifier": "all matrices/vectors and duplicate-free index lists", "why_tests_cant": "all permutations and contents", "anchors": ["src/graphblas/platforms/sequential/sparse_assign.hpp", "src/graphblas/platforms/sequential/sparse_extract.hpp"]}
{"id": "C51", "title": "kronecker dimension check is exact", "statement": "kronecker accepts its operands only if C.nrows = A.nrows*B.nrows and C.ncols = A.ncols*B.ncols as integers.  (The product is computed modulo 2^64.)", "quantifier": "all dimensions", "why_tests_cant": "only fails for products beyond 2^64", "anchors": ["src/graphblas/detail/checks.hpp: check_nrows_nrowsxnrows"]}
{"id": "C52", "title": "Swapping two matrices exchanges them completely", "statement": "The internal swap used by optimized mxm exchanges contents and counts of both matrices.  (The right-hand side keeps its stale count.)", "quantifier": "all pairs of matrices of equal shape", "why_tests_cant": "requires checking the discarded operand", "anchors": ["src/graphblas/platforms/sequential/LilSparseMatrix.hpp: swap"]}
{"id": "C53", "title": "Vertex degrees", "statement": "For a square graph vertex_in_degree / vertex_out_degree return the number of stored elements in the column / row of the vertex, converted to the graph's scalar type, vertex_degree their sum in that type; a vertex that does not exist raises DimensionException.  (See C62 for other shapes and for the conversion.)", "quantifier": "all square graphs and vertices", "why_tests_cant": "all contents", "anchors": ["src/algorithms/metrics.hpp"]}
{"id": "C54", "title": "k_truss2 returns the maximal k-truss", "statement": "k_truss2 on a symmetric 0/1 adjacency matrix without self loops terminates and returns the largest sub-graph in which every edge lies in at least k-2 triangles.", "quantifier": "all simple undirected graphs and k >= 3", "why_tests_cant": "all graphs", "anchors": ["src/algorithms/k_truss.hpp: k_truss2"]}
{"id": "C55", "title": "Index ranges enumerate [begin,end)", "statement": "Iterating an IndexSequenceRange(begin,end) with begin <= end yields begin..end-1 in order and size() = end-begin; AllIndices behaves in every operation as the full range of the relevant dimension.", "quantifier": "all bounds", "why_tests_cant": "all bounds", "anchors": ["src/graphblas/indices.hpp", "src/graphblas/platforms/sequential/sparse_helpers.hpp: setupIndices, searchIndices"]}
{"id": "C56", "title": "Operations treat a filled vector as the elements it stores", "statement": "mxv, vxm, eWiseAdd, eWiseMult, apply and reduce give the same result for a vector made by the fill constructor Vector(n, value) as for any other vector with the same stored elements.  (They skip the computation when nvals() is 0, which the fill constructor leaves at 0.)", "quantifier": "all operations and filled vectors", "why_tests_cant": "the wrong count is only visible through the skipped computation", "anchors": ["src/graphblas/platforms/sequential/BitmapSparseVector.hpp: fill constructor", "src/graphblas/platforms/sequential/sparse_apply.hpp", "src/graphblas/platforms/sequential/sparse_mxv.hpp"]}
{"id": "C57", "title": "Row and column normalisation", "statement": "normalize_rows(A) multiplies every stored element by the inverse of the sum of its row and changes nothing else, so in exact arithmetic each non-empty row with invertible sum adds up to one; normalize_cols does the same for columns.  (normalize_cols throws DimensionException for every non-square matrix.)", "quantifier": "all matrices and scalar types", "why_tests_cant": "all shapes and contents", "anchors": ["src/graphblas/matrix_utils.hpp: normalize_rows, normalize_cols"]}
{"id": "C58", "title": "Level BFS terminates on every graph", "statement": "bfs_level terminates for every square graph and source, whatever values the graph stores.  (It does not: an explicitly stored zero leads to a wavefront of stored false values that never empties.)", "quantifier": "all graphs, including those with explicitly stored zeros", "why_tests_cant": "non-termination, and only for graphs that store zeros and have a cycle behind them", "anchors": ["src/algorithms/bfs.hpp: bfs_level"]}
{"id": "C59", "title": "Parent BFS from a wavefront works for every graph scalar type", "statement": "bfs(graph, wavefront, parent_list) and bfs_batch terminate and store, per search, exactly the parents of C42 for the set of roots, whenever the graph's scalar type represents the vertex ids exactly.  (Ids are computed in the graph's scalar type, so for bool or narrow integer graphs the parents are wrong.)", "quantifier": "all graphs, wavefronts and scalar types", "why_tests_cant": "all graphs; only types too narrow for the number of vertices fail", "anchors": ["src/algorithms/bfs.hpp: bfs, bfs_batch"]}
{"id": "C60", "title": "Distances, eccentricity, radius and diameter", "statement": "On every square graph without negative cycles graph_distance and graph_distance_matrix store exactly the shortest distances (whatever the result container held before), vertex_eccentricity returns the largest distance from the vertex to a reachable one, graph_radius the smallest eccentricity and graph_diameter the largest distance between connected vertices; shapes that do not fit raise DimensionException.", "quantifier": "all weighted graphs without negative cycles", "why_tests_cant": "all graphs and weights", "anchors": ["src/algorithms/metrics.hpp: graph_distance, graph_distance_matrix, vertex_eccentricity, graph_radius, graph_diameter"]}
{"id": "C61", "title": "Closeness centrality", "statement": "closeness_centrality returns the inverse of the sum of the distances from all vertices to the given one.  (It does not: it returns the sum itself, of the distances from the vertex.)", "quantifier": "all weighted graphs without negative cycles", "why_tests_cant": "symmetric examples and examples with a total of 1 hide it", "anchors": ["src/algorithms/metrics.hpp: closeness_centrality"]}
{"id": "C62", "title": "Vertex degrees for every shape and scalar type", "statement": "vertex_in_degree and vertex_out_degree return the number of stored elements in the column / row, for graphs of every shape and every scalar type.  (They do not: elements in columns beyond the number of rows are not counted among the outgoing edges, and the count is returned in the graph's scalar type, so that it becomes 1 for bool graphs.)", "quantifier": "all graphs, square or not", "why_tests_cant": "only wide matrices or narrow types fail", "anchors": ["src/algorithms/metrics.hpp: vertex_in_degree, vertex_out_degree"]}
{"id": "C63", "title": "k_truss on an incidence matrix returns the maximal k-truss", "statement": "k_truss on the incidence matrix of a simple undirected graph with at least one edge terminates and returns those rows, in their order, that are the edges of the largest sub-graph in which every edge lies in at least k-2 triangles.", "quantifier": "all incidence matrices of simple graphs with at least one edge, all k >= 2", "why_tests_cant": "all graphs; the edge supports are maintained incrementally", "anchors": ["src/algorithms/k_truss.hpp: k_truss"]}
{"id": "C64", "title": "The truss algorithms in the border cases", "statement": "k_truss2 with k = 2 returns the whole graph, and k_truss on a graph without edges (as an earlier call may return) returns it unchanged.  (Fails: k_truss2 with k = 2 removes the edges that lie in no triangle; k_truss on a matrix without rows throws.)", "quantifier": "all simple graphs", "why_tests_cant": "all graphs", "anchors": ["src/algorithms/k_truss.hpp: k_truss, k_truss2"]}
{"id": "C65", "title": "Prim's algorithm returns a minimum spanning tree", "statement": "mst(graph, parents) on a connected graph with symmetric weights (any sign) ends after one iteration per vertex, replaces the contents of parents by a parent for every vertex except vertex 0, the edges (parent, vertex) form a spanning tree, no spanning tree weighs less, and the number returned is its weight. On a graph where some vertex is not connected to vertex 0 it throws PanicException; a non square graph or a parent list of another size throws DimensionException.", "quantifier": "all symmetric weighted graphs of any size, all initial contents of the parent list", "why_tests_cant": "Minimality quantifies over all spanning trees of every graph; tests compare one tree of one graph.", "anchors": ["src/algorithms/mst.hpp: mst, argmin, MSTPlus, MSTMin"]}
{"id": "C66", "title": "Ford-Fulkerson: feasible, and maximal when a cut is no larger than the edge count", "statement": "maxflow_ford_fulk(graph, source, sink) with non-negative capacities and source different from sink ends without an exception, and the number returned is the value of a flow that respects all capacities and loses nothing on the way, so it never exceeds the maximum flow. With positive capacities it is the maximum flow whenever the capacity of some cut between source and sink is at most the number of stored edges, in particular when all capacities are 1 (see C67 for the other networks).", "quantifier": "all networks of any size with integer capacities, all sources and sinks", "why_tests_cant": "Maximality quantifies over all flows of every network; a test compares one number.", "anchors": ["src/algorithms/maxflow.hpp: maxflow_bfs, maxflow_ford_fulk"]}
{"id": "C67", "title": "Ford-Fulkerson: maximal for all capacities", "statement": "maxflow_ford_fulk(graph, source, sink) returns the value of a maximum flow for every network with positive capacities.", "quantifier": "all networks with positive integer capacities", "why_tests_cant": "The loop stops after as many augmentations as there are stored edges; the smallest networks that need more are too large to be met by chance in a test.", "anchors": ["src/algorithms/maxflow.hpp: maxflow_ford_fulk"]}
{"id": "C68", "title": "Delta stepping: shortest distances for positive weights", "statement": "sssp_delta_step(graph, delta, src, paths) with positive weights and positive delta ends without an exception; paths then holds, for exactly the vertices reachable from src, the least total weight of a path from src, whatever delta is and whatever paths held before (see C69 for zero weights).", "quantifier": "all square graphs of any size with positive integer weights, all deltas and sources", "why_tests_cant": "Which edges are relaxed in which bucket depends on delta and on the weights; a test fixes both.", "anchors": ["src/algorithms/sssp.hpp: sssp_delta_step, SelectInRange"]}
{"id": "C69", "title": "Delta stepping: shortest distances for non-negative weights", "statement": "sssp_delta_step(graph, delta, src, paths) stores the distances of exactly the reachable vertices for every graph with non-negative weights.", "quantifier": "all graphs with non-negative integer weights", "why_tests_cant": "A request of value 0 is taken for false by a mask; only graphs with a zero weight path from the source show it.", "anchors": ["src/algorithms/sssp.hpp: sssp_delta_step"]}
{"id": "C70", "title": "Page rank: iterates of the random surfer, convergence and accuracy", "statement": "page_rank(graph, ranks, damping, threshold, max_iters) with positive weights, an incoming edge at every vertex and 0 <= damping <= 1 stores at every vertex the k-th iterate of the PageRank map started at the uniform distribution; k is the first iterate whose mean squared change is below the threshold, or max_iters. The ranks are positive, and they sum to one if every vertex has an outgoing edge. For damping < 1 and threshold > 0 the loop ends after a number of iterations that does not depend on max_iters, and then the total distance to any stationary distribution is at most damping/(1-damping) times the number of vertices times the square root of the threshold. A non-square graph or a vector of the wrong size is rejected with DimensionException. (Exact arithmetic; see C71 and C72 for the other graphs.)", "quantifier": "all graphs of any size, weights, dampings, thresholds, iteration bounds", "why_tests_cant": "Convergence and the bound on the error are statements about limits, over all graphs.", "anchors": ["src/algorithms/page_rank.hpp: page_rank", "src/graphblas/matrix_utils.hpp: normalize_rows"]}
{"id": "C71", "title": "Page rank: vertices without incoming edges", "statement": "page_rank computes iterates of the PageRank map, which stay at most one, on every graph, also when no edge leads to some vertex.", "quantifier": "all graphs with positive weights", "why_tests_cant": "The ranks that are wrong depend on the structure of the graph and grow with the number of iterations.", "anchors": ["src/algorithms/page_rank.hpp: page_rank"]}
{"id": "C72", "title": "Page rank: graphs of boolean scalars", "statement": "page_rank gives the same ranks for a graph of bool as for the graph of numbers with weight one.", "quantifier": "all graphs of bool scalars", "why_tests_cant": "Depends on the scalar type, a template argument of which a test picks one.", "anchors": ["src/algorithms/page_rank.hpp: page_rank"]}
{"id": "C73", "title": "Push-relabel: the value of a maximum flow", "statement": "maxflow_push_relabel(capacity, source, sink) with non-negative capacities and source different from sink ends without an exception and returns the value of a maximum flow: some flow that respects the capacities and conserves flow at every other vertex has that value, and none has a larger one. The scalar type must be able to hold the total capacity of the edges leaving the source (see C75) and twice the number of vertices.", "quantifier": "all square non-negative capacity matrices (with cycles, self loops, edges into the source, stored zeros, edges in both directions), all pairs of distinct vertices", "why_tests_cant": "Termination and maximality of push-relabel rest on invariants of heights over unboundedly many pushes; the order of the vertex list matters for correctness because each vertex is passed once.", "anchors": ["src/algorithms/maxflow.hpp: maxflow_push_relabel, push, relabel, discharge"]}
{"id": "C74", "title": "Push-relabel: no undefined behaviour on any network", "statement": "maxflow_push_relabel(capacity, source, sink) never reads outside its containers, for any vertices source and sink of the network.", "quantifier": "all square capacity matrices and all pairs of vertices, including networks of one vertex", "why_tests_cant": "The read is out of bounds only for the smallest network, where the loop bound wraps around; a test without a sanitizer may not notice.", "anchors": ["src/algorithms/maxflow.hpp: maxflow_push_relabel"]}
{"id": "C75", "title": "Push-relabel: maximal whenever the capacities and the flow fit the scalar type", "statement": "maxflow_push_relabel(capacity, source, sink) returns the value of a maximum flow whenever every capacity and that value can be represented in the scalar type.", "quantifier": "all networks whose capacities and maximum flow are at most the largest value of the scalar type", "why_tests_cant": "It fails only when the edges leaving the source together exceed the largest value of the type, which the small capacities of tests never do.", "anchors": ["src/algorithms/maxflow.hpp: maxflow_push_relabel"]}
{"id": "C76", "title": "Batch betweenness centrality sums the dependencies of the sources", "statement": "For a square adjacency matrix whose stored values are one and a non-empty list of sources (repetitions and self loops allowed), vertex_betweenness_centrality_batch, _batch_alt, _batch_alt_trans and _batch_old all return, for every vertex v, the sum over the sources s and all vertices t of the share of shortest paths from s to t that have v as an inner vertex.", "quantifier": "all graphs of any size, all lists of sources", "why_tests_cant": "The result depends on the numbers of shortest paths between all pairs; tests compare a few small graphs with hand-computed values.", "anchors": ["src/algorithms/bc.hpp: vertex_betweenness_centrality_batch", "src/algorithms/bc.hpp: vertex_betweenness_centrality_batch_alt", "src/algorithms/bc.hpp: vertex_betweenness_centrality_batch_alt_trans", "src/algorithms/bc.hpp: vertex_betweenness_centrality_batch_old"]}
{"id": "C77", "title": "Vertex betweenness centrality takes every vertex as a source", "statement": "For a square adjacency matrix whose stored values are one, with a scalar type of real numbers, vertex_betweenness_centrality returns for every vertex v the sum over all ordered pairs (s, t) of the share of shortest paths from s to t that have v as an inner vertex (integer scalar types: see C79).", "quantifier": "all graphs of any size", "why_tests_cant": "The result depends on the numbers of shortest paths between all pairs; tests compare a few small graphs with hand-computed values.", "anchors": ["src/algorithms/bc.hpp: vertex_betweenness_centrality"]}
{"id": "C78", "title": "The depth-limited batch betweenness centrality", "statement": "vertex_betweenness_centrality_batch_alt_trans_v2 returns the same values as C76 for every graph.", "quantifier": "all graphs of any size and diameter, all lists of sources", "why_tests_cant": "The traversal stops after ten levels, so only graphs with longer shortest paths reveal the difference.", "anchors": ["src/algorithms/bc.hpp: vertex_betweenness_centrality_batch_alt_trans_v2"]}
{"id": "C79", "title": "Vertex betweenness centrality of graphs with an integer scalar type", "statement": "When all betweenness values are integers, vertex_betweenness_centrality returns them also if the scalar type of the adjacency matrix is an integer type.", "quantifier": "all graphs with an integer scalar type", "why_tests_cant": "The intermediate quotients are rounded only if a vertex is reached by several shortest paths.", "anchors": ["src/algorithms/bc.hpp: vertex_betweenness_centrality", "src/graphblas/algebra.hpp: MultiplicativeInverse"]}
{"id": "C80", "title": "Edge betweenness centrality counts the shortest paths that use an edge", "statement": "For a square adjacency matrix whose stored values are one, edge_betweenness_centrality returns a matrix whose element (u, v) is the number of shortest paths, over all ordered pairs of end points, that go from u directly to v; pairs that no shortest path uses have no element.", "quantifier": "all graphs of any size, with or without self loops", "why_tests_cant": "The counts depend on all shortest paths between all pairs; tests compare one small graph.", "anchors": ["src/algorithms/bc.hpp: edge_betweenness_centrality"]}
{"id": "C81", "title": "Rejected arguments of the batch betweenness centrality functions", "statement": "Every batch betweenness centrality function throws DimensionException for an empty list of sources or a matrix that is not square, and otherwise IndexOutOfBoundsException if some source is not a vertex.", "quantifier": "all matrices and lists of sources", "why_tests_cant": "The checks are spread over the functions and the operations they call; tests try a few arguments.", "anchors": ["src/algorithms/bc.hpp: vertex_betweenness_centrality_batch", "src/algorithms/bc.hpp: vertex_betweenness_centrality_batch_alt_trans_v2"]}
{"id": "C82", "title": "The breadth first searches of the appendix find shortest paths", "statement": "For a square graph whose stored values count as true and an empty output vector, bfs_level_appendixB1 and bfs_level_appendixB2 store at every vertex reachable from the source, and only there, one more than the number of edges of a shortest path. bfs_parent_appendixB3 stores, for any graph and any old contents, the source at itself and at every other reachable vertex the smallest vertex from which a shortest path enters it.", "quantifier": "all graphs of any size, all sources", "why_tests_cant": "Shortest paths range over all graphs; tests run one graph each.", "anchors": ["src/algorithms/appendix_algorithms.hpp: bfs_level_appendixB1", "src/algorithms/appendix_algorithms.hpp: bfs_level_appendixB2", "src/algorithms/appendix_algorithms.hpp: bfs_parent_appendixB3"]}
{"id": "C83", "title": "The appendix level searches accept any output vector and any stored values", "statement": "bfs_level_appendixB1 and bfs_level_appendixB2 end and give the levels of C82 whatever the output vector holds on entry and whatever values are stored in the graph.", "quantifier": "all graphs with arbitrary stored values, all contents of the output vector", "why_tests_cant": "Tests pass a fresh vector and graphs of ones.", "anchors": ["src/algorithms/appendix_algorithms.hpp: bfs_level_appendixB1", "src/algorithms/appendix_algorithms.hpp: bfs_level_appendixB2"]}
{"id": "C84", "title": "The betweenness centrality of the appendix, one source", "statement": "For a square adjacency matrix whose stored values are one and a vector that stores nothing but zeros, BC_appendixB4 stores at every vertex v the sum over all vertices t of the share of shortest paths from the source to t that have v as an inner vertex (missing elements standing for zero).", "quantifier": "all graphs of any size, all sources", "why_tests_cant": "The values depend on all shortest paths from the source; tests compare one small graph.", "anchors": ["src/algorithms/appendix_algorithms.hpp: BC_appendixB4"]}
{"id": "C85", "title": "BC_appendixB4 adds the contribution of a source to an existing vector", "statement": "As its documentation says, BC_appendixB4 adds to the value of every vertex in the given vector the contribution of the source, as defined in C84.", "quantifier": "all graphs, sources and contents of the vector", "why_tests_cant": "Tests start from a fresh vector, and the sum differs only where a path has two inner vertices.", "anchors": ["src/algorithms/appendix_algorithms.hpp: BC_appendixB4"]}
{"id": "C86", "title": "The betweenness centrality of the appendix, batch of sources", "statement": "For a square adjacency matrix whose stored values are one and any non-empty list of vertices, BC_update_appendixB5 overwrites the vector with the betweenness of C76 for these sources.", "quantifier": "all graphs of any size, all lists of sources, all old contents of the vector", "why_tests_cant": "Tests use as many sources as vertices, the only number for which the matrices have matching shapes.", "anchors": ["src/algorithms/appendix_algorithms.hpp: BC_update_appendixB5"]}
{"id": "C87", "title": "The independent set of the appendix is maximal", "statement": "For an undirected graph without self loops, whenever mis_appendixB6 returns, the vertices it stores form an independent set to which no vertex can be added, whatever random numbers were drawn. It returns after at most as many rounds as there are vertices if neighbours never draw the same number.", "quantifier": "all graphs of any size, all sequences of random numbers", "why_tests_cant": "The result depends on the random numbers; a test sees a few sequences.", "anchors": ["src/algorithms/appendix_algorithms.hpp: mis_appendixB6"]}
{"id": "C88", "title": "The triangle count of the appendix", "statement": "For the strictly lower triangular part of the adjacency matrix of an undirected graph without self loops, all stored values being one, triangle_count_appendixB7 returns the number of triangles.", "quantifier": "all graphs of any size", "why_tests_cant": "Triangles range over all triples of vertices of all graphs; tests count a few graphs.", "anchors": ["src/algorithms/appendix_algorithms.hpp: triangle_count_appendixB7"]}
{"id": "C89", "title": "Peer pressure clustering votes in rounds until nothing changes", "statement": "For a square graph with positive weights and initial clusters for its vertices, peer_pressure_cluster and peer_pressure_cluster_v2 perform rounds of voting: in a round every vertex joins the cluster whose members give it the greatest sum of votes, ties going to the greatest cluster number. The vote of u for v is the weight of the edge from u to v, in the first version divided by the sum of all weights leaving u. They return the clusters after the maximal number of rounds, or earlier clusters that another round does not change. Without initial clusters every vertex starts in its own. Matrices of other shapes are refused with a DimensionException.", "quantifier": "all graphs of any size, all positive weights, all initial clusters, all numbers of iterations", "why_tests_cant": "The result depends on every sum of votes and every tie; tests follow two small graphs.", "anchors": ["src/algorithms/cluster.hpp: peer_pressure_cluster", "src/algorithms/cluster.hpp: peer_pressure_cluster_v2"]}
{"id": "C90", "title": "Peer pressure clustering puts every vertex in one cluster", "statement": "After at least one iteration of peer_pressure_cluster no vertex is in two clusters. If an edge enters every vertex and every vertex is in a cluster initially, then every vertex is in a cluster at the end.", "quantifier": "all graphs of any size, all positive weights, all initial clusters", "why_tests_cant": "A vertex is lost or counted twice only for particular sums of votes; tests check a few.", "anchors": ["src/algorithms/cluster.hpp: peer_pressure_cluster"]}
{"id": "C91", "title": "Peer pressure clustering settles and leaves no vertex out", "statement": "With enough iterations peer_pressure_cluster, started with one cluster per vertex, reaches clusters that another round does not change, and every vertex is in one of them, for every graph. (A vertex that no edge enters is left out.)", "quantifier": "all graphs", "why_tests_cant": "Oscillation and loss of a vertex depend on the graph; the tests add loops to all vertices.", "anchors": ["src/algorithms/cluster.hpp: peer_pressure_cluster"]}
{"id": "C92", "title": "Markov clustering iterates expansion, inflation and normalisation", "statement": "For a square graph with positive weights and powers e, r of at least 1, markov_cluster returns an iterate of the following step on the graph with normalised columns: e-1 products with the matrix, each keeping only the elements already present, the r-th power of every element, normalisation of the columns. It is the first iterate whose mean squared difference to the one before is below the threshold, or the one after the maximal number of iterations. Every column of the result is empty or has sum 1; with loops at all vertices, all have sum 1 and the stored elements are those of the graph. (For the power itself see C93.)", "quantifier": "all graphs of any size, all positive weights, powers, thresholds and numbers of iterations", "why_tests_cant": "The sums must be 1 for every graph and iterate; tests compare cluster numbers of a few graphs.", "anchors": ["src/algorithms/cluster.hpp: markov_cluster"]}
{"id": "C93", "title": "The expansion of Markov clustering is the matrix power", "statement": "In every iteration of markov_cluster the inflation is applied to the e-th power of the matrix of the iteration before.", "quantifier": "all graphs of any size", "why_tests_cant": "On graphs that are unions of complete graphs both are the same; tests compare cluster numbers only.", "anchors": ["src/algorithms/cluster.hpp: markov_cluster"]}
{"id": "C94", "title": "Cluster assignments of the clustering algorithms' results", "statement": "For a matrix with at least as many rows as columns and values greater than -1, get_cluster_assignments returns for every column the first row with the greatest value, and no row for an empty column. get_cluster_assignments_v2 returns for every column the last row with a stored value. On every result of peer_pressure_cluster after at least one iteration both give the cluster of every vertex.", "quantifier": "all matrices of any size, all values", "why_tests_cant": "Ties and empty columns must be handled in every position; tests check a few matrices.", "anchors": ["src/algorithms/cluster.hpp: get_cluster_assignments", "src/algorithms/cluster.hpp: get_cluster_assignments_v2"]}
{"id": "C95", "title": "Cluster assignments of any cluster matrix", "statement": "As documented, get_cluster_assignments and get_cluster_assignments_v2 return for every vertex (column) of any cluster matrix the row index of the maximum value, or no row if the column is empty.", "quantifier": "all matrices of any shape and any values", "why_tests_cant": "Tests use square matrices with one positive value per column.", "anchors": ["src/algorithms/cluster.hpp: get_cluster_assignments", "src/algorithms/cluster.hpp: get_cluster_assignments_v2"]}
{"id": "C96", "title": "Louvain clustering returns a local optimum of the modularity", "statement": "For an undirected graph without self loops and with positive weights, whose scalar type adds exactly, a clustering returned by louvain_cluster or louvain_cluster_masked cannot be improved by moving one vertex: no such move to another cluster or to a new one increases the modularity. The modularity is at least that of the clustering in which every vertex is alone. If different elements get different random numbers, the only other outcome is the report that max_iters iterations were not enough.", "quantifier": "all undirected graphs of any size, all positive weights, all random numbers, all limits of iterations", "why_tests_cant": "The optimum depends on every weight, on the order of the vertices and on the random numbers; tests compare one clustering of a few graphs.", "anchors": ["src/algorithms/cluster_louvain.hpp: louvain_cluster", "src/algorithms/cluster_louvain.hpp: louvain_cluster_masked"]}
{"id": "C97", "title": "Louvain clustering puts every vertex in exactly one cluster", "statement": "For every square graph with at least one vertex, whatever its edges and weights are, a matrix returned by louvain_cluster or louvain_cluster_masked has one stored element per row, with value true. No GraphBLAS exception is thrown and no element is accessed out of range. If the iterations were not enough, the number thrown is max_iters (at least 1). Other shapes are refused with a DimensionException.", "quantifier": "all square graphs, weights, random numbers and limits of iterations", "why_tests_cant": "Rows are cleared, compared and replaced for every vertex in every iteration; tests see final matrices of a few graphs.", "anchors": ["src/algorithms/cluster_louvain.hpp: louvain_cluster", "src/algorithms/cluster_louvain.hpp: louvain_cluster_masked"]}
{"id": "C98", "title": "Louvain clustering ends with a good clustering for every graph", "statement": "For every undirected graph with positive weights of any scalar type, louvain_cluster ends, returns the clustering found after max_iters iterations at the latest, and this clustering is a local optimum of the modularity, no worse than leaving every vertex alone. (It does not: the number of iterations is thrown instead, a graph whose only edge is a self loop makes it run forever, self loops make it return worse clusterings, and for graphs of type bool the sum of the graph and its transpose is wrong.)", "quantifier": "all undirected graphs", "why_tests_cant": "The tests have no self loops, use integers and doubles, and converge.", "anchors": ["src/algorithms/cluster_louvain.hpp: louvain_cluster", "src/algorithms/cluster_louvain.hpp: louvain_cluster_masked"]}
{"id": "C99", "title": "Cluster assignments of Louvain clustering", "statement": "For a square matrix get_louvain_cluster_assignments returns, for each row, the greatest column with a stored element, and nothing for an empty row. For a matrix returned by Louvain clustering that is the cluster of each vertex. Matrices that are not square are refused with a DimensionException.", "quantifier": "all matrices of any size", "why_tests_cant": "Must hold for every structure of the matrix; tests check those of a few results.", "anchors": ["src/algorithms/cluster_louvain.hpp: get_louvain_cluster_assignments"]}
{"id": "C100", "title": "Unary operators over the integer types", "statement": "Over the integer types: Identity converts without changing a value both types can hold; AdditiveInverse gives the inverse of Plus and is its own inverse; Abs is the absolute value; LogicalNot is 1 exactly for 0; BitwiseNot flips every bit and is its own inverse; MultiplicativeInverse of 1 and -1 is the argument and of every other nonzero value 0.  The smallest values of signed types, bool, and 0 are excluded where C101 says so.", "quantifier": "all values of bool and of all signed and unsigned 8-, 16-, 32- and 64-bit integer types", "why_tests_cant": "the value spaces are too large to enumerate", "anchors": ["src/graphblas/algebra.hpp: Identity, Abs, AdditiveInverse, MultiplicativeInverse, LogicalNot, BitwiseNot, detail::MyAbs"]}
{"id": "C101", "title": "Unary, division and comparison operators do what their names say on every built-in type", "statement": "Abs is never negative, AdditiveInverse and MultiplicativeInverse are inverses, BitwiseNot and BitwiseXnor complement, Div is defined, and comparisons and Min between two integer types order the values, for every value of every built-in type.  (False: Abs<int8_t>(-128) is -128, Abs and AdditiveInverse of the smallest int are undefined, AdditiveInverse<bool>(true) is true, BitwiseNot<bool> and BitwiseXnor<bool> are always true, MultiplicativeInverse<int>(2) is 0, division by 0 and of the smallest int by -1 is undefined, LessThan<int,unsigned>(-1,1) is false.)", "quantifier": "all values of bool and of all signed and unsigned 8-, 16-, 32- and 64-bit integer types", "why_tests_cant": "needs the extreme values of each type", "anchors": ["src/graphblas/algebra.hpp: Abs, AdditiveInverse, MultiplicativeInverse, BitwiseNot, BitwiseXnor, Div, LessThan, Equal, Min"]}
{"id": "C102", "title": "Bitwise operators work bit by bit", "statement": "BitwiseOr, BitwiseAnd and BitwiseXor over any integer type or bool, and BitwiseXnor over any integer type, compute each bit of the result from the same bits of the operands; Or, And and Xor form commutative monoids with identities 0, all ones and 0.", "quantifier": "all values of bool and of all signed and unsigned 8-, 16-, 32- and 64-bit integer types", "why_tests_cant": "the value spaces are too large to enumerate", "anchors": ["src/graphblas/algebra.hpp: BitwiseOr, BitwiseAnd, BitwiseXor, BitwiseXnor"]}
{"id": "C103", "title": "Comparison operators order the values", "statement": "Equal, NotEqual, LessThan, GreaterThan, LessEqual and GreaterEqual return 1 or 0 according to the order of the integer values, for operands of the same type and for operands of different types unless a negative value meets an unsigned type of at least its width and that of int (see C101).", "quantifier": "all values of bool and of all signed and unsigned 8-, 16-, 32- and 64-bit integer types, for both operands independently", "why_tests_cant": "all pairs of types and values", "anchors": ["src/graphblas/algebra.hpp: Equal, NotEqual, LessThan, GreaterThan, LessEqual, GreaterEqual"]}
{"id": "C104", "title": "Division, and operators with three domains", "statement": "Div over one type gives the quotient truncated towards 0 and undoes multiplication (nonzero divisor, not the smallest value by -1, see C101).  Plus, Minus, Times, Min and Max with three domains give the exact result whenever the operands are compatible (C103) and the result fits the result type and the type in which C++ computes (the wider operand type, at least int); with three equal domains they are the operators of C38 and C39.  add_monoid(semiring) has the laws of the semiring's additive monoid.", "quantifier": "all values of bool and of all signed and unsigned 8-, 16-, 32- and 64-bit integer types, for both operands and the result independently", "why_tests_cant": "all triples of types and values", "anchors": ["src/graphblas/algebra.hpp: Div, Plus, Minus, Times, Min, Max, First, Second, AdditiveMonoidFromSemiring, add_monoid"]}
{"id": "C105", "title": "Min and Max monoids over floating point", "statement": "Over float and double, without NaN (see C108): MinMonoid and MaxMonoid are commutative up to ==, associative, and identity() (plus and minus infinity) is a two-sided identity; the result is one of the operands and bounds both.", "quantifier": "all float and double values, including infinities and subnormal numbers", "why_tests_cant": "2^64 values per operand", "anchors": ["src/graphblas/algebra.hpp: Min, Max, MinMonoid, MaxMonoid"]}
{"id": "C106", "title": "Plus, Times and unary operators over floating point", "statement": "Over float and double: Plus and Times are commutative, results are values of the type, sums of finite numbers are not NaN, 1 is the identity of TimesMonoid and 0 of PlusMonoid (up to the sign of zero); a + AdditiveInverse(a) == 0 for finite a, Minus is adding the inverse, Abs is the absolute value.", "quantifier": "all float and double values, including infinities and subnormal numbers", "why_tests_cant": "2^64 values per operand", "anchors": ["src/graphblas/algebra.hpp: Plus, Minus, Times, AdditiveInverse, Abs, PlusMonoid, TimesMonoid"]}
{"id": "C107", "title": "Small integers are exact in floating point", "statement": "For integers of magnitude at most 2^24 in float or 2^53 in double, Plus, Minus, Times (when the result is in the range, too), Min, Max and the comparisons over the floating point type agree with integer arithmetic; so counting and path-length algorithms over double are exact as long as values stay in this range.", "quantifier": "all pairs of integers in the range", "why_tests_cant": "2^54 values per operand", "anchors": ["src/graphblas/algebra.hpp: Plus, Minus, Times, Min, Max, LessThan, LessEqual, Equal"]}
{"id": "C108", "title": "Floating point operators satisfy the monoid and semiring laws", "statement": "PlusMonoid and TimesMonoid are associative, ArithmeticSemiring and MinTimesSemiring are distributive with annihilating zero, MinPlusSemiring's zero annihilates, Min is commutative, and MultiplicativeInverse is an inverse, over double.  (False: sums and products depend on the grouping, so MaxPlusSemiring and MinTimesSemiring are not 'true' semirings for floating point as the comments say; Times distributes neither over Plus nor, for negative multipliers, over Min; infinity times 0 is NaN; NaN makes Min depend on the order of the operands and is hidden by the identity; 49 * (1/49) is not 1.)", "quantifier": "all float and double values, including infinities and subnormal numbers", "why_tests_cant": "needs values at the edge of the precision", "anchors": ["src/graphblas/algebra.hpp: PlusMonoid, TimesMonoid, ArithmeticSemiring, MaxPlusSemiring, MinTimesSemiring, Min, MultiplicativeInverse"]}
{"id": "C109", "title": "Floating point semirings that keep their laws in spite of rounding", "statement": "Over float and double, without NaN: MinMaxSemiring and MaxMinSemiring satisfy all semiring laws; Plus distributes over Min and Max on both sides, and Times by numbers that are not negative does, although both round (whenever no product is NaN); zero() of MinPlusSemiring and MaxPlusSemiring annihilates everything but the opposite infinity.", "quantifier": "all float and double values, including infinities and subnormal numbers", "why_tests_cant": "2^192 triples", "anchors": ["src/graphblas/algebra.hpp: MinMaxSemiring, MaxMinSemiring, MinPlusSemiring, MaxPlusSemiring, MinTimesSemiring, MaxTimesSemiring"]}
{"id": "C110", "title": "Shortest paths with floating point weights", "statement": "With finite float or double weights and initial distances that are not NaN: sssp and batch_sssp return for every reachable vertex the least rounded length (adding the weights one by one along the walk, rounding each time) among the walks of fewer than N edges, and no value for the other vertices; the flag is true exactly when these are the least lengths over all walks, and always if no weight is negative.  filtered_sssp returns the least rounded length over all walks when its flag is true, provided no walk has length 0 (see C44), in particular for positive weights, for which the flag is always true.", "quantifier": "all graphs, weights, initial distances and both floating point types", "why_tests_cant": "rounding makes the length of a walk depend on the order of additions; all values cannot be enumerated", "anchors": ["src/algorithms/sssp.hpp: sssp, batch_sssp, filtered_sssp"]}
{"id": "C111", "title": "Integer weights in floating point give exact shortest paths", "statement": "When weights and initial distances are integers of magnitude at most M and M*(N+1) is at most 2^24 (float) or 2^53 (double), sssp over the floating point type gives the same flag and distances as over the integers: the flag is false exactly when a cycle of negative weight can be reached, and otherwise each distance is the length of a shortest walk.", "quantifier": "all graphs with such weights, both floating point types", "why_tests_cant": "all graphs and weights in the range", "anchors": ["src/algorithms/sssp.hpp: sssp"]}
{"id": "C112", "title": "The flag of sssp detects negative cycles with floating point weights", "statement": "sssp over float or double returns false exactly when a cycle of negative weight can be reached.  (False in both directions for double: a cycle of weight -1 is missed at distance 2^54, and a cycle of weight 0 is reported at distance 2^53.)", "quantifier": "all graphs and initial distances", "why_tests_cant": "needs distances at the edge of the precision", "anchors": ["src/algorithms/sssp.hpp: sssp"]}
{"id": "C113", "title": "Operations act alike on related scalars", "statement": "Take any relation between two scalar types (a homomorphism, a change of representation) that the operators, conversions and accumulators of two calls respect.  Then the two calls of mxm, mxv, vxm, eWiseAdd, eWiseMult, kronecker, apply, reduce, transpose, extract or assign on operands with related elements at the same positions both return, with related elements at the same positions.", "quantifier": "all scalar types, relations, operators, masks, accumulators, outputs and operands that conform; the conditions of C14, C16, C20 on transposed operands", "why_tests_cant": "quantifies over all types, relations and operators", "anchors": ["src/graphblas/operations.hpp: mxm, mxv, vxm, eWiseAdd, eWiseMult, kronecker, apply, reduce, transpose, extract, assign"]}
{"id": "C114", "title": "Products and reductions over wrap-around integer types are modular", "statement": "For the unsigned types and the types narrower than int (except uint16_t products, see C117), mxm, mxv, vxm with ArithmeticSemiring and row reductions with Plus, without mask and accumulator, are never undefined and give at each position the integer result modulo 2^bits, converted to the type.", "quantifier": "all matrices and vectors, all such types", "why_tests_cant": "all values and sizes", "anchors": ["src/graphblas/operations.hpp: mxm, mxv, vxm, reduce", "src/graphblas/algebra.hpp: ArithmeticSemiring, Plus"]}
{"id": "C115", "title": "Products and reductions over integer types are exact within range", "statement": "For every built-in integer type: if the inner dimension times the bounds of the absolute values of the operands does not exceed the largest value of the type, mxm, mxv and vxm with ArithmeticSemiring, without mask and accumulator, return the exact integer results and nothing overflows; likewise reductions with Plus when the number of columns times the bound does not.", "quantifier": "all matrices and vectors within the bound, all integer types", "why_tests_cant": "all values and sizes", "anchors": ["src/graphblas/operations.hpp: mxm, mxv, vxm, reduce", "src/graphblas/algebra.hpp: ArithmeticSemiring, Plus"]}
{"id": "C116", "title": "Shortest paths over integer types are exact within range", "statement": "For every built-in integer type: if weights and initial distances have absolute value at most M and M*(N+1) does not exceed the largest value of the type, nothing in sssp overflows, the flag is false exactly when a cycle of negative weight can be reached, and otherwise each distance is the length of a shortest walk.", "quantifier": "all graphs with such weights, all integer types", "why_tests_cant": "all graphs and weights in the range", "anchors": ["src/algorithms/sssp.hpp: sssp"]}
{"id": "C117", "title": "Shortest paths and products over integer types are right for all values", "statement": "sssp returns the lengths of shortest walks, and mxm the sums of products, for all values of the integer type whenever the result is defined.  (False: with uint8_t weights 200 and 100 in a row the distance is 44 and the flag true; int distances beyond 2^31-1 are undefined behaviour; a product of uint16_t matrices is undefined for 65535*65535.)", "quantifier": "all graphs and values", "why_tests_cant": "needs values at the limits of the types", "anchors": ["src/algorithms/sssp.hpp: sssp", "src/graphblas/operations.hpp: mxm"]}
{"id": "C118", "title": "Batch betweenness is right while the int32 path counts fit", "statement": "The batch betweenness functions count paths in int32_t.  If for each source the total number of shortest paths to all vertices is at most 2^31-1, no count overflows, and under the conditions of C76 (C78 for the version of ten levels) the results are the betweenness as seen from the sources.", "quantifier": "all graphs with stored values that convert to 1, all nonempty lists of sources within the bound", "why_tests_cant": "all graphs, all sources, the counts up to the limit of the type", "anchors": ["src/algorithms/bc.hpp: vertex_betweenness_centrality_batch_alt_trans_v2, vertex_betweenness_centrality_batch_alt_trans, vertex_betweenness_centrality_batch_alt, vertex_betweenness_centrality_batch, vertex_betweenness_centrality_batch_old"]}
{"id": "C119", "title": "Batch betweenness never overflows its path counts", "statement": "Whatever the graph, the batch betweenness functions return the betweenness.  (False: the int32_t path counts overflow, which is undefined behaviour; a graph of 101 vertices with 11^9 shortest paths between two of them suffices.)", "quantifier": "all graphs with stored values that convert to 1", "why_tests_cant": "needs a graph with more than 2^31 shortest paths", "anchors": ["src/algorithms/bc.hpp: vertex_betweenness_centrality_batch_alt_trans_v2, vertex_betweenness_centrality_batch_alt_trans, vertex_betweenness_centrality_batch_alt, vertex_betweenness_centrality_batch, vertex_betweenness_centrality_batch_old"]}
{"id": "C120", "title": "Element-wise operations obey the laws of their operators", "statement": "Without mask and accumulator, over one scalar type: eWiseAdd and eWiseMult of matrices and of vectors are commutative or associative when the operator is, eWiseMult distributes over eWiseAdd when its operator does, the transpose of an eWiseAdd or eWiseMult is the same operation on the transposes, two applies one after the other are one apply of the composed function, and apply and transpose can be exchanged.  The two sides give the same result whatever the output containers held.", "quantifier": "all scalar types and operators with the stated laws, all conforming containers", "why_tests_cant": "laws between calls, for all stored patterns", "anchors": ["src/graphblas/operations.hpp: eWiseAdd, eWiseMult, transpose, apply"]}
{"id": "C121", "title": "Products obey the laws of their semiring", "statement": "Without mask and accumulator: mxm distributes over eWiseAdd on both sides and the scaled identity of one is neutral on both sides; (AB)u = A(Bu), u(AB) = (uA)B, A(u+v) = Au+Av, (u+v)A = uA+vA, (A+B)u = Au+Bu; vxm with A is mxv with transpose(A) when the multiplication is commutative; reducing rows is mxv with a full vector of ones; reducing the rows of a sum is the sum of the reductions.", "quantifier": "all semirings with the laws used, all conforming containers", "why_tests_cant": "laws between calls, for all stored patterns", "anchors": ["src/graphblas/operations.hpp: mxm, mxv, vxm, eWiseAdd, reduce, transpose", "src/graphblas/matrix_utils.hpp: scaled_identity"]}
{"id": "C122", "title": "A mask and its complement split an operation", "statement": "Running an operation under a mask and then under the complement of the same mask, both merging into the output, gives what the operation gives without mask - also with an accumulator, for value and structural masks, and for every operand form (transposed operands of products under the conditions of C14 and C16; assignments under those of C26 and C28 on the index sequences).", "quantifier": "mxm, mxv, vxm, eWiseAdd, eWiseMult, apply, reduce, transpose, kronecker, extract, assign; all types, accumulators, masks and contents", "why_tests_cant": "a relation between three calls, for all masks and contents", "anchors": ["src/graphblas/operations.hpp: mxm, mxv, vxm, eWiseAdd, eWiseMult, apply, reduce, transpose, kronecker, extract, assign", "src/graphblas/platforms/sequential/sparse_helpers.hpp: write_with_opt_mask, write_with_opt_mask_1D"]}
{"id": "C123", "title": "Kronecker products obey their laws", "statement": "Over a commutative semiring the product of two Kronecker products is the Kronecker product of the products; the transpose of a Kronecker product is the Kronecker product of the transposes; Kronecker products are associative when the operator is.", "quantifier": "all matrices whose products of dimensions fit in 64 bits", "why_tests_cant": "laws between calls, for all shapes and stored patterns", "anchors": ["src/graphblas/operations.hpp: kronecker, mxm, transpose"]}
{"id": "C124", "title": "Extractions compose and commute with products", "statement": "Extracting from an extracted matrix is one extraction with the composed index lists, also with repeated indices; extracting rows and columns of a product is the product of the extracted rows and the extracted columns.", "quantifier": "all matrices and index lists within bounds", "why_tests_cant": "laws between calls, for all index lists", "anchors": ["src/graphblas/operations.hpp: extract, mxm"]}
{"id": "C125", "title": "The printed form of a container shows its contents", "statement": "Printing a matrix writes its dimensions, the number of stored elements and one line per row with one cell per column, blank where nothing is stored; printing a vector writes its size, the number of stored elements and one cell per position, a dash where nothing is stored.  If values are written distinctly, without commas and line breaks (as are the integers wider than 8 bits), two containers with the same printed form have the same size and contents.", "quantifier": "all matrices and vectors, all ways of writing a value", "why_tests_cant": "injectivity quantifies over pairs of containers", "anchors": ["src/graphblas/platforms/sequential/LilSparseMatrix.hpp: printInfo", "src/graphblas/platforms/sequential/BitmapSparseVector.hpp: printInfo", "src/graphblas/Matrix.hpp: printInfo, operator<<, print_matrix", "src/graphblas/Vector.hpp: printInfo, operator<<, print_vector"]}
{"id": "C126", "title": "The printed form of a container of 8-bit integers shows its contents", "statement": "Two containers of int8_t or uint8_t with the same printed form have the same contents.  (False: the stream writes such values as characters; a stored 45 is printed as the dash that marks a missing element.)", "quantifier": "all containers of 8-bit integers", "why_tests_cant": "needs the one value that collides", "anchors": ["src/graphblas/platforms/sequential/BitmapSparseVector.hpp: printInfo"]}
{"id": "C127", "title": "Triangle counts over integer types are exact within range", "statement": "For every built-in integer type and every simple undirected graph given by its adjacency matrix of ones: if the number of vertices and twice the number of triangles do not exceed the largest value of the type, nothing overflows and triangle_count and triangle_count_newGBTL return the number of triangles; for the masked variants it suffices that the number of triangles itself fits.", "quantifier": "all simple graphs, all integer types, all sizes", "why_tests_cant": "quantifies over all graphs and the eight integer types", "anchors": ["src/algorithms/triangle_count.hpp: triangle_count, triangle_count_masked, triangle_count_masked_noT, triangle_count_newGBTL"]}
{"id": "C128", "title": "triangle_count is right whenever the count fits the scalar type", "statement": "triangle_count returns the number of triangles whenever that number is a value of the scalar type; over bool adjacency matrices it returns the number of triangles.  (False: the wedges are counted twice before the halving, so over int8_t the complete graph on 9 vertices, with 84 triangles, gives -44; the result has the scalar type of the matrix, so over bool the complete graph on 4 vertices gives 1 instead of 4.)", "quantifier": "all simple graphs, all integer types", "why_tests_cant": "needs a graph at the edge of the range", "anchors": ["src/algorithms/triangle_count.hpp: triangle_count"]}
{"id": "C129", "title": "Batch, filtered and all-pairs shortest paths over integer types are exact within range", "statement": "For every built-in integer type, every graph on N vertices and initial distances, with weights and initial distances of absolute value at most M: if M(N+1) does not exceed the largest value of the type, batch_sssp and filtered_sssp perform no undefined operation, the returned flag is false exactly if a cycle of negative weight can be reached, and otherwise every vertex gets the true length of a shortest walk (filtered_sssp: if no walk with an edge has length 0, see C44); if 2MN does not exceed that value and there is no negative cycle, apsp yields the true distances (the diagonal as in C45).  (Outside the range, see C117.)", "quantifier": "all graphs, all initial distances, all integer types, all sizes", "why_tests_cant": "quantifies over all graphs and the eight integer types", "anchors": ["src/algorithms/sssp.hpp: batch_sssp, filtered_sssp", "src/algorithms/apsp.hpp: apsp"]}
{"id": "C130", "title": "Metrics over integer types are exact within range", "statement": "For every built-in integer type and every graph on N vertices without negative cycles whose weights have absolute value at most M with M(N+1) not above the largest value of the type: graph_distance, graph_distance_matrix, vertex_eccentricity, graph_radius and graph_diameter perform no undefined operation and return the true distances, eccentricity, radius and diameter; closeness_centrality returns the sum of the distances if also M*N*N is not above that value.", "quantifier": "all graphs, all vertices, all integer types, all sizes", "why_tests_cant": "quantifies over all graphs and the eight integer types", "anchors": ["src/algorithms/metrics.hpp: graph_distance, graph_distance_matrix, vertex_eccentricity, graph_radius, graph_diameter, closeness_centrality"]}
{"id": "C131", "title": "Batch, filtered and all-pairs shortest paths over float and double are exact for integer weights within the precision", "statement": "For float and double, every graph on N vertices and initial distances, all weights and initial distances integers of absolute value at most M: if M(N+1) is at most 2^p (p the precision, 24 or 53), batch_sssp and filtered_sssp return the flag and the distances of exact arithmetic (filtered_sssp: if no walk with an edge has length 0, see C44); if 2MN is at most 2^p and there is no negative cycle, so does apsp (the diagonal as in C45).", "quantifier": "all graphs, all initial distances, both floating point types, all sizes", "why_tests_cant": "rounding depends on the order of the additions; quantifies over all graphs", "anchors": ["src/algorithms/sssp.hpp: batch_sssp, filtered_sssp", "src/algorithms/apsp.hpp: apsp"]}
{"id": "C132", "title": "Metrics over float and double are exact for integer weights within the precision", "statement": "For float and double and every graph on N vertices without negative cycles whose weights are integers of absolute value at most M with M(N+1) at most 2^p (p the precision): graph_distance, graph_distance_matrix, vertex_eccentricity, graph_radius and graph_diameter return the true distances, eccentricity, radius and diameter; closeness_centrality returns the sum of the distances if also M*N*N is at most 2^p.", "quantifier": "all graphs, all vertices, both floating point types, all sizes", "why_tests_cant": "quantifies over all graphs; the identities of the reductions are infinite", "anchors": ["src/algorithms/metrics.hpp: graph_distance, graph_distance_matrix, vertex_eccentricity, graph_radius, graph_diameter, closeness_centrality"]}
{"id": "C133", "title": "Level BFS is right for every scalar type that can tell its levels from zero", "statement": "For levels kept in bool, any built-in integer type, float or double, wavefronts kept in any of these types and holding ones, a square graph on N < 2^32 vertices (bfs_level with a source: 2^64) whose stored values all convert to true, and initially empty levels: if no level of a reached vertex converts to zero (float, double: is above 2^24, 2^53), all five level searches terminate and store at exactly the reached vertices the conversion of one plus the least number of edges on a path from the root(s).  That is the level itself if it is in the range of the type; for bool it is true.", "quantifier": "all graphs, all root sets, all level and wavefront types", "why_tests_cant": "quantifies over all graphs and all pairs of scalar types", "anchors": ["src/algorithms/bfs.hpp: bfs_level, bfs_level_masked, bfs_level_masked_v2, batch_bfs_level_masked"]}
{"id": "C134", "title": "Level BFS with levels of a narrow type stores the wrapped levels", "statement": "The level searches store at every reached vertex the conversion of its level to the scalar type of the levels, whatever that type.", "quantifier": "all graphs, all level types", "why_tests_cant": "needs a graph with a vertex more than 255 edges from the root", "anchors": ["src/algorithms/bfs.hpp: bfs_level, bfs_level_masked, bfs_level_masked_v2, batch_bfs_level_masked"]}
{"id": "C135", "title": "mst over the integer types returns a minimum spanning tree and its weight within range", "statement": "For a connected undirected graph on N vertices with weights of a built-in integer type and absolute value at most M, M(N-1) at most the largest value of the type, mst is defined, stores a parent list that is a spanning tree rooted at vertex 0 of least weight, and returns its weight.  For types whose addition wraps around (all but int32 and int64) the tree is right without the bound and the number returned is its weight modulo 2^bits.  A graph that is not connected gives PanicException (under the bound, for int32 and int64).", "quantifier": "all undirected graphs, all integer types, all weights within range", "why_tests_cant": "quantifies over all graphs and all spanning trees, and needs weights at the edge of the range", "anchors": ["src/algorithms/mst.hpp: mst, argmin, MSTPlus, MSTMin"]}
{"id": "C136", "title": "mst over float and double returns a tree of least exact weight and its rounded weight", "statement": "For a connected undirected graph with finite float or double weights mst stores a parent list that is a spanning tree rooted at vertex 0 whose weight, computed without rounding, is least; the number returned is the sum of the weights of its edges in some order, rounded after each addition.  It is the exact weight if the weights are integers of absolute value at most M and M(N-1) is at most 2^24 (2^53).  A graph that is not connected gives PanicException.", "quantifier": "all undirected graphs with finite float or double weights", "why_tests_cant": "quantifies over all graphs and all spanning trees; rounding errors", "anchors": ["src/algorithms/mst.hpp: mst, argmin, MSTPlus, MSTMin"]}
{"id": "C137", "title": "mst returns the weight whenever it is a value of the type", "statement": "For a connected undirected graph with weights of a built-in integer type, if the weight of a minimum spanning tree is a value of the type, mst is defined and returns it.", "quantifier": "all undirected graphs, all integer types", "why_tests_cant": "needs weights whose partial sums leave the range although the total does not", "anchors": ["src/algorithms/mst.hpp: mst"]}
{"id": "C138", "title": "Sums over float and double have the error of plain summation", "statement": "reduce with Plus or PlusMonoid over float or double, of the rows (columns) of a matrix, of a vector or of a whole matrix, returns numbers that differ from the exact sums of the n stored elements by at most (n-1)u times the sum of their magnitudes, u = 2^-24 (2^-53), unless they overflow; they do not overflow if the elements are finite and 2(1+nu) times the sum of their magnitudes is at most 2^128 (2^1024).  Rows without elements have none in the result; a vector or matrix without elements sums to 0.", "quantifier": "all matrices and vectors of float or double values, of any size, with infinities and NaN", "why_tests_cant": "quantifies over all values; the error grows with the number of terms and no test knows the exact sum", "anchors": ["src/graphblas/platforms/sequential/sparse_reduce.hpp", "src/graphblas/algebra.hpp: Plus, PlusMonoid", "src/graphblas/operations.hpp: reduce"]}
{"id": "C139", "title": "Products over float and double have the error of plain dot products", "statement": "Each element of mxm, mxv and vxm with ArithmeticSemiring over float or double differs from the exact sum of the products of the n matching pairs by at most nu(1+u) times the sum of the magnitudes of these products plus n(1+nu)/2 times the smallest positive number of the type (underflow), unless it overflows; it does not overflow if the operands are finite and 2(1+nu)((1+u) sum of magnitudes + n/2 smallest positive number) is at most 2^128 (2^1024).  It is present iff there is a matching pair.", "quantifier": "all matrices and vectors of float or double values, of any size, plain and transposed", "why_tests_cant": "quantifies over all values, including subnormal products", "anchors": ["src/graphblas/platforms/sequential/sparse_mxm.hpp", "src/graphblas/platforms/sequential/sparse_mxv.hpp", "src/graphblas/platforms/sequential/sparse_vxm.hpp", "src/graphblas/algebra.hpp: ArithmeticSemiring"]}
{"id": "C140", "title": "Products and reductions of integers held as float or double are exact within the precision", "statement": "If the elements of the operands are integers of absolute value at most KA and KB held as float (double), and the inner dimension times KA KB is at most 2^24 (2^53), the elements of mxm, mxv and vxm with ArithmeticSemiring are the integers that exact arithmetic gives; so are those of reduce with Plus if the number of columns times K is at most 2^24 (2^53).", "quantifier": "all matrices and vectors of integers within the bounds", "why_tests_cant": "needs all sizes and values up to the bound; the results of unit tests are far from it", "anchors": ["src/graphblas/platforms/sequential/sparse_mxm.hpp", "src/graphblas/platforms/sequential/sparse_mxv.hpp", "src/graphblas/platforms/sequential/sparse_vxm.hpp", "src/graphblas/platforms/sequential/sparse_reduce.hpp"]}
{"id": "C141", "title": "Shortest path lengths over float and double are accurate", "statement": "For finite weights and initial distances that are not negative, sssp and batch_sssp over float or double report true and store distances x with |x - d| at most (N-1)u d, where d is the exact length of a shortest path, N the number of vertices and u = 2^-24 (2^-53), provided 2(1+Nu)d is at most 2^128 (2^1024), in which case they are finite; vertices that cannot be reached have no distance.  The same holds for filtered_sssp and positive weights (see C44).", "quantifier": "all graphs with finite non-negative float or double weights, all initial distances", "why_tests_cant": "quantifies over all graphs and walks; the exact distance is not computable in the type", "anchors": ["src/algorithms/sssp.hpp: sssp, batch_sssp, filtered_sssp"]}
{"id": "C142", "title": "Delta stepping over machine types is exact within the range", "statement": "For a built-in integer type, or float or double, sssp_delta_step over positive integer weights of at most W ends, for every positive integer delta, and stores exactly the lengths of the shortest paths, without undefined behaviour, provided N W and (N-1)W + delta are values of the type (for float and double: at most 2^24 and 2^53); vertices that cannot be reached have no distance.", "quantifier": "all graphs with bounded positive weights, all sources, all positive delta, every integer and floating point type", "why_tests_cant": "quantifies over all graphs, all deltas and all types; the loops have no bound in the code", "anchors": ["src/algorithms/sssp.hpp: sssp_delta_step"]}
{"id": "C143", "title": "Delta stepping gives the distances whenever they are values of the type", "statement": "sssp_delta_step over positive weights ends, with defined behaviour, and stores the lengths of the shortest paths whenever weights, delta and all distances are values of the scalar type.", "quantifier": "all graphs with positive weights whose distances fit the type, every integer type", "why_tests_cant": "the bucket bounds i*delta and (i+1)*delta are also computed in the type, and exceed the distances", "anchors": ["src/algorithms/sssp.hpp: sssp_delta_step"]}
{"id": "C144", "title": "Maximum flows over machine types are exact within the range", "statement": "maxflow_ford_fulk over a built-in integer type or over float or double, with integer capacities that are not negative, has defined behaviour and returns the value of a flow that respects the capacities, and the maximum when the capacity of some cut is at most the number of edges (see C67), provided c(u,v) + c(v,u) is a value of the type for all u, v (for float and double: at most 2^24 and 2^53) and the returned value is one too; for types with undefined overflow, float and double the sum over u of max(c(u,sink), c(sink,u)) must not exceed the type either.  Unsigned types are right although the negative flows wrap around.", "quantifier": "all graphs with bounded integer capacities, all sources and sinks, every integer and floating point type", "why_tests_cant": "quantifies over all capacity matrices and all types; negative flows over unsigned types wrap and must cancel in every run", "anchors": ["src/algorithms/maxflow.hpp: maxflow_ford_fulk"]}
{"id": "C145", "title": "Maximum flows are right whenever they are values of the type", "statement": "maxflow_ford_fulk has defined behaviour and returns what it would return for unbounded integers whenever all capacities and the maximum flow are values of the scalar type.", "quantifier": "all graphs whose capacities and maximum flow fit the type, every integer type", "why_tests_cant": "residual capacities are also computed in the type and can exceed the capacities and the flow", "anchors": ["src/algorithms/maxflow.hpp: maxflow_ford_fulk"]}
{"id": "C146", "title": "Conversions between scalar types keep the nearest value", "statement": "Identity from one built-in scalar type to another converts: an integer to float or double to a nearest number of the type, to the same number up to 2^24 or 2^53 in absolute value; a floating point number to an integer type to the number without its fraction, with undefined behaviour exactly when that does not fit; any number to bool to whether it differs from 0; float to double to the same number, and back to the same value; a finite double to a nearest float, or an infinity.  Integers up to 2^24 or 2^53 survive the way to a floating point type and back.", "quantifier": "all values of bool, the integer types of 8 to 64 bits, float and double", "why_tests_cant": "quantifies over all values of all pairs of types; the boundaries are too many to try", "anchors": ["src/graphblas/algebra.hpp: Identity"]}
{"id": "C147", "title": "Operators with operands of different types compare and compute with the numbers", "statement": "When one operand of a predefined operator has a floating point type, and an integer operand is at most 2^24 (the other is float) or 2^53 (double) in absolute value, then Equal, NotEqual, LessThan, GreaterThan, LessEqual, GreaterEqual order the operands as numbers; Plus, Minus, Times of finite operands give the exact result rounded to a nearest number of the common type; Min and Max give the smaller and larger operand; each converted to the result type (see C146).  The logical operators depend on whether the operands differ from 0.  With integer operands, or operands of one floating point type, the operators are those of the other properties.", "quantifier": "all predefined operators but Div with a floating point operand, all operand and result types, all such operands", "why_tests_cant": "quantifies over all operands of all pairs of types", "anchors": ["src/graphblas/algebra.hpp: Plus, Minus, Times, Min, Max, Equal, LessThan, LogicalOr, ..."]}
{"id": "C148", "title": "Operators with operands of different types are exact for all integers", "statement": "The properties of C147 hold for all integer operands, equality between operands of different types is transitive, and an operator whose result, as a number, fits the result type has defined behaviour.", "quantifier": "all operand types and all operands", "why_tests_cant": "large integers are not values of the common floating point type, so rare operands behave differently", "anchors": ["src/graphblas/algebra.hpp: Equal, Plus, Min, Times"]}
{"id": "C149", "title": "Containers move to another scalar type element by element", "statement": "apply with Identity into a matrix or vector of another scalar type, without mask and accumulator, has undefined behaviour exactly when the conversion of some stored element has; otherwise the result has the stored positions of the (possibly transposed) input, and its elements are the converted elements.  A matrix of an integer type with elements up to 2^24 moved to float and back, or up to 2^53 to double and back, or of float to double and back, is unchanged.", "quantifier": "all matrices and vectors, all pairs of scalar types", "why_tests_cant": "quantifies over all containers and values; one stored element decides about the whole call", "anchors": ["src/graphblas/operations.hpp: apply", "src/graphblas/algebra.hpp: Identity"]}
{"id": "C150", "title": "A program takes the same course over related scalar types", "statement": "Take two runs of a program of container calls and operations, over two scalar types, whose scalars are related one by one and whose operators, conversions and accumulators map related operands to related results; masks used by value must have the same flags in both (the equality of scalars matters only to == and to construction with an implied zero).  Then the two runs throw the same exceptions at the same calls, have undefined behaviour at the same calls, leave the same numbers of containers with the same shapes and counts, store the same positions, and all elements and all values returned are related, after any program from any related containers, including after exceptions.", "quantifier": "all scalar types, relations, operators, programs of the modelled calls and containers", "why_tests_cant": "quantifies over types, operators and programs", "anchors": ["src/graphblas/operations.hpp", "src/graphblas/Matrix.hpp", "src/graphblas/Vector.hpp"]}
{"id": "C151", "title": "Programs over an integer type that wraps around compute modulo 2^bits", "statement": "Over unsigned types and over signed types of 8 and 16 bits (without Times for uint16_t, see C114), Plus, Minus, Times, First, Second and AdditiveInverse are those of the integers modulo 2^bits, and so is every program of container calls and operations built from them, with masks of bool elements or used by structure: it throws the same exceptions as the program over the unbounded integers, stores the same positions, and every element and every value returned is the exact one modulo 2^bits, whatever overflowed in between.", "quantifier": "all wrap-around integer types, all programs, all operands", "why_tests_cant": "quantifies over all programs; intermediate overflows cannot be enumerated", "anchors": ["src/graphblas/algebra.hpp: Plus, Minus, Times, First, Second, AdditiveInverse", "src/graphblas/operations.hpp"]}
{"id": "C152", "title": "Programs over int32_t and int64_t compute exactly unless an operation overflows", "statement": "Over int32_t and int64_t, a program of container calls and operations built from Plus, Minus, Times, Min, Max, First, Second, AdditiveInverse and Abs, with masks of bool elements or used by structure, throws the same exceptions and stores the same positions as the program over the unbounded integers, and every element and every value returned is the exact one unless an operator it was computed from overflowed; if no element at the end comes from an overflow, the containers show exactly the containers of the exact run.", "quantifier": "int32_t and int64_t, all programs, all operands", "why_tests_cant": "quantifies over all programs and where they overflow", "anchors": ["src/graphblas/algebra.hpp: Plus, Minus, Times, Min, Max, First, Second, AdditiveInverse, Abs", "src/graphblas/operations.hpp"]}
{"id": "C153", "title": "Floating point division is correctly rounded", "statement": "Over float and double, Div of finite numbers with a nonzero divisor gives a nearest number of the type to the quotient (or an infinity, beyond the largest number); so a quotient that is a number of the type is exact: x / 1 == x, x / x == 1, and exact divisions of integers up to 2^24 or 2^53.  MultiplicativeInverse is rounded in the same way, and exact where the inverse is a number of the type.  A nonzero number divided by a zero is the infinity of the combined sign, 0 / 0 and infinity / infinity are NaN, a number divided by an infinity is 0.  With operands of different types, one of them floating point, and an integer operand up to 2^24 or 2^53, the quotient is rounded in the common type and then converted (C146).", "quantifier": "all float and double operands, all mixed operand and result types", "why_tests_cant": "2^128 pairs of operands; rounding goes wrong on few of them", "anchors": ["src/graphblas/algebra.hpp: Div, MultiplicativeInverse"]}
{"id": "C154", "title": "Programs over float and double are exact on small integers", "statement": "Run a program of container calls and operations built from Plus, Minus, Times, Min, Max, First, Second and AdditiveInverse, with masks of bool elements or used by structure, over float or double, with integers as input.  It throws the same exceptions and stores the same positions as over the integers, and every element and every value returned is the exact integer as long as no integer it was computed from exceeds 2^24 (float) or 2^53 (double) in absolute value; if this holds for all elements at the end, the containers show exactly the containers of the integer run.", "quantifier": "float and double, all programs, all integer inputs", "why_tests_cant": "quantifies over all programs and all intermediate values", "anchors": ["src/graphblas/algebra.hpp: Plus, Minus, Times, Min, Max, First, Second, AdditiveInverse", "src/graphblas/operations.hpp"]}
{"id": "C155", "title": "Normalised rows and columns are accurate over float and double", "statement": "Over float and double, normalize_rows and normalize_cols replace each element by its quotient by the sum of its row (column) up to two roundings, a relative error of at most 2u + u^2 with u = 2^-24 or 2^-53; the sum is the one computed in the type, itself accurate as in C138.  (The inverse of the sum and the quotient must not be close to the smallest or the largest numbers of the type.)  If the weights are non-negative integers and the number of columns times the largest is at most 2^24 or 2^53, sums are exact, each weight 1 in a row of sum s becomes the number nearest to 1/s, and the exact sum of each normalised row differs from 1 by at most 2u + u^2.", "quantifier": "all matrices of float or double; all non-negative integer weights within the bound", "why_tests_cant": "rounding errors depend on all the values; tests compare a few with a tolerance", "anchors": ["src/graphblas/matrix_utils.hpp: normalize_rows, normalize_cols", "src/graphblas/algebra.hpp: MultiplicativeInverse, Plus, Times"]}
{"id": "C156", "title": "Page rank over double is accurate", "statement": "page_rank with double ranks, on a graph of N vertices in which an edge leads to every vertex, stores at every vertex a positive number within a relative error of (2 + k (4N + 10)) 2^-53 of the k-th exact PageRank iterate (C70), where k is the number of iterations made; k is max_iters or the first iteration for which the mean squared change, as computed in double, is below the threshold.  The total distance to any stationary distribution is at most 2 d^k plus that error, where d is the damping factor.  (Weights from 2^-100 to 2^100, N at most 2^53 and representable in the scalar type of the graph (C72), damping factor from 2^-53 to 1 - 2^-53, 2 + max_iters (4N + 10) at most 2^53.)  A non-square graph or a vector of the wrong size is rejected with DimensionException.", "quantifier": "all graphs, weights, damping factors, thresholds and iteration limits within these bounds", "why_tests_cant": "rounding errors accumulate over the iterations and depend on all the weights; tests compare a few ranks with a tolerance", "anchors": ["src/algorithms/page_rank.hpp: page_rank", "src/graphblas/matrix_utils.hpp: normalize_rows"]}
{"id": "C157", "title": "Batch betweenness centrality over float and double is accurate", "statement": "Each of the five batch betweenness functions, on a graph of N vertices whose stored values are all 1 and for p sources, returns a finite number for every vertex which differs from its exact betweenness B (summed over the sources) by at most (2 (8N + p) + 2) u (B + p), where u = 2^-24 for float and 2^-53 for double; the bound involves p because every source's own 1 is added and subtracted again.  (As long as 2 (8N + p) is at most 1/u and the number of all shortest paths from each source fits in int32_t, see C119; the variant that stops after ten levels, under the condition of C78.)", "quantifier": "all graphs and source lists within these bounds, each of the five functions, float and double", "why_tests_cant": "every dependency is a sum of quotients rounded many times, level by level; tests compare a few graphs with a tolerance", "anchors": ["src/algorithms/bc.hpp: vertex_betweenness_centrality_batch_alt_trans_v2", "src/algorithms/bc.hpp: vertex_betweenness_centrality_batch_alt_trans", "src/algorithms/bc.hpp: vertex_betweenness_centrality_batch_alt", "src/algorithms/bc.hpp: vertex_betweenness_centrality_batch", "src/algorithms/bc.hpp: vertex_betweenness_centrality_batch_old"]}
{"id": "C158", "title": "Vertex betweenness centrality over float and double is accurate", "statement": "vertex_betweenness_centrality of a graph of N vertices whose stored values are all 1 returns, over float or double, a finite number for every vertex which differs from its exact betweenness B (over all sources) by at most (18N + 2) u (B + N), where u = 2^-24 for float and 2^-53 for double.  (As long as 18N, and the number of all shortest paths from each vertex, are at most 1/u.)", "quantifier": "all graphs within these bounds, float and double", "why_tests_cant": "path counts, quotients and sums are rounded level by level and source by source, and the number of sources is subtracted at the end; tests compare a few graphs with a tolerance", "anchors": ["src/algorithms/bc.hpp: vertex_betweenness_centrality"]}
{"id": "C159", "title": "Edge betweenness centrality is exact in types which hold the numbers", "statement": "edge_betweenness_centrality of a graph without self loops whose stored values are all 1 returns, in any integer type other than bool and in float and double, for every edge exactly the number of shortest paths that use it, and no undefined operation occurs, provided that the number of shortest paths from each vertex to all vertices and the number for each edge are at most the largest number of the integer type (2^24 for float, 2^53 for double), and that there are fewer than 2^31 shortest paths from each vertex to each other.  (For the last condition see C160.)", "quantifier": "all such graphs, all integer types other than bool, float and double", "why_tests_cant": "the function multiplies numbers of paths, divides them again and adds up the results for all sources; whether these intermediate results stay in range depends on the graph", "anchors": ["src/algorithms/bc.hpp: edge_betweenness_centrality"]}
{"id": "C160", "title": "Edge betweenness centrality is right whenever the scores fit in the type", "statement": "edge_betweenness_centrality of a graph without self loops whose stored values are all 1 returns the number of shortest paths that use each edge whenever these numbers can be represented in the scalar type of the graph.", "quantifier": "all such graphs, all scalar types", "why_tests_cant": "the function decides whether a vertex was reached by converting the number of paths to int32_t first; a number that is a multiple of 2^32 becomes 0, which needs a graph with very many paths", "anchors": ["src/algorithms/bc.hpp: edge_betweenness_centrality", "src/graphblas/algebra.hpp: Identity"]}
{"id": "C161", "title": "The truss functions are right in integer types which hold the number of vertices", "statement": "For every built-in integer type other than bool whose largest number is at least the number of vertices and at least k-2, k_truss2 of the adjacency matrix (k >= 3) and k_truss of the incidence matrix (k >= 2, at least one edge) of a simple undirected graph, with ones of that type, return the k-truss: the largest subgraph in which every edge lies in at least k-2 triangles of the subgraph; no undefined operation occurs and the stored values are still ones.  (For bool and for larger k see C162.)", "quantifier": "all simple graphs, all k, all integer types other than bool", "why_tests_cant": "degrees, supports, the differences which k_truss subtracts, and the threshold k-2 are all computed in the scalar type of the graph; whether they stay in range depends on the graph, and k_truss subtracts from unsigned numbers", "anchors": ["src/algorithms/k_truss.hpp: k_truss, k_truss2, SupportTest, SupportMinTest, FirstEqualsTwo"]}
{"id": "C162", "title": "The truss functions are right for every scalar type and every k", "statement": "k_truss2 and k_truss return the k-truss of a simple undirected graph for every scalar type of the matrix, bool included, and every k which grb::IndexType can hold.", "quantifier": "all simple graphs, all k, all integer types and bool", "why_tests_cant": "a graph is naturally given as a matrix of bool or of small integers; a test with one type and a small k does not show that supports and the threshold are cut down to the type", "anchors": ["src/algorithms/k_truss.hpp: k_truss, k_truss2, SupportTest, SupportMinTest, FirstEqualsTwo"]}
{"id": "C163", "title": "Functions that answer the same question give the same answer", "statement": "On the same graph: all level searches (bfs_level, bfs_level_masked, bfs_level_masked_v2, the rows of batch_bfs_level_masked and of bfs_level with several roots, and the two of the appendix) give every vertex the same level; the parent searches (bfs, bfs_parent_appendixB3) give the same parents, reach the vertices which have a level, and every parent is one level above its child.  For positive weights sssp, filtered_sssp, sssp_delta_step, graph_distance, the rows of batch_sssp and, off the diagonal, of apsp give the same distances; with unit weights the distance is the level minus one.  All triangle counts are equal.  k_truss2 of an adjacency matrix and k_truss of an incidence matrix of the same graph return the same edges (k >= 3).  maxflow_ford_fulk and maxflow_push_relabel return the same value if some cut is no larger than the number of edges (see C67 for other networks).  vertex_betweenness_centrality, the batch functions with every vertex as a source and BC_update_appendixB5 agree, and so do vertex_betweenness_centrality_batch with one source and BC_appendixB4.", "quantifier": "all graphs of all sizes, sources, weights, deltas, k", "why_tests_cant": "the functions share almost no code, and a user picks one of them for speed; that they agree on some graphs does not show that they agree on all", "anchors": ["src/algorithms/bfs.hpp", "src/algorithms/sssp.hpp: sssp, filtered_sssp, batch_sssp, sssp_delta_step", "src/algorithms/apsp.hpp: apsp", "src/algorithms/triangle_count.hpp", "src/algorithms/k_truss.hpp: k_truss, k_truss2", "src/algorithms/maxflow.hpp: maxflow_ford_fulk, maxflow_push_relabel", "src/algorithms/bc.hpp", "src/algorithms/metrics.hpp: graph_distance", "src/algorithms/appendix_algorithms.hpp"]}
{"id": "C164", "title": "The numbering of the vertices does not matter", "statement": "If the vertices of a graph are renumbered, with the sources, initial distances and other arguments renumbered accordingly, then bfs_level, sssp (flag and distances), apsp off the diagonal, triangle_count, k_truss2, maxflow_push_relabel and vertex_betweenness_centrality_batch give the same answer up to the renumbering, and mst gives the same weight or refuses both graphs.", "quantifier": "all graphs, all permutations of the vertices", "why_tests_cant": "the functions walk through the matrix in the order of the indices; that nothing depends on this order has to be shown for every graph and each of its N! numberings", "anchors": ["src/algorithms/bfs.hpp: bfs_level", "src/algorithms/sssp.hpp: sssp", "src/algorithms/apsp.hpp: apsp", "src/algorithms/triangle_count.hpp: triangle_count", "src/algorithms/k_truss.hpp: k_truss2", "src/algorithms/maxflow.hpp: maxflow_push_relabel", "src/algorithms/bc.hpp: vertex_betweenness_centrality_batch", "src/algorithms/mst.hpp: mst"]}
{"id": "C165", "title": "triangle_count_demo prints the number of triangles five times", "statement": "For a file that lists every edge in both directions (in any order, with repeated lines and loops), all five counts that the program prints are the number of triangles of the graph, whatever order std::sort gives to vertices of equal degree.", "quantifier": "all nonempty symmetric edge lists, all results of the sort", "why_tests_cant": "the program reads the last line twice, and its relabelling leaves the two triangular matrices no longer triangular; that the counts are right all the same depends on sums over every numbering of the vertices", "anchors": ["src/demo/triangle_count_demo.cpp: main", "src/algorithms/triangle_count.hpp"]}
{"id": "C166", "title": "triangle_count_demo accepts every edge list", "statement": "For every file of pairs of vertices, also one that lists each edge in one direction only and one that is empty, the five counts are the number of triangles of the undirected graph.", "quantifier": "all edge lists", "why_tests_cant": "the demo is tried with one data file", "anchors": ["src/demo/triangle_count_demo.cpp: main"]}
{"id": "C167", "title": "louvain_demo clusters the graph in its file", "statement": "The matrix that louvain_demo clusters holds, for every pair of vertices, the weight of the last line of the file for that pair, and nothing else.", "quantifier": "all files with vertices numbered from 1", "why_tests_cant": "the demo is tried with one data file and its clusters are not checked", "anchors": ["src/demo/louvain_demo.cpp: main"]}
{"id": "C168", "title": "A truss can be computed from a larger truss", "statement": "k_truss_demo builds the incidence matrix of its edge list (each edge once with the smaller vertex first, and in any other direction), and every matrix that it prints, although computed from the one before, holds exactly the edges of the k-truss of the graph in the list.  This holds for every nondecreasing sequence of numbers; if a truss without edges is passed on, the next call throws InvalidValueException (see C64).  With k_truss2 too, the k-truss of the j-truss is the k-truss.", "quantifier": "all edge lists, all nondecreasing sequences of k", "why_tests_cant": "sequences of calls on each other's results, for every graph", "anchors": ["src/demo/k_truss_demo.cpp: main", "src/algorithms/k_truss.hpp: k_truss, k_truss2"]}
{"id": "C169", "title": "Peer pressure clustering in double votes in rounds until nothing changes", "statement": "With RealT = double and positive finite weights, peer_pressure_cluster and peer_pressure_cluster_v2 perform at most max_iters rounds of voting and stop early only when a round changes nothing.  In a round every vertex moves to the cluster with the most votes as added in double, one rounding per operation, in the order of the vertices; ties as computed go to the greatest cluster number, so that no vertex is in two clusters; no weight, however large or small, produces a NaN that would stop the voting.  For peer_pressure_cluster_v2 with positive integer weights whose sums stay within 2^53 the clusters are those of exact arithmetic.", "quantifier": "all graphs of at most 2^53 vertices with positive finite weights, all initial clusters, all iteration limits", "why_tests_cant": "overflow, underflow and rounding at every weight, and comparisons with == of rounded sums", "anchors": ["src/algorithms/cluster.hpp: peer_pressure_cluster, peer_pressure_cluster_v2", "src/graphblas/matrix_utils.hpp: normalize_rows"]}
{"id": "C170", "title": "Peer pressure clustering in double finds the clusters of exact arithmetic", "statement": "peer_pressure_cluster with RealT = double returns the same clusters as the same rounds of voting without rounding.", "quantifier": "all graphs with weights that double represents", "why_tests_cant": "a rounding error in one vote changes a cluster only when two sums are nearly equal", "anchors": ["src/algorithms/cluster.hpp: peer_pressure_cluster"]}
{"id": "C171", "title": "Louvain clustering in double finds local optima up to rounding errors", "statement": "With RealT = double, on an undirected graph without self loops whose weights lie between 2^-100 and 2^100, louvain_cluster and louvain_cluster_masked, when they return, return clusters such that moving any vertex to any other cluster or to a new one improves the modularity by at most N 2^-46, where N is the number of vertices; the modularity is computed exactly from the weights as converted to double.  They end, by returning or by reporting that max_iters iterations were not enough, if the random numbers lie between 0 and 1 and remain different when 0.0001 is added.  On every square graph, with any weights including infinities and NaN, what is returned puts every vertex in exactly one cluster; other graphs throw DimensionException.", "quantifier": "all graphs of at most 2^40 vertices, all weights, all random numbers, all iteration limits", "why_tests_cant": "every step adds and subtracts rounded numbers and compares them with ==; the error must be bounded for all graphs", "anchors": ["src/algorithms/cluster_louvain.hpp: louvain_cluster, louvain_cluster_masked"]}
{"id": "C172", "title": "Louvain clustering in double finds local optima of the modularity", "statement": "On an undirected graph without self loops, when louvain_cluster with RealT = double returns, no move of a single vertex increases the modularity.", "quantifier": "all graphs with weights that double represents", "why_tests_cant": "differences below the precision of double decide about a move", "anchors": ["src/algorithms/cluster_louvain.hpp: louvain_cluster"]}
{"id": "C173", "title": "Markov clustering in double is close to exact arithmetic", "statement": "With RealT = double, on a square graph whose weights lie between 2^-100 and 2^100, markov_cluster returns an approximation of one of the iterates of C92: an element is stored exactly where the iterate is not 0, within a relative error of K 2^-52, where K is the number of roundings (it grows by the factor 2 e r in each iteration and depends on the number of vertices).  The iteration goes on only while the mean squared difference of consecutive exact iterates is at least the threshold, and stops below it or at the limit, up to K 2^-47.  With loops at all vertices, the result has exactly the edges of the graph and every column has the sum 1 up to K 2^-52.  This holds while K is at most 2^48 and as long as nothing underflows: the numbers of the exact computation before the inflation are 0 or at least 2^-l, with l at most 450 and r l at most 900 (without this see C174).  Other graphs throw DimensionException.", "quantifier": "all graphs, weights, powers, thresholds and iteration limits", "why_tests_cant": "products, sums, powers and quotients of rounded numbers are iterated; the error must be bounded for all graphs", "anchors": ["src/algorithms/cluster.hpp: markov_cluster"]}
{"id": "C174", "title": "Markov clustering in double keeps the edges of a graph with loops", "statement": "With loops at all vertices and positive weights, markov_cluster with RealT = double returns a matrix with the edges of the graph, finite elements and column sums of about 1, for every iteration limit.", "quantifier": "all graphs with positive weights that double represents", "why_tests_cant": "elements get smaller in each iteration until they underflow", "anchors": ["src/algorithms/cluster.hpp: markov_cluster"]}
{"id": "C175", "title": "Parent searches with every scalar type that holds the vertex numbers", "statement": "bfs(graph, source, parents), bfs(graph, wavefront, parents) and bfs_batch give the parents of C42 and C59 for every combination of the scalar types (bool, the integer types, float, double) of the graph, the wavefronts and the parents, if the vertex numbers are values of these types (for float and double: at most 2^24 and 2^53 vertices); for the search from a source only the type of the parents matters.  The value stored for a vertex converts to exactly its parent's number.  Types too narrow: see C176.", "quantifier": "all graphs, roots, sizes and combinations of scalar types", "why_tests_cant": "indices are converted back and forth between up to four types in each round", "anchors": ["src/algorithms/bfs.hpp: bfs, bfs_batch"]}
{"id": "C176", "title": "The scalar type of a wavefront that marks the roots does not matter", "statement": "bfs(graph, wavefront, parents) and bfs_batch take a wavefront with the value 1 at the roots (as documented); with graph and parents of IndexType, the parents are the same for every scalar type of the wavefront that holds 1.", "quantifier": "all graphs, roots and scalar types of the wavefront", "why_tests_cant": "the wavefront is used as work space for indices; a test with few vertices or wide types cannot notice", "anchors": ["src/algorithms/bfs.hpp: bfs, bfs_batch"]}
{"id": "C177", "title": "Push-relabel over the integer types: the maximum flow", "statement": "maxflow_push_relabel over a signed integer type, uint32_t or uint64_t ends without overflow and returns the value of a maximum flow, if the capacities are not negative, the type holds twice the number of vertices and, for every vertex, the sum of the capacities of the edges in and out of it.  Narrow unsigned types: see C178; larger capacities: see C75.", "quantifier": "all networks, sources, sinks and these scalar types", "why_tests_cant": "a negative flow wraps around in an unsigned type, heights and positions are stored in the scalar type, and intermediate sums could overflow", "anchors": ["src/algorithms/maxflow.hpp: maxflow_push_relabel, push, relabel, discharge"]}
{"id": "C178", "title": "Push-relabel ends for every integer type that holds the capacities", "statement": "maxflow_push_relabel ends for every integer type that holds twice the number of vertices and the sum of the capacities of the edges in and out of each vertex, uint8_t and uint16_t included.", "quantifier": "all networks and integer types", "why_tests_cant": "only networks in which excess must flow back show it, and only with unsigned types that are promoted to int", "anchors": ["src/algorithms/maxflow.hpp: maxflow_push_relabel, push, discharge"]}
{"id": "C179", "title": "Push-relabel over float and double with integer capacities: the exact maximum flow", "statement": "maxflow_push_relabel over float or double ends and returns exactly the value of a maximum flow, if the capacities are integers that are not negative and, for every vertex, the sum of the capacities of the edges in and out of it is at most 2^24 or 2^53, and so is twice the number of vertices plus one.  Unlike for integer types (C75), the capacities out of the source need not be kept from exceeding the value that stands for infinity.  Fractions: see C180.", "quantifier": "all networks with integer capacities, sources and sinks, float and double", "why_tests_cant": "heights, positions and the infinite excess are stored as floating point numbers, and comparisons of rounded values decide every step", "anchors": ["src/algorithms/maxflow.hpp: maxflow_push_relabel, push, relabel, discharge"]}
{"id": "C180", "title": "Push-relabel ends for every network with float or double capacities", "statement": "maxflow_push_relabel over float or double ends for every network whose capacities are finite and not negative.", "quantifier": "all networks with float or double capacities", "why_tests_cant": "it takes excesses whose sum is rounded up and that must flow back; the tests use integers", "anchors": ["src/algorithms/maxflow.hpp: maxflow_push_relabel, push, relabel, discharge"]}
{"id": "C181", "title": "Triangle counts over float and double are exact up to 2^24 and 2^53", "statement": "For float and double and every simple undirected graph given by its adjacency matrix of ones: if twice the number of triangles is at most 2^24 (float) or 2^53 (double), triangle_count and triangle_count_newGBTL return exactly the number of triangles, halved without rounding; for the masked variants it suffices that the number of triangles itself is at most 2^24 or 2^53.  Unlike for the integer types (C127), there is no condition on the number of vertices.", "quantifier": "all simple graphs, float and double, all sizes", "why_tests_cant": "every sum and product is rounded, and the order of the additions depends on the graph; tests use graphs of a few vertices", "anchors": ["src/algorithms/triangle_count.hpp: triangle_count, triangle_count_masked, triangle_count_masked_noT, triangle_count_newGBTL"]}
{"id": "C182", "title": "The truss functions over float and double return the k-truss for every k", "statement": "For float and double and every simple undirected graph with fewer than 2^24 (float) or 2^53 (double) vertices, k_truss2 of the adjacency matrix (k >= 3) and k_truss of the incidence matrix (k >= 2, at least one edge), with ones of that type, end and return the k-truss: the largest subgraph in which every edge lies in at least k-2 triangles of the subgraph; the supports that k_truss2 converts to grb::IndexType are in its range, and the stored values are still ones.  k may be any value of grb::IndexType, although k-2 is rounded to the type; for integer types see C161 and C162.", "quantifier": "all simple graphs, all k, float and double", "why_tests_cant": "the supports are sums of rounded products, updated by subtractions and compared with a rounded threshold; it must hold for every graph and every k", "anchors": ["src/algorithms/k_truss.hpp: k_truss, k_truss2, SupportTest, SupportMinTest, FirstEqualsTwo"]}
{"id": "C183", "title": "A larger graph has no longer distances, no fewer triangles, no smaller trusses, no smaller flow and no heavier spanning tree", "statement": "If a graph has all edges of another graph on the same vertices, and perhaps more, then: its bfs_level levels are no higher and exist wherever the others do; with weights and initial distances that are no higher, sssp (if its flag is true, and then the flag of the other graph is true as well) and apsp (without negative cycles, off the diagonal) give distances that are no higher; triangle_count is no lower; k_truss2 returns all edges of the other truss (and for one graph a larger k returns fewer edges); with capacities that are no lower maxflow_push_relabel is no lower; with weights that are no higher the weight of mst is no higher.", "quantifier": "all pairs of graphs of which one contains the other", "why_tests_cant": "it relates two runs on different graphs, for every pair of graphs; tests look at single runs", "anchors": ["src/algorithms/bfs.hpp: bfs_level", "src/algorithms/sssp.hpp: sssp", "src/algorithms/apsp.hpp: apsp", "src/algorithms/triangle_count.hpp: triangle_count", "src/algorithms/k_truss.hpp: k_truss2", "src/algorithms/maxflow.hpp: maxflow_push_relabel", "src/algorithms/mst.hpp: mst"]}
{"id": "C184", "title": "The maximum flow is the least capacity of a cut", "statement": "The value that maxflow_push_relabel returns is the least capacity of a set of edges from a set of vertices with the source to the remaining ones with the sink: no cut has less, and some cut has exactly this capacity.  This holds over the integers, for the integer types within the conditions of C177 and for float and double with integer capacities within those of C179.  For networks with capacities 1 maxflow_ford_fulk returns the least number of edges across a cut.", "quantifier": "all networks with non-negative capacities, all pairs of vertices", "why_tests_cant": "there are 2^(N-2) cuts of every network; a test can compare with a few of them", "anchors": ["src/algorithms/maxflow.hpp: maxflow_push_relabel, maxflow_ford_fulk"]}
{"id": "C185", "title": "Scaling the weights scales the results, reversing the edges reverses them", "statement": "If all weights (and initial distances) are multiplied by a positive number c, then sssp returns the same flag and, if it is true, c times the distances, apsp (without negative cycles, off the diagonal) c times the distances, mst c times the weight and maxflow_push_relabel c times the flow.  If all edges are reversed, then apsp returns the transposed distances and maxflow_push_relabel from the sink to the source the same flow.", "quantifier": "all graphs, all positive factors", "why_tests_cant": "it relates two runs on different graphs, for every graph and every factor", "anchors": ["src/algorithms/sssp.hpp: sssp", "src/algorithms/apsp.hpp: apsp", "src/algorithms/mst.hpp: mst", "src/algorithms/maxflow.hpp: maxflow_push_relabel"]}
{"id": "C186", "title": "The demonstration programs that search a graph print levels, parents and distances", "statement": "For the graph that is given by a list of edges: masked_mxm_homework ends, and row r of the matrix it prints has, at every vertex that r reaches and nowhere else, one more than the fewest edges from r.  The parents that bfs_demo prints for one root and for every root are, for each vertex reached, the least vertex from which a shortest walk enters it (a root is its own parent).  The two matrices that bfs_level_demo prints are the levels from the root, by either function.  The vector that sssp_demo prints has the distances from vertex 0 and row u of the matrix the distances from u, where the last weight in the list counts for an edge and there is no negative cycle.", "quantifier": "all lists of edges, all numbers of vertices, all roots", "why_tests_cant": "the programs run on one graph each and print the result without checking it", "anchors": ["src/demo/masked_mxm_homework.cpp: bfs_level_masked, main", "src/demo/bfs_demo.cpp: main", "src/demo/bfs_level_demo.cpp: main", "src/demo/sssp_demo.cpp: run_demo"]}
{"id": "C187", "title": "Searches depend only on what they reach, and distances are a fixed point", "statement": "bfs_level and sssp return the same result for two graphs that have the same edges (for sssp: and weights) at the vertices that are reached from the sources in the first graph, whatever the edges of the remaining vertices are; in particular a negative cycle that is not reached does not change the flag of sssp.  If sssp returns true, then the distances are at most the initial ones, satisfy the triangle inequality for every edge, and sssp with these distances as initial distances returns true and the same distances.  Without negative cycles and positive self loops the result of apsp is at most the weights, satisfies the triangle inequality, and apsp applied to it returns it again.", "quantifier": "all pairs of graphs with the same part that is reached, all sources and initial distances", "why_tests_cant": "it relates two runs on different graphs or with different arguments", "anchors": ["src/algorithms/bfs.hpp: bfs_level", "src/algorithms/sssp.hpp: sssp", "src/algorithms/apsp.hpp: apsp"]}
