# Formal model of cmu-sei/gbtl in Rocq (Coq 8.16.1)

The development lives in `rocq/theories` (logical name `Verif`).

## Shape of the development

* **Spec** (`Spec.v`): a small specification independent of the model.  A matrix is a
  function `nat -> nat -> option T`, a vector a function `nat -> option T`.  It defines
  the write rule (mask, accumulator, output mode) and what each operation means.
* **Model** (`Model*.v`): function by function transcription of the C++ code, no proofs.  Every
  definition cites the file and lines it models.
* **Proof** (`Proof*.v`): lemmas.
* **Properties** (`Prop*.v`): only the property theorems (`exact lemma.`), each followed by
  `Print Assumptions`, and beside it an `Example` with a concrete non-trivial instance of the hypotheses.

## Modelling conventions

* *Scalar types* are arbitrary Coq types.  C++ conversions (`static_cast`) between template scalar types
  are explicit function parameters, so the theorems hold for any conversion, including lossy ones,
  and for floating point (no algebraic law is assumed unless the theorem says so).
  User supplied operators are total functions: they do not throw, have no side effects.
* *Indices* (`IndexType`, uint64) are `nat`.  All index computations in the code are bounded by container
  dimensions except products in `kronecker`; the wrap-around of the product in its dimension check is
  modelled explicitly (C51).
* *nvals* counters are `Z` holding the exact value of which the C++ field is the residue mod 2^64.
  `nvals() > 0` is modelled as `<> 0`.  (A count below 2^64 is implied by addressable memory.)
* *Undefined behaviour* is a distinct outcome.  Results live in
  `res A = Ok a | Throw e | UB`; each container access with a computed index yields `UB` when out of range.
  Theorems conclude `= Ok ...`, which includes absence of exceptions and of undefined behaviour.
* *Rows* `std::vector<std::tuple<IndexType,T>>` are lists of pairs; iterators are list suffixes.
* *Loops* over index ranges are folds over `seq 0 n`; while loops over iterators are structural recursion.
* *Templates on mask kind / accumulator* become inductive types (`mmask`, `vmask`, `accum`), one constructor per overload.
* Memory allocation failure, logging and input are not modelled; printing is a function to text (ModelPrint.v) with the stream's default formatting, and what a stream writes for a scalar is a parameter.

## Trusted base

* The Coq kernel (8.16.1), and the `vm_compute` reduction used in concrete witnesses.
* `Print Assumptions` under each theorem: "Closed under the global context" unless listed below.
* The reading of the C++ text in /repo by hand; the code is not run.
* `coqchk` additionally lists constants of `Coq.ssr.ssrunder` (part of the standard distribution, loaded with
  the reals/rationals); no theorem depends on them.

## Modelled code

Paths are relative to /repo/src.  `P/` stands for graphblas/platforms/sequential.  The files of
graphblas/platforms/optimized_sequential are byte for byte the same as those of the sequential platform, except for
`sparse_mxm*.hpp` (own model) and include guards/`#include` lines; the other models therefore describe both platforms.

| source | model |
|---|---|
| P/LilSparseMatrix.hpp | ModelLil.v: all members that read or change contents (constructors, build, clear, resize, get/set/mergeRow, get/setCol, element access, extractTuples, swap, recomputeNvals, ==).  Printing: ModelPrint.v |
| P/BitmapSparseVector.hpp | ModelVec.v: same.  Printing: ModelPrint.v |
| P/Matrix.hpp, P/Vector.hpp, graphblas/Matrix.hpp, graphblas/Vector.hpp | forwarding only; ModelCalls.v (call histories) |
| P/sparse_helpers.hpp, graphblas/indices.hpp | ModelHelpers.v, ModelIndex.v (row kernels, masks, accumulation, index sequences); masked_* in ModelOptMxm.v.  Not: printing helpers |
| P/sparse_mxm, sparse_mxv, sparse_vxm | ModelMul.v |
| P/sparse_ewiseadd, sparse_ewisemult, sparse_apply, sparse_reduce, sparse_transpose, sparse_kronecker | ModelElem.v |
| P/sparse_extract, sparse_assign | ModelIndex.v |
| graphblas/operations.hpp, detail/checks.hpp | the frontend functions, in the same files as the operations they forward to |
| TransposeView, ComplementView, StructureView, StructuralComplementView | ModelViews.v (constructors `Mat`/`Trn` and the mask kinds) |
| optimized_sequential/sparse_mxm*.hpp | ModelOptMxm.v: all kernels and wrappers, with operands that may be the output object |
| graphblas/algebra.hpp | ModelAlgebra.v, ModelOps.v: unary and binary operators, monoids, semirings over bool and the integer types, with one or three domains.  ModelFloat.v: the same over float and double (IEEE 754 as in Coq.Floats.SpecFloat, round to nearest even, one NaN).  ModelInts.v: products, reductions and sssp over the integer types, in which an undefined scalar makes the call undefined.  ModelFloatOps.v: products and reductions over float and double.  ModelConv.v: operators, monoids and semirings over any built-in scalar types, also different ones (conversions between integers and floating point), ModelRecast.v: apply between such types.  Not: Power (std::pow) |
| graphblas/matrix_utils.hpp | ModelUtils.v.  Not: pretty printing |
| algorithms/bfs, sssp (sssp, batch_sssp, filtered_sssp, sssp_delta_step), apsp, metrics, triangle_count, mis, k_truss, mst, maxflow (maxflow_ford_fulk, maxflow_push_relabel), page_rank, bc, appendix_algorithms, cluster, cluster_louvain | ModelBfs.v, ModelSssp.v, ModelMetrics.v, ModelTriangle.v, ModelMis.v, ModelTruss.v, ModelMst.v, ModelFlow.v, ModelDelta.v, ModelRank.v, ModelPush.v, ModelBc.v, ModelAppendix.v, ModelCluster.v, ModelLouvain.v.  Scalars of these are unbounded integers, rationals or booleans as the algorithm needs; ModelFsssp.v is sssp, batch_sssp, filtered_sssp and apsp with float and double weights; ModelIntPaths.v is batch_sssp, filtered_sssp and apsp over the integer types, and the metrics derived from distances over the integer and floating point types; ModelBc32.v is the batch betweenness with int32_t numbers of paths; ModelEbcTypes.v is the edge betweenness over the integer and floating point types; ModelTriInts.v is triangle_count over the integer types and bool, ModelTriFloat.v the same over float and double, ModelTrussTypes.v is k_truss and k_truss2 over the integer types and bool and ModelTrussFloat.v the same over float and double; ModelLevels.v is the level searches with levels and wavefronts of any scalar type, ModelParentTypes.v the parent searches; ModelMstTypes.v is mst and ModelDeltaTypes.v is sssp_delta_step and ModelFlowTypes.v is maxflow_ford_fulk over the integer and floating point types; ModelPushTypes.v is maxflow_push_relabel over the integer types and ModelPushFloat.v over float and double; ModelClusterTypes.v is peer pressure clustering, ModelLouvainTypes.v is Louvain clustering, ModelMarkovTypes.v is Markov clustering and ModelRankTypes.v is page_rank over any type of numbers, in particular double; ModelBcTypes.v is the batch and the vertex betweenness over float and double, the batch version with int32_t numbers of paths |
| src/demo: triangle_count_demo, louvain_demo, k_truss_demo | ModelDemo.v: from the numbers in the file to the counts, the matrix that is clustered, and the trusses |
| src/demo: masked_mxm_homework, bfs_demo, bfs_level_demo, sssp_demo | ModelSearchDemo.v: the programs with the graph as an argument; weights are unbounded integers |

### The library's own tests as a check of the model

The files Test*.v are not proofs of properties: they run the library's unit tests on the model, so that a model that differs from the code
where the tests look would not compile.  They were translated by scripts from /repo/src/test: 1113 tests of the operations (TestRun.v
and the files named after test_*.cpp), 70 runs of the algorithms (TestAlgorithms.v), the checks of the algebra on ModelAlgebra.v,
ModelOps.v, ModelFloat.v (TestAlgebra.v, 2415 checks) and on ModelConv.v (TestConv.v, 3041 checks).  All agree.  Not
translated: tests of Power, of printing to std::cout, of platform internals (platforms/sequential/test), and a few whose text the scripts could
not read.  One library test, Times<uint64_t,float>()(1,-1.1f), has undefined behaviour (C148).

Not modelled: graphblas/types.hpp, detail/param_unpack.hpp, detail/matrix_tags.hpp, detail/config.hpp, exceptions.hpp (type level
dispatch and exception classes); the demo programs except what triangle_count_demo, louvain_demo and k_truss_demo make of their input and masked_mxm_homework, bfs_demo, bfs_level_demo and sssp_demo of their graph; the test programs; the build system; logging.

## Plan per property

| id | property | model and proof |
|---|---|---|
| C01 | Matrix stored-value count is exact after any history | Model LilSparseMatrix; invariant wf_lil (sorted rows, in-bounds, exact count); induction over an op list with fold_left. |
| C02 | Matrix element interface refines a finite partial map | Abstraction mget : matrix -> nat -> nat -> option T; each call commutes with the map update; lifted over histories. |
| C03 | Vector element interface refines a finite partial map | Same for BitmapSparseVector with vget. |
| C04 | Vector stored-value count is exact after any history | Invariant wf_vec over histories without duplicate-index build / fill constructor (partial); two _refuted theorems for those calls. |
| C05 | Matrix equality is extensional | wf rows are canonical: equal lookups imply equal lists. |
| C06 | Vector equality is extensional | Model compares size, nvals, bitmap and values where stored; proved for wf vectors; refuted after build with duplicates. |
| C07 | extractTuples then build is the identity | extractTuples model = concatenation of rows; build = fold of setElement; round trip via extensionality. |
| C08 | build combines duplicates left to right with the dup operator | Lookup after fold of setElement-with-merge equals left fold over the filtered tuple list. |
| C09 | resize keeps exactly the elements inside the new bounds | Lookup characterisation of resize. |
| C10 | A throwing build leaves the container unchanged | Vector: proved (state returned with the exception is the old one). Matrix: _refuted witness, plus what is true (the prefix is applied). |
| C11 | Mask/accumulate/replace write rule | Row-level lemmas for ewise_or and apply_with_mask; lifted over the row loop; stated against Spec.v (spec_accum / spec_write). |
| C12 | mxm computes the semiring product (A*B) | axpy lemma (lookup after axpy) and induction over the stored entries of a row of A; T(i,j) = osum over seq 0 K. |
| C13 | mxm with transposed A or transposed B equals mxm with the explicit transpose | Outer-product kernel (A'B) and dot kernel (AB') shown equal to the same osum. |
| C14 | mxm with both operands transposed | Exact characterisation of what the code computes (mult arguments swapped); partial theorem for commutative mult; refuted in general. |
| C15 | mxv computes the semiring matrix-vector product | dot_rev lemma. |
| C16 | mxv with transposed matrix | As C14, for mxv with a transposed matrix. |
| C17 | vxm computes the semiring vector-matrix product | axpy and dot lemmas. |
| C18 | eWiseAdd is the union merge | ewise_or lemma + row loop, transposes through the modelled transpose kernels. |
| C19 | eWiseMult is the intersection merge | ewise_and lemma + row loop. |
| C20 | Element-wise ops on a transposed second operand keep its values | Refuted with a concrete pair of scalar types and matrices; partial theorem when B's values survive the conversion. |
| C21 | apply maps every stored element and nothing else | map over rows; argument order visible in the statement. |
| C22 | Row and column reduction | reduction / xpey lemmas. |
| C23 | Reduction to a scalar | fold lemmas; monoid laws as hypotheses where needed. |
| C24 | transpose is exact and involutive | push_back transposition loop lemma. |
| C25 | extract selects by index list | cursor-with-reset loop lemma (vectorExtract). |
| C26 | assign scatters by index list | vectorExpand over the sorted (out,in) map. |
| C27 | assign to one row or column touches only that row or column | getCol/setCol/setRow lemmas. |
| C28 | assign of a constant fills the index region | assignConstant lemma for ascending index lists. |
| C29 | assign of a constant with an arbitrary order of indices | _refuted witness. |
| C30 | kronecker product | push_back loops with div/mod index arithmetic. |
| C31 | Mask views select the right positions | lookup lemmas for the five mask row builders. |
| C32 | Dimension errors are detected and are harmless | Frontend functions modelled with the check sequence; exceptions carry the unchanged state. |
| C33 | Conforming calls never touch memory out of range | The res monad has a distinct UB outcome for every computed-index access; every op theorem concludes Ok. |
| C34 | assign with AllIndices checks the source size | _refuted witness reaching UB. |
| C35 | Every operation preserves container well-formedness | Store of containers, op syntax, interpreter, invariant by induction on programs. |
| C36 | Output may alias inputs and mask | Store-based (by-reference) model of the write loop and of mxm; shown equal to the by-value model. |
| C37 | optimized_sequential mxm agrees with sequential mxm | All optimized kernels modelled with operands that may be the output object (`obj`); each shown to give the write rule applied to the mathematical product, hence the sequential result by uniqueness. The exact result of the stale-row kernel is proved; three refuted witnesses. |
| C38 | Predefined monoids satisfy the monoid laws | Fixed-width integers as Z with promotion, wrap-around and undefined signed overflow; results characterised as conversions of the exact integer result, laws by modular arithmetic. |
| C39 | Which semiring laws the predefined semirings satisfy | Per-semiring laws or refutations. |
| C40 | mxm is associative and transposition reverses products | Derived on Spec from monoid laws, transferred to the model through C12. |
| C41 | Level BFS computes shortest hop counts | Algorithm modelled as a loop over the modelled operations with fuel; frontier invariant. |
| C42 | Parent BFS yields a shortest-path tree | As C41. |
| C43 | sssp computes shortest path lengths and detects negative cycles | Bellman-Ford invariant over walks with Z weights. |
| C44 | filtered_sssp computes shortest path lengths | _refuted witness; partial theorem for positive weights. |
| C45 | apsp computes all-pairs shortest path lengths | Floyd-Warshall invariant; _refuted for positive self loops. |
| C46 | Triangle counting is exact | Product, element-wise product and reduction as triple sums over Z; re-indexing of the sums. |
| C47 | mis returns a maximal independent set | Random numbers as an oracle; invariant over the loop. |
| C48 | Convenience matrix constructors and splitters | Through build lemmas. |
| C49 | Dense construction stores exactly the non-sentinel values | Constructor models. |
| C50 | extract undoes assign | Corollary of C25 and C26. |
| C51 | kronecker dimension check is exact | Products modelled mod 2^64; _refuted witness; partial when products fit. |
| C52 | Swapping two matrices exchanges them completely | _refuted witness. |
| C53 | Vertex degrees | Corollary of C25. |
| C54 | k_truss2 returns the maximal k-truss | Greatest fixpoint argument. |
| C55 | Index ranges enumerate [begin,end) | Model of IndexSequenceRange and of setupIndices. |
| C56 | Operations treat a filled vector as the elements it stores | Models skip work on vnvals = 0; one concrete filled vector refutes the property for each operation. |
| C57 | Row and column normalisation | Composition of the reduce, apply, build and mxm theorems. |
| C58 | Level BFS terminates on every graph | _refuted witness: a two-step cycle of loop states, for every fuel. |
| C59 | Parent BFS from a wavefront works for every graph scalar type | As C42 with conversions to the graph's scalar type; _refuted witness for bool. |
| C60 | Distances, eccentricity, radius and diameter | Composition of C43 with the reduction theorems; extremum of a fold over a total order. |
| C61 | Closeness centrality | Value proved (sum of distances); _refuted witness for the documented value. |
| C62 | Vertex degrees for every shape and scalar type | Partial theorem from C25; _refuted witnesses. |
| C63 | k_truss on an incidence matrix returns the maximal k-truss | model k_truss; invariant R = E*(E'E off the diagonal), which the subtraction of Ex'Ex preserves; support = number of twos in a row. |
| C64 | The truss algorithms in the border cases | counterexamples by computation; k_truss2 for k = 2 characterised. |
| C65 | Prim's algorithm returns a minimum spanning tree | Model of mst.hpp (ModelMst.v). SpecMst.v defines spanning trees as edge lists. Invariant: the chosen edges can be extended to a minimum spanning tree (exchange argument across the cut), d holds for each vertex the lightest edge from the reached set. |
| C66 | Ford-Fulkerson: feasible, and maximal when a cut is no larger than the edge count | Model of maxflow_bfs and maxflow_ford_fulk (ModelFlow.v). SpecFlow.v defines net flows and cuts. Weak duality, search = simple path of residual edges or a saturated cut, each augmentation keeps a feasible flow and adds at least one unit. |
| C67 | Ford-Fulkerson: maximal for all capacities | Refuted by a network on which shortest augmenting paths saturate every edge of a bipartite middle part twice. |
| C68 | Delta stepping: shortest distances for positive weights | Model both loops (ModelDelta.v). Invariant of the inner loop: every tentative distance is the weight of a path, all edges of vertices below the bucket are relaxed, vertices of the bucket are pending or have their light edges relaxed; the sum of the room left in the bucket decreases. The outer loop raises the relaxed bound by delta. |
| C69 | Delta stepping: shortest distances for non-negative weights | Counterexample by computation. |
| C70 | Page rank: iterates of the random surfer, convergence and accuracy | Model the loop over rationals (ModelRank.v); specification of the PageRank map in SpecRank.v. One iteration of the model equals one step of the map when every product has an entry; the step is a contraction in the sum norm, which gives convergence and, with Cauchy-Schwarz, the accuracy. |
| C71 | Page rank: vertices without incoming edges | Counterexample: invariant of the loop on a path, for every number of iterations. |
| C72 | Page rank: graphs of boolean scalars | Counterexample by computation. |
| C73 | Push-relabel: the value of a maximum flow | Model of push, relabel, discharge and the relabel-to-front loop (ModelPush.v). Invariants: preflow, valid heights below 2N (a level without vertices is a cut), positions pass no admissible edge, the list is a topological order of the admissible edges. Explicit measures bound both loops. At the end a height without vertices gives a saturated cut. |
| C74 | Push-relabel: no undefined behaviour on any network | Refuted by the network of one vertex. |
| C75 | Push-relabel: maximal whenever the capacities and the flow fit the scalar type | Refuted by a network with a dead end and 8 bit capacities. |
| C76 | Batch betweenness centrality sums the dependencies of the sources | Shortest paths are listed and counted in SpecBc.v. The searches keep, per source and level, the numbers of walks (ProofBcRow.v); back propagation keeps one plus the dependency of the processed levels, by the recursion of Brandes (ProofBcPaths.v). |
| C77 | Vertex betweenness centrality takes every vertex as a source | Same invariants as C76 for one source at a time, then a sum over the sources. |
| C78 | The depth-limited batch betweenness centrality | Same invariants with the loop bounded by ten rounds; a counterexample beyond. |
| C79 | Vertex betweenness centrality of graphs with an integer scalar type | Counterexample computed in the model with truncating division. |
| C80 | Edge betweenness centrality counts the shortest paths that use an edge | The weight of a vertex is the number of onward shortest paths; counting walks through an edge gives the score of each level. Counterexample with a self loop. |
| C81 | Rejected arguments of the batch betweenness centrality functions | Case analysis of the checks, and of build and extract for sources out of range. |
| C82 | The breadth first searches of the appendix find shortest paths | Model: ModelAppendix.v. Proof: the level invariant of C41 for both bodies; bfs_parent_appendixB3 equals bfs (C42). |
| C83 | The appendix level searches accept any output vector and any stored values | Concrete graphs, evaluated; non-termination by induction over the number of tests. |
| C84 | The betweenness centrality of the appendix, one source | Model: ModelAppendix.v. Proof: the row lemmas of C76 for the search, an invariant over the backward loop for the sums. |
| C85 | BC_appendixB4 adds the contribution of a source to an existing vector | Two calls on a path, evaluated. |
| C86 | The betweenness centrality of the appendix, batch of sources | Proof: the batch invariant of C76 when the shapes agree; the exact condition under which apply throws. |
| C87 | The independent set of the appendix is maximal | The loop of mis (C47) with another start. |
| C88 | The triangle count of the appendix | Equals triangle_count_masked on square matrices (C46). |
| C89 | Peer pressure clustering votes in rounds until nothing changes | Model the voting loop with its masked products, column maxima and diagonal matrices (ModelCluster.v). Specify votes, winners and rounds (SpecCluster.v) and prove that one iteration is one round, then by induction on the number of iterations. |
| C90 | Peer pressure clustering puts every vertex in one cluster | Winners of a round are unique; a winner exists when there is a vote. Induction over the rounds of C89. |
| C91 | Peer pressure clustering settles and leaves no vertex out | Counterexamples: an invariant of the 2-cycle preserved by every round refutes convergence; a vertex without incoming edge refutes coverage. |
| C92 | Markov clustering iterates expansion, inflation and normalisation | Matrices that store exactly the positive numbers are closed under the operations of the loop; induction on the iterations gives the iterate, and the sums of columns are invariants. |
| C93 | The expansion of Markov clustering is the matrix power | Equality on transitive graphs, where the mask hides nothing; counterexample on a path with loops. |
| C94 | Cluster assignments of the clustering algorithms' results | Induction over the sorted list of tuples for the first version, the vector matrix product of the (max, first) semiring for the second. |
| C95 | Cluster assignments of any cluster matrix | Counterexamples by evaluation of the model. |
| C96 | Louvain clustering returns a local optimum of the modularity | Model both versions line by line with the random numbers as a parameter. The vector q of the code is twice the sum of the excess of the edges to each cluster; the modularity after a move differs by a difference of these sums. They add up to something positive, so that some cluster of the others always attracts the vertex, also in the masked version. Ties leave a nonempty subset of the maximisers. An iteration without change shows that every vertex is in a cluster of maximal attraction. |
| C97 | Louvain clustering puts every vertex in exactly one cluster | Invariant of the sweeps: each row has one element; the loop that breaks ties ends only with one element. |
| C98 | Louvain clustering ends with a good clustering for every graph | Counterexamples by evaluation; for the loop that does not end, induction on the fuel. |
| C99 | Cluster assignments of Louvain clustering | The product with MaxSecond over the stored columns of a row. |
| C100 | Unary operators over the integer types | ModelOps.v models the unary operators over ctype with promotion, conversion and undefined overflow; by arithmetic modulo 2^bits. |
| C101 | Unary, division and comparison operators do what their names say on every built-in type | counterexamples by computation. |
| C102 | Bitwise operators work bit by bit | values of a type are those whose bits above the width equal the sign; the bitwise operations preserve that (Z.shiftr), so no conversion changes a result. |
| C103 | Comparison operators order the values | the usual arithmetic conversions keep compatible values (case analysis over the types). |
| C104 | Division, and operators with three domains | quotients of values fit except in the excluded cases; compatible operands and fitting results are not changed by conversions. |
| C105 | Min and Max monoids over floating point | every finite number is an integer multiple of 2^emin (ProofRound.v sval), with infinities at the ends; SFcompare is comparison of these integers. |
| C106 | Plus, Times and unary operators over floating point | rounding is a function of the exact integer value (Rz) that fixes representable values. |
| C107 | Small integers are exact in floating point | integers up to 2^prec are fixed by rounding. |
| C108 | Floating point operators satisfy the monoid and semiring laws | counterexamples by computation. |
| C109 | Floating point semirings that keep their laws in spite of rounding | round to nearest even is monotone (rne_mono, rv_mono), so adding or multiplying by a fixed number is. |
| C110 | Shortest paths with floating point weights | ModelFsssp.v is the algorithm over any scalar type; Bellman-Ford needs only that adding a fixed weight is monotone (ProofGpaths.v), which rounded addition is. |
| C111 | Integer weights in floating point give exact shortest paths | step by step simulation: while magnitudes stay below 2^prec all sums, minima and comparisons agree with those of integers (C107). |
| C112 | The flag of sssp detects negative cycles with floating point weights | counterexamples by computation. |
| C113 | Operations act alike on related scalars | each operation has a closed form for the elements of its result (C14-C40); the closed forms preserve relations by induction over the sums. |
| C114 | Products and reductions over wrap-around integer types are modular | instance of the closed forms with the relation 'x is z converted to the type' (ModelInts.v); a scalar whose computation is undefined is a separate value that no operator loses. |
| C115 | Products and reductions over integer types are exact within range | as C114 with the relation 'x is z and |z| <= K', with K growing along the sum. |
| C116 | Shortest paths over integer types are exact within range | step by step simulation of sssp over the integers with bounds M, 2M, ..., N*M, (N+1)*M. |
| C117 | Shortest paths and products over integer types are right for all values | counterexamples by computation. |
| C118 | Batch betweenness is right while the int32 path counts fit | the searches of bc.hpp with int32_t scalars that are undefined on overflow (ModelBc32.v); the invariant of C76 with the bound that a sum over the frontier is at most the number of shortest paths from the source. |
| C119 | Batch betweenness never overflows its path counts | counterexample by computation: nine layers of eleven vertices. |
| C120 | Element-wise operations obey the laws of their operators | calls without mask and accumulator (SpecOpLaws.v); closed form of each call, then the law on the stored maps; the results are equal as containers since a well-formed matrix is determined by its map. |
| C121 | Products obey the laws of their semiring | as C120; sums over an index range of unions of terms, exchange of sums. |
| C122 | A mask and its complement split an operation | a general lemma on the write rule: positions allowed by the second mask are untouched by the first call; instances from the closed forms of C11-C28. |
| C123 | Kronecker products obey their laws | as C120; a sum over m*n positions is a double sum. |
| C124 | Extractions compose and commute with products | as C120; positions of composed index lists. |
| C125 | The printed form of a container shows its contents | the printing loops as functions to text (ModelPrint.v); layout by induction on the stored elements; injectivity by splitting the text at separators. |
| C126 | The printed form of a container of 8-bit integers shows its contents | counterexample by computation. |
| C127 | Triangle counts over integer types are exact within range | the functions over scalars that may be undefined (ModelTriInts.v); each call related to the same call over the integers (SpecRel), bounding the elements of the product by N and the partial sums by the total. |
| C128 | triangle_count is right whenever the count fits the scalar type | counterexamples by computation. |
| C129 | Batch, filtered and all-pairs shortest paths over integer types are exact within range | the algorithms over the machine type (ModelIntPaths.v, ModelFsssp.v) and over the integers run side by side: every call is related (SpecRel) to the same call over the integers while the values stay within the bound, which holds because each round raises it by at most M, and in apsp because the entries lie between -MN and MN; then the theorems about the integers apply. |
| C130 | Metrics over integer types are exact within range | as C129; the reductions start from the finite identities of the type. |
| C131 | Batch, filtered and all-pairs shortest paths over float and double are exact for integer weights within the precision | as C129 with floating point numbers that are integers of at most p bits, whose sums are not rounded. |
| C132 | Metrics over float and double are exact for integer weights within the precision | as C131; the infinite identities are ordered above and below all integers of the range. |
| C133 | Level BFS is right for every scalar type that can tell its levels from zero | the searches over a scalar type with explicit conversions; the invariant of C41 carries over as long as no stored level is zero; integer types wrap, floating point types hold small integers exactly |
| C134 | Level BFS with levels of a narrow type stores the wrapped levels | refuted by a path of 257 vertices and 8-bit levels, computed in the kernel |
| C135 | mst over the integer types returns a minimum spanning tree and its weight within range | Prim's invariant of C65 with machine weights related to the integers they hold; partial sums bounded by M(N-1), or taken modulo 2^bits |
| C136 | mst over float and double returns a tree of least exact weight and its rounded weight | the same invariant with the exact value of a float, as a multiple of the least positive one, as weight |
| C137 | mst returns the weight whenever it is a value of the type | refuted by a path of four vertices |
| C138 | Sums over float and double have the error of plain summation | one rounding is nearest and has relative error u; induction over the order of summation (the bound (n-1)u of Jeannerod and Rump) on integers, as multiples of the smallest positive number |
| C139 | Products over float and double have the error of plain dot products | error of one rounded product, relative or half the smallest positive number; then C138 |
| C140 | Products and reductions of integers held as float or double are exact within the precision | products and sums of small integers are exact (ProofFloat); induction over the terms |
| C141 | Shortest path lengths over float and double are accurate | the computed distance is the least rounded length of a walk (C110); the rounded length of a walk has relative error (N-1)u (C138); compare with an exact shortest walk |
| C142 | Delta stepping over machine types is exact within the range | relate every vector of the run over the type with the run over Z; all values stay below (N-1)W + delta |
| C143 | Delta stepping gives the distances whenever they are values of the type | refuted by two one-edge graphs; the endless run is proved by an invariant of period two |
| C144 | Maximum flows over machine types are exact within the range | relate every matrix of the run over the type with the run over Z (exactly or modulo 2^bits); a flow is at most c(u,v), so that residual capacities are at most c(u,v)+c(v,u) |
| C145 | Maximum flows are right whenever they are values of the type | refuted by networks with opposite edges whose residual capacity exceeds the type |
| C146 | Conversions between scalar types keep the nearest value | relate Coq.Floats.SpecFloat's normalization to rational numbers m 2^e; rounding is stated as: no number of the type in between, none nearer |
| C147 | Operators with operands of different types compare and compute with the numbers | both operands become the same numbers in the common type (C146), where comparison and rounding are known |
| C148 | Operators with operands of different types are exact for all integers | refuted by integers above 2^24 and 2^53 |
| C149 | Containers move to another scalar type element by element | the closed form of apply with conversions that may be undefined as elements, then all elements must be defined |
| C150 | A program takes the same course over related scalar types | a simulation of every function of the model by itself over the other scalar type, from rows to programs; relational parametricity done by hand |
| C151 | Programs over an integer type that wraps around compute modulo 2^bits | C150 with the relation 'is congruent to', and the operators respect it |
| C152 | Programs over int32_t and int64_t compute exactly unless an operation overflows | C150 with the relation 'is equal or undefined' |
| C153 | Floating point division is correctly rounded | the quotient and the location of its remainder are what is left of a finer mantissa, on the same side of every number of the type and every midpoint as the quotient; then the rounding of C146 |
| C154 | Programs over float and double are exact on small integers | C150 with the relation 'is this integer, unless it is lost', operators by rounding (C147) |
| C155 | Normalised rows and columns are accurate over float and double | a correctly rounded result has relative error u in the normal range, since numbers with a full mantissa lie on both sides; inverse and product by C153 and C146; sums by C138, C140 |
| C156 | Page rank over double is accurate | a model of page rank generic in the type of numbers; relative error factors (1 - u)^K compose under products, quotients and sums of positive numbers; the range of every intermediate result is bounded, so that C155 applies; contraction for the distance |
| C157 | Batch betweenness centrality over float and double is accurate | a model of the back propagation generic in the type of numbers; by induction over the levels, downwards, each dependency is approximated up to seven roundings per level and one per vertex at a deeper level; the sum over the sources adds p, the final subtraction is bounded absolutely |
| C158 | Vertex betweenness centrality over float and double is accurate | the searches keep numbers of paths which are exact up to 2^prec, so that they count paths; the back propagation of each source is the induction of C157 with one source; the sources are added in turn |
| C159 | Edge betweenness centrality is exact in types which hold the numbers | the induction of C80 is repeated with laws that hold for natural numbers up to a bound only; all intermediate numbers are at most the number of shortest paths from one vertex, W(s,v) times the number of ways onward from v |
| C160 | Edge betweenness centrality is right whenever the scores fit in the type | a graph of sixteen layers of four vertices; the true score is obtained from C80 with unbounded integers |
| C161 | The truss functions are right in integer types which hold the number of vertices | the runs over the integers (C54, C63) and over the type are followed in step: sums of ones are known while they fit, and the values over the integers bound them (degrees and supports by the number of vertices, products of edges and adjacencies by 2) |
| C162 | The truss functions are right for every scalar type and every k | three concrete graphs |
| C163 | Functions that answer the same question give the same answer | the specifications determine the answers, so that the correctness theorems of the functions can be combined; unit weights turn the cost of a walk into its number of edges |
| C164 | The numbering of the vertices does not matter | the specifications are invariant under renumbering (walks, sums, triangles, trusses, flows, lists of shortest paths and spanning trees are carried over by the permutation), and determine the answers |
| C165 | triangle_count_demo prints the number of triangles five times | model of the program: the read loop, the relabelling by the sorted degrees, build and the five functions; the counts are written as triple sums, which a permutation of the vertices does not change |
| C166 | triangle_count_demo accepts every edge list | counterexamples, computed in the model |
| C167 | louvain_demo clusters the graph in its file | model of the read loop with its variables; counterexamples, and an exact description of the matrix |
| C168 | A truss can be computed from a larger truss | the incidence matrix of a list; the largest supported sub-graph of a largest supported sub-graph; induction over the sequence of calls |
| C169 | Peer pressure clustering in double votes in rounds until nothing changes | the model of C89 over any type of numbers, instantiated with double; the proof of C89 over any totally ordered values; sums of non-negative doubles are never NaN; integer sums are exact |
| C170 | Peer pressure clustering in double finds the clusters of exact arithmetic | counterexample computed in the model; error bound for each vote, and a clear lead survives it |
| C171 | Louvain clustering in double finds local optima up to rounding errors | the model of C96 over any type of numbers, instantiated with double; the control flow is proved for any type of numbers; a bound for the absolute error of each computed gain, relative to the degree of the vertex, and the greatest computed gain is the greatest gain up to twice that bound |
| C172 | Louvain clustering in double finds local optima of the modularity | counterexample computed in the model |
| C173 | Markov clustering in double is close to exact arithmetic | the model of C92 over any type of numbers, instantiated with double; an invariant relates the stored elements to the exact iterate by a relative error; an absolute error for the mean squared difference |
| C174 | Markov clustering in double keeps the edges of a graph with loops | counterexamples computed in the model |
| C175 | Parent searches with every scalar type that holds the vertex numbers | model with explicit conversions; the relation 'the value represents the index' between it and the model of C42 and C59, preserved by every operation of the loop |
| C176 | The scalar type of a wavefront that marks the roots does not matter | counterexamples computed in the model |
| C177 | Push-relabel over the integer types: the maximum flow | simulation of the run of C73: flows are equal up to conversion to the type, excesses, heights and positions are equal; the total excess is constant and bounds every excess |
| C178 | Push-relabel ends for every integer type that holds the capacities | a network on which discharge comes back to the same state after four steps, for every number of steps |
| C179 | Push-relabel over float and double with integer capacities: the exact maximum flow | simulation of the run of C73 with the relation between integers and the numbers that represent them; the largest finite number absorbs what is subtracted from it |
| C180 | Push-relabel ends for every network with float or double capacities | a network on which discharge comes back to the same state after six steps; the rounds before that are computed, for every number of steps |
| C181 | Triangle counts over float and double are exact up to 2^24 and 2^53 | the functions over floating point numbers (ModelTriFloat.v); each call related to the same call over the integers (SpecRel), where a number is known as long as it is at most 2^24 or 2^53; the sum is shown to be even, so that C153 gives an exact half |
| C182 | The truss functions over float and double return the k-truss for every k | simulation of the runs of C54 and C63 (ModelTrussFloat.v): all numbers that occur are integers below 2^24 or 2^53, so nothing is rounded but the threshold, and rounding a threshold above all supports leaves it above them |
| C183 | A larger graph has no longer distances, no fewer triangles, no smaller trusses, no smaller flow and no heavier spanning tree | the specifications are monotone (walks, triangles, supported subgraphs, flows and spanning trees of the smaller graph are ones of the larger graph), and determine the answers; the existence of shortest walks without negative cycles is shown by removing cycles |
| C184 | The maximum flow is the least capacity of a cut | max-flow min-cut theorem: starting from the source, vertices are added as long as an edge with capacity left leads to them, keeping for each a unit of flow that can be added; the sink is never reached because the flow is maximal, so the final set is a saturated cut; with C73, C177, C179 and C66 |
| C185 | Scaling the weights scales the results, reversing the edges reverses them | walks and spanning trees are carried over with c times the weight, cuts (C184) with c times the capacity; reversed walks and complements of cuts |
| C186 | The demonstration programs that search a graph print levels, parents and distances | the loop of the homework keeps the invariant of the level searches (C41); build with the default duplicate operator keeps the last value, so the edges of the matrix are those of the list; then C41, C43 and C59 |
| C187 | Searches depend only on what they reach, and distances are a fixed point | walks from the sources stay in the part that is reached, so both graphs have the same walks (C41, C43); a walk that starts with a distance is a walk from a source, and least walks exist without negative cycles (C183); a walk over the distances of apsp (C45) is put together from walks of the graph |
