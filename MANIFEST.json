{
 "claims": [
  {
   "property": "C01",
   "status": "proved",
   "theorems": [
    "C01_matrix_nvals_exact"
   ],
   "note": "For every call history over any number of matrices."
  },
  {
   "property": "C02",
   "status": "proved",
   "theorems": [
    "C02_matrix_refines_map"
   ],
   "note": "Every outcome of every call equals that of the partial-map specification."
  },
  {
   "property": "C03",
   "status": "proved",
   "theorems": [
    "C03_vector_refines_map"
   ],
   "note": "All histories of element calls, including fill construction and duplicate builds."
  },
  {
   "property": "C04",
   "status": "partial",
   "theorems": [
    "C04_vector_nvals_exact_partial",
    "C04_vector_nvals_exact_refuted"
   ],
   "note": "Exact without fill constructor and duplicate build indices; the full statement is refuted for both."
  },
  {
   "property": "C05",
   "status": "proved",
   "theorems": [
    "C05_matrix_eq_extensional"
   ],
   "note": ""
  },
  {
   "property": "C06",
   "status": "partial",
   "theorems": [
    "C06_vector_eq_extensional_partial",
    "C06_vector_eq_extensional_refuted"
   ],
   "note": "Same restriction as C04; full statement refuted."
  },
  {
   "property": "C07",
   "status": "proved",
   "theorems": [
    "C07_matrix_tuples_roundtrip",
    "C07_vector_tuples_roundtrip"
   ],
   "note": ""
  },
  {
   "property": "C08",
   "status": "proved",
   "theorems": [
    "C08_matrix_build_dup_fold",
    "C08_vector_build_dup_fold"
   ],
   "note": ""
  },
  {
   "property": "C09",
   "status": "proved",
   "theorems": [
    "C09_matrix_resize",
    "C09_vector_resize"
   ],
   "note": ""
  },
  {
   "property": "C10",
   "status": "partial",
   "theorems": [
    "C10_vector_build_atomic_partial",
    "C10_matrix_build_atomic_refuted"
   ],
   "note": "Vector half proved, matrix half refuted."
  },
  {
   "property": "C49",
   "status": "proved",
   "theorems": [
    "C49_matrix_dense",
    "C49_vector_dense"
   ],
   "note": ""
  },
  {
   "property": "C52",
   "status": "partial",
   "theorems": [
    "C52_swap_partial",
    "C52_swap_refuted"
   ],
   "note": "Contents are exchanged and the left count is right; the right count stays stale."
  },
  {
   "property": "C11",
   "status": "proved",
   "theorems": [
    "C11_matrix_write_rule",
    "C11_vector_write_rule"
   ],
   "note": "The final phase shared by all operations, all five mask kinds, both output modes, with and without accumulator."
  },
  {
   "property": "C12",
   "status": "proved",
   "theorems": [
    "C12_mxm_product"
   ],
   "note": "Exact equality with the left-to-right sum, no algebraic laws assumed."
  },
  {
   "property": "C13",
   "status": "proved",
   "theorems": [
    "C13_mxm_transposed_left",
    "C13_mxm_transposed_right"
   ],
   "note": "Equal outcomes, including exceptions."
  },
  {
   "property": "C14",
   "status": "partial",
   "theorems": [
    "C14_mxm_both_transposed_partial",
    "C14_mxm_both_transposed_refuted",
    "C14_mxm_accum_type_refuted"
   ],
   "note": "Proved for commutative multiplication and lossless conversion through the output type; both restrictions are necessary (refuted without)."
  },
  {
   "property": "C15",
   "status": "proved",
   "theorems": [
    "C15_mxv_product"
   ],
   "note": "For every vector whose count does not wrongly say empty (C56 refutes the rest)."
  },
  {
   "property": "C16",
   "status": "partial",
   "theorems": [
    "C16_mxv_transposed_partial",
    "C16_mxv_transposed_refuted"
   ],
   "note": "Proved for commutative multiplication, refuted otherwise."
  },
  {
   "property": "C17",
   "status": "proved",
   "theorems": [
    "C17_vxm_product",
    "C17_vxm_transposed"
   ],
   "note": "Same restriction on filled vectors as C15."
  },
  {
   "property": "C31",
   "status": "proved",
   "theorems": [
    "C31_matrix_mask_views",
    "C31_vector_mask_views"
   ],
   "note": ""
  },
  {
   "property": "C18",
   "status": "proved",
   "theorems": [
    "C18_eWiseAdd_vector",
    "C18_eWiseAdd_matrix"
   ],
   "note": "The A,B' case assumes B's values survive the conversion to A's scalar type (C20)."
  },
  {
   "property": "C19",
   "status": "proved",
   "theorems": [
    "C19_eWiseMult_vector",
    "C19_eWiseMult_matrix"
   ],
   "note": "The A,B' case assumes B's values survive the conversion to A's scalar type (C20)."
  },
  {
   "property": "C20",
   "status": "partial",
   "theorems": [
    "C20_eWise_second_transposed_partial",
    "C20_eWise_second_transposed_refuted"
   ],
   "note": "Exact result proved (values pass through A's scalar type); the property itself is refuted for mixed types."
  },
  {
   "property": "C21",
   "status": "proved",
   "theorems": [
    "C21_apply_matrix",
    "C21_apply_matrix_bound",
    "C21_apply_vector",
    "C21_apply_vector_bound"
   ],
   "note": ""
  },
  {
   "property": "C22",
   "status": "proved",
   "theorems": [
    "C22_reduce_rows"
   ],
   "note": "Rows and columns (transposed view), exact left-to-right fold; the operator takes its first argument from an element and from a partial result alike (its hypothesis on op01, an equality for operators with one domain)."
  },
  {
   "property": "C23",
   "status": "proved",
   "theorems": [
    "C23_reduce_vector_scalar",
    "C23_reduce_matrix_scalar_rows",
    "C23_reduce_matrix_scalar",
    "C23_reduce_matrix_scalar_transpose"
   ],
   "note": ""
  },
  {
   "property": "C24",
   "status": "proved",
   "theorems": [
    "C24_transpose",
    "C24_transpose_involutive"
   ],
   "note": ""
  },
  {
   "property": "C30",
   "status": "proved",
   "theorems": [
    "C30_kronecker"
   ],
   "note": "All four transpose combinations; indices below 2^64."
  },
  {
   "property": "C51",
   "status": "partial",
   "theorems": [
    "C51_kronecker_dimensions_partial",
    "C51_kronecker_dimensions_refuted"
   ],
   "note": "Exact when the products stay below 2^64; refuted otherwise."
  },
  {
   "property": "C56",
   "status": "partial",
   "theorems": [
    "C56_filled_vector_refuted",
    "C15_mxv_filled_vector_refuted"
   ],
   "note": "Refuted: filled vectors are treated as empty."
  },
  {
   "property": "C25",
   "status": "proved",
   "theorems": [
    "C25_extract_vector",
    "C25_extract_matrix",
    "C25_extract_column"
   ],
   "note": "Any index sequence: unordered, repeated, range, all; both transpose forms."
  },
  {
   "property": "C26",
   "status": "proved",
   "theorems": [
    "C26_assign_vector",
    "C26_assign_matrix",
    "C26_position"
   ],
   "note": "Duplicate-free index sequences; with AllIndices the source must fit (C34)."
  },
  {
   "property": "C27",
   "status": "proved",
   "theorems": [
    "C27_assign_column",
    "C27_assign_row"
   ],
   "note": "Exactly one row or column changes."
  },
  {
   "property": "C28",
   "status": "proved",
   "theorems": [
    "C28_assign_constant_vector",
    "C28_assign_constant_matrix"
   ],
   "note": "Increasing column indices; C29 covers the rest."
  },
  {
   "property": "C29",
   "status": "partial",
   "theorems": [
    "C29_assign_constant_order_refuted"
   ],
   "note": "Refuted: unordered lists give other values and break the containers. The increasing case is C28."
  },
  {
   "property": "C34",
   "status": "partial",
   "theorems": [
    "C34_assign_all_longer_source",
    "C34_assign_all_refuted"
   ],
   "note": "Refuted: no size check; a longer source always writes out of range, a shorter one is accepted."
  },
  {
   "property": "C50",
   "status": "proved",
   "theorems": [
    "C50_extract_assign_matrix",
    "C50_assign_extract_matrix",
    "C50_extract_assign_vector",
    "C50_assign_extract_vector"
   ],
   "note": ""
  },
  {
   "property": "C55",
   "status": "proved",
   "theorems": [
    "C55_range",
    "C55_all_indices_extract",
    "C55_all_indices_assign",
    "C55_backward_range_extract",
    "C55_backward_range_assign"
   ],
   "note": ""
  },
  {
   "property": "C32",
   "status": "proved",
   "theorems": [
    "C32_matrix_operations",
    "C32_vector_operations",
    "C32_row_column_assignment"
   ],
   "note": "Every operation on a store of containers; exact exception per kind of error, store unchanged."
  },
  {
   "property": "C33",
   "status": "proved",
   "theorems": [
    "C33_no_undefined_behaviour",
    "C33_no_undefined_behaviour_program"
   ],
   "note": "Every call (element calls and operations) and every program."
  },
  {
   "property": "C35",
   "status": "proved",
   "theorems": [
    "C35_programs_preserve_wellformedness"
   ],
   "note": "By induction over programs."
  },
  {
   "property": "C36",
   "status": "proved",
   "theorems": [
    "C36_aliasing_matrix_operations",
    "C36_aliasing_vector_operations",
    "C36_aliasing_row_column_assignment"
   ],
   "note": "Matrices: the write loop is modelled in place, reading mask and output from the store at each row. Vectors: the new contents are computed into a temporary before the single write, so the vector statements follow from the model's shape."
  },
  {
   "property": "C38",
   "status": "proved",
   "theorems": [
    "C38_monoid_laws",
    "C38_logical_monoid_laws",
    "C38_plus_defined",
    "C38_times_defined",
    "C38_times_uint16_refuted",
    "C38_logical_monoids_int_refuted"
   ],
   "note": "Integer promotion, wrap-around and undefined signed overflow are modelled. Floating point: C105-C109."
  },
  {
   "property": "C39",
   "status": "proved",
   "theorems": [
    "C39_semirings_all_types",
    "C39_semirings_bool",
    "C39_min_max_plus_distributive",
    "C39_min_max_times_distributive",
    "C39_selecting_semirings",
    "C39_plus_min_refuted",
    "C39_min_plus_unsigned_refuted",
    "C39_min_plus_signed_refuted",
    "C39_min_times_signed_refuted",
    "C39_max_plus_signed_refuted"
   ],
   "note": "The property lists which laws hold; the refuted theorems are the ones the property says fail."
  },
  {
   "property": "C40",
   "status": "proved",
   "theorems": [
    "C40_mxm_associative",
    "C40_transpose_of_product"
   ],
   "note": "For any scalar type with the stated laws; outputs with arbitrary previous contents."
  },
  {
   "property": "C48",
   "status": "proved",
   "theorems": [
    "C48_diag",
    "C48_scaled_identity",
    "C48_split"
   ],
   "note": "split keeps what its outputs stored before."
  },
  {
   "property": "C57",
   "status": "partial",
   "theorems": [
    "C57_normalize_rows",
    "C57_rows_sum_to_one",
    "C57_normalize_cols",
    "C57_normalize_cols_throws",
    "C57_normalize_cols_refuted"
   ],
   "note": "normalize_rows fully; normalize_cols on square matrices, refuted for the others."
  },
  {
   "property": "C41",
   "status": "proved",
   "theorems": [
    "C41_bfs_level",
    "C41_bfs_level_masked",
    "C41_batch_bfs_level"
   ],
   "note": "Fuel n > N suffices, which is the termination statement; levels characterised by the least number of edges of a walk."
  },
  {
   "property": "C42",
   "status": "proved",
   "theorems": [
    "C42_bfs_parents",
    "C42_bfs_reaches"
   ],
   "note": "For every graph, including stored zeros."
  },
  {
   "property": "C58",
   "status": "partial",
   "theorems": [
    "C58_bfs_level_terminates_refuted",
    "C58_bfs_level_terminates_partial"
   ],
   "note": "Refuted for stored zeros (for every fuel the loop has not ended); holds otherwise."
  },
  {
   "property": "C59",
   "status": "partial",
   "theorems": [
    "C59_bfs_wavefront",
    "C59_bfs_batch",
    "C59_bfs_wavefront_bool_refuted"
   ],
   "note": "Holds when the scalar type represents the ids below N faithfully; refuted for bool."
  },
  {
   "property": "C43",
   "status": "proved",
   "theorems": [
    "C43_sssp",
    "C43_batch_sssp",
    "C43_sssp_source"
   ],
   "note": "Weights are unbounded integers (machine integers: C116, C117; floating point: C110-C112); graphs with at least one vertex. Both directions of the negative cycle test."
  },
  {
   "property": "C44",
   "status": "partial",
   "theorems": [
    "C44_filtered_sssp_partial",
    "C44_filtered_sssp_positive",
    "C44_filtered_sssp_refuted"
   ],
   "note": "Full statement when no walk of at least one edge has length 0 (e.g. positive weights); refuted for a zero weight edge."
  },
  {
   "property": "C45",
   "status": "partial",
   "theorems": [
    "C45_apsp",
    "C45_apsp_no_loops",
    "C45_apsp_diagonal_refuted"
   ],
   "note": "Off the diagonal for every graph without negative cycles; the diagonal without positive self loops, refuted with one. Unbounded integer weights."
  },
  {
   "property": "C53",
   "status": "proved",
   "theorems": [
    "C53_vertex_degrees",
    "C53_vertex_degrees_exception"
   ],
   "note": "For any scalar type with any conversion from counts."
  },
  {
   "property": "C60",
   "status": "proved",
   "theorems": [
    "C60_graph_distance",
    "C60_graph_distance_matrix",
    "C60_vertex_eccentricity",
    "C60_graph_radius",
    "C60_graph_diameter",
    "C60_dimension_exceptions"
   ],
   "note": "Weights are unbounded integers."
  },
  {
   "property": "C61",
   "status": "partial",
   "theorems": [
    "C61_closeness_centrality_partial",
    "C61_closeness_centrality_refuted"
   ],
   "note": "Proved: the result is the sum of the distances from the vertex. Refuted: that it is the inverse of the sum of the distances to it."
  },
  {
   "property": "C62",
   "status": "partial",
   "theorems": [
    "C62_degrees_any_shape_partial",
    "C62_out_degree_wide_refuted",
    "C62_degree_bool_refuted"
   ],
   "note": "In-degrees for every shape, out-degrees unless the matrix is wider than high; refuted for wide matrices and for bool."
  },
  {
   "property": "C46",
   "status": "proved",
   "theorems": [
    "C46_triangle_count",
    "C46_triangle_count_masked",
    "C46_triangle_count_newGBTL"
   ],
   "note": "Scalar type: unbounded integers (machine integers: C127, C128)."
  },
  {
   "property": "C47",
   "status": "proved",
   "theorems": [
    "C47_mis",
    "C47_mis_terminates",
    "C47_get_vertex_IDs"
   ],
   "note": "For every sequence of random numbers (an arbitrary function). The scalar type of the random numbers is abstract: a strict weak order, positive values."
  },
  {
   "property": "C54",
   "status": "proved",
   "theorems": [
    "C54_k_truss2"
   ],
   "note": ""
  },
  {
   "property": "C63",
   "status": "proved",
   "theorems": [
    "C63_k_truss"
   ],
   "note": "The matrix R of counts is shown to stay equal to E*A while edges are removed."
  },
  {
   "property": "C64",
   "status": "partial",
   "theorems": [
    "C64_k_truss2_two_partial",
    "C64_k_truss2_two_refuted",
    "C64_k_truss_no_edges_refuted"
   ],
   "note": "The property fails; the partial theorem says what k_truss2 returns for k = 2 (the 3-truss)."
  },
  {
   "property": "C37",
   "status": "proved",
   "theorems": [
    "C37_opt_mxm_product",
    "C37_opt_mxm_shapes",
    "C37_opt_mxm_agrees",
    "C37_opt_ABT_exact",
    "C37_opt_ABT_stale_refuted",
    "C37_opt_ATBT_cast_refuted",
    "C37_opt_alias_accum_refuted"
   ],
   "note": "Agreement proved for all kernels, transposes, masks, accumulators, output modes and aliasing patterns, under conditions that exclude exactly the three refuted cases and lossy accumulator conversions. Without them the platforms differ (refuted), as the statement says."
  },
  {
   "property": "C65",
   "status": "proved",
   "theorems": [
    "C65_mst",
    "C65_mst_disconnected",
    "C65_mst_shapes"
   ],
   "note": "weights are unbounded integers"
  },
  {
   "property": "C66",
   "status": "proved",
   "theorems": [
    "C66_ford_fulkerson_feasible",
    "C66_ford_fulkerson_max",
    "C66_ford_fulkerson_unit"
   ],
   "note": "capacities are unbounded integers"
  },
  {
   "property": "C67",
   "status": "partial",
   "theorems": [
    "C67_ford_fulkerson_max_refuted",
    "C66_ford_fulkerson_max"
   ],
   "note": "Refuted: a network of 22 vertices and 47 edges needs 50 augmentations, the code stops after 47 and returns 47 instead of 50. What holds is C66."
  },
  {
   "property": "C68",
   "status": "proved",
   "theorems": [
    "C68_sssp_delta_step",
    "C68_sssp_delta_step_ends"
   ],
   "note": "weights are unbounded integers"
  },
  {
   "property": "C69",
   "status": "partial",
   "theorems": [
    "C69_sssp_delta_step_zero_refuted",
    "C68_sssp_delta_step"
   ],
   "note": "Refuted: with a zero weight edge from the source the vertices behind it are not reached. What holds is C68."
  },
  {
   "property": "C70",
   "status": "proved",
   "theorems": [
    "C70_page_rank",
    "C70_ranks_sum_to_one",
    "C70_page_rank_converges",
    "C70_accuracy",
    "C70_dimension_exception"
   ],
   "note": "real numbers are rationals: no rounding"
  },
  {
   "property": "C71",
   "status": "partial",
   "theorems": [
    "C71_page_rank_source_refuted",
    "C70_page_rank"
   ],
   "note": "Refuted: on the path 0->1->2 with the default damping and threshold the rank of vertex 1 grows by 1/20 per iteration without bound. What holds is C70."
  },
  {
   "property": "C72",
   "status": "partial",
   "theorems": [
    "C72_page_rank_bool_refuted",
    "C70_page_rank"
   ],
   "note": "Refuted: the number of vertices is cast to bool, so the ranks of the cycle of two vertices tend to 1 each. C70 holds for scalar types that represent the number of vertices."
  },
  {
   "property": "C73",
   "status": "proved",
   "theorems": [
    "C73_push_relabel_max"
   ],
   "note": "capacities are integers without overflow"
  },
  {
   "property": "C74",
   "status": "partial",
   "theorems": [
    "C74_push_relabel_defined_refuted",
    "C73_push_relabel_max"
   ],
   "note": "Refuted: in a network of one vertex num_nodes - 2 wraps around and list[0] of an empty list is read. For source different from sink C73 shows that the behaviour is defined."
  },
  {
   "property": "C75",
   "status": "partial",
   "theorems": [
    "C75_push_relabel_range_refuted",
    "C73_push_relabel_max"
   ],
   "note": "Refuted: with a largest value of 127 and two edges of capacity 100 out of the source, the first one into a dead end, the result is 27 instead of 100. What holds is C73."
  },
  {
   "property": "C76",
   "status": "proved",
   "theorems": [
    "C76_betweenness_batch"
   ],
   "note": "path counts and real numbers are exact (int32 path counts: C118, C119; rounding is not modelled)"
  },
  {
   "property": "C77",
   "status": "proved",
   "theorems": [
    "C77_betweenness_vertex"
   ],
   "note": "real numbers are exact rationals"
  },
  {
   "property": "C78",
   "status": "partial",
   "theorems": [
    "C78_betweenness_v2_shallow",
    "C78_betweenness_v2_refuted"
   ],
   "note": "Proved when no shortest path from a source has more than ten edges. Refuted on a path of 12 edges: the traversal stops after ten levels (as its comment says)."
  },
  {
   "property": "C79",
   "status": "partial",
   "theorems": [
    "C79_betweenness_integer_refuted",
    "C77_betweenness_vertex"
   ],
   "note": "Refuted: MultiplicativeInverse truncates 1/2 to 0, so on 0->{1,2}->3->4 the result is [0,0,0,2,0] instead of [0,1,1,3,0]."
  },
  {
   "property": "C80",
   "status": "partial",
   "theorems": [
    "C80_edge_betweenness",
    "C80_edge_betweenness_loop_refuted"
   ],
   "note": "Proved for graphs without self loops and any scalar type with exact division of multiples. Refuted with a self loop: the root is then found again on level one and its number of paths becomes 2."
  },
  {
   "property": "C81",
   "status": "proved",
   "theorems": [
    "C81_betweenness_errors"
   ],
   "note": ""
  },
  {
   "property": "C82",
   "status": "proved",
   "theorems": [
    "C82_appendix_bfs_level",
    "C82_appendix_bfs_parent"
   ],
   "note": ""
  },
  {
   "property": "C83",
   "status": "partial",
   "theorems": [
    "C83_appendix_levels_refuted",
    "C83_appendix_levels_terminate_refuted",
    "C82_appendix_bfs_level"
   ],
   "note": "Refuted: what the output holds on entry counts as visited and stops the search; with a stored value that counts as false the loop may never end. Proved for an empty output and stored values that count as true (C82)."
  },
  {
   "property": "C84",
   "status": "proved",
   "theorems": [
    "C84_appendix_bc_source"
   ],
   "note": ""
  },
  {
   "property": "C85",
   "status": "partial",
   "theorems": [
    "C85_appendix_bc_accumulates_refuted",
    "C84_appendix_bc_source"
   ],
   "note": "Refuted: the values already in the vector enter the dependencies, so a second call on the path 0->1->2->3 adds 3 instead of 2 at vertex 1. Proved for a vector of zeros (C84)."
  },
  {
   "property": "C86",
   "status": "partial",
   "theorems": [
    "C86_appendix_bc_batch_partial",
    "C86_appendix_bc_batch_throws",
    "C86_appendix_bc_batch_refuted"
   ],
   "note": "Proved when there are as many sources as vertices or no source has an edge to another vertex. Refuted otherwise: it throws DimensionException, because the level matrices are created with rows and columns exchanged."
  },
  {
   "property": "C87",
   "status": "proved",
   "theorems": [
    "C87_appendix_mis"
   ],
   "note": ""
  },
  {
   "property": "C88",
   "status": "proved",
   "theorems": [
    "C88_appendix_triangle_count"
   ],
   "note": ""
  },
  {
   "property": "C89",
   "status": "proved",
   "theorems": [
    "C89_peer_pressure",
    "C89_peer_pressure_v2",
    "C89_peer_pressure_start",
    "C89_peer_pressure_dimensions"
   ],
   "note": "real numbers are rationals; the initial clusters store no false; for the second version the conversion of the graph's values to real numbers and back must not change them"
  },
  {
   "property": "C90",
   "status": "proved",
   "theorems": [
    "C90_peer_pressure_one_cluster",
    "C90_peer_pressure_all_vertices"
   ],
   "note": ""
  },
  {
   "property": "C91",
   "status": "partial",
   "theorems": [
    "C91_peer_pressure_no_votes",
    "C91_peer_pressure_all_vertices_refuted",
    "C91_peer_pressure_converges_refuted"
   ],
   "note": "the code violates the property: two vertices joined by an edge in each direction exchange their clusters in every round, for every number of iterations; a vertex that no edge enters loses its cluster"
  },
  {
   "property": "C92",
   "status": "proved",
   "theorems": [
    "C92_markov",
    "C92_markov_columns",
    "C92_markov_loops",
    "C92_markov_dimensions"
   ],
   "note": "real numbers are rationals, so that no product underflows to 0"
  },
  {
   "property": "C93",
   "status": "partial",
   "theorems": [
    "C93_markov_expansion_closed",
    "C93_markov_expansion_refuted"
   ],
   "note": "proved for e = 2 and the first iteration on transitive graphs; the code violates it otherwise: the product is masked by the matrix itself, so that paths of two edges between vertices that are not adjacent are lost"
  },
  {
   "property": "C94",
   "status": "proved",
   "theorems": [
    "C94_cluster_assignments",
    "C94_cluster_assignments_v2",
    "C94_cluster_assignments_peer_pressure"
   ],
   "note": ""
  },
  {
   "property": "C95",
   "status": "partial",
   "theorems": [
    "C94_cluster_assignments",
    "C95_cluster_assignments_wide_refuted",
    "C95_cluster_assignments_negative_refuted",
    "C95_cluster_assignments_v2_refuted"
   ],
   "note": "the code violates the property for more columns than rows (access beyond the end of an array), for maximal values of -1 and below, and in the second version for columns with several values"
  },
  {
   "property": "C96",
   "status": "proved",
   "theorems": [
    "C96_louvain_local_optimum",
    "C96_louvain_masked_local_optimum",
    "C96_louvain_ends"
   ],
   "note": "The modularity is defined in SpecLouvain.v from the weights alone. Rational arithmetic; the random numbers are an arbitrary function. Deviations are in C98."
  },
  {
   "property": "C97",
   "status": "proved",
   "theorems": [
    "C97_louvain_partition",
    "C97_louvain_masked_partition",
    "C97_louvain_dimensions"
   ],
   "note": "For all weights, also negative, and directed graphs. The result None of the model is a loop for breaking ties that has not ended within the fuel."
  },
  {
   "property": "C98",
   "status": "partial",
   "theorems": [
    "C98_louvain_max_iters_refuted",
    "C98_louvain_self_loop_hangs_refuted",
    "C98_louvain_self_loops_refuted",
    "C98_louvain_bool_refuted"
   ],
   "note": "Refuted by four counterexamples; what holds is C96."
  },
  {
   "property": "C99",
   "status": "proved",
   "theorems": [
    "C99_louvain_assignments",
    "C99_louvain_assignments_result",
    "C99_louvain_assignments_dimensions"
   ],
   "note": ""
  },
  {
   "property": "C100",
   "status": "proved",
   "theorems": [
    "C100_identity",
    "C100_additive_inverse",
    "C100_abs",
    "C100_logical_not",
    "C100_bitwise_not",
    "C100_multiplicative_inverse"
   ],
   "note": "for all integer types; the exceptions are refuted in C101"
  },
  {
   "property": "C101",
   "status": "partial",
   "theorems": [
    "C101_abs_refuted",
    "C101_bool_refuted",
    "C101_division_refuted",
    "C101_mixed_signs_refuted"
   ],
   "note": "false as stated: counterexamples proved; C100, C102-C104 prove what holds"
  },
  {
   "property": "C102",
   "status": "proved",
   "theorems": [
    "C102_bitwise_bits",
    "C102_bitwise_xnor",
    "C102_bitwise_monoids"
   ],
   "note": "bit level specification and monoid laws"
  },
  {
   "property": "C103",
   "status": "proved",
   "theorems": [
    "C103_comparisons",
    "C103_same_type"
   ],
   "note": "for all pairs of types with compatible values"
  },
  {
   "property": "C104",
   "status": "proved",
   "theorems": [
    "C104_division",
    "C104_division_inverse",
    "C104_mixed_domains",
    "C104_mixed_domains_common",
    "C104_same_domains",
    "C104_add_monoid"
   ],
   "note": ""
  },
  {
   "property": "C105",
   "status": "proved",
   "theorems": [
    "C105_min_max_monoids",
    "C105_min_max_values"
   ],
   "note": "IEEE 754 values of the standard library (SpecFloat)"
  },
  {
   "property": "C106",
   "status": "proved",
   "theorems": [
    "C106_plus_times_commute",
    "C106_closed",
    "C106_plus_finite",
    "C106_identities",
    "C106_additive_inverse",
    "C106_abs"
   ],
   "note": ""
  },
  {
   "property": "C107",
   "status": "proved",
   "theorems": [
    "C107_exact_integers",
    "C107_exact_comparisons"
   ],
   "note": ""
  },
  {
   "property": "C108",
   "status": "partial",
   "theorems": [
    "C108_associativity_refuted",
    "C108_semiring_refuted",
    "C108_nan_refuted",
    "C108_inverse_refuted"
   ],
   "note": "false as stated: counterexamples proved; C105-C107 and C109 prove what holds"
  },
  {
   "property": "C109",
   "status": "proved",
   "theorems": [
    "C109_min_max_semirings",
    "C109_plus_distributes",
    "C109_times_distributes",
    "C109_infinity_annihilates"
   ],
   "note": "monotonicity of rounding is proved in ProofRound.v in integer arithmetic"
  },
  {
   "property": "C110",
   "status": "proved",
   "theorems": [
    "C110_sssp",
    "C110_batch_sssp",
    "C110_filtered_sssp",
    "C110_filtered_sssp_positive"
   ],
   "note": "rounded lengths are defined by rwalk in SpecFpaths.v"
  },
  {
   "property": "C111",
   "status": "proved",
   "theorems": [
    "C111_sssp_integers"
   ],
   "note": ""
  },
  {
   "property": "C112",
   "status": "partial",
   "theorems": [
    "C112_negative_cycle_missed_refuted",
    "C112_no_negative_cycle_refuted"
   ],
   "note": "false as stated: counterexamples proved in both directions; C110 says what the flag means and C111 when the statement holds"
  },
  {
   "property": "C113",
   "status": "proved",
   "theorems": [
    "C113_mxm",
    "C113_mxv_vxm",
    "C113_eWise_matrix",
    "C113_eWise_vector",
    "C113_apply_reduce",
    "C113_reduce_scalar",
    "C113_transpose_extract",
    "C113_assign"
   ],
   "note": ""
  },
  {
   "property": "C114",
   "status": "proved",
   "theorems": [
    "C114_mxm_modular",
    "C114_mxv_vxm_modular",
    "C114_reduce_modular"
   ],
   "note": "calls without mask and accumulator"
  },
  {
   "property": "C115",
   "status": "proved",
   "theorems": [
    "C115_mxm_exact",
    "C115_mxv_vxm_exact",
    "C115_reduce_exact"
   ],
   "note": "calls without mask and accumulator"
  },
  {
   "property": "C116",
   "status": "proved",
   "theorems": [
    "C116_sssp_exact"
   ],
   "note": ""
  },
  {
   "property": "C117",
   "status": "partial",
   "theorems": [
    "C117_sssp_wraps_refuted",
    "C117_sssp_overflow_refuted",
    "C117_mxm_uint16_refuted"
   ],
   "note": "false as stated: counterexamples proved; C114, C115 and C116 say when the results are right"
  },
  {
   "property": "C118",
   "status": "proved",
   "theorems": [
    "C118_betweenness_int32"
   ],
   "note": ""
  },
  {
   "property": "C119",
   "status": "partial",
   "theorems": [
    "C119_betweenness_int32_overflow_refuted"
   ],
   "note": "false as stated: counterexample proved; C118 says when the results are right"
  },
  {
   "property": "C120",
   "status": "proved",
   "theorems": [
    "C120_add_commutative",
    "C120_add_associative",
    "C120_mult_commutative",
    "C120_mult_associative",
    "C120_mult_distributes",
    "C120_transpose_add",
    "C120_transpose_mult",
    "C120_apply_apply",
    "C120_apply_transpose",
    "C120_vector_add_commutative",
    "C120_vector_add_associative",
    "C120_vector_mult_commutative",
    "C120_vector_mult_associative",
    "C120_vector_mult_distributes",
    "C120_vector_apply_apply"
   ],
   "note": ""
  },
  {
   "property": "C121",
   "status": "proved",
   "theorems": [
    "C121_product_distributes_left",
    "C121_product_distributes_right",
    "C121_product_identity",
    "C121_mxv_of_product",
    "C121_vxm_of_product",
    "C121_mxv_of_sum",
    "C121_vxm_of_sum",
    "C121_mxv_sum_of_matrices",
    "C121_vxm_is_transposed_mxv",
    "C121_row_sums_are_product",
    "C121_row_sums_of_sum"
   ],
   "note": ""
  },
  {
   "property": "C122",
   "status": "proved",
   "theorems": [
    "C122_split_mxm",
    "C122_split_eWiseAdd",
    "C122_split_eWiseMult",
    "C122_split_apply",
    "C122_split_transpose",
    "C122_split_kronecker",
    "C122_split_extract",
    "C122_split_assign",
    "C122_split_mxv",
    "C122_split_vxm",
    "C122_split_vector_eWiseAdd",
    "C122_split_vector_eWiseMult",
    "C122_split_vector_apply",
    "C122_split_reduce",
    "C122_split_vector_extract",
    "C122_split_extract_column",
    "C122_split_vector_assign",
    "C122_split_assign_constant",
    "C122_split_vector_assign_constant"
   ],
   "note": ""
  },
  {
   "property": "C123",
   "status": "proved",
   "theorems": [
    "C123_kronecker_mixed_product",
    "C123_kronecker_transpose",
    "C123_kronecker_associative"
   ],
   "note": ""
  },
  {
   "property": "C124",
   "status": "proved",
   "theorems": [
    "C124_extract_of_extract",
    "C124_extract_of_product"
   ],
   "note": ""
  },
  {
   "property": "C125",
   "status": "proved",
   "theorems": [
    "C125_print_matrix",
    "C125_print_vector",
    "C125_print_labelled",
    "C125_print_matrix_faithful",
    "C125_print_vector_faithful",
    "C125_integers_plain"
   ],
   "note": ""
  },
  {
   "property": "C126",
   "status": "partial",
   "theorems": [
    "C126_print_8_bit_refuted"
   ],
   "note": "false as stated: counterexample proved; C125 covers the wider types"
  },
  {
   "property": "C127",
   "status": "proved",
   "theorems": [
    "C127_triangle_count_exact",
    "C127_triangle_count_masked_exact",
    "C127_triangle_count_newGBTL_exact"
   ],
   "note": ""
  },
  {
   "property": "C128",
   "status": "partial",
   "theorems": [
    "C128_triangle_count_wraps_refuted",
    "C128_triangle_count_bool_refuted"
   ],
   "note": "false as stated: counterexamples proved; C127 gives the range in which the counts are exact"
  },
  {
   "property": "C129",
   "status": "proved",
   "theorems": [
    "C129_batch_sssp",
    "C129_filtered_sssp",
    "C129_apsp"
   ],
   "note": ""
  },
  {
   "property": "C130",
   "status": "proved",
   "theorems": [
    "C130_graph_distance",
    "C130_graph_distance_matrix",
    "C130_vertex_eccentricity",
    "C130_graph_radius",
    "C130_graph_diameter",
    "C130_closeness_centrality"
   ],
   "note": ""
  },
  {
   "property": "C131",
   "status": "proved",
   "theorems": [
    "C131_batch_sssp",
    "C131_filtered_sssp",
    "C131_apsp"
   ],
   "note": ""
  },
  {
   "property": "C132",
   "status": "proved",
   "theorems": [
    "C132_graph_distance",
    "C132_graph_distance_matrix",
    "C132_vertex_eccentricity",
    "C132_graph_radius",
    "C132_graph_diameter",
    "C132_closeness_centrality"
   ],
   "note": ""
  },
  {
   "property": "C133",
   "status": "proved",
   "theorems": [
    "C133_bfs_level",
    "C133_bfs_level_masked",
    "C133_batch_bfs_level",
    "C133_in_range"
   ],
   "note": "ModelLevels makes every conversion between IndexType, unsigned int and the scalar types of the containers explicit."
  },
  {
   "property": "C134",
   "status": "partial",
   "theorems": [
    "C134_narrow_levels_refuted"
   ],
   "note": "Refuted: a level that converts to zero (256 in uint8_t) does not block the complement(levels) mask; on an undirected path of 257 vertices the vertex of level 256 is visited again and ends with level 2, in all five searches.  C133 is what holds."
  },
  {
   "property": "C135",
   "status": "proved",
   "theorems": [
    "C135_mst",
    "C135_mst_wraps",
    "C135_mst_disconnected"
   ],
   "note": "Weights of any sign."
  },
  {
   "property": "C136",
   "status": "proved",
   "theorems": [
    "C136_mst",
    "C136_mst_disconnected",
    "C136_mst_exact"
   ],
   "note": "Infinite and NaN weights are excluded."
  },
  {
   "property": "C137",
   "status": "partial",
   "theorems": [
    "C137_mst_representable_refuted"
   ],
   "note": "Refuted for int32: on the path with weights 2147483647, 1, -5 the sum overflows after the second edge (undefined behaviour), the total is 2147483643.  C135 is what holds."
  },
  {
   "property": "C138",
   "status": "proved",
   "theorems": [
    "C138_row_sums",
    "C138_vector_sum",
    "C138_matrix_sum"
   ],
   "note": "No mask, no accumulator.  Matrix sums: rows first, then their sums; the bound holds for any order."
  },
  {
   "property": "C139",
   "status": "proved",
   "theorems": [
    "C139_mxm",
    "C139_mxv_vxm"
   ],
   "note": "No mask, no accumulator."
  },
  {
   "property": "C140",
   "status": "proved",
   "theorems": [
    "C140_mxm_exact",
    "C140_mxv_vxm_exact",
    "C140_reduce_exact"
   ],
   "note": "Counterpart of C115."
  },
  {
   "property": "C141",
   "status": "proved",
   "theorems": [
    "C141_sssp",
    "C141_batch_sssp",
    "C141_filtered_sssp"
   ],
   "note": "Relative accuracy: C110 (least rounded length) combined with the error bound of C138."
  },
  {
   "property": "C142",
   "status": "proved",
   "theorems": [
    "C142_integers",
    "C142_floating_point"
   ],
   "note": "Relational refinement of the delta stepping of C68 over the machine types."
  },
  {
   "property": "C143",
   "status": "partial",
   "theorems": [
    "C143_undefined_refuted",
    "C143_endless_refuted"
   ],
   "note": "Refuted: over int with a single edge of weight 2^30 and delta 2^30 the bound (i+1)*delta overflows (undefined); over unsigned char with weight and delta 128 the bound i*delta wraps to 0 for every even i and the loop never ends.  C142 proves the property when (N-1)W + delta is a value of the type."
  },
  {
   "property": "C144",
   "status": "proved",
   "theorems": [
    "C144_feasible_integers",
    "C144_max_integers",
    "C144_floating_point"
   ],
   "note": "Every matrix of the run is related to that of the run over Z: exactly, or modulo 2^bits for the types that wrap; residual capacities stay within [0, c(u,v)+c(v,u)]."
  },
  {
   "property": "C145",
   "status": "partial",
   "theorems": [
    "C145_undefined_refuted",
    "C145_lost_edge_refuted"
   ],
   "note": "Refuted: over int two opposite edges of capacity 2^30 make the residual capacity overflow (undefined); over unsigned char two opposite edges of capacity 128 make it 256, stored as 0, so that the edge disappears and 128 is returned instead of 228.  C144 proves the property when c(u,v)+c(v,u) is a value of the type."
  },
  {
   "property": "C146",
   "status": "proved",
   "theorems": [
    "C146_integer_to_float",
    "C146_float_to_integer",
    "C146_to_bool",
    "C146_float_to_double",
    "C146_double_to_float",
    "C146_there_and_back"
   ],
   "note": "Rounding is stated with the rational numbers the values stand for."
  },
  {
   "property": "C147",
   "status": "proved",
   "theorems": [
    "C147_comparisons",
    "C147_arithmetic",
    "C147_min_max",
    "C147_logical",
    "C147_integer_operators",
    "C147_float_operators"
   ],
   "note": ""
  },
  {
   "property": "C148",
   "status": "partial",
   "theorems": [
    "C148_equality_refuted",
    "C148_result_refuted"
   ],
   "note": "Refuted: 2^53+1 as int64_t equals 2^53 as double, which equals 2^53 as int64_t; 16777217 + 0.0f is 16777216; Min of INT_MAX and an infinite float is undefined as int; INT64_MAX converted to double and back is undefined; Times<uint64_t,float>()(1,-1.1f), which the library's tests call, is undefined.  C147 proves the property for integers up to 2^24 or 2^53."
  },
  {
   "property": "C149",
   "status": "proved",
   "theorems": [
    "C149_matrix",
    "C149_vector",
    "C149_there_and_back"
   ],
   "note": ""
  },
  {
   "property": "C150",
   "status": "proved",
   "theorems": [
    "C150_programs",
    "C150_single_call",
    "C150_observed"
   ],
   "note": ""
  },
  {
   "property": "C151",
   "status": "proved",
   "theorems": [
    "C151_operators",
    "C151_flags",
    "C151_programs"
   ],
   "note": "A scalar is a flag or a number, so that masks of bool elements occur in the programs."
  },
  {
   "property": "C152",
   "status": "proved",
   "theorems": [
    "C152_operators",
    "C152_programs"
   ],
   "note": "The outcome of an overflow is an element UB; C++ leaves the whole run undefined then."
  },
  {
   "property": "C153",
   "status": "proved",
   "theorems": [
    "C153_quotient",
    "C153_exact",
    "C153_by_one_and_self",
    "C153_integers",
    "C153_special",
    "C153_inverse",
    "C153_mixed"
   ],
   "note": "Division is Coq.Floats.SpecFloat's SFdiv, proved here to round correctly."
  },
  {
   "property": "C154",
   "status": "proved",
   "theorems": [
    "C154_operators",
    "C154_programs"
   ],
   "note": "Integers beyond the bound become None in the integer run, and so does everything computed from them."
  },
  {
   "property": "C155",
   "status": "proved",
   "theorems": [
    "C155_relative_error",
    "C155_rows",
    "C155_cols",
    "C155_counts"
   ],
   "note": "normalize_cols on square matrices (C57)."
  },
  {
   "property": "C156",
   "status": "proved",
   "theorems": [
    "C156_page_rank",
    "C156_same_code",
    "C156_dimension_exception"
   ],
   "note": "RealT = double. C156_same_code: over the rationals the generic model is the function of C70."
  },
  {
   "property": "C157",
   "status": "proved",
   "theorems": [
    "C157_betweenness_float",
    "C157_same_code"
   ],
   "note": "The code uses float in the first four functions and double in the last; the theorem is for both types in all. C157_same_code: over the rationals the generic model is the functions of C118."
  },
  {
   "property": "C158",
   "status": "proved",
   "theorems": [
    "C158_vertex_betweenness_float"
   ],
   "note": "Path counts are kept in the same floating point type; up to 1/u they are exact."
  },
  {
   "property": "C159",
   "status": "proved",
   "theorems": [
    "C159_edge_betweenness_int",
    "C159_edge_betweenness_float"
   ],
   "note": "Numbers of paths are kept in the scalar type and converted to int32_t once per level."
  },
  {
   "property": "C160",
   "status": "partial",
   "theorems": [
    "C160_edge_betweenness_int32_refuted"
   ],
   "note": "Refuted: in uint64_t, with 2^32 shortest paths between two of 66 vertices, the vertex at the end counts as not reached, and the paths to it are not counted (2505397589 becomes 1431655765).  C159 is the part that holds."
  },
  {
   "property": "C161",
   "status": "proved",
   "theorems": [
    "C161_k_truss2_int",
    "C161_k_truss_int"
   ],
   "note": "k_truss2 for k = 2: see C64; k_truss without edges: see C64."
  },
  {
   "property": "C162",
   "status": "partial",
   "theorems": [
    "C162_k_truss2_bool_refuted",
    "C162_k_truss_bool_refuted",
    "C162_threshold_wraps_refuted"
   ],
   "note": "Refuted: over bool a triangle is returned as a 4-truss (k_truss2) and a single edge as a 3-truss (k_truss, 2 becomes true); over uint8_t the threshold wraps around and a triangle is returned as a 258-truss.  C161 is the part that holds."
  },
  {
   "property": "C163",
   "status": "proved",
   "theorems": [
    "C163_levels_agree",
    "C163_parents_agree",
    "C163_distances_agree",
    "C163_levels_are_distances",
    "C163_triangles_agree",
    "C163_trusses_agree",
    "C163_flows_agree",
    "C163_betweenness_agrees",
    "C163_dependencies_agree"
   ],
   "note": "Unbounded integers and rationals; for machine types combine with C116, C127, C129, C131, C133, C142, C144, C161."
  },
  {
   "property": "C164",
   "status": "proved",
   "theorems": [
    "C164_bfs_level",
    "C164_sssp",
    "C164_apsp",
    "C164_triangle_count",
    "C164_k_truss2",
    "C164_max_flow",
    "C164_betweenness",
    "C164_mst",
    "C164_mst_disconnected"
   ],
   "note": "Unbounded integers and rationals.  Functions whose result depends on the numbering (parents, independent sets, clusters) are not meant."
  },
  {
   "property": "C165",
   "status": "proved",
   "theorems": [
    "C165_triangle_demo"
   ],
   "note": "int32_t is replaced by the integers (see C127, C128 for the integer types).  Text that is not a number, printing and timing are not modelled."
  },
  {
   "property": "C166",
   "status": "partial",
   "theorems": [
    "C166_triangle_demo_one_direction_refuted",
    "C166_triangle_demo_empty_refuted"
   ],
   "note": "Refuted: with each edge once the counts differ from each other (0, 0, 1, 1, 0 for a triangle); an empty file makes the program use uninitialised variables.  C165 is the positive part."
  },
  {
   "property": "C167",
   "status": "partial",
   "theorems": [
    "C167_louvain_demo_partial",
    "C167_louvain_demo_refuted",
    "C167_louvain_demo_vertex_one_refuted"
   ],
   "note": "Refuted: the loop body is executed once more at the end of the file and subtracts 1 from the vertices of the last line again, so that one element is stored which is not in the file; if the last line names vertex 1 the index wraps around, the matrix has no rows and build throws.  The partial theorem says exactly what is stored otherwise."
  },
  {
   "property": "C168",
   "status": "proved",
   "theorems": [
    "C168_k_truss_demo",
    "C168_k_truss2_of_truss"
   ],
   "note": "Unbounded integers.  The data in the source text of the demo is an argument of the model."
  },
  {
   "property": "C169",
   "status": "proved",
   "theorems": [
    "C169_peer_pressure",
    "C169_peer_pressure_v2",
    "C169_peer_pressure_start",
    "C169_one_winner",
    "C169_v2_integers",
    "C169_same_code",
    "C169_dimensions"
   ],
   "note": "RealT = double, the default.  max_iters is a natural number (unsigned in the code).  For the second version the conversion of a weight to double and back must not change it."
  },
  {
   "property": "C170",
   "status": "partial",
   "theorems": [
    "C170_clear_winners_partial",
    "C170_peer_pressure_refuted"
   ],
   "note": "Refuted: six votes of 1/6 add up to less than 1, so that exact ties are broken wrongly; an undirected graph of 8 vertices with equal weights gets two clusters instead of one.  Proved: the clusters are the same when every winner leads by more than 4 N + 4 roundings, a relative lead of about (4 N + 4) 2^-53."
  },
  {
   "property": "C171",
   "status": "proved",
   "theorems": [
    "C171_louvain_double_nearly_best",
    "C171_louvain_masked_double_nearly_best",
    "C171_louvain_double_ends",
    "C171_louvain_double_partition",
    "C171_louvain_double_dimensions"
   ],
   "note": "RealT = double, the default.  The weights may have any type; adding a weight to itself must be exact and not zero, which excludes bool (C98).  The random numbers are a parameter, as in C96."
  },
  {
   "property": "C172",
   "status": "partial",
   "theorems": [
    "C172_louvain_double_refuted"
   ],
   "note": "Refuted with four vertices and the integer weights 2^54, 3 and 1: the gain of moving vertex 2 is lost in rounding.  What holds instead is C171."
  },
  {
   "property": "C173",
   "status": "proved",
   "theorems": [
    "C173_markov_double_accurate",
    "C173_markov_double_loops",
    "C173_markov_double_dimensions",
    "C173_markov_same_code"
   ],
   "note": "RealT = double, the default.  The weights may have any type; the exact iterates start from the weights as converted to double.  C173_markov_same_code: over the rational numbers the generic function is the one of C92."
  },
  {
   "property": "C174",
   "status": "partial",
   "theorems": [
    "C174_markov_double_refuted",
    "C174_markov_double_nan_refuted"
   ],
   "note": "Refuted: with weights between 1 and 4097 and the default threshold, three columns of the result are empty after 11 iterations, since the loops underflow to 0 and are then hidden by the mask; with loops of weight 2^-540, all elements are NaN after one iteration.  What holds is C173."
  },
  {
   "property": "C175",
   "status": "proved",
   "theorems": [
    "C175_bfs_parents",
    "C175_bfs_wavefront",
    "C175_bfs_batch",
    "C175_values"
   ],
   "note": "The conversions of values the caller left in wavefront or parents are not used by the code; their undefined cases (negative or infinite numbers to IndexType) are not modelled."
  },
  {
   "property": "C176",
   "status": "partial",
   "theorems": [
    "C176_bfs_wavefront_type_refuted",
    "C176_bfs_batch_type_refuted"
   ],
   "note": "Refuted: with a bool wavefront, graph and parents of IndexType, and the single edge 2-3, the search from 2 stores the parent 1 for vertex 3, since the code stores the index 2 in the wavefront.  What holds is C175."
  },
  {
   "property": "C177",
   "status": "proved",
   "theorems": [
    "C177_push_relabel_types"
   ],
   "note": ""
  },
  {
   "property": "C178",
   "status": "partial",
   "theorems": [
    "C178_push_relabel_ends_refuted"
   ],
   "note": "Refuted: with uint8_t or uint16_t, source 0, sink 2 and the single edge 0-1 of capacity 5, the excess of 1 never gets back to 0: the negative flow from 1 to 0 is stored as a large positive number, and its difference from the capacity is computed in int.  The program does not end for any number of steps.  What holds is C177."
  },
  {
   "property": "C179",
   "status": "proved",
   "theorems": [
    "C179_push_relabel_floats"
   ],
   "note": ""
  },
  {
   "property": "C180",
   "status": "partial",
   "theorems": [
    "C180_push_relabel_ends_refuted"
   ],
   "note": "Refuted for float and double: five vertices, source 0, sink 4, edges 0-1 and 1-3 of capacity 0.1, 0-2 and 2-3 of capacity 0.2.  The excess 0.1 + 0.2 of vertex 3 is rounded up; after 0.1 and 0.2 went back a rest is left that no edge can take, and discharge repeats the same states.  The program does not end for any number of steps.  What holds is C179."
  },
  {
   "property": "C181",
   "status": "proved",
   "theorems": [
    "C181_triangle_count_exact",
    "C181_triangle_count_masked_exact",
    "C181_triangle_count_newGBTL_exact"
   ],
   "note": ""
  },
  {
   "property": "C182",
   "status": "proved",
   "theorems": [
    "C182_k_truss2_float",
    "C182_k_truss_float"
   ],
   "note": ""
  },
  {
   "property": "C183",
   "status": "proved",
   "theorems": [
    "C183_bfs_level",
    "C183_sssp",
    "C183_apsp",
    "C183_triangle_count",
    "C183_k_truss2",
    "C183_k_truss2_nested",
    "C183_max_flow",
    "C183_mst"
   ],
   "note": "Unbounded integers; for machine types combine with C116, C127, C129, C135, C161, C177."
  },
  {
   "property": "C184",
   "status": "proved",
   "theorems": [
    "C184_push_relabel",
    "C184_push_relabel_types",
    "C184_push_relabel_floats",
    "C184_ford_fulkerson_unit"
   ],
   "note": ""
  },
  {
   "property": "C185",
   "status": "proved",
   "theorems": [
    "C185_sssp_scaled",
    "C185_apsp_scaled",
    "C185_mst_scaled",
    "C185_max_flow_scaled",
    "C185_apsp_reversed",
    "C185_max_flow_reversed"
   ],
   "note": "Unbounded integers; for machine types combine with C116, C129, C135, C177."
  },
  {
   "property": "C186",
   "status": "proved",
   "theorems": [
    "C186_masked_mxm_homework",
    "C186_bfs_demo",
    "C186_bfs_level_demo",
    "C186_sssp_demo"
   ],
   "note": "Weights are unbounded integers; the graph, in the programs a constant, is an argument."
  },
  {
   "property": "C187",
   "status": "proved",
   "theorems": [
    "C187_bfs_level",
    "C187_sssp",
    "C187_sssp_again",
    "C187_apsp_again"
   ],
   "note": "Weights are unbounded integers; for machine types combine with C116."
  }
 ]
}