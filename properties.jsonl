{"id": "C01", "title": "Every cluster meets the size constraint", "statement": "If scc_sc_clustering returns SCC_ER_OK for a seed method other than SCC_SM_BATCHES, then each of the num_clusters clusters in the returned clustering contains at least size_constraint data points.", "quantifier": "all data sets, all valid options (every seed method, assignment method, radius, primary point set), all distance-search providers that honour the SPI contract, all allocation-failure patterns", "why_tests_cant": "The guarantee depends on an interaction of neighbour search, self-match repair, graph operations, seed selection and assignment over unboundedly many inputs; tests look at a few data sets.", "anchors": ["src/nng_clustering.c:scc_sc_clustering", "src/nng_core.c:iscc_get_nng_with_size_constraint", "src/nng_core.c:iscc_make_nng_clusters_from_seeds", "src/nng_findseeds.c:iscc_find_seeds"]}
{"id": "C02", "title": "Every cluster meets the type constraints", "statement": "If scc_sc_clustering returns SCC_ER_OK with num_types >= 2, then every cluster contains at least type_constraints[t] points of every type t, and at least size_constraint points in total.", "quantifier": "all data sets, type labellings, type constraints with at least one non-zero entry, size constraints, seed methods and radii, all contract-honouring providers", "why_tests_cant": "The type-constrained graph is assembled from a data-dependent number of searches, unions and differences; the combinations cannot be enumerated.", "anchors": ["src/nng_core.c:iscc_get_nng_with_type_constraint", "src/digraph_operations.c:iscc_digraph_difference", "src/nng_clustering.c:scc_sc_clustering"]}
{"id": "C03", "title": "Batch clustering meets the size constraint", "statement": "If scc_sc_clustering with SCC_SM_BATCHES returns SCC_ER_OK, then every cluster contains at least size_constraint points, although provisional members may be moved to clusters created later.", "quantifier": "all data sets, batch sizes, radii, primary point sets and providers honouring the contract", "why_tests_cant": "Points provisionally labelled in one batch can be stolen by a seed in any later batch; the invariant concerns all interleavings of batches and seeds.", "anchors": ["src/nng_batch_clustering.c:iscc_run_nng_batches", "src/nng_batch_clustering.c:scc_nng_clustering_batches"]}
{"id": "C04", "title": "Labels returned by NNG clustering are well formed", "statement": "If scc_sc_clustering (any seed method) returns SCC_ER_OK, then num_clusters >= 1, every data point's label has been written, and each label is either SCC_CLABEL_NA or one of 0..num_clusters-1 (never confused with the NA value).", "quantifier": "all inputs, label buffers with arbitrary initial content, all integer-type configurations", "why_tests_cant": "Absence of an unwritten or out-of-range label is a universal statement over all points of all inputs.", "anchors": ["src/nng_core.c:iscc_assign_seeds_and_neighbors", "src/nng_batch_clustering.c:iscc_run_nng_batches", "src/nng_findseeds.c:iscc_fs_add_seed"]}
{"id": "C05", "title": "The number of clusters is bounded by n / size_constraint", "statement": "A successful scc_sc_clustering produces at most num_data_points / size_constraint clusters.", "quantifier": "all inputs and seed methods", "why_tests_cant": "Needs disjointness of the seeds' neighbourhoods for every input.", "anchors": ["src/nng_clustering.c:iscc_make_clustering_from_nng", "src/nng_findseeds.c:iscc_fs_add_seed"]}
{"id": "C06", "title": "Assign-by-neighbour leaves no point behind", "statement": "With primary_unassigned_method SCC_UM_ANY_NEIGHBOR and no seed radius, every primary data point (every point when no primary set is given) is assigned to a cluster when scc_sc_clustering returns SCC_ER_OK.", "quantifier": "all data sets, seed methods (including batches), size and type constraints, providers honouring the contract; allocations succeed", "why_tests_cant": "Follows from maximality of the seed set, which is a property of the whole run, not of any single example.", "anchors": ["src/nng_core.c:iscc_assign_by_nng", "src/nng_findseeds.c:iscc_findseeds_lexical", "src/nng_findseeds.c:iscc_findseeds_inwards", "src/nng_findseeds.c:iscc_findseeds_exclusion"]}
{"id": "C07", "title": "Closest-point assignment without a radius covers every requested point", "statement": "With SCC_UM_CLOSEST_SEED or SCC_UM_CLOSEST_ASSIGNED and no radius, every primary point is assigned; if in addition the secondary method is one of those two without radius, every point is assigned.", "quantifier": "all inputs, all providers that honour the contract and report success", "why_tests_cant": "Concerns every point and every stage of a multi-stage assignment, including the hand-over of the to-assign buffer between stages.", "anchors": ["src/nng_core.c:iscc_make_nng_clusters_from_seeds", "src/nng_core.c:iscc_assign_by_nn_search"]}
{"id": "C08", "title": "A successful clustering passes the library's own checker", "statement": "When scc_sc_clustering returns SCC_ER_OK and all primary points were to be assigned, scc_check_clustering called with the same options on the result succeeds and reports true.", "quantifier": "all inputs for which assignment is complete", "why_tests_cant": "Relates two independently written pieces of code on every input.", "anchors": ["src/utilities.c:scc_check_clustering", "src/nng_clustering.c:scc_sc_clustering"]}
{"id": "C09", "title": "Ignoring unassigned points gives exact cluster sizes", "statement": "With both unassigned methods SCC_UM_IGNORE and no type constraints, each cluster has exactly size_constraint members and all other points carry SCC_CLABEL_NA (non-batch and batch).", "quantifier": "all inputs, seed methods, radii", "why_tests_cant": "Exactness fails if a single neighbour is counted twice or dropped in any input.", "anchors": ["src/nng_core.c:iscc_assign_seeds_and_neighbors", "src/nng_core.c:iscc_ensure_self_match", "src/nng_batch_clustering.c:iscc_run_nng_batches"]}
{"id": "C10", "title": "Each cluster is built around a seed and its nearest neighbours", "statement": "In a successful untyped non-batch scc_sc_clustering each cluster contains a seed point together with size_constraint-1 other points that are nearest neighbours of the seed: no point outside that group is strictly closer to the seed than a point inside it (the seed aside), and with a seed radius all of them are within the radius.", "quantifier": "all inputs, radii, seed methods, providers honouring the contract", "why_tests_cant": "Nearest-neighbour optimality is a for-all over points of a for-all over data sets.", "anchors": ["src/nng_core.c:iscc_make_nng", "src/nng_core.c:iscc_ensure_self_match", "src/nng_core.c:iscc_assign_seeds_and_neighbors"]}
{"id": "C11", "title": "Seeds are independent and maximal for every seed method", "statement": "For lexical, inwards order, inwards updating, exclusion order and exclusion updating: the chosen seeds all have neighbours, no two seeds share a point in their closed neighbourhoods, and every non-seed vertex with neighbours shares a point with some seed's closed neighbourhood.", "quantifier": "all neighbourhood graphs without self-loops, all orders arising in the bucket-sort updates", "why_tests_cant": "The updating variants permute the visiting order while iterating; that no vertex is skipped or visited twice is an invariant over all executions.", "anchors": ["src/nng_findseeds.c:iscc_findseeds_lexical", "src/nng_findseeds.c:iscc_findseeds_inwards", "src/nng_findseeds.c:iscc_findseeds_exclusion", "src/nng_findseeds.c:iscc_fs_decrease_v_in_sort"]}
{"id": "C12", "title": "Seeds are visited in ascending order of inward arcs", "statement": "The order-based seed methods visit vertices in ascending order of the number of inward pointing arcs, ties broken by index; in the updating variants each next vertex has the fewest remaining inward arcs among all vertices still to be visited.", "quantifier": "all graphs, all sequences of count decrements", "why_tests_cant": "Correctness of the in-place bucket maintenance is an invariant over unboundedly many updates.", "anchors": ["src/nng_findseeds.c:iscc_fs_sort_by_inwards", "src/nng_findseeds.c:iscc_fs_decrease_v_in_sort"]}
{"id": "C13", "title": "Inwards-updating seeds with size two bound the within-cluster distance by two arcs", "statement": "With size_constraint 2, SCC_SM_INWARDS_UPDATING and SCC_UM_ANY_NEIGHBOR, any two points of a common cluster are joined by a path of at most two nearest-neighbour arcs, so their distance is at most twice the largest nearest-neighbour distance (documented claim).", "quantifier": "all nearest-neighbour graphs with out-degree one", "why_tests_cant": "A worst-case guarantee over all graphs.", "anchors": ["templates/scclust.h:SCC_SM_INWARDS_UPDATING", "src/nng_findseeds.c:iscc_findseeds_inwards", "src/nng_core.c:iscc_assign_by_nng"]}
{"id": "C14", "title": "Four-approximation of the bottleneck objective", "statement": "Without primary set or radius, with SCC_UM_ANY_NEIGHBOR, for a metric distance: the largest within-cluster distance produced by scc_sc_clustering is at most four times that of any clustering of all points whose clusters have at least size_constraint members.", "quantifier": "all finite metric data sets, all alternative clusterings, all seed methods", "why_tests_cant": "A worst-case approximation ratio against an unknown optimum cannot be tested.", "anchors": ["src/nng_clustering.c:scc_sc_clustering", "src/nng_core.c:iscc_assign_by_nng"]}
{"id": "C15", "title": "Closest-seed assignment picks a nearest seed within the radius", "statement": "A point assigned through SCC_UM_CLOSEST_SEED ends in the cluster of a seed no farther than any other seed and, when a radius applies, within the radius; a point left unassigned by that stage has no seed within the radius.", "quantifier": "all inputs, radii, providers honouring the contract", "why_tests_cant": "Optimality over all seeds and points.", "anchors": ["src/nng_core.c:iscc_assign_by_nn_search", "src/nng_core.c:iscc_make_nng_clusters_from_seeds"]}
{"id": "C16", "title": "Assignment stages never relabel a point", "statement": "Once a point is labelled as seed, seed neighbour or by an earlier stage, no later assignment stage changes its label; stages only turn SCC_CLABEL_NA into an existing cluster label.", "quantifier": "all inputs and stage combinations", "why_tests_cant": "Monotonicity over all executions.", "anchors": ["src/nng_core.c:iscc_assign_by_nng", "src/nng_core.c:iscc_assign_by_nn_search"]}
{"id": "C17", "title": "The primary radius bounds assignment distance", "statement": "When primary_radius is SCC_RM_USE_SUPPLIED, no primary point outside the seed neighbourhoods is assigned to a cluster through a point farther away than primary_supplied_radius.", "quantifier": "all inputs and assignment methods", "why_tests_cant": "Depends on which internal shortcut serves the request; the shortcut uses a graph built with a different radius.", "anchors": ["src/nng_core.c:iscc_make_nng_clusters_from_seeds", "src/nng_clustering.c:iscc_make_clustering_from_nng"]}
{"id": "C18", "title": "Hierarchical clustering from scratch yields clusters of size k to 2k-1 covering all points", "statement": "If scc_hierarchical_clustering succeeds on a clustering without clusters, and no point has 2*size_constraint or more points at computed distance zero (itself included), then every point gets a label in 0..num_clusters-1 and every cluster has between size_constraint and 2*size_constraint-1 members.", "quantifier": "all data sets (subject to the stated duplicate bound), size constraints, batch_assign flags, qsort implementations, providers honouring the contract, label buffers with arbitrary content", "why_tests_cant": "Induction over the split tree of arbitrary depth.", "anchors": ["src/hierarchical_clustering.c:scc_hierarchical_clustering", "src/hierarchical_clustering.c:iscc_hi_break_cluster_into_two"]}
{"id": "C19", "title": "Hierarchical clustering labels every point whatever the data", "statement": "scc_hierarchical_clustering that returns SCC_ER_OK on a fresh clustering has assigned every data point to a cluster with at least size_constraint members, including when many points coincide.", "quantifier": "all data sets including ones with coinciding points", "why_tests_cant": "Duplicate-heavy inputs of every multiplicity would have to be tried.", "anchors": ["src/hierarchical_clustering.c:iscc_hi_find_centers", "src/hierarchical_clustering.c:iscc_hi_break_cluster_into_two"]}
{"id": "C20", "title": "Hierarchical refinement is nested", "statement": "When scc_hierarchical_clustering refines an existing clustering and succeeds, every new cluster is a subset of one old cluster, points labelled SCC_CLABEL_NA stay so, old clusters smaller than 2*size_constraint survive intact, and every new cluster that results from a split has size_constraint to 2*size_constraint-1 members.", "quantifier": "all existing clusterings whose first cluster is not larger than every other one, all data sets without excessive duplicates", "why_tests_cant": "Universal over old clusterings and split sequences.", "anchors": ["src/hierarchical_clustering.c:iscc_hi_init_cl_stack", "src/hierarchical_clustering.c:iscc_hi_run_hierarchical_clustering"]}
{"id": "C21", "title": "Hierarchical refinement stays inside its work buffers", "statement": "scc_hierarchical_clustering never accesses memory outside its buffers when given a valid data set and a valid existing clustering.", "quantifier": "all valid existing clusterings", "why_tests_cant": "A heap overflow need not crash a test; the existing tests do not have the first cluster as largest.", "anchors": ["src/hierarchical_clustering.c:iscc_hi_init_cl_stack", "src/hierarchical_clustering.c:iscc_hi_populate_edge_lists"]}
{"id": "C22", "title": "Hierarchical clustering terminates and is memory safe from scratch", "statement": "For a valid data set and a fresh clustering with size_constraint below 2^31, scc_hierarchical_clustering terminates without undefined behaviour.", "quantifier": "all data sets, size constraints, marker widths, stack capacities, allocation-failure patterns", "why_tests_cant": "Termination and absence of out-of-bounds access for all inputs.", "anchors": ["src/hierarchical_clustering.c"]}
{"id": "C23", "title": "scc_check_clustering decides the documented predicate", "statement": "scc_check_clustering with valid arguments writes true exactly when every label is SCC_CLABEL_NA or in range, every cluster has at least size_constraint members, every type constraint holds in every cluster, and no primary point is unassigned.", "quantifier": "all label arrays and options", "why_tests_cant": "An if-and-only-if over unboundedly large label arrays.", "anchors": ["src/utilities.c:scc_check_clustering"]}
{"id": "C24", "title": "Clustering statistics count correctly", "statement": "scc_get_clustering_stats reports the exact number of data points, assigned points, clusters, populated clusters and the minimum and maximum size over populated clusters.", "quantifier": "all clusterings with in-range labels, all data sets", "why_tests_cant": "Exact counting over arbitrary label arrays.", "anchors": ["src/utilities.c:scc_get_clustering_stats"]}
{"id": "C25", "title": "Clustering statistics report true distance extremes", "statement": "For a clustering in which every populated cluster has at least two members, min_dist and max_dist equal the smallest and largest distance between two points of a common cluster; a singleton cluster makes min_dist zero.", "quantifier": "all clusterings and distance functions with finite, symmetric distances", "why_tests_cant": "Extremum over all pairs of all clusters.", "anchors": ["src/utilities.c:scc_get_clustering_stats"]}
{"id": "C26", "title": "Option validation accepts exactly the documented option sets", "statement": "The option check used by scc_sc_clustering and scc_check_clustering succeeds exactly when the options satisfy a written-out list of requirements (version; size constraint between 2 and the number of points; type constraints and labels present exactly for two or more types; known methods; sorted primary points; positive supplied radii; the restrictions for SCC_SM_BATCHES), and otherwise returns and records an error; in particular default options are rejected until size_constraint is set.", "quantifier": "all option structures", "why_tests_cant": "An exact characterisation over a large product of fields.", "anchors": ["src/utilities.c:iscc_check_cluster_options", "src/utilities.c:scc_get_default_options"]}
{"id": "C27", "title": "Built-in nearest-neighbour search is exact", "statement": "The default search returns for every successful query the k nearest search points in ascending order of squared distance with ties in search order, never repeats an index, reports a query as successful exactly when at least k search points lie within the radius, and keeps the query order.", "quantifier": "all finite IEEE-double data matrices, search sets, query sets, k and radii", "why_tests_cant": "Correctness of the online insertion sort for every sequence of distances.", "anchors": ["src/dist_search_imp.c:iscc_imp_nearest_neighbor_search", "src/dist_search_imp.c:iscc_add_dist_to_list"]}
{"id": "C28", "title": "Built-in farthest-point search is exact", "statement": "The default maximum-distance search returns for each query a search point at maximal distance, the first such in search order, and that distance.", "quantifier": "all finite IEEE-double data matrices, search and query sets", "why_tests_cant": "Maximum over arbitrary sets.", "anchors": ["src/dist_search_imp.c:iscc_imp_get_max_dist"]}
{"id": "C29", "title": "Built-in distances are symmetric, non-negative and zero on the diagonal", "statement": "For finite coordinates the computed squared distance is never NaN, is symmetric bit for bit, is non-negative and is zero from a point to itself; the distance matrix lists pairs i<j in row order and agrees with the row-wise function.", "quantifier": "all finite IEEE-double matrices and index lists", "why_tests_cant": "Floating-point identities over all doubles.", "anchors": ["src/dist_search_imp.c:iscc_get_sq_dist", "src/dist_search_imp.c:iscc_imp_get_dist_matrix", "src/dist_search_imp.c:iscc_imp_get_dist_rows"]}
{"id": "C30", "title": "Neighbourhood-graph algebra is correct", "statement": "Loop deletion, union with tail selection, difference with out-degree cap, transpose and adjacency product of graphs compute, in stable order and without duplicates, exactly the arcs their documentation promises, and return valid graphs with exactly fitting arc storage.", "quantifier": "all valid graphs, all tail selections", "why_tests_cant": "Set equality of arcs over all graphs; the two-pass allocate/write scheme must agree with itself on every input.", "anchors": ["src/digraph_operations.c", "src/digraph_core.c"]}
{"id": "C31", "title": "The conservative second attempt equals the generous first attempt", "statement": "Union and adjacency product give the same graph and OK result when the first large allocation fails and the exact-size retry succeeds, and the earlier allocation error is no longer the latest error.", "quantifier": "all graphs, all allocation-failure patterns", "why_tests_cant": "Needs failure injection at each allocation for all inputs.", "anchors": ["src/digraph_operations.c:iscc_digraph_union_and_delete", "src/digraph_operations.c:iscc_adjacency_product", "src/error.c:iscc_reset_error"]}
{"id": "C32", "title": "NNG clustering is memory safe on valid input when allocations succeed", "statement": "With documented preconditions met and no failing allocation, scc_sc_clustering performs no out-of-bounds access, no read of uninitialised memory, no NULL dereference and no double free, for every seed method, unless all type constraints are zero.", "quantifier": "all valid inputs, all provider outcomes including failure", "why_tests_cant": "Absence of undefined behaviour cannot be shown by running.", "anchors": ["src/nng_clustering.c", "src/nng_core.c", "src/nng_findseeds.c", "src/nng_batch_clustering.c"]}
{"id": "C33", "title": "Typed clustering with all-zero type constraints is handled", "statement": "Options that pass validation never lead scc_sc_clustering to read uninitialised memory, in particular when num_types >= 2 and every type constraint is zero.", "quantifier": "all accepted options", "why_tests_cant": "Reading an uninitialised struct may go unnoticed in a run.", "anchors": ["src/nng_core.c:iscc_get_nng_with_type_constraint", "src/digraph_operations.c:iscc_digraph_union_and_delete"]}
{"id": "C34", "title": "Out-of-memory is reported, never ignored", "statement": "If any memory allocation inside scc_sc_clustering fails and is not compensated by a retry, the call returns SCC_ER_NO_MEMORY (or another error) and does not dereference NULL or report success.", "quantifier": "all allocation-failure patterns", "why_tests_cant": "Failure injection at every allocation point of every input.", "anchors": ["src/nng_core.c:iscc_assign_by_nng", "src/nng_core.c:iscc_assign_by_nn_search", "src/nng_findseeds.c:iscc_findseeds_exclusion", "src/nng_batch_clustering.c:scc_nng_clustering_batches"]}
{"id": "C35", "title": "No memory is leaked or freed twice", "statement": "After scc_sc_clustering or scc_hierarchical_clustering returns, with any error code and after any allocation or search failure, the blocks still allocated are those from before plus at most the label array owned by the clustering.", "quantifier": "all inputs, all allocation- and provider-failure patterns", "why_tests_cant": "Every error path of every failure combination.", "anchors": ["src/nng_core.c", "src/nng_findseeds.c:iscc_findseeds_exclusion", "src/nng_batch_clustering.c", "src/hierarchical_clustering.c"]}
{"id": "C36", "title": "Search failures are reported", "statement": "If a distance-search call fails during scc_sc_clustering, the call does not return SCC_ER_OK.", "quantifier": "all failure points of the provider", "why_tests_cant": "A failure must be injected at each call in each configuration.", "anchors": ["src/nng_core.c:iscc_make_nng_clusters_from_seeds", "src/nng_core.c:iscc_assign_by_nn_search"]}
{"id": "C37", "title": "A failed call leaves the clustering usable", "statement": "If scc_sc_clustering or scc_hierarchical_clustering returns an error, the clustering still has the number of clusters and labels it had before the call.", "quantifier": "all failure points", "why_tests_cant": "Needs every failure point of every input.", "anchors": ["src/nng_core.c:iscc_assign_seeds_and_neighbors", "src/hierarchical_clustering.c:iscc_hi_run_hierarchical_clustering"]}
{"id": "C38", "title": "Invalid arguments are rejected without effect", "statement": "scc_sc_clustering, scc_hierarchical_clustering, scc_check_clustering and scc_get_clustering_stats return an error and change neither clustering nor memory when given an uninitialised clustering, an invalid data set, mismatching sizes or invalid options.", "quantifier": "all invalid argument combinations listed", "why_tests_cant": "Many combinations of invalid fields.", "anchors": ["src/nng_clustering.c:scc_sc_clustering", "src/hierarchical_clustering.c:scc_hierarchical_clustering", "src/utilities.c"]}
{"id": "C39", "title": "Batch results do not depend on the batch size", "statement": "With a deterministic search provider, two successful SCC_SM_BATCHES runs on the same data that differ only in batch_size produce identical labels and cluster counts.", "quantifier": "all data sets, all pairs of batch sizes, with and without radius, with and without primary points", "why_tests_cant": "All pairs of batch sizes on all data sets.", "anchors": ["src/nng_batch_clustering.c:iscc_run_nng_batches"]}
{"id": "C40", "title": "Batch buffers are large enough", "statement": "The neighbour buffer allocated for SCC_SM_BATCHES holds size_constraint times batch_size indices.", "quantifier": "all accepted size constraints, batch sizes and numbers of points", "why_tests_cant": "The failing products exceed what tests allocate.", "anchors": ["src/nng_batch_clustering.c:scc_nng_clustering_batches"]}
{"id": "C41", "title": "Clustering objects: every call sequence is memory safe", "statement": "For any sequence of init, copy, label retrieval, info and free calls on live handles, no block is freed twice, user-supplied label arrays are never freed, every object's label storage stays valid, and once all objects are freed nothing remains allocated.", "quantifier": "all call histories, all allocation-failure patterns", "why_tests_cant": "All histories.", "anchors": ["src/scclust.c:scc_init_empty_clustering", "src/scclust.c:scc_init_existing_clustering", "src/scclust.c:scc_copy_clustering", "src/scclust.c:scc_free_clustering"]}
{"id": "C42", "title": "A copied clustering is equal and independent", "statement": "scc_copy_clustering produces an object with the same size, cluster count and labels, owning its own storage; later changes to either object do not affect the other.", "quantifier": "all clusterings, all later operations", "why_tests_cant": "Independence is over all later histories.", "anchors": ["src/scclust.c:scc_copy_clustering"]}
{"id": "C43", "title": "Label retrieval is exact and bounded", "statement": "scc_get_cluster_labels writes exactly len_out_label_buffer labels: the labels of the first points, then SCC_CLABEL_NA; it writes nothing else and fails without writing when the clustering has no labels.", "quantifier": "all buffer lengths and clusterings", "why_tests_cant": "All buffer lengths.", "anchors": ["src/scclust.c:scc_get_cluster_labels"]}
{"id": "C44", "title": "Existing labels round-trip", "statement": "scc_init_existing_clustering followed by scc_get_cluster_labels and scc_get_clustering_info returns the supplied labels, number of points and number of clusters, with and without deep copy; a deep copy is unaffected by later writes to the supplied array while a shallow one sees them.", "quantifier": "all label arrays", "why_tests_cant": "All label arrays.", "anchors": ["src/scclust.c:scc_init_existing_clustering", "src/scclust.c:scc_get_cluster_labels"]}
{"id": "C45", "title": "Constructors never hand out a half-built object", "statement": "On any error, scc_init_empty_clustering, scc_init_existing_clustering, scc_copy_clustering and scc_init_data_set leave NULL in the output pointer and allocate nothing; on success the object is initialised.", "quantifier": "all arguments and allocation-failure patterns", "why_tests_cant": "All failing combinations.", "anchors": ["src/scclust.c", "src/data_set.c"]}
{"id": "C46", "title": "Data sets are accepted only with enough data", "statement": "scc_init_data_set succeeds only if the supplied array holds num_data_points * num_dimensions values, so that no later distance computation reads past it.", "quantifier": "all sizes in each integer-type configuration", "why_tests_cant": "The product can exceed 64 bits only for huge values.", "anchors": ["src/data_set.c:scc_init_data_set", "src/dist_search_imp.c:iscc_get_sq_dist"]}
{"id": "C47", "title": "Error reporting returns the latest error", "statement": "scc_get_latest_error returns the default or custom message of the most recent failing call, NUL-terminated and truncated to the buffer, is unaffected by later successful calls, and reports no error initially.", "quantifier": "all call histories, buffer lengths", "why_tests_cant": "All histories.", "anchors": ["src/error.c"]}
{"id": "C48", "title": "Replaced search functions always form a consistent set", "statement": "After any sequence of scc_set_dist_functions and scc_reset_dist_functions calls, the three maximum-distance functions stem from one call (or are all defaults), and so do the three nearest-neighbour functions.", "quantifier": "all call sequences with arbitrary NULL patterns", "why_tests_cant": "All sequences.", "anchors": ["src/scclust_spi.c:scc_set_dist_functions", "src/scclust_spi.c:scc_reset_dist_functions"]}
{"id": "C49", "title": "A rejected function replacement changes nothing", "statement": "When scc_set_dist_functions returns false, the installed functions are unchanged.", "quantifier": "all NULL patterns and prior states", "why_tests_cant": "All NULL patterns.", "anchors": ["src/scclust_spi.c:scc_set_dist_functions"]}
{"id": "C50", "title": "Documented conditions guarantee success", "statement": "If no allocation and no distance search fails, the arguments are acceptable, numbers fit the configured integer types, no estimated radius is used and at least one primary point can be a seed (enough points within the seed radius), scc_sc_clustering returns SCC_ER_OK.", "quantifier": "all inputs, options and providers", "why_tests_cant": "Absence of spurious errors on every input.", "anchors": ["src/nng_clustering.c:scc_sc_clustering", "src/nng_batch_clustering.c:scc_nng_clustering_batches"]}
{"id": "C51", "title": "Error codes of scc_sc_clustering mean what they say", "statement": "If scc_sc_clustering returns an error, the same code is in the error state. With acceptable arguments, SCC_ER_NO_MEMORY implies that an allocation failed, SCC_ER_DIST_SEARCH_ERROR that a distance function or allocation failed, SCC_ER_TOO_LARGE_PROBLEM that a number does not fit its type, and SCC_ER_NO_SOLUTION that no primary point can be a seed or that an estimated radius is not positive; no other code is returned.", "quantifier": "all inputs, options, providers and failure patterns", "why_tests_cant": "All error paths.", "anchors": ["src/nng_clustering.c:scc_sc_clustering", "src/error.c:iscc_make_error__"]}
{"id": "C52", "title": "Clustering statistics sums and averages", "statement": "When some cluster is populated, scc_get_clustering_stats reports as sum_dists the sum, in floating point and cluster by cluster, of the distances between points of a common cluster; avg_cluster_size is num_assigned / num_populated_clusters; avg_min_dist, avg_max_dist and avg_dist_unweighted are the sums over clusters with two or more members of their smallest, largest and mean distance, divided by num_populated_clusters; avg_dist_weighted is the sum of mean distances weighted by cluster size, divided by num_assigned.", "quantifier": "all clusterings with in-range labels, all data sets and distance functions", "why_tests_cant": "Tests compare a few reported numbers to stored values; the formula is to hold for every partition, including singletons and unpopulated clusters, and for every distance function.", "anchors": ["src/utilities.c:scc_get_clustering_stats"]}
{"id": "C53", "title": "Other calls report search failures", "statement": "If a distance-search call fails during scc_hierarchical_clustering or scc_get_clustering_stats, the call returns SCC_ER_DIST_SEARCH_ERROR.", "quantifier": "all inputs, all providers, all failure points", "why_tests_cant": "A failure must be injected at each call the provider gets on each input.", "anchors": ["src/hierarchical_clustering.c:iscc_hi_find_centers", "src/hierarchical_clustering.c:iscc_hi_populate_edge_lists", "src/utilities.c:scc_get_clustering_stats"]}
{"id": "C54", "title": "Other calls report failing allocations", "statement": "If a memory allocation fails during scc_hierarchical_clustering, scc_check_clustering or scc_get_clustering_stats, the call returns SCC_ER_NO_MEMORY, or SCC_ER_DIST_SEARCH_ERROR if the allocation was one of the distance-search functions; it never returns SCC_ER_OK.", "quantifier": "all inputs, all patterns of failing allocations", "why_tests_cant": "Every allocation of every input would have to be made to fail.", "anchors": ["src/hierarchical_clustering.c:scc_hierarchical_clustering", "src/hierarchical_clustering.c:iscc_hi_check_capacity", "src/utilities.c:scc_check_clustering", "src/utilities.c:scc_get_clustering_stats"]}
{"id": "C55", "title": "The clustering is the documented procedure's", "statement": "When scc_sc_clustering returns SCC_ER_OK for a method other than batches and no search fails, its labels are those of the documented procedure for some nearest-neighbour graph meeting size and type constraints within the seed radius: seeds chosen from the graph in the way the seed method says, each seed's neighbourhood is a cluster, unassigned primary points are then added as the primary method and radius say, and last other points as the secondary method and radius say; an estimated radius is the average distance between seeds and neighbours.", "quantifier": "all inputs, options, providers and qsort implementations", "why_tests_cant": "A result can meet the constraints and still not be what the documented procedure gives; tests compare a few stored results.", "anchors": ["src/nng_clustering.c:scc_sc_clustering", "src/nng_core.c:iscc_make_nng_clusters_from_seeds", "src/nng_core.c:iscc_estimate_avg_seed_dist"]}
{"id": "C56", "title": "The batch method clusters point by point", "statement": "When scc_sc_clustering with SCC_SM_BATCHES returns SCC_ER_OK, its labels are those of going through the primary points in index order: a point already assigned is passed over; if none of its nearest points within the radius is assigned (and there are enough of them) they become a new cluster; otherwise, if the method says so, the point joins the cluster of one of them.", "quantifier": "all inputs, batch sizes and providers", "why_tests_cant": "The sequential meaning of the batch code is to hold for all batch sizes and inputs.", "anchors": ["src/nng_batch_clustering.c:iscc_run_nng_batches"]}
{"id": "C57", "title": "A point added by neighbours joins a nearest group point", "statement": "When no search fails, a primary point outside the seed neighbourhoods is, for SCC_UM_CLOSEST_ASSIGNED, in the cluster of a point nearest to it among the points of seed neighbourhoods, if one is within the applicable radius; without type constraints that radius is the seed radius for points that could be seeds, and for these points the claim is made of libraries compiled without SCC_STABLE_NNG (with it see C65). A non-primary point is treated likewise by the secondary method. For SCC_UM_ANY_NEIGHBOR a point that could be a seed is in the cluster of one of its graph neighbours.", "quantifier": "all inputs, options, providers", "why_tests_cant": "Which point decides the cluster is not visible in the stored results of tests.", "anchors": ["src/nng_core.c:iscc_assign_by_nn_search", "src/nng_core.c:iscc_assign_by_nng", "src/nng_clustering.c:iscc_make_clustering_from_nng"]}
{"id": "C58", "title": "Typed clusters have the nearest points of each type", "statement": "With type constraints, each cluster scc_sc_clustering makes contains a primary point together with, for each type, as many of the points of that type nearest to it as the type constraint asks, all within the seed radius.", "quantifier": "all inputs, options, providers", "why_tests_cant": "Holds for the union of several searches on all inputs; tests check constraint counts at most.", "anchors": ["src/nng_core.c:iscc_get_nng_with_type_constraint"]}
{"id": "C59", "title": "Batch clusters are a point and its nearest points", "statement": "Each cluster scc_sc_clustering makes with SCC_SM_BATCHES contains a primary point together with size_constraint - 1 points nearest to it within the seed radius. For libraries compiled with SCC_STABLE_NNG this needs that no other point is nearer to a point than the point itself.", "quantifier": "all inputs, batch sizes, providers", "why_tests_cant": "Absence of interference between batches.", "anchors": ["src/nng_batch_clustering.c:iscc_run_nng_batches"]}
{"id": "C60", "title": "Without ties the result is determined", "statement": "If no point has the same distance to two other points, two successful calls of scc_sc_clustering with the same options on the same distances give the same labels, for SCC_SM_LEXICAL, SCC_SM_INWARDS_ORDER, SCC_SM_EXCLUSION_ORDER and SCC_SM_BATCHES, and for all seed methods if the library is compiled with SCC_STABLE_FINDSEED, whatever search provider, allocation pattern and earlier state (no search failing).", "quantifier": "all pairs of successful calls", "why_tests_cant": "A relation between two executions with different environments.", "anchors": ["src/nng_clustering.c:scc_sc_clustering", "templates/scclust.h:scc_SeedMethod"]}
{"id": "C61", "title": "Hierarchical clusterings are those of a simple procedure", "statement": "The clusters a successful scc_hierarchical_clustering makes are those of the following procedure. Clusters of at least 2 * size_constraint points (initially the existing clusters, or all points) are divided in two. Two centers are found by going from up to 100 points spread over the cluster to a farthest point, on from every farthest point not met before, and keeping the pair with the largest distance. Each center first gets the size_constraint - 1 remaining points closest to it, the center for which these are farther going first. The other points are then given out one at a time (size_constraint at a time with batch_assign), always to the center that has its closest ones closer. Labels are the positions of the clusters in the order the divisions produce.", "quantifier": "all data sets, providers, clusterings, sizes, both modes, all ways of breaking ties", "why_tests_cant": "Equates every successful execution with a specification on all inputs; tests compare outputs for a few data sets.", "anchors": ["src/hierarchical_clustering.c:scc_hierarchical_clustering", "src/hierarchical_clustering.c:iscc_hi_break_cluster_into_two", "src/hierarchical_clustering.c:iscc_hi_find_centers", "templates/scclust.h:scc_hierarchical_clustering"]}
{"id": "C62", "title": "Without ties the hierarchical clustering is determined", "statement": "If no point has the same distance to two points, two successful calls of scc_hierarchical_clustering with the same size constraint and mode on the same distances and the same starting clusters give the same number of clusters and the same label for every point, whatever search provider, sorting routine, earlier label storage and allocation pattern.", "quantifier": "all pairs of successful calls", "why_tests_cant": "A relation between two executions with different environments.", "anchors": ["src/hierarchical_clustering.c:scc_hierarchical_clustering"]}
{"id": "C63", "title": "Two well separated groups are not mixed", "statement": "Let the points consist of two groups such that every distance within a group is smaller than every distance between them. If each cluster to start from (all points, for a new clustering) has no or at least size_constraint points of either group, scc_hierarchical_clustering without batch_assign makes no cluster with points of both groups (fewer than 2 * size_constraint points coincide). This holds neither with batch_assign nor for three groups.", "quantifier": "all data sets, providers, clusterings and sizes", "why_tests_cant": "Quantifies over all metric configurations; depends on the interplay of center search and assignment.", "anchors": ["src/hierarchical_clustering.c:scc_hierarchical_clustering", "src/hierarchical_clustering.c:iscc_hi_break_cluster_into_two"]}
{"id": "C64", "title": "Stable seed finding takes ties in index order", "statement": "In a library compiled with SCC_STABLE_FINDSEED, SCC_SM_INWARDS_UPDATING and SCC_SM_EXCLUSION_UPDATING always take next, among the points that may still be taken, the one with the smallest updated number of incoming arcs (of exclusion arcs), and the one with the lowest index if several have that number; the seeds are thus determined by the graph.", "quantifier": "all graphs, allocation patterns", "why_tests_cant": "Tests run two graphs; the order among ties after many updates depends on every step.", "anchors": ["src/nng_findseeds.c:iscc_fs_decrease_v_in_sort", "src/nng_findseeds.c:iscc_fs_debug_bucket_sort", "src/nng_findseeds.c:iscc_findseeds_inwards", "src/nng_findseeds.c:iscc_findseeds_exclusion"]}
{"id": "C65", "title": "Stable graphs: the neighbour with the lowest index decides", "statement": "In a library compiled with SCC_STABLE_NNG, a point that could be a seed and is outside the seed neighbourhoods joins, for SCC_UM_ANY_NEIGHBOR and (without type constraints) SCC_UM_CLOSEST_ASSIGNED, the cluster of its graph neighbour with the lowest index among those in a seed neighbourhood. So SCC_UM_CLOSEST_ASSIGNED need not pick the closest assigned point there.", "quantifier": "all inputs, options, providers (no search failing)", "why_tests_cant": "Which neighbour decides is not visible in stored labels unless the neighbours are in different clusters.", "anchors": ["src/nng_core.c:iscc_sort_nng", "src/nng_core.c:iscc_assign_by_nng"]}
{"id": "C66", "title": "Statistics of a clustering made by scc_sc_clustering", "statement": "When scc_sc_clustering returns SCC_ER_OK and scc_get_clustering_stats is then called with the same data set and returns SCC_ER_OK, the statistics have num_populated_clusters = num_clusters, min_cluster_size >= size_constraint and num_assigned >= num_clusters * size_constraint; with both unassigned methods SCC_UM_IGNORE and no types, min_cluster_size = max_cluster_size = size_constraint. If distances are a metric, all points may be seeds and SCC_UM_ANY_NEIGHBOR assigns all points, max_dist is at most four times the largest within-cluster distance of any clustering of all points that meets the constraints.", "quantifier": "all data sets, valid options, providers honouring the contract, allocation failures in either call", "why_tests_cant": "Relates the result of two calls for every input; the last part compares with every possible clustering.", "anchors": ["src/nng_clustering.c:scc_sc_clustering", "src/utilities.c:scc_get_clustering_stats"]}
{"id": "C67", "title": "Statistics of a hierarchical clustering from scratch", "statement": "When scc_hierarchical_clustering turns an empty clustering into one and returns SCC_ER_OK, and no point has 2*size_constraint or more points at computed distance zero (itself included), a following successful scc_get_clustering_stats reports num_assigned = num_data_points, num_populated_clusters = num_clusters, min_cluster_size >= size_constraint and max_cluster_size < 2 * size_constraint.", "quantifier": "all data sets, size constraints, batch modes, providers honouring the contract", "why_tests_cant": "Relates the result of two calls for every input.", "anchors": ["src/hierarchical_clustering.c:scc_hierarchical_clustering", "src/utilities.c:scc_get_clustering_stats"]}
{"id": "C68", "title": "ANN wrapper: single searches", "statement": "With the search functions installed by scc_set_ann_dist_search and an ANN library that searches exactly, opening a search object, searching and closing it have no undefined behaviour. A search that works returns, for each query with enough search points within the radius (for each query if there is no radius) and in the order of the queries, the required number of nearest search points by Euclidean distance, nearest first. Opening and searching fail only when memory runs out or a size exceeds INT_MAX; closing fails only when no object is open, and releases all the object held.", "quantifier": "all data sets, search sets, queries, k, radii, both kinds of point index type, all allocation failures, all exact ANN libraries", "why_tests_cant": "The wrapper's tests compare a few random data sets; the statement covers all inputs and failure patterns.", "anchors": ["examples/ann/ann_wrapper.cpp:iscc_ann_init_nn_search_object", "examples/ann/ann_wrapper.cpp:iscc_ann_nearest_neighbor_search", "examples/ann/ann_wrapper.cpp:iscc_ann_close_nn_search_object"]}
{"id": "C69", "title": "Clusterings with the ANN wrapper", "statement": "After scc_set_ann_dist_search, with an ANN library that searches exactly and no failing allocation, scc_sc_clustering returns without undefined behaviour; on SCC_ER_OK every cluster has at least size_constraint points, labels are valid, and without types and batches every cluster contains a primary point and its size_constraint - 1 nearest neighbours, within the seed radius. On an error the latest error is the returned one. Also with failing allocations, whatever the library would return with some search functions that meet the contract, it returns with the wrapper. scc_hierarchical_clustering and scc_get_clustering_stats do exactly what they do with the built-in search.", "quantifier": "all data sets, options, both kinds of point index type, all exact ANN libraries", "why_tests_cant": "Universal over inputs and over the third-party library.", "anchors": ["examples/ann/ann_wrapper.cpp:scc_set_ann_dist_search", "src/nng_clustering.c:scc_sc_clustering"]}
{"id": "C70", "title": "ANN wrapper releases its memory", "statement": "After scc_set_ann_dist_search, when scc_sc_clustering returns, no memory obtained during the call is still allocated apart from the labels of the clustering.", "quantifier": "all data sets, options, point index types, allocation failures", "why_tests_cant": "The leak does not change results; it shows for one point index type and in failure paths only.", "anchors": ["examples/ann/ann_wrapper.cpp:iscc_ann_nearest_neighbor_search", "examples/ann/ann_wrapper.cpp:iscc_ann_init_nn_search_object"]}
{"id": "C71", "title": "Cluster sizes with type constraints and ignored points", "statement": "With type constraints and both unassigned methods SCC_UM_IGNORE, each cluster scc_sc_clustering makes has size_constraint or size_constraint + 1 members, and exactly size_constraint if every type constraint is positive. If they are positive and add up to size_constraint, each cluster has exactly the required number of points of each type.", "quantifier": "all data sets, types, seed methods, radii, providers honouring the contract, allocation failures", "why_tests_cant": "Universal over inputs; the tests compare a few clusterings with precomputed ones.", "anchors": ["src/nng_core.c:iscc_get_nng_with_type_constraint", "src/nng_clustering.c:scc_sc_clustering"]}
{"id": "C72", "title": "Repeated calls give the same clusters", "statement": "Two calls of scc_sc_clustering with the same data set and options, on clustering objects without clusters, return the same error code and, if they succeed, the same number of clusters and the same labels. It does not matter what calls were made before, what the user's label array holds, or whether the labels are the user's or the library's memory.", "quantifier": "all data sets, options, earlier calls, states of the allocator, contents of uninitialised memory, in which no allocation fails", "why_tests_cant": "Dependence on uninitialised memory or on earlier calls shows only for particular memory contents.", "anchors": ["src/nng_clustering.c:scc_sc_clustering", "src/nng_batch_clustering.c:scc_nng_clustering_batches", "src/nng_core.c", "src/nng_findseeds.c", "src/dist_search_imp.c:iscc_imp_nearest_neighbor_search"]}
{"id": "C73", "title": "Graph debugging functions", "statement": "The graph parser makes, from a text describing a square matrix, the graph with exactly the arcs of the matrix; characters other than '#', '.', '/' and a missing last '/' do not matter. Copying a graph, or building one from arrays, gives a graph with the same arcs. The comparison returns true exactly when both graphs have the same number of vertices and the same arcs, disregarding order and repetition. The balance check returns true exactly when every vertex has the given number of arcs. Printing writes the matrix of the graph. None of these leaves memory allocated other than the graph it makes, and failing allocations are reported by the functions that return an error code.", "quantifier": "all matrices, texts, graphs, allocation failures (for comparison and printing: when the allocation succeeds)", "why_tests_cant": "The project's own tests rely on these functions to compare results, on a few graphs.", "anchors": ["src/digraph_debug.c:iscc_digraph_from_string", "src/digraph_debug.c:iscc_digraphs_equal", "src/digraph_debug.c:iscc_copy_digraph", "src/digraph_debug.c:iscc_digraph_from_pieces", "src/digraph_debug.c:iscc_is_balanced_digraph", "src/digraph_debug.c:iscc_print_digraph"]}
{"id": "C74", "title": "Refining clusterings", "statement": "scc_hierarchical_clustering, with size k, applied to a clustering that scc_sc_clustering made with a size constraint of at least k: if it succeeds, each resulting cluster is inside one of the given ones, has at least k and fewer than 2k points, no point enters or leaves the clustering, and scc_check_clustering accepts the result for sizes up to k. Applied again to a clustering it has made itself, with the same size, it keeps the clusters, up to their numbers. Both provided that fewer than 2k points coincide. The first fails (memory is written outside its block) if the given clustering's first cluster has at least 2k points and is larger than every other; scc_sc_clustering does return such clusterings.", "quantifier": "all data sets, options, sizes, clusterings, states of the allocator", "why_tests_cant": "It relates outputs of two library functions for all inputs; tests run single combinations.", "anchors": ["src/hierarchical_clustering.c:scc_hierarchical_clustering", "src/nng_clustering.c:scc_sc_clustering", "src/utilities.c:scc_check_clustering"]}
{"id": "C75", "title": "Repeated hierarchical clustering gives the same clusters", "statement": "Two calls of scc_hierarchical_clustering with the same data set, size and batch flag, on clustering objects that both have no clusters or both have the same clusters, return the same error code and, if they succeed, the same number of clusters and the same labels (if the objects have no clusters: provided that fewer than twice the size many points coincide). It does not matter what calls were made before, what the user's label array holds when there are no clusters, or whose memory the labels are in. A successful call has the result it would have if no allocation could fail.", "quantifier": "all data sets, sizes, clusterings, earlier calls, states of the allocator, contents of uninitialised memory; sorting functions whose result depends on the sorted elements only", "why_tests_cant": "Dependence on uninitialised memory or on earlier calls shows only for particular memory contents.", "anchors": ["src/hierarchical_clustering.c:scc_hierarchical_clustering", "src/hierarchical_clustering.c:iscc_hi_break_cluster_into_two", "src/hierarchical_clustering.c:iscc_hi_find_centers", "src/dist_search_imp.c:iscc_imp_get_max_dist"]}
{"id": "C76", "title": "Requests for memory do not wrap", "statement": "With 32-bit index types, no request for memory that scc_sc_clustering, scc_hierarchical_clustering or scc_check_clustering makes is of a size that wraps when converted to bytes (64-bit size_t, elements of at most 64 bytes), with the built-in search and with the ANN wrapper. So a block obtained has all the elements the code uses it for.", "quantifier": "all data sets, options, clusterings, states of the allocator, search providers whose own requests are of moderate size", "why_tests_cant": "A wrapped size needs inputs near the limits of the index types, which no test can allocate.", "anchors": ["src/nng_clustering.c:scc_sc_clustering", "src/hierarchical_clustering.c:scc_hierarchical_clustering", "src/utilities.c:scc_check_clustering", "src/digraph_core.c:iscc_init_digraph", "src/nng_batch_clustering.c:scc_nng_clustering_batches"]}
{"id": "C77", "title": "Requests for memory of the statistics do not wrap", "statement": "No request for memory that scc_get_clustering_stats makes is of a size that wraps when converted to bytes.", "quantifier": "all data sets, clusterings, states of the allocator", "why_tests_cant": "A wrapped size needs a cluster of more than 2^31 points.", "anchors": ["src/utilities.c:scc_get_clustering_stats"]}
{"id": "C78", "title": "Clusterings depend on the distances only", "statement": "With the built-in search, scc_sc_clustering on two data sets in which all pairs of points have the same computed distance returns the same error code and, when it succeeds, the same clusters with the same labels; so does scc_hierarchical_clustering on clusterings with the same or without clusters (without: provided that fewer than twice the size many points coincide). In particular, reversing the sign of coordinates, adding a coordinate that is the same for all points, and exchanging the two coordinates of points of the plane change nothing, rounding included. Moving all points by the same vector may change the clusters, because differences are rounded.", "quantifier": "all pairs of data sets of finite numbers, options, clustering objects, states of the allocator in which no allocation fails", "why_tests_cant": "Tests compare a few data sets; a dependence on coordinates other than through distances, or on order of summation, shows only with particular numbers.", "anchors": ["src/dist_search_imp.c:iscc_imp_nearest_neighbor_search", "src/dist_search_imp.c:iscc_imp_get_max_dist", "src/nng_clustering.c:scc_sc_clustering", "src/hierarchical_clustering.c:scc_hierarchical_clustering"]}
{"id": "C79", "title": "Clusterings depend on the order of distances only", "statement": "With the built-in search and no estimated radius, scc_sc_clustering on two data sets in which each point has the others in the same order of distance (equal distances staying equal), with supplied radii that the same pairs of points are within, returns the same error code and, when it succeeds, the same clusters with the same labels. With an estimated radius the clusters may differ.", "quantifier": "all pairs of data sets of finite numbers with the same order, all options and radii, clustering objects, states of the allocator in which no allocation fails", "why_tests_cant": "No test compares runs on different data sets; a dependence on the size of distances would show only for particular data.", "anchors": ["src/dist_search_imp.c:iscc_imp_nearest_neighbor_search", "src/dist_search_imp.c:iscc_add_dist_to_list", "src/nng_clustering.c:scc_sc_clustering", "src/nng_core.c:iscc_make_nng_clusters_from_seeds"]}
{"id": "C80", "title": "Points with integer coordinates are clustered by their exact distances", "statement": "With the built-in search, if all coordinates are integers and they and the squared distances are below 2^53 in absolute value, squared distances are computed without rounding. So two such data sets in which all pairs of points have the same Euclidean distances, such as one moved by a vector of integers, turned by a quarter, or with coordinates reordered, are given the same error code and, on success, the same clusters with the same labels by scc_sc_clustering and, as long as fewer than twice the size many points coincide, scc_hierarchical_clustering. The same holds for scc_sc_clustering without estimated radius when all coordinates and all supplied radii, which are integers, are multiplied by the same positive integer.", "quantifier": "all data sets of integer coordinates within the stated range, numbers of dimensions, vectors, factors, options, clustering objects, and states of the allocator in which no allocation fails", "why_tests_cant": "Rounding errors appear only for particular coordinates, and no test compares runs on moved or scaled data.", "anchors": ["src/dist_search_imp.c:iscc_get_sq_dist", "src/dist_search_imp.c:iscc_imp_nearest_neighbor_search", "src/nng_clustering.c:scc_sc_clustering", "src/hierarchical_clustering.c:scc_hierarchical_clustering"]}
{"id": "C81", "title": "Radii with the same reach give the same clusters", "statement": "If no point has the same distance to two others, and two sets of options differ in the radius methods and radii only, in such a way that in each stage the same pairs of points are within the radius, then two successful calls of scc_sc_clustering with these options on the same distances give the same labels (seed methods as in C60, no search failing). In particular, a supplied radius that no distance exceeds has the effect of SCC_RM_NO_RADIUS, and SCC_RM_USE_SEED_RADIUS has the effect of giving the method and radius of the seed stage. If one of the calls succeeds, no allocation fails, and the other options are valid without estimated radius and do not exceed the limits of the integer types, the other call succeeds.", "quantifier": "all data sets without ties, options, pairs of radii, search providers, clustering objects and states of the allocator in which no allocation fails", "why_tests_cant": "Tests use few radii and compare with fixed outputs; the code takes different paths with and without radius, and whether they agree for all data is not visible from examples.", "anchors": ["src/nng_clustering.c:scc_sc_clustering", "src/nng_core.c:iscc_get_nng_with_size_constraint", "src/nng_core.c:iscc_get_nng_with_type_constraint", "src/nng_core.c:iscc_make_nng_clusters_from_seeds", "src/nng_batch_clustering.c:scc_nng_clustering_batches"]}
{"id": "C82", "title": "Type labels are names only", "statement": "If no point has the same distance to two others, and two sets of options differ only in the types, in such a way that the types with a positive constraint correspond to each other in the same order with the same constraints and the same points, then two successful calls of scc_sc_clustering with these options give the same labels (seed methods as in C60, no search failing). So types may be renumbered in order, and types without constraint may be added, removed or merged. If the library is compiled with SCC_STABLE_NNG, the order of the types does not matter either. Without SCC_STABLE_NNG it does: exchanging the numbers of two types can change the clusters. Whether there is a solution does not depend on the names of the types in either case: if one of the calls succeeds, the other does, as long as its arguments are valid, no estimated radius is used and nothing exceeds the limits of the integer types.", "quantifier": "all data sets without ties, options with at least two types, correspondences between types, search providers, clustering objects and states of the allocator in which no allocation fails", "why_tests_cant": "Tests with types use few labellings and never compare runs with renamed types.", "anchors": ["src/nng_clustering.c:scc_sc_clustering", "src/nng_core.c:iscc_get_nng_with_type_constraint", "src/nng_core.c:iscc_make_nng_clusters_from_seeds"]}
{"id": "C83", "title": "Ways to write the same request", "statement": "If no point has the same distance to two others, no search fails and the seed method is as in C60: (a) two successful calls of scc_sc_clustering whose options differ in the list of primary points only, but name the same points, give the same labels; in particular NULL is the same as a list of all points. (b) The secondary method treats every point left unassigned, primary points included: with primary method SCC_UM_IGNORE and secondary method SCC_UM_CLOSEST_SEED, or SCC_UM_CLOSEST_ASSIGNED with type constraints, the labels are those of the call in which the secondary method and radius are also used as primary method and radius.", "quantifier": "all data sets without ties, options, search providers, clustering objects and states of the allocator in which no allocation fails", "why_tests_cant": "Lists and NULL, and the two stages, take different paths through the code; tests compare each with fixed outputs for small data only.", "anchors": ["src/nng_clustering.c:scc_sc_clustering", "src/nng_core.c:iscc_get_nng_with_size_constraint", "src/nng_core.c:iscc_make_nng_clusters_from_seeds", "src/nng_batch_clustering.c:scc_nng_clustering_batches"]}
{"id": "C84", "title": "A wider radius of the last stage only adds points", "statement": "If no point has the same distance to two others, no search fails and the seed method is as in C60 but not SCC_SM_BATCHES: of two successful calls of scc_sc_clustering that differ in the secondary radius only, or, if the secondary method is SCC_UM_IGNORE, in the primary radius only, the one with the wider radius (every pair of points within the other radius is within it) gives the same number of clusters and the same label to every point that the other call puts in a cluster. With a secondary stage a wider primary radius can move points between clusters.", "quantifier": "all data sets without ties, options, pairs of radii of which one is wider (supplied, of the seeds, estimated or none), search providers, clustering objects and states of the allocator in which no allocation fails", "why_tests_cant": "A comparison of two runs with different radii over all data; the tests compare single runs with fixed outputs.", "anchors": ["src/nng_clustering.c:scc_sc_clustering", "src/nng_core.c:iscc_make_nng_clusters_from_seeds"]}
{"id": "C85", "title": "Hierarchical clusterings depend on the order of distances only", "statement": "If no point has the same distance to two points, and in two data sets the distances of any two pairs of points compare alike, successful calls of scc_hierarchical_clustering on the two data sets with the same size, batch setting and clusters to start from give the same labels. It is not enough that the points are in the same order by the distance from each of them, as it is for scc_sc_clustering.", "quantifier": "all pairs of data sets of any size without ties, search providers, sorting functions, size constraints, batch settings, clusterings to start from and states of the allocator", "why_tests_cant": "The property compares runs on different data sets over all data; the tests compare single runs with fixed outputs.", "anchors": ["src/hierarchical_clustering.c:scc_hierarchical_clustering", "src/hierarchical_clustering.c:iscc_hi_find_centers", "src/hierarchical_clustering.c:iscc_hi_break_cluster_into_two"]}
{"id": "C86", "title": "The numbers of clusters are names only", "statement": "For two clusterings with the same clusters numbered differently, scc_check_clustering gives the same answer with the same options, and if no allocation fails it returns SCC_ER_OK for both or for none. Successful calls of scc_get_clustering_stats report the same numbers of points, assigned points, clusters and populated clusters, the same smallest, largest and average cluster size and, if distances are finite and symmetric and some cluster has two points, the same smallest and largest distance. Sums of distances can differ, as they are rounded in the order of the clusters.", "quantifier": "all clusterings and renumberings of their clusters, options, data sets, search providers and states of the allocator", "why_tests_cant": "Compares the results for all numberings of all clusterings; the tests check fixed numberings.", "anchors": ["src/utilities.c:scc_check_clustering", "src/utilities.c:scc_get_clustering_stats"]}
{"id": "C87", "title": "Groups far apart are not mixed by scc_sc_clustering", "statement": "Let the points consist of any number of groups, each with at least size_constraint points and, with types, as many of each type as its constraint, such that every point is nearer to the points of its own group than to all others. A successful call of scc_sc_clustering makes no cluster with points of two groups, with any seed method, radii and primary points, if unassigned points are ignored or assigned to the cluster of a neighbor. The same holds with the closest seed or closest assigned point if each group has a point that can be a seed, for instance without a seed radius if each group has a primary point. It need not hold if a group has no primary points, if a group is one point smaller than size_constraint, or if a group lacks points of a type.", "quantifier": "all numbers of points and groups, data sets, search providers, options, build settings, failing allocations and searches", "why_tests_cant": "A condition on all data sets that consist of separated groups; the tests use a few data sets and compare with recorded clusterings.", "anchors": ["src/nng_clustering.c:scc_sc_clustering", "src/nng_core.c:iscc_make_nng_clusters_from_seeds", "src/nng_batch_clustering.c:iscc_run_nng_batches"]}
{"id": "C88", "title": "scc_sc_clustering finds groups that are far apart", "statement": "Let the points consist of groups with at least size_constraint and fewer than twice as many points each and, with types, as many of each type as its constraint, such that every point is nearer to the points of its own group than to all others. Without seed radius, and with a primary point in each group, a call of scc_sc_clustering in which no search or allocation fails and whose settings assign every point (all points primary and joined to a neighbor's cluster or, without radius, to the closest, or a secondary method without radius) makes exactly the groups its clusters, whatever the seed method, order of points and search provider; it succeeds with valid arguments, small enough problems and no estimated radius. With other methods and radii there is at most one cluster for each group, provided, for the closest methods, that each group has a point that can be a seed. A group of twice size_constraint points can be split.", "quantifier": "all numbers of points and groups, data sets, search providers, options, build settings", "why_tests_cant": "States the clusters for all data sets that consist of separated groups; the tests compare with recorded clusterings of a few data sets.", "anchors": ["src/nng_clustering.c:scc_sc_clustering", "src/nng_core.c:iscc_make_nng_clusters_from_seeds", "src/nng_batch_clustering.c:iscc_run_nng_batches"]}
{"id": "C89", "title": "Methods for unassigned points only add points to the clusters", "statement": "Let no two distances of a point tie and the seed method process points in an order that does not depend on the sort's treatment of ties. If scc_sc_clustering succeeds on a data set with both unassigned methods 'ignore' and succeeds with any other unassigned methods and any radii for these, other options alike, both clusterings have the same number of clusters, and every point assigned by the first call has the same label in the second, also if the calls use different search providers, data-set representations or memory for the labels. The same holds, except for the batches method and if no search or allocation fails, for a secondary unassigned method against 'ignore' with the primary method alike. Two methods other than 'ignore' can put a point in different clusters.", "quantifier": "all data sets without ties, search providers, options, build settings", "why_tests_cant": "Relates pairs of calls with different options on every data set; the tests compare each call with a recorded clustering of a few data sets.", "anchors": ["src/nng_clustering.c:scc_sc_clustering", "src/nng_core.c:iscc_make_nng_clusters_from_seeds", "src/nng_batch_clustering.c:iscc_run_nng_batches"]}
{"id": "C90", "title": "scc_hierarchical_clustering finds two groups that are far apart", "statement": "Let the points consist of two groups, each of at least size_constraint and fewer than twice as many points, such that every distance within a group is smaller than every distance between them. If scc_hierarchical_clustering without batch_assign succeeds on a clustering without clusters, it makes exactly two clusters, the two groups, whatever the order of points, search provider and sorting routine, and also if points coincide; it succeeds if no search or allocation fails and the number of points fits the label and index types. So it puts the same points together as scc_sc_clustering with the same size and settings that assign every point (no types, no seed radius, all points primary). With batch_assign it can mix the groups.", "quantifier": "all numbers of points, data sets, groups, search providers, sorting routines, build settings", "why_tests_cant": "States the clusters for all data sets that consist of two separated groups and relates two functions; the tests compare each with recorded clusterings of a few data sets.", "anchors": ["src/hierarchical_clustering.c:scc_hierarchical_clustering", "src/hierarchical_clustering.c:iscc_hi_break_cluster_into_two", "src/nng_clustering.c:scc_sc_clustering"]}
{"id": "C91", "title": "Numbers of refined clusters", "statement": "If scc_hierarchical_clustering succeeds on a clustering that has clusters, and no point has 2*size_constraint or more points at computed distance zero (itself included), points of a cluster with a larger number get smaller labels than points of a cluster with a smaller number, whether these clusters are divided or not. If no cluster is empty or has 2*size_constraint points or more, the call only reverses the numbers: label i becomes num_clusters-1-i, and unassigned points stay so (this for all data). So after a successful call that made clusters, two more successful calls with the same size give back the same labels, whatever their batch_assign and sorting routine. Empty clusters are dropped, so with them the number of clusters changes.", "quantifier": "all data sets, existing clusterings, search providers, sorting routines, sizes, build settings", "why_tests_cant": "Gives the order of labels for every clustering refined and a property of three calls; the tests compare single calls with recorded labels.", "anchors": ["src/hierarchical_clustering.c:scc_hierarchical_clustering", "src/hierarchical_clustering.c:iscc_hi_run_hierarchical_clustering", "src/hierarchical_clustering.c:iscc_hi_init_cl_stack"]}
{"id": "C92", "title": "Lexical and batch clusters are numbered by their first points", "statement": "If scc_sc_clustering with seed method SCC_SM_LEXICAL or SCC_SM_BATCHES succeeds, the clusters are numbered in the order of the points they are made from: there are points s_0 < s_1 < ... such that s_i is in cluster i and is a primary point with enough points (of each type) within the seed radius, and no such point comes before s_0. So the first point from which a cluster can be made is in cluster 0; without primary points and seed radius this is point 0. With other seed methods that point can be in another cluster.", "quantifier": "all data sets, search providers, options with these seed methods, failing searches or allocations, build settings", "why_tests_cant": "Gives the order of labels for every clustering; the tests compare single calls with recorded labels.", "anchors": ["src/nng_clustering.c:scc_sc_clustering", "src/nng_findseeds.c:iscc_findseeds_lexical", "src/nng_batch_clustering.c:iscc_run_nng_batches"]}
