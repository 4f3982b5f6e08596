# Formal model of scclust in Rocq (Coq 8.16.1)

Target: `fsavje/scclust` at the pinned commit in `/repo` (C library for
size-constrained clustering). The code was read, never built or run.

## 1. Shape of the model

* Every C function becomes a total, computable Gallina function with a comment
  citing file and lines.
* **Undefined behaviour is an outcome.** `R A := Ok a | Bad u` with
  `u` one of: out-of-bounds access, read of an uninitialised cell, NULL
  dereference, bad free, illegal arithmetic, fuel exhausted. Arrays are lists of
  `option` cells (`None` = not yet written) with checked `get`/`set`.
* **Effects.** `M A := world -> R (A * world)`. The world holds an allocation
  oracle (does the i-th request fail?), the list of live blocks, the latest
  error, and the search provider's private state. `malloc/calloc/realloc/free`
  are modelled, so that leaks, double frees and unchecked allocations show.
* **Search provider (SPI).** The library calls distance search through a table
  of functions. The model is parametrised by a record of such functions and a
  contract; the built-in implementation is modelled too and proved to meet it.
* **Doubles** are IEEE binary64 values of the standard library's
  `Coq.Floats.SpecFloat` (`spec_float`, prec 53, emax 1024), pure Gallina, no
  axioms, including NaN, infinities and signed zeros.
* **Integers.** Indices and sizes are `nat`; maxima of the configurable types
  (`scc_PointIndex`, `iscc_ArcIndex`, `scc_Clabel`) are fields of a
  configuration record in `N`. Where C arithmetic can wrap (32-bit products,
  arc indices), the wrap is explicit.
* **qsort** is an arbitrary function returning a permutation (sorted, where a theorem
  says so).
* `assert` is compiled out (NDEBUG), as in release builds.

## 2. Property by property

| Id | Modelled / how proved |
|----|------------------------|
| C01,C04,C05,C09,C10 | full pipeline of `scc_sc_clustering`; loop invariants on NNG construction (row lengths, distinctness), seeds, assignment; composed |
| C02 | as C01 for the type-constrained graph (union/difference/self match) |
| C03,C39 | batch loop invariant; C39 by refinement of the batch loop to a sequential point-by-point algorithm |
| C06 | maximality of seeds (C11) plus assignment by neighbours |
| C07,C15,C16 | contract of the nearest-neighbour search plus invariants of the assignment stages |
| C08 | C01/C02/C04/C06/C07 plus C23 |
| C11 | loop invariants for the five seed finders over arbitrary loop-free graphs |
| C12 | invariant of bucket sort and of the in-place decrement |
| C13,C14 | graph argument on the result; distance bound by the triangle inequality for an abstract metric |
| C17 | false of the code: refutation by a concrete run; restricted version proved |
| C18,C20,C22 | invariant over the split stack; termination by fuel that provably suffices |
| C19 | false of the code: refutation (coinciding points); C18 is the restricted truth |
| C21 | false of the code: refutation (first cluster largest); restricted version proved |
| C23-C26 | functional specification by loop invariants |
| C27-C29 | functional specification over IEEE doubles |
| C30,C31 | functional specification on adjacency lists, both allocation paths |
| C32 | no-`Bad` theorem for the pipeline |
| C33,C34,C36,C37,C40,C49 | false of the code: refutations by concrete runs, with the strongest restricted versions that hold |
| C35 | memory-discipline proof over all failure patterns; the one leaking path is refuted and excluded |
| C38 | case analysis of the entry checks |
| C41-C45 | heap model of clustering objects and label arrays, invariant over call sequences |
| C46 | arithmetic of the size check, per type configuration |
| C47 | state machine of the latest error |
| C48 | invariant over call sequences of the function table |
| C50,C51 | liveness and meaning of the error codes of `scc_sc_clustering` |
| C52 | sums of `scc_get_clustering_stats` over IEEE doubles |
| C53,C54 | "a failure is in the result" followed through every function, as for the positive part of C36 |
| C55,C56 | the functional specification of the pipeline (`ScSpec.v`, `BatchSpec.v`) as a property; C57-C59 are consequences of it |
| C60 | uniqueness: the specification has one solution when there are no ties |
| C61 | the functional specification of `scc_hierarchical_clustering` (`HierSpec.v`) as a property |
| C62 | uniqueness of its solution, as for C60 |
| C63 | consequence of C61: induction over the divisions; counterexamples by computation for batches and three groups |
| C64 | the invariant of the sorted array (C12) with equal numbers in index order, kept by the bucket sorts |
| C65 | rows of the graph are sorted by index; the first assigned neighbour is the lowest; a run that refutes "closest" |
| C66,C67 | C01/C03/C04/C09/C14 and C18 composed with C24/C25 |
| C68 | functional specification of the three search functions of the ANN wrapper, for any ANN library that searches exactly |
| C69 | the wrapper without its leaks meets the provider's contract; a simulation through every library function (`Sim.v`) carries the results of `scc_sc_clustering` over |
| C70 | false of the code: refutations by concrete runs; the simulation also carries the absence of leaks over where it holds |
| C71 | as C09, with the rows of the type-constrained graph (`TypeRows.v`) |
| C72, positive part of C34 | two runs compared function by function (`Same.v`): values agree where both are initialised, unless a run in which an allocation failed reports it |
| C73 | functional specification of the functions of `src/digraph_debug.c`; the texts specified as characters of a matrix |
| C74 | C01/C04/C09 composed with C20, and C18-C20 with C20; the clusterings are compared as sets of clusters |
| C75 | as C72, for `scc_hierarchical_clustering`; qsort is assumed to order equal distances by the array alone |
| C76 | with 32-bit index types (`index32`) no request for memory made by clustering, hierarchical clustering or checking wraps in bytes: with elements of up to 64 bytes its size is below 2^64; `w_most` is the largest number of elements asked for |
| C77 | the same for the statistics, for clusters of up to 2^31 points and elements of 8 bytes; refuted without the bound on clusters (F22) |
| C78 | as C72 and C75, with related data sets in the two runs; three changes of the data that keep every rounded distance, and one (moving all points) that does not |
| C79 | the same comparison, with search objects related if from each point the other points are in the same order; the radii of the two runs may differ; refuted for estimated radii |
| C80 | sums, differences and squares of integers below 2^53 are computed without rounding by Coq's specification of binary64 (`FloatInt.v`), so squared distances of integer points are exact; the results of C78 and C79 then apply to points with the same integer distances and to multiples |
| C81 | the specification of C55 and C56 mentions radii only through the pairs of points within them (`Reach.v`), so with the uniqueness of C60 equal reach gives equal labels; corollaries for radii that reach all points and for the seed radius |
| C82 | the rows of the graph with type constraints are permuted by a renaming of the types, and equal if sorted or if the order of the types is kept (`Renamed.v`); the uniqueness of C60 gives equal labels. `C82_exchanged_refuted` is a run in which exchanging two types changes the clusters |
| C83 | valid lists of the same primary points are equal, and two searches among the same points with the same radius amount to one (`Restated.v`); then the uniqueness of C60 |
| C84 | graph, seeds and first labels are the same by the uniqueness of C60, and a search with a wider radius finds the same nearest points and possibly more (`Wider.v`); `C84_moved_refuted` is a run in which a wider primary radius moves a point |
| C85 | every comparison in the procedure of C61 is between two distances or within one search, so the procedure is carried from one data set to the other (`HierOrder.v`), and the uniqueness of C62 gives equal labels; `C85_order_of_each_point_refuted` shows that the order around each point is not enough |
| C86 | the clusters of the two clusterings are the same lists of points under a permutation (`Relabelled.v`), so the results of C23 to C25 are the same; `C86_sum_refuted` is a run in which the floating-point sum of distances differs |
| C87 | rows of the nearest neighbor graph lie within a group, as the group has `size_constraint` points, and enough of each type, that are nearer than all others; so seeds' neighborhoods and points joined by neighbors stay in the group, and searches do if every group has a seed (`Groups.v`); the refutations drop the condition on primary points, the one on types, and one point of the smallest group |
| C88 | two clusters within a group would have `2 * size_constraint` points, by C87 and the sizes of clusters (`Recovered.v`), and with the settings `assigns_all` no point is left out; `C88_succeeds` adds that the call succeeds; `C88_large_refuted` is a group of exactly that size, split in two |
| C89 | seeds and their clusters are determined by the graph (`nng_graph_unique`, `seeds_unique`), and later stages keep labels (`assignment_keeps`, `stage_keeps`); for batches, runs with and without assignment are compared step by step (`Added.v`); `C89_secondary` compares secondary methods only; `C89_moved_refuted` is a point joined to one cluster by its neighbors and to another by the seeds |
| C90 | by C63 no cluster has points of both groups, and by C18 two clusters within a group would have `2 * size_constraint` points (`TwoGroups.v`); that equal points are few (the condition of C18) follows from the sizes of the groups; `C90_as_sc` is the comparison with C88; `C90_batches_refuted` is the case of C63 |
| C91 | the procedure of C61 goes through the clusters from the last to the first and numbers the parts in this order (`Numbered.v`); `C91_reversed` and `C91_twice` are the numbers if nothing is divided; `C91_empty_refuted` is a clustering with an empty cluster, which is dropped |
| C92 | lexical seeds are chosen, and batches go through the points, in the order of the points (`SeedOrder.v`); `C92_first` is the first seed; `C92_other_refuted` is a data set whose first point is not in cluster 0 with another seed method |

## 3. What is modelled, and where

| Source | Model | Proofs |
|--------|-------|--------|
| `src/error.c` | `World.v` (error state), `ErrMsg.v` (`scc_get_latest_error`) | `ErrClaims.v` |
| `src/data_set.c` | `DataSet.v` | `DataSet.v` |
| `src/scclust.c` | `Obj.v` (objects on a heap), `ObjRun.v` (call sequences) | `ObjProof.v`, `ObjClaims.v`, `ObjCalls.v`, `Tidy.v` |
| `src/scclust_spi.c`, `src/dist_search.h` | `Spi.v` (calls), `SpiTable.v` (table) | `SpiTable.v` |
| `src/dist_search_imp.c` | `Dist.v`, `Float.v` | `DistProof.v`, `DistClaims.v`, `FloatFacts.v`, `FloatInt.v` |
| `src/digraph_core.c`, `src/digraph_operations.c` | `Digraph.v` | `DigraphRep.v`, `DigraphOps.v`, `DigraphUnion.v`, `DigraphDiff.v` |
| `src/nng_core.c` | `Nng.v` | `NngGraph.v`, `NngSize.v`, `NngType.v`, `TypeCount.v`, `TypeRows.v`, `NngAssign.v`, `NngStage.v`, `StageKeep.v`, `NngEst.v` |
| `src/nng_findseeds.c` | `Seeds.v` | `SeedsProof.v`, `SeedsSort.v`, `SeedsExcl.v`, `SeedsTies.v` |
| `src/nng_batch_clustering.c` | `Batch.v` | `BatchProof.v`, `BatchOverflow.v` |
| `src/nng_clustering.c` | `NngClustering.v`, `Options.v` | `OptionsProof.v`, `ScProof.v`, `ScFacts.v`, `ScClaims.v`, `ScClaims2.v`, `ScClaims3.v`, `ScClaims4.v`, `ScDet.v`, `ScStable.v`, `Approx.v`, `Same.v`, `SameClaims.v`, `SameDist.v`, `SameOrder.v`, `SameInt.v`, `Reach.v`, `Renamed.v`, `Restated.v`, `Wider.v`, `Groups.v`, `Recovered.v`, `Added.v`, `SeedOrder.v` |
| `src/hierarchical_clustering.c` | `Hier.v` | `HierDiv.v`, `HierFind.v`, `HierRun.v`, `HierTop.v`, `HierClaims.v`, `HierClaims2.v`, `HierOrder.v`, `TwoGroups.v`, `Numbered.v`, `Same.v`, `SameHier.v`, `SameDist.v` |
| `src/digraph_debug.c`, `scc_get_compiled_version` | `DigraphDebug.v` | `DebugProof.v` |
| `examples/ann/ann_wrapper.cpp` | `Ann.v` | `AnnProof.v`, `AnnClaims.v`, `Sim.v` |
| `src/utilities.c` | `Options.v` (option checks), `Util.v` | `CheckProof.v`, `StatsProof.v`, `UtilClaims.v`, `Relabelled.v` |

Specifications used by the property theorems are in `GraphSpec.v`, `SeedSpec.v`,
`AssignSpec.v`, `BatchSpec.v`, `ScSpec.v`, `ClusSpec.v`, `HierSpec.v` and, for
the provider's contract, in `Spi.v`. They do not mention the model's functions.
`FailClaims.v`, `Report.v`, `ReportClaims.v`, `Oom.v` are about calls that fail,
`Asks.v`, `AsksSc.v`, `AsksClaims.v` about how much memory is asked for, `Pipe.v`
about statistics of the library's own clusterings, `PipeHier.v` about refining
them. `Base.v` fixes outcomes, arrays and loops, `Arrays.v` and `Mem.v` are the
reasoning about arrays and live blocks, and `SortIdx.v` is the sorting that is
compiled with SCC_STABLE_NNG. The property theorems are in the files `Prop_*.v`
and nowhere else. `Example1.v`, `Example2.v`, `ObjExample.v` have the concrete
cases.

## 4. Trusted base

* Coq 8.16.1's kernel, including its virtual machine (`vm_compute` is used for
  concrete runs).
* `Print Assumptions` under each property theorem says "Closed under the global
  context": no axioms, of the standard library or otherwise. std++ is used as a
  library of lemmas and adds none.
* The model's faithfulness to the C text, function by function, as cited in the
  comments, with the simplifications below.
* IEEE binary64 arithmetic with `FLT_EVAL_METHOD == 0` and no contraction, and
  a correctly rounded `sqrt`.
* `NDEBUG`: assertions are not evaluated. `SCC_STABLE_NNG` and
  `SCC_STABLE_FINDSEED` are fields of the configuration; theorems hold for each
  value unless they say which.
* A 64-bit `size_t`; `scc_PointIndex`, `iscc_ArcIndex` and `scc_Clabel` as in a
  configuration that satisfies `config_ok`, default or not.

Oracles (universally quantified in every theorem):

* allocation: which requests fail is a function of the request's number; block
  numbers are not reused;
* the search provider: any functions and any private state, under the contract
  `provider_ok` where a theorem has it; a call may always fail, unless a
  theorem says otherwise (`provider_reliable`);
* `qsort`: any function that returns a permutation, which may depend on the
  state; theorems that need it sorted say so (`sorts`);
* `log2` in the capacity of the split stack: any number;
* the ANN library (C68-C70): any two functions for `annkSearch` and
  `annkFRSearch` that satisfy `ann_exact`, that is find nearest neighbours in
  computed Euclidean distance, as with `SCC_ANN_EPS` 0 (a program of this kind
  is `brute` in `AnnClaims.v`).

### Simplifications

* Data sets and search lists are passed to the provider by value; search objects
  keep a copy. No caller changes them while an object lives.
* `check_data_set` and `num_data_points` of a provider are pure.
* An output array that a successful search does not fill is assumed filled as
  far as the contract says; elements the built-in maximum search does not write
  (NaN distances) are the outcome `Uninit`.
* Type labels are `nat` below the number of types, as option validation does not
  check them and `options_sane` demands it (finding F9).
* Sizes given to `malloc` are elements (the largest is recorded in `w_most`).
  Blocks have as many elements as were asked for; that `n * sizeof` does not wrap
  is C76 and C77, for 32-bit indices and a 64-bit `size_t`. With 64-bit indices it
  is not excluded. Blocks of one object count as one element of at most 64 bytes;
  no structure or array element of the library is larger.
* Offsets into arc arrays are unbounded `nat`; the checks against
  `ISCC_ARCINDEX_MAX` in the code are modelled, and `inc_pi` overflow of an
  in-degree counter is an error outcome (unreachable by C32).
* Label arrays supplied by the user are modelled as their first `n` elements.
* `init_cl_stack`: the sum for the capacity is compared before it wraps.
* `find_centers` keeps the old work arrays when the maximum search fails (their
  contents are not used afterwards).
* Uninitialised labels in a copied clustering stay uninitialised.
* `snprintf` fails only for results beyond `INT_MAX`.
* `__FILE__` strings are constants.

* In the ANN wrapper the search tree is one block that construction obtains and
  `delete` releases; `new` fails when `malloc` would.

### Not modelled

Checks compiled only without `NDEBUG`; the other examples; the ANN library itself;
tests; threads (the library has global state and is not thread-safe by design).

## 5. Findings

Statements that a reader of the API may expect and that are false of the code;
each is refuted by a theorem with a concrete run.

| | Property | What happens |
|---|---|---|
| F1 | C21 | hierarchical clustering of an existing clustering whose first cluster is the largest writes past `edge_store` (the largest size is computed from the second cluster on) |
| F2 | C19 | with `2 * size_constraint` coinciding points hierarchical clustering leaves a point without label and makes a cluster that is too small |
| F3 | C33 | all-zero type constraints pass validation and lead to a read of uninitialised memory |
| F5 | C36 | failures of the secondary assignment stage are dropped: `SCC_ER_OK` with points left out |
| F6 | C34 | `iscc_assign_by_nng` drops out-of-memory; the exclusion-graph seed finder and the batch method dereference NULL after failed allocations |
| F7 | C35 | a block is leaked on error paths of the exclusion-graph seed finder |
| F8 | C49 | `scc_set_dist_functions` returns false after replacing some functions |
| F10 | C40 | `size_constraint * batch_size` wraps at 32 bits; the buffer is too small and is written past its end |
| F11 | C17 | with an ordered graph the primary radius is not applied to `SCC_UM_CLOSEST_ASSIGNED` |
| F14 | C46 | with 64-bit point indices `num_data_points * num_dimensions` wraps |
| F16 | C37 | failing calls change the clustering |
| F18 | C47 | a successful `scc_sc_clustering` can erase or replace the latest error |
| F19 | C65 | compiled with `SCC_STABLE_NNG`, `SCC_UM_CLOSEST_ASSIGNED` picks the assigned neighbour with the lowest index, not the closest |
| F20 | C70 | in the ANN wrapper a closing brace is misplaced: with `int` point indices every search over all points without radius is done twice and leaks an array; failing allocations leak two other arrays |
| F21 | C73 | `iscc_digraphs_equal` (used by the tests only) does not check its allocation; texts that begin with `/` make `iscc_digraph_from_string` divide by zero, superfluous `/` make it write out of bounds |
| F22 | C77 | for a cluster of more than 2^31 points the size in bytes of the array of pairwise distances in `scc_get_clustering_stats` wraps, so that a block much too small can be obtained |
| | C25 | with overflowing distances `min_dist` is `DBL_MAX` |

Also seen: `2 * size_constraint` wraps for size constraints of 2^31 or more
(F4); type labels and primary points are not range-checked (F9); success does
not reset the latest error (F12); `scc_check_clustering` allocates
`num_types * num_clusters` counters without a check of the product (F17);
exchanging the numbers of two types can change the clusters unless compiled with
`SCC_STABLE_NNG` (C82); the secondary method also assigns primary points (C83).

## 6. Tests of the theorems

`seeded/LOG.jsonl` has one line for each wrong program tried: the definition
edited, the edit, the claim it breaks, and the theorems whose proofs failed.
"Failed" means: in a scratch copy with the edit, the theorem's proof rests on a
lemma that no longer compiles (found by admitting the failing lemmas one by one
and asking `Print Assumptions`).

`RepoTests.v` runs the model on the inputs of the project's own tests that record
a result: the hierarchical clusterings (4), the batch clusterings (16), the seed
sets (12) and the clustering statistics (2). `RepoTests2.v` adds the tests of
`src/nng_core.c` (31 graphs, 31 graphs with `SCC_STABLE_NNG`, 2 average
distances, 44 assignments) and of the seed finder with `SCC_STABLE_FINDSEED`
(10 seed sets, 3 bucket sorts). `RepoTests3.v` adds the error codes recorded for
`scc_sc_clustering` (41) and runs that `scc_check_clustering` must accept (11 of
the 172; the others were run once and agree, but take too long for every build).
`RepoTests4.v` has the tests of the three digraph files, as runs of the same calls
(20). All agree with what the tests expect from the C code. This is a test of the model, not of the theorems.
