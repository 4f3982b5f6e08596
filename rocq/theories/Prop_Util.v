(** Properties of scc_check_clustering and scc_get_clustering_stats: C08, C23-C25,
    C52 and their part of C38. *)

From stdpp Require Import prelude list sorting.
From Coq Require Import NArith ZArith Floats.SpecFloat.
From Verif Require Import Base World Mem Digraph DigraphRep Float FloatFacts Spi Dist Options Arrays GraphSpec SeedSpec AssignSpec SeedsExcl
  Nng NngGraph NngSize NngAssign NngStage TypeCount TypeRows Batch BatchSpec BatchProof OptionsProof NngClustering
  ScSpec ScProof ClusSpec ScFacts ScClaims ScClaims2 DistProof DistClaims Example1 FailClaims Hier HierTop HierClaims Util CheckProof StatsProof UtilClaims.

(** C08. [listed_covered]: no primary points were listed, or all are in clusters. *)
Theorem C08_result_checks : forall cfg P V ds n G D o c, call_ok cfg P V ds n G D o c ->
  forall w w' c', sc_clustering cfg P ds (Some o) (Some c) w = Ok ((ER_OK, Some c'), w') ->
  (2 <= o_num_types o -> (N.of_nat (o_num_types o * n) <= u64max)%N) -> listed_covered n o c' ->
  forall w1, exists ec out w2, check_clustering cfg (Some c') (Some o) true w1 = Ok ((ec, out), w2) /\ w_live w2 ≡ₚ w_live w1 /\
    ((ec = ER_OK /\ out = Some true) \/ (ec = ER_NO_MEMORY /\ ~ no_fail w1)).
Proof. exact result_checks. Qed.
Print Assumptions C08_result_checks.
(** Options that make [listed_covered] true. *)
Theorem C08_all_assigned : forall cfg P V ds n G D o c, call_ok cfg P V ds n G D o c ->
  forall w w' c', sc_clustering cfg P ds (Some o) (Some c) w = Ok ((ER_OK, Some c'), w') ->
  o_prim o = None \/ (solid P V ds n w /\
    ((o_pum o = UM_ANY_NEIGHBOR /\ o_srad o = RM_NO_RADIUS) \/ (is_closest (o_pum o) /\ no_radius o (o_prad o)))) -> listed_covered n o c'.
Proof. exact all_assigned_covered. Qed.
Print Assumptions C08_all_assigned.
Example ex_result : clustered pts (with_size 3 default_options) 3 [0; 1; 0; 0; 1; 2; 1; 0; 2; 2; 1; 0]%Z /\ o_prim (with_size 3 default_options) = None.
Proof. split; [apply clustered_by; by vm_compute|done]. Qed.

(** C23. *)
Theorem C23_check_decides : forall cfg c o, check_call cfg c o -> forall w, exists ec out w', check_clustering cfg (Some c) (Some o) true w = Ok ((ec, out), w') /\ w_live w' ≡ₚ w_live w /\
  ((ec = ER_OK /\ options_valid o (c_n c) /\ w_err w' = w_err w /\ exists b, out = Some b /\ (b = true <-> passes cfg c o)) \/
   (ec <> ER_OK /\ out = Some false /\ e_code (w_err w') = ec /\ ((~ options_valid o (c_n c) /\ options_error o (c_n c) ec) \/ (ec = ER_NO_MEMORY /\ ~ no_fail w)))).
Proof. exact check_decides. Qed.
Print Assumptions C23_check_decides.
Example ex_check : check_call default_config part3 (with_size 3 default_options) /\ check_call default_config part3 type_options /\
  check_call default_config part3 (with_primary [3] (with_size 3 default_options)) /\ 
  says (check_line part3 (with_size 3 default_options)) true /\ says (check_line part3 (with_size 4 default_options)) false /\
  says (check_line part3 type_options) true /\ says (check_line part3 (with_types [2; 2] (tlabels_of type_options) (with_size 4 default_options))) false /\
  says (check_line part3 (with_primary [2; 4] (with_size 3 default_options))) true /\ says (check_line part3 (with_primary [2; 3] (with_size 3 default_options))) false /\
  says (check_line old3 (with_size 3 default_options)) false.
Proof. exact check_example. Qed.

(** C24. *)
Theorem C24_counts : forall cfg P V ds n G D c, stats_call cfg P V ds n G D c ->
  forall w w' s, get_clustering_stats cfg P ds (Some c) true w = Ok ((ER_OK, Some s), w') ->
  st_n s = c_n c /\ st_k s = c_k c /\
  st_assigned s = length (filter (fun x => label_of c x <> Some (cl_na cfg)) (seq 0 (c_n c))) /\
  st_pop s = length (filter (fun j => cluster c j <> []) (seq 0 (c_k c))) /\
  (st_pop s = 0 -> st_minsize s = u64max /\ st_maxsize s = 0) /\
  (st_pop s <> 0 -> (exists j, j < c_k c /\ cluster c j <> [] /\ st_minsize s = N.of_nat (length (cluster c j))) /\
                    (exists j, j < c_k c /\ cluster c j <> [] /\ st_maxsize s = length (cluster c j))) /\
  (forall j, j < c_k c -> cluster c j <> [] -> (st_minsize s <= N.of_nat (length (cluster c j)))%N) /\
  (forall j, j < c_k c -> length (cluster c j) <= st_maxsize s).
Proof. exact stats_counts_all. Qed.
Print Assumptions C24_counts.
(** The call always returns; an error means that an allocation or a distance
    function failed, and zeros are written. *)
Theorem C24_returns : forall cfg P V ds n G D c, stats_call cfg P V ds n G D c ->
  forall w, exists ec out w', get_clustering_stats cfg P ds (Some c) true w = Ok ((ec, out), w') /\ w_live w' ≡ₚ w_live w /\
  ((ec = ER_OK /\ w_err w' = w_err w /\ exists s, out = Some s) \/
   (out = Some null_stats /\ e_code (w_err w') = ec /\ ((ec = ER_NO_MEMORY /\ ~ no_fail w) \/ (ec = ER_DIST_SEARCH_ERROR /\ ~ (no_fail w /\ provider_reliable P V ds n))))).
Proof. exact stats_run. Qed.
Print Assumptions C24_returns.
Example ex_stats : stats_callable pts old3 /\ exists s w', stats_line pts old3 (world_old (fun _ => false)) = Ok ((ER_OK, Some s), w') /\
  st_assigned s = 11 /\ st_pop s = 3 /\ st_minsize s = 3%N /\ st_maxsize s = 5 /\ st_min s = d_of_Z 1 /\ st_max s = d_of_Z 63 /\ w_live w' = [0].
Proof. exact stats_example. Qed.

(** C25. [mates c x y]: [x] and [y] are different points of a cluster. *)
Theorem C25_min : forall cfg P V ds n G D c, stats_call cfg P V ds n G D c ->
  forall w w' s, get_clustering_stats cfg P ds (Some c) true w = Ok ((ER_OK, Some s), w') -> finite_dists n D ->
  (forall j, j < c_k c -> length (cluster c j) <> 1) -> (exists x y, mates c x y) ->
  (exists x y, mates c x y /\ st_min s = D x y) /\ forall x y, mates c x y -> d_le (st_min s) (D x y) = true.
Proof. exact stats_min. Qed.
Print Assumptions C25_min.
Theorem C25_max : forall cfg P V ds n G D c, stats_call cfg P V ds n G D c ->
  forall w w' s, get_clustering_stats cfg P ds (Some c) true w = Ok ((ER_OK, Some s), w') -> finite_dists n D -> (exists x y, mates c x y) ->
  (exists x y, mates c x y /\ st_max s = D x y) /\ forall x y, mates c x y -> d_le (D x y) (st_max s) = true.
Proof. exact stats_max. Qed.
Print Assumptions C25_max.
Theorem C25_single : forall cfg P V ds n G D c, stats_call cfg P V ds n G D c ->
  forall w w' s, get_clustering_stats cfg P ds (Some c) true w = Ok ((ER_OK, Some s), w') -> finite_dists n D ->
  forall j, j < c_k c -> length (cluster c j) = 1 -> st_min s = d_zero.
Proof. exact stats_single. Qed.
Print Assumptions C25_single.
Example ex_extremes : finite_dists 12 (eucl (line pts)) /\ (forall j, j < c_k old3 -> length (cluster old3 j) <> 1) /\ mates old3 0 2.
Proof. exact extremes_example. Qed.
(** C25. With distances that are infinite the minimum is not right. *)
Theorem C25_infinite_refuted : exists l, let c := old_clustering 1 [0; 0]%Z in stats_callable l c /\ eucl (line l) 0 1 = S754_infinity false /\
  exists s w', stats_line l c (world_old (fun _ => false)) = Ok ((ER_OK, Some s), w') /\ st_min s = d_max /\ st_max s = S754_infinity false.
Proof. exact (ex_intro _ distant infinite_witness). Qed.
Print Assumptions C25_infinite_refuted.

(** C52. [cluster_pairs D c j] are the distances between the members of cluster
    [j], [multi c] the clusters with at least two members and [cpairs c j] the
    number of pairs in [j]; [total] adds in floating point. *)
Theorem C52_sums : forall cfg P V ds n G D c, stats_call cfg P V ds n G D c ->
  forall w w' s, get_clustering_stats cfg P ds (Some c) true w = Ok ((ER_OK, Some s), w') -> st_pop s <> 0 ->
  st_sum s = total c (csum D c) /\
  st_avgsize s = d_div (d_of_nat (st_assigned s)) (d_of_nat (st_pop s)) /\
  st_avgmin s = d_div (total c (fun j => dmin (cluster_pairs D c j))) (d_of_nat (st_pop s)) /\
  st_avgmax s = d_div (total c (fun j => dmax (cluster_pairs D c j))) (d_of_nat (st_pop s)) /\
  st_avgw s = d_div (total c (fun j => d_div (d_mul (d_of_nat (length (cluster c j))) (csum D c j)) (cpairs c j))) (d_of_nat (st_assigned s)) /\
  st_avgu s = d_div (total c (fun j => d_div (csum D c j) (cpairs c j))) (d_of_nat (st_pop s)).
Proof. exact stats_sums. Qed.
Print Assumptions C52_sums.

(** C38. *)
Theorem C38_check_reject : forall cfg cl opt w, is_initialized_clustering cfg cl = false \/ (exists c, cl = Some c /\ c_k c = 0) \/
  (exists c o, cl = Some c /\ opt = Some o /\ prim_readable o /\ ~ options_valid o (c_n c)) ->
  exists ec w', check_clustering cfg cl opt true w = Ok ((ec, Some false), w') /\ ec <> ER_OK /\ w_live w' ≡ₚ w_live w /\ e_code (w_err w') = ec.
Proof. exact check_reject. Qed.
Print Assumptions C38_check_reject.
Theorem C38_stats_reject : forall cfg P ds cl w,
  is_initialized_clustering cfg cl = false \/ p_check P ds = false \/ (exists c, cl = Some c /\ (c_k c = 0 \/ p_num P ds <> c_n c)) ->
  exists w', get_clustering_stats cfg P ds cl true w = Ok ((ER_INVALID_INPUT, Some null_stats), w') /\ w_live w' = w_live w /\ e_code (w_err w') = ER_INVALID_INPUT.
Proof. exact stats_reject. Qed.
Print Assumptions C38_stats_reject.
Example ex_reject : is_initialized_clustering default_config (Some old3) = true /\ ~ options_valid (with_size 13 default_options) (c_n old3) /\ p_num builtin (Some (line pts)) <> c_n old2.
Proof. split; [done|]. split; [intros []; simpl in *; lia|done]. Qed.
