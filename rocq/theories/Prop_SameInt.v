(** C80: points with integer coordinates are clustered by their exact distances. *)

From stdpp Require Import prelude list sorting.
From Coq Require Import NArith ZArith Floats.SpecFloat.
From Verif Require Import Base World Mem Float Spi Dist Options Hier NngClustering ClusSpec ScClaims DistProof Example1 FailClaims HierSpec HierFind HierDiv HierRun HierTop HierClaims Same SameClaims SameHier SameDist SameOrder SameInt.

(** C80. [lattice d n z]: the coordinates are the integers [z i t], they and the squared
    distances are below 2^53. Squared distances are then computed without rounding. *)
Theorem C80_exact : forall d n z i j, data_ok d n -> lattice d n z -> i < n -> j < n -> sq_dist d i j = Ok (d_of_Z (zdist (z i) (z j) (ds_dim d))).
Proof. exact sq_dist_int. Qed.
Print Assumptions C80_exact.
Theorem C80_sc : forall cfg d d' n, data_ok d n -> data_ok d' n -> forall z z' o m c1 c2 w1 w2, lattice d n z -> lattice d' n z' -> isometric n (ds_dim d) (ds_dim d') z z' ->
  data_call cfg d n o c1 -> data_call cfg d' n o c2 -> unused cfg m c1 -> unused cfg m c2 -> no_fail w1 -> no_fail w2 ->
  exists ec e1 w1' e2 w2', sc_clustering cfg builtin (Some d) (Some o) (Some c1) w1 = Ok ((ec, Some e1), w1') /\ sc_clustering cfg builtin (Some d') (Some o) (Some c2) w2 = Ok ((ec, Some e2), w2') /\
    (ec = ER_OK -> c_k e1 = c_k e2 /\ cells e1 = cells e2).
Proof. exact int_repeat. Qed.
Print Assumptions C80_sc.
Theorem C80_hierarchical : forall cfg d d' n, data_ok d n -> data_ok d' n -> forall z z' qs log2cap k batch c1 c2 w1 w2, lattice d n z -> lattice d' n z' -> isometric n (ds_dim d) (ds_dim d') z z' ->
  qsort_repeatable qs -> data_hier cfg d n qs k c1 -> data_hier cfg d' n qs k c2 -> same_start c1 c2 ->
  (c_k c1 = 0 -> few_duplicates n (eucl d) (2 * k)) -> no_fail w1 -> no_fail w2 ->
  exists ec e1 w1' e2 w2', hierarchical_clustering cfg builtin qs log2cap (Some d) k batch (Some c1) w1 = Ok ((ec, Some e1), w1') /\
    hierarchical_clustering cfg builtin qs log2cap (Some d') k batch (Some c2) w2 = Ok ((ec, Some e2), w2') /\ (ec = ER_OK -> c_k e1 = c_k e2 /\ cells e1 = cells e2).
Proof. exact int_hier. Qed.
Print Assumptions C80_hierarchical.
(** Moving all points by the same vector and reordering the coordinates keep the
    distances. *)
Theorem C80_moved : forall n m v z, isometric n m m z (fun i t => (z i t + v t)%Z).
Proof. exact moved_isometric. Qed.
Print Assumptions C80_moved.
Theorem C80_permuted : forall n m p z, p <$> seq 0 m ≡ₚ seq 0 m -> isometric n m m z (fun i t => z i (p t)).
Proof. exact permuted_isometric. Qed.
Print Assumptions C80_permuted.
(** A larger scale, for the radii too. *)
Theorem C80_multiple : forall cfg d d' n, data_ok d n -> data_ok d' n -> forall z k o x y u m c1 c2 w1 w2,
  lattice d n z -> lattice d' n (multiple k z) -> ds_dim d' = ds_dim d -> (0 < k)%Z -> no_estimate o ->
  (o_srad o = RM_USE_SUPPLIED -> radius_times k (o_srad_val o) x) -> (o_prad o = RM_USE_SUPPLIED -> radius_times k (o_prad_val o) y) -> (o_2rad o = RM_USE_SUPPLIED -> radius_times k (o_2rad_val o) u) ->
  data_call cfg d n o c1 -> data_call cfg d' n (set_radii o x y u) c2 -> unused cfg m c1 -> unused cfg m c2 -> no_fail w1 -> no_fail w2 ->
  exists ec e1 w1' e2 w2', sc_clustering cfg builtin (Some d) (Some o) (Some c1) w1 = Ok ((ec, Some e1), w1') /\
    sc_clustering cfg builtin (Some d') (Some (set_radii o x y u)) (Some c2) w2 = Ok ((ec, Some e2), w2') /\ (ec = ER_OK -> c_k e1 = c_k e2 /\ cells e1 = cells e2).
Proof. exact int_multiple. Qed.
Print Assumptions C80_multiple.

Example ex_C80_sc : lattice (plane spread) 12 (flat spread) /\ lattice (plane turned) 12 (flat turned) /\ isometric 12 2 2 (flat spread) (flat turned) /\
  data_call default_config (plane spread) 12 excl_options (new_clustering 12) /\ data_call default_config (plane turned) 12 excl_options (new_clustering 12) /\
  ends (run_on (plane spread) excl_options) ER_OK 2 [1; 0; 1; 1; 0; 0; 0; 1; 0; 0; 0; 1]%Z 1 /\ ends (run_on (plane turned) excl_options) ER_OK 2 [1; 0; 1; 1; 0; 0; 0; 1; 0; 0; 0; 1]%Z 1.
Proof. exact int_example. Qed.
Example ex_C80_hierarchical : data_hier default_config (plane spread) 12 sort_edges 2 (new_clustering 12) /\ data_hier default_config (plane turned) 12 sort_edges 2 (new_clustering 12) /\
  few_duplicates 12 (eucl (plane spread)) (2 * 2) /\ qsort_repeatable sort_edges /\
  ends (hier_on (plane spread) 2) ER_OK 5 [4; 2; 4; 4; 1; 0; 2; 3; 0; 0; 1; 3]%Z 1 /\ ends (hier_on (plane turned) 2) ER_OK 5 [4; 2; 4; 4; 1; 0; 2; 3; 0; 0; 1; 3]%Z 1.
Proof. exact int_hier_example. Qed.
Example ex_C80_multiple : lattice (plane spread) 12 (flat spread) /\ lattice (plane threefold) 12 (multiple 3 (flat spread)) /\ no_estimate excl_options /\
  o_srad excl_options = RM_USE_SUPPLIED /\ radius_times 3 (o_srad_val excl_options) (d_of_Z 9) /\ o_prad excl_options = RM_USE_SUPPLIED /\ radius_times 3 (o_prad_val excl_options) (d_of_Z 6) /\ o_2rad excl_options <> RM_USE_SUPPLIED /\
  data_call default_config (plane threefold) 12 threefold_options (new_clustering 12) /\ ends (run_on (plane threefold) threefold_options) ER_OK 2 [1; 0; 1; 1; 0; 0; 0; 1; 0; 0; 0; 1]%Z 1.
Proof. exact multiple_example. Qed.
