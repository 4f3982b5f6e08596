(** Property of scc_hierarchical_clustering: C85, only the order of distances matters. *)

From stdpp Require Import prelude list sorting.
From Coq Require Import NArith ZArith.
From Verif Require Import Base World Mem Float Spi Dist Options Arrays NngGraph NngStage Batch BatchProof NngClustering DigraphRep ClusSpec ScClaims DistProof Example1 FailClaims
  Hier HierDiv HierFind HierSpec HierRun HierTop HierClaims HierClaims2 ScDet SameDist HierOrder.

(** C85. [same_nearer]: the points are in the same order by the distance from any of
    them; [same_compare]: the distances of any two pairs of points compare alike. *)
Theorem C85_order : forall n G D G' D' k batch cfg1 P1 V1 ds1 qs1 log1 c1 w1 c1' w1' cfg2 P2 V2 ds2 qs2 log2 c2 w2 c2' w2',
  hier_call cfg1 P1 V1 ds1 n G D qs1 k c1 -> hier_call cfg2 P2 V2 ds2 n G' D' qs2 k c2 -> sorts qs1 -> sorts qs2 ->
  no_ties n G -> no_equal_dists n D -> same_nearer n G G' -> same_compare n D D' -> c_k c1 = c_k c2 -> (c_k c1 <> 0 -> cells c1 = cells c2) ->
  hierarchical_clustering cfg1 P1 qs1 log1 ds1 k batch (Some c1) w1 = Ok ((ER_OK, Some c1'), w1') ->
  hierarchical_clustering cfg2 P2 qs2 log2 ds2 k batch (Some c2) w2 = Ok ((ER_OK, Some c2'), w2') ->
  c_k c1' = c_k c2' /\ cells c1' = cells c2'.
Proof. exact hier_order. Qed.
Print Assumptions C85_order.

(** Other than with scc_sc_clustering (C79), the same order of the points by the distance
    from each of them is not enough: the farthest pair may be another one. *)
Theorem C85_order_of_each_point_refuted : exists d d' k c w c' w', data_hier default_config d 4 sort_edges k (new_clustering 4) /\ data_hier default_config d' 4 sort_edges k (new_clustering 4) /\
  no_ties 4 (eucl_geo d) /\ no_equal_dists 4 (eucl d) /\ same_nearer 4 (eucl_geo d) (eucl_geo d') /\
  hier_on d k = Ok ((ER_OK, Some c), w) /\ hier_on d' k = Ok ((ER_OK, Some c'), w') /\ c_k c = 2 /\ c_k c' = 2 /\ cells c !! 0 = cells c !! 3 /\ cells c' !! 0 <> cells c' !! 3.
Proof. exact order_refuted. Qed.
Print Assumptions C85_order_of_each_point_refuted.

(** ** Concrete case *)

(** Meets C85: powers of three and powers of four. *)
Example ex_order : hier_callable threes 2 (new_clustering 7) /\ hier_callable fours 2 (new_clustering 7) /\ sorts sort_edges /\
  no_ties 7 (eucl_geo (line threes)) /\ no_equal_dists 7 (eucl (line threes)) /\
  same_nearer 7 (eucl_geo (line threes)) (eucl_geo (line fours)) /\ same_compare 7 (eucl (line threes)) (eucl (line fours)) /\
  ends (hier_line threes 2 false (new_clustering 7) world0) ER_OK 3 [2; 0; 2; 1; 1; 2; 0]%Z 1 /\ ends (hier_line fours 2 false (new_clustering 7) world0) ER_OK 3 [2; 0; 2; 1; 1; 2; 0]%Z 1.
Proof. exact order_example. Qed.
