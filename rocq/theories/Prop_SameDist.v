(** C78: clusterings depend on the distances between the points only. *)

From stdpp Require Import prelude list sorting.
From Coq Require Import NArith ZArith Floats.SpecFloat.
From Verif Require Import Base World Mem Float Spi Dist Options Hier NngClustering ClusSpec ScClaims DistProof Example1 FailClaims HierSpec HierFind HierDiv HierRun HierTop HierClaims Same SameClaims SameHier SameDist.

(** C78. [same_distances] is equality of the squared distances of all pairs. *)
Theorem C78_sc : forall cfg d d' n, data_ok d n -> data_ok d' n -> same_distances d d' n ->
  forall o m c1 c2 w1 w2, data_call cfg d n o c1 -> data_call cfg d' n o c2 -> unused cfg m c1 -> unused cfg m c2 -> no_fail w1 -> no_fail w2 ->
  exists ec e1 w1' e2 w2', sc_clustering cfg builtin (Some d) (Some o) (Some c1) w1 = Ok ((ec, Some e1), w1') /\ sc_clustering cfg builtin (Some d') (Some o) (Some c2) w2 = Ok ((ec, Some e2), w2') /\
    (ec = ER_OK -> c_k e1 = c_k e2 /\ cells e1 = cells e2).
Proof. exact dist_repeat. Qed.
Print Assumptions C78_sc.
Theorem C78_hierarchical : forall cfg d d' n, data_ok d n -> data_ok d' n -> same_distances d d' n ->
  forall qs log2cap k batch c1 c2 w1 w2, qsort_repeatable qs -> data_hier cfg d n qs k c1 -> data_hier cfg d' n qs k c2 -> same_start c1 c2 ->
  (c_k c1 = 0 -> few_duplicates n (eucl d) (2 * k)) -> no_fail w1 -> no_fail w2 ->
  exists ec e1 w1' e2 w2', hierarchical_clustering cfg builtin qs log2cap (Some d) k batch (Some c1) w1 = Ok ((ec, Some e1), w1') /\
    hierarchical_clustering cfg builtin qs log2cap (Some d') k batch (Some c2) w2 = Ok ((ec, Some e2), w2') /\ (ec = ER_OK -> c_k e1 = c_k e2 /\ cells e1 = cells e2).
Proof. exact dist_hier. Qed.
Print Assumptions C78_hierarchical.
(** Reversing the sign of coordinates, adding one that is the same for all points, and
    exchanging the two coordinates of points of the plane keep all distances, rounding
    included. *)
Theorem C78_mirrored : forall s d d' n, mirrored s d d' n -> same_distances d d' n.
Proof. exact mirrored_same. Qed.
Print Assumptions C78_mirrored.
Theorem C78_padded : forall v d d' n, data_ok d n -> d_is_finite v = true -> padded v d d' n -> same_distances d d' n.
Proof. exact padded_same. Qed.
Print Assumptions C78_padded.
Theorem C78_exchanged : forall d d' n, data_ok d n -> exchanged d d' n -> same_distances d d' n.
Proof. exact exchanged_same. Qed.
Print Assumptions C78_exchanged.
(** Moving all points by the same vector does not: the clusters may be others. *)
Theorem C78_moved_refuted : exists v l l' o ec c w ec' c' w', (forall t, d_is_finite (v t) = true) /\ callable l o /\ callable l' o /\ moved v (line l) (line l') (length l) /\
  cluster_line l o world0 = Ok ((ec, Some c), w) /\ cluster_line l' o world0 = Ok ((ec', Some c'), w') /\ ec = ER_OK /\ ec' = ER_OK /\ cells c <> cells c'.
Proof. exact moved_refuted. Qed.
Print Assumptions C78_moved_refuted.

Example ex_C78 : mirrored (fun _ => true) (line pts) pts_mirrored 12 /\ padded (d_of_Z 7) (line pts) (plane pts_padded) 12 /\ exchanged (plane pts_padded) (plane pts_exchanged) 12 /\
  data_ok (line pts) 12 /\ data_ok pts_mirrored 12 /\ data_ok (plane pts_padded) 12 /\ data_ok (plane pts_exchanged) 12.
Proof. exact kept_example. Qed.
Example ex_C78_sc : data_call default_config (plane pts_padded) 12 excl_options (new_clustering 12) /\ data_call default_config (plane pts_exchanged) 12 excl_options (new_clustering 12) /\
  same_distances (plane pts_padded) (plane pts_exchanged) 12 /\
  ends (run_on (line pts) excl_options) ER_OK 2 [1; 0; 1; 1; 0; 0; 0; 1; 0; 0; 0; 1]%Z 1 /\ ends (run_on pts_mirrored excl_options) ER_OK 2 [1; 0; 1; 1; 0; 0; 0; 1; 0; 0; 0; 1]%Z 1 /\
  ends (run_on (plane pts_padded) excl_options) ER_OK 2 [1; 0; 1; 1; 0; 0; 0; 1; 0; 0; 0; 1]%Z 1 /\ ends (run_on (plane pts_exchanged) excl_options) ER_OK 2 [1; 0; 1; 1; 0; 0; 0; 1; 0; 0; 0; 1]%Z 1.
Proof. exact sc_example. Qed.
Example ex_C78_hierarchical : data_hier default_config (plane pts_padded) 12 sort_edges 2 (new_clustering 12) /\ data_hier default_config (plane pts_exchanged) 12 sort_edges 2 (new_clustering 12) /\
  same_distances (plane pts_padded) (plane pts_exchanged) 12 /\ few_duplicates 12 (eucl (plane pts_padded)) (2 * 2) /\
  ends (hier_on (plane pts_padded) 2) ER_OK 5 [4; 2; 4; 3; 1; 0; 2; 3; 0; 0; 1; 4]%Z 1 /\ ends (hier_on (plane pts_exchanged) 2) ER_OK 5 [4; 2; 4; 3; 1; 0; 2; 3; 0; 0; 1; 4]%Z 1.
Proof. exact hier_example. Qed.
