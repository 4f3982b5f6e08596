(** C89: methods for unassigned points only add points to the clusters. *)

From stdpp Require Import prelude list sorting.
From Coq Require Import NArith ZArith.
From Verif Require Import Base World Mem Float Spi Dist Options OptionsProof NngClustering ScSpec ScProof ClusSpec ScClaims ScClaims2 ScDet DistProof Example1 Added.

(** C89. [other_methods o pum sum m2 y m3 z] has other methods for unassigned points
    and other radii of these. *)
Theorem C89_methods : forall cfg n G D o pum sum m2 y m3 z P1 V1 ds1 c1 w1 c1' w1' P2 V2 ds2 c2 w2 c2' w2', let o' := other_methods o pum sum m2 y m3 z in
  o_pum o = UM_IGNORE -> o_sum o = UM_IGNORE ->
  call_ok cfg P1 V1 ds1 n G D o c1 -> call_ok cfg P2 V2 ds2 n G D o' c2 -> no_ties n G -> fixed_order cfg (o_seed o) ->
  sc_clustering cfg P1 ds1 (Some o) (Some c1) w1 = Ok ((ER_OK, Some c1'), w1') ->
  sc_clustering cfg P2 ds2 (Some o') (Some c2) w2 = Ok ((ER_OK, Some c2'), w2') ->
  c_k c1' = c_k c2' /\ forall x, x < n -> ~ unlabelled cfg c1' x -> label_of c2' x = label_of c1' x.
Proof. exact claim_added. Qed.
Print Assumptions C89_methods.

Theorem C89_secondary : forall cfg n G D o sum m3 z P1 V1 ds1 c1 w1 c1' w1' P2 V2 ds2 c2 w2 c2' w2', let o' := other_secondary o sum m3 z in
  o_sum o = UM_IGNORE ->
  call_ok cfg P1 V1 ds1 n G D o c1 -> call_ok cfg P2 V2 ds2 n G D o' c2 -> solid P1 V1 ds1 n w1 -> solid P2 V2 ds2 n w2 -> no_ties n G -> fixed_order cfg (o_seed o) -> o_seed o <> SM_BATCHES ->
  sc_clustering cfg P1 ds1 (Some o) (Some c1) w1 = Ok ((ER_OK, Some c1'), w1') ->
  sc_clustering cfg P2 ds2 (Some o') (Some c2) w2 = Ok ((ER_OK, Some c2'), w2') ->
  c_k c1' = c_k c2' /\ forall x, x < n -> ~ unlabelled cfg c1' x -> label_of c2' x = label_of c1' x.
Proof. exact claim_added_secondary. Qed.
Print Assumptions C89_secondary.

(** Points added by one primary method can be in other clusters with another. *)
Theorem C89_moved_refuted : exists l o pum sum m2 y m3 z k labels labels', no_ties (length l) (eucl_geo (line l)) /\ fixed_order default_config (o_seed o) /\
  clustered l o k labels /\ clustered l (other_methods o pum sum m2 y m3 z) k labels' /\
  (exists x i j, labels !! x = Some i /\ i <> 4294967295%Z /\ labels' !! x = Some j /\ j <> 4294967295%Z /\ i <> j).
Proof. exact added_moved_refuted. Qed.
Print Assumptions C89_moved_refuted.

Notation NA := 4294967295%Z.
(** Point 4 is left out, added by its neighbours or added by the seeds. *)
Example ex_added : no_ties 5 (eucl_geo (line between)) /\
  clustered between (o_between SM_LEXICAL UM_IGNORE UM_IGNORE) 2 [0; 0; 1; 1; NA]%Z /\
  clustered between (other_methods (o_between SM_LEXICAL UM_IGNORE UM_IGNORE) UM_ANY_NEIGHBOR UM_IGNORE RM_NO_RADIUS (d_of_Z 0) RM_NO_RADIUS (d_of_Z 0)) 2 [0; 0; 1; 1; 0]%Z /\
  clustered between (other_methods (o_between SM_LEXICAL UM_IGNORE UM_IGNORE) UM_CLOSEST_SEED UM_IGNORE RM_NO_RADIUS (d_of_Z 0) RM_NO_RADIUS (d_of_Z 0)) 2 [0; 0; 1; 1; 1]%Z.
Proof. split; [exact between_no_ties|]. do 2 (split; [apply clustered_by; by vm_compute|]). apply clustered_by; by vm_compute. Qed.
Example ex_added_batches : clustered between (o_between SM_BATCHES UM_IGNORE UM_IGNORE) 2 [0; 0; 1; 1; NA]%Z /\
  clustered between (other_methods (o_between SM_BATCHES UM_IGNORE UM_IGNORE) UM_ANY_NEIGHBOR UM_IGNORE RM_USE_SEED_RADIUS (d_of_Z 0) RM_USE_SEED_RADIUS (d_of_Z 0)) 2 [0; 0; 1; 1; 0]%Z.
Proof. split; apply clustered_by; by vm_compute. Qed.
(** Point 5 is not a primary point. *)
Example ex_added_secondary : no_ties 6 (eucl_geo (line aside)) /\ clustered aside (o_aside UM_IGNORE) 2 [0; 0; 1; 1; 0; NA]%Z /\
  clustered aside (other_secondary (o_aside UM_IGNORE) UM_CLOSEST_SEED RM_NO_RADIUS (d_of_Z 0)) 2 [0; 0; 1; 1; 0; 1]%Z.
Proof. split; [exact aside_no_ties|]. split; apply clustered_by; by vm_compute. Qed.
