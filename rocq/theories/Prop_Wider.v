(** C84: wider radii of the last stage only add points. *)

From stdpp Require Import prelude list sorting.
From Coq Require Import NArith ZArith.
From Verif Require Import Base World Mem Float Spi Dist Options OptionsProof NngClustering ScSpec ScProof ClusSpec ScClaims ScClaims2 ScDet DistProof Example1 Reach Restated Wider.

(** C84. [wider n G r r']: points within [r] are within [r']. [avg] is the estimated
    average distance. *)
Theorem C84_secondary : forall cfg n G D o m z P1 V1 ds1 c1 w1 c1' w1' P2 V2 ds2 c2 w2 c2' w2',
  (forall avg, wider n G (radius_of (o_sum o) (o_2rad o) (o_2rad_val o) (srad_of o) avg) (radius_of (o_sum o) m z (srad_of o) avg)) ->
  call_ok cfg P1 V1 ds1 n G D o c1 -> call_ok cfg P2 V2 ds2 n G D (other_2rad o m z) c2 -> solid P1 V1 ds1 n w1 -> solid P2 V2 ds2 n w2 ->
  no_ties n G -> fixed_order cfg (o_seed o) -> o_seed o <> SM_BATCHES ->
  sc_clustering cfg P1 ds1 (Some o) (Some c1) w1 = Ok ((ER_OK, Some c1'), w1') ->
  sc_clustering cfg P2 ds2 (Some (other_2rad o m z)) (Some c2) w2 = Ok ((ER_OK, Some c2'), w2') ->
  c_k c1' = c_k c2' /\ forall x, x < n -> ~ unlabelled cfg c1' x -> label_of c2' x = label_of c1' x.
Proof. exact claim_wider_2rad. Qed.
Print Assumptions C84_secondary.

Theorem C84_primary : forall cfg n G D o m z P1 V1 ds1 c1 w1 c1' w1' P2 V2 ds2 c2 w2 c2' w2', o_sum o = UM_IGNORE ->
  (forall avg, wider n G (radius_of (o_pum o) (o_prad o) (o_prad_val o) (srad_of o) avg) (radius_of (o_pum o) m z (srad_of o) avg)) ->
  call_ok cfg P1 V1 ds1 n G D o c1 -> call_ok cfg P2 V2 ds2 n G D (other_prad o m z) c2 -> solid P1 V1 ds1 n w1 -> solid P2 V2 ds2 n w2 ->
  no_ties n G -> fixed_order cfg (o_seed o) -> o_seed o <> SM_BATCHES ->
  sc_clustering cfg P1 ds1 (Some o) (Some c1) w1 = Ok ((ER_OK, Some c1'), w1') ->
  sc_clustering cfg P2 ds2 (Some (other_prad o m z)) (Some c2) w2 = Ok ((ER_OK, Some c2'), w2') ->
  c_k c1' = c_k c2' /\ forall x, x < n -> ~ unlabelled cfg c1' x -> label_of c2' x = label_of c1' x.
Proof. exact claim_wider_prad. Qed.
Print Assumptions C84_primary.

(** With a secondary stage a wider primary radius can move points. *)
Theorem C84_moved_refuted : exists l o m v k labels labels', no_ties (length l) (eucl_geo (line l)) /\ fixed_order default_config (o_seed o) /\
  (forall avg, wider (length l) (eucl_geo (line l)) (radius_of (o_pum o) (o_prad o) (o_prad_val o) (srad_of o) avg) (radius_of (o_pum o) m v (srad_of o) avg)) /\
  clustered l o k labels /\ clustered l (other_prad o m v) k labels' /\ (exists x i j, labels !! x = Some i /\ i <> 4294967295%Z /\ labels' !! x = Some j /\ i <> j).
Proof. exact wider_refuted. Qed.
Print Assumptions C84_moved_refuted.

Notation NA := 4294967295%Z.
(** Secondary radius 18 or 19; point 7 is 19 from the seed of its cluster. *)
Example ex_wider_secondary : no_ties 8 (eucl_geo (line mark)) /\
  (forall avg, wider 8 (eucl_geo (line mark)) (radius_of UM_CLOSEST_SEED RM_USE_SUPPLIED (d_of_Z 18) (Some (d_of_Z 9)) avg) (radius_of UM_CLOSEST_SEED RM_USE_SUPPLIED (d_of_Z 19) (Some (d_of_Z 9)) avg)) /\
  clustered mark (o_second UM_CLOSEST_SEED) 2 [0; 0; 1; 0; 1; 1; 1; NA]%Z /\
  clustered mark (other_2rad (o_second UM_CLOSEST_SEED) RM_USE_SUPPLIED (d_of_Z 19)) 2 [0; 0; 1; 0; 1; 1; 1; 1]%Z.
Proof. split; [exact mark_no_ties|]. split; [intros avg; apply wider_by; by vm_compute|]. split; apply clustered_by; by vm_compute. Qed.
(** Primary radius 9 or 10. *)
Example ex_wider_primary :
  (forall avg, wider 8 (eucl_geo (line mark)) (radius_of UM_CLOSEST_ASSIGNED RM_USE_SUPPLIED (d_of_Z 9) (Some (d_of_Z 9)) avg) (radius_of UM_CLOSEST_ASSIGNED RM_USE_SUPPLIED (d_of_Z 10) (Some (d_of_Z 9)) avg)) /\
  other_prad (o_first 9) RM_USE_SUPPLIED (d_of_Z 10) = o_first 10 /\
  clustered mark (o_first 9) 2 [0; 0; 1; 0; 1; NA; 1; NA]%Z /\ clustered mark (o_first 10) 2 [0; 0; 1; 0; 1; 1; 1; NA]%Z.
Proof. split; [intros avg; apply wider_by; by vm_compute|]. split; [done|]. split; apply clustered_by; by vm_compute. Qed.
