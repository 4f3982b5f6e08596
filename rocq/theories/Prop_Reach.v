(** C81: radii matter only through the pairs of points within them. *)

From stdpp Require Import prelude list sorting.
From Coq Require Import NArith ZArith.
From Verif Require Import Base World Mem Float Spi Dist Options GraphSpec OptionsProof NngClustering ScSpec ScProof ClusSpec ScClaims ScClaims2 ScDet DistProof Example1 Reach.

(** C81. [same_reaches n G o o']: the options differ in the radii only, and these
    have the same pairs of points within them. *)
Theorem C81_reach : forall cfg n G D o o' P1 V1 ds1 c1 w1 c1' w1' P2 V2 ds2 c2 w2 c2' w2', same_reaches n G o o' ->
  call_ok cfg P1 V1 ds1 n G D o c1 -> call_ok cfg P2 V2 ds2 n G D o' c2 -> solid P1 V1 ds1 n w1 -> solid P2 V2 ds2 n w2 ->
  no_ties n G -> fixed_order cfg (o_seed o) ->
  sc_clustering cfg P1 ds1 (Some o) (Some c1) w1 = Ok ((ER_OK, Some c1'), w1') ->
  sc_clustering cfg P2 ds2 (Some o') (Some c2) w2 = Ok ((ER_OK, Some c2'), w2') ->
  c_k c1' = c_k c2' /\ forall x, x < n -> label_of c1' x = label_of c2' x.
Proof. exact claim_reach. Qed.
Print Assumptions C81_reach.

(** Success of the one call implies success of the other. *)
Theorem C81_reach_succeeds : forall cfg n G D o o' P1 V1 ds1 c1 w1 c1' w1' P2 V2 ds2 c2 w2, same_reaches n G o o' ->
  call_ok cfg P1 V1 ds1 n G D o c1 -> call_ok cfg P2 V2 ds2 n G D o' c2 -> solid P1 V1 ds1 n w1 -> solid P2 V2 ds2 n w2 ->
  sc_clustering cfg P1 ds1 (Some o) (Some c1) w1 = Ok ((ER_OK, Some c1'), w1') ->
  args_valid cfg n o' c2 -> fits cfg n o' -> no_estimate o' ->
  exists c2' w2', sc_clustering cfg P2 ds2 (Some o') (Some c2) w2 = Ok ((ER_OK, Some c2'), w2').
Proof. exact claim_reach_ok. Qed.
Print Assumptions C81_reach_succeeds.

(** A supplied radius that no distance exceeds is no radius. *)
Theorem C81_wide : forall cfg n G D o m1 x m2 y m3 z P1 V1 ds1 c1 w1 c1' w1' P2 V2 ds2 c2 w2 c2' w2',
  widened n G (o_srad o) (o_srad_val o) m1 x -> widened n G (o_prad o) (o_prad_val o) m2 y -> widened n G (o_2rad o) (o_2rad_val o) m3 z ->
  call_ok cfg P1 V1 ds1 n G D o c1 -> call_ok cfg P2 V2 ds2 n G D (other_radii o m1 x m2 y m3 z) c2 -> solid P1 V1 ds1 n w1 -> solid P2 V2 ds2 n w2 ->
  no_ties n G -> fixed_order cfg (o_seed o) ->
  sc_clustering cfg P1 ds1 (Some o) (Some c1) w1 = Ok ((ER_OK, Some c1'), w1') ->
  sc_clustering cfg P2 ds2 (Some (other_radii o m1 x m2 y m3 z)) (Some c2) w2 = Ok ((ER_OK, Some c2'), w2') ->
  c_k c1' = c_k c2' /\ forall x, x < n -> label_of c1' x = label_of c2' x.
Proof. exact claim_wide. Qed.
Print Assumptions C81_wide.

(** SCC_RM_USE_SEED_RADIUS is the method and radius of the seed stage. *)
Theorem C81_seed_radius : forall cfg n G D o P1 V1 ds1 c1 w1 c1' w1' P2 V2 ds2 c2 w2 c2' w2',
  call_ok cfg P1 V1 ds1 n G D o c1 -> call_ok cfg P2 V2 ds2 n G D (written_out o) c2 -> solid P1 V1 ds1 n w1 -> solid P2 V2 ds2 n w2 ->
  no_ties n G -> fixed_order cfg (o_seed o) ->
  sc_clustering cfg P1 ds1 (Some o) (Some c1) w1 = Ok ((ER_OK, Some c1'), w1') ->
  sc_clustering cfg P2 ds2 (Some (written_out o)) (Some c2) w2 = Ok ((ER_OK, Some c2'), w2') ->
  c_k c1' = c_k c2' /\ forall x, x < n -> label_of c1' x = label_of c2' x.
Proof. exact claim_written_out. Qed.
Print Assumptions C81_seed_radius.

Notation NA := 4294967295%Z.
(** Seed radius 4 or 5 and primary radius 12 or 13: no two points are 5 or 13 apart.
    With primary radius 29 there is another result. *)
Example ex_reach : no_ties 8 (eucl_geo (line powers8)) /\
  same_reaches 8 (eucl_geo (line powers8)) (reach_options RM_USE_SUPPLIED 4 RM_USE_SUPPLIED 12 RM_NO_RADIUS 0) (reach_options RM_USE_SUPPLIED 5 RM_USE_SUPPLIED 13 RM_NO_RADIUS 0) /\
  clustered powers8 (reach_options RM_USE_SUPPLIED 4 RM_USE_SUPPLIED 12 RM_NO_RADIUS 0) 2 [1; 1; 0; 0; 0; NA; NA; NA]%Z /\
  clustered powers8 (reach_options RM_USE_SUPPLIED 5 RM_USE_SUPPLIED 13 RM_NO_RADIUS 0) 2 [1; 1; 0; 0; 0; NA; NA; NA]%Z /\
  clustered powers8 (reach_options RM_USE_SUPPLIED 5 RM_USE_SUPPLIED 29 RM_NO_RADIUS 0) 2 [1; 1; 0; 0; 0; 0; NA; NA]%Z.
Proof.
  split; [exact powers8_no_ties|]. split; [|split; [|split]; apply clustered_by; by vm_compute].
  split; [by eexists _, _, _, _, _, _|]. split; [apply reach_by; by vm_compute|]. intros avg. split; apply reach_by; by vm_compute.
Qed.
(** The largest distance is 127. *)
Example ex_wide : widened 8 (eucl_geo (line powers8)) RM_NO_RADIUS (d_of_Z 0) RM_USE_SUPPLIED (d_of_Z 127) /\
  other_radii (reach_options RM_USE_SUPPLIED 5 RM_NO_RADIUS 0 RM_NO_RADIUS 0) RM_USE_SUPPLIED (d_of_Z 5) RM_USE_SUPPLIED (d_of_Z 127) RM_NO_RADIUS (d_of_Z 0) =
    reach_options RM_USE_SUPPLIED 5 RM_USE_SUPPLIED 127 RM_NO_RADIUS 0 /\
  clustered powers8 (reach_options RM_USE_SUPPLIED 5 RM_NO_RADIUS 0 RM_NO_RADIUS 0) 2 [1; 1; 0; 0; 0; 0; 0; 0]%Z /\
  clustered powers8 (reach_options RM_USE_SUPPLIED 5 RM_USE_SUPPLIED 127 RM_NO_RADIUS 0) 2 [1; 1; 0; 0; 0; 0; 0; 0]%Z.
Proof.
  split; [|split; [done|split; apply clustered_by; by vm_compute]]. right. split; [done|]. split; [done|].
  assert (same_reach 8 (eucl_geo (line powers8)) (Some (d_of_Z 127)) None) as H by (apply reach_by; by vm_compute). exact H.
Qed.
Example ex_seed_radius : written_out (reach_options RM_USE_SUPPLIED 4 RM_USE_SEED_RADIUS 0 RM_NO_RADIUS 0) = reach_options RM_USE_SUPPLIED 4 RM_USE_SUPPLIED 4 RM_NO_RADIUS 0 /\
  clustered powers8 (reach_options RM_USE_SUPPLIED 4 RM_USE_SEED_RADIUS 0 RM_NO_RADIUS 0) 2 [1; 1; 0; 0; NA; NA; NA; NA]%Z /\
  clustered powers8 (reach_options RM_USE_SUPPLIED 4 RM_USE_SUPPLIED 4 RM_NO_RADIUS 0) 2 [1; 1; 0; 0; NA; NA; NA; NA]%Z.
Proof. split; [done|]. split; apply clustered_by; by vm_compute. Qed.
