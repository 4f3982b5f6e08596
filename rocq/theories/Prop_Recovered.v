(** C88: groups of points that are far apart are found. *)

From stdpp Require Import prelude list sorting.
From Coq Require Import NArith ZArith.
From Verif Require Import Base World Mem Float Spi Dist Options OptionsProof NngClustering ScSpec ScProof ClusSpec ScFacts ScClaims ScClaims2 DistProof Example1 Groups Recovered.

(** C88. [apart], [groups_of] and [types_within] as in C87; [groups_below n grp k]: each group has
    fewer than [k] points. *)
Theorem C88_found : forall cfg P V ds n G D o c w w' c' grp, call_ok cfg P V ds n G D o c -> solid P V ds n w ->
  apart n G grp -> groups_of n grp (o_size o) -> groups_below n grp (2 * o_size o) -> types_within n grp o -> o_srad o = RM_NO_RADIUS -> assigns_all o ->
  (forall p, o_prim o = Some p -> forall x, x < n -> exists v, v ∈ take (o_len_prim o) p /\ grp v = grp x) ->
  sc_clustering cfg P ds (Some o) (Some c) w = Ok ((ER_OK, Some c'), w') ->
  forall x, x < n -> exists i, i < c_k c' /\ forall y, y ∈ cluster c' i <-> y < n /\ grp y = grp x.
Proof. exact claim_recovered. Qed.
Print Assumptions C88_found.

Theorem C88_succeeds : forall cfg P V ds n G D o c w grp, call_ok cfg P V ds n G D o c -> solid P V ds n w -> args_valid cfg n o c -> fits cfg n o -> no_estimate o ->
  apart n G grp -> groups_of n grp (o_size o) -> groups_below n grp (2 * o_size o) -> types_within n grp o -> o_srad o = RM_NO_RADIUS -> assigns_all o ->
  (forall p, o_prim o = Some p -> forall x, x < n -> exists v, v ∈ take (o_len_prim o) p /\ grp v = grp x) ->
  exists c' w', sc_clustering cfg P ds (Some o) (Some c) w = Ok ((ER_OK, Some c'), w') /\
  forall x, x < n -> exists i, i < c_k c' /\ forall y, y ∈ cluster c' i <-> y < n /\ grp y = grp x.
Proof. exact claim_recovers. Qed.
Print Assumptions C88_succeeds.

(** At most one cluster for each group with other methods and radii. *)
Theorem C88_one_cluster : forall cfg P V ds n G D o c w w' c' grp, call_ok cfg P V ds n G D o c ->
  apart n G grp -> groups_of n grp (o_size o) -> groups_below n grp (2 * o_size o) -> types_within n grp o ->
  (is_closest (o_pum o) \/ is_closest (o_sum o) -> forall x, x < n -> exists v, v < n /\ grp v = grp x /\ seedable o n G v) ->
  sc_clustering cfg P ds (Some o) (Some c) w = Ok ((ER_OK, Some c'), w') ->
  forall i j x y, i < c_k c' -> j < c_k c' -> x ∈ cluster c' i -> y ∈ cluster c' j -> i = j <-> grp x = grp y.
Proof. exact claim_one_cluster. Qed.
Print Assumptions C88_one_cluster.

(** A group of twice the size constraint. *)
Theorem C88_large_refuted : exists l grp o k labels x y i j, apart (length l) (eucl_geo (line l)) grp /\ groups_of (length l) grp (o_size o) /\ groups_below (length l) grp (2 * o_size o + 1) /\
  types_within (length l) grp o /\ o_srad o = RM_NO_RADIUS /\ o_prim o = None /\ assigns_all o /\
  clustered l o k labels /\ labels !! x = Some (Z.of_nat i) /\ labels !! y = Some (Z.of_nat j) /\ i < k /\ j < k /\ i <> j /\ grp x = grp y.
Proof. exact recovered_large_refuted. Qed.
Print Assumptions C88_large_refuted.

(** Three groups, points with the same index modulo 3, of 4, 3 and 3 points. *)
Example ex_found : apart 10 (eucl_geo (line islands)) island /\ groups_of 10 island 3 /\ groups_below 10 island 6 /\
  assigns_all (o_isl SM_EXCLUSION_ORDER UM_ANY_NEIGHBOR UM_IGNORE 3) /\
  assigns_all (with_primary [3; 4; 8] (o_isl SM_LEXICAL UM_IGNORE UM_CLOSEST_SEED 3)) /\
  clustered islands (o_isl SM_EXCLUSION_ORDER UM_ANY_NEIGHBOR UM_IGNORE 3) 3 [2; 0; 1; 2; 0; 1; 2; 0; 1; 2]%Z /\
  clustered islands (with_primary [3; 4; 8] (o_isl SM_LEXICAL UM_IGNORE UM_CLOSEST_SEED 3)) 3 [0; 1; 2; 0; 1; 2; 0; 1; 2; 0]%Z.
Proof.
  split; [exact islands_apart|]. split; [by apply islands_groups|]. split; [apply groups_below_by; by vm_compute|].
  split; [by left|]. split; [right; right; split; [by right|by right]|]. split; apply clustered_by; by vm_compute.
Qed.
(** The further hypotheses of [C88_succeeds]. *)
Example ex_found_succeeds : let o := o_isl SM_EXCLUSION_ORDER UM_ANY_NEIGHBOR UM_IGNORE 3 in
  args_valid default_config 10 o (new_clustering 10) /\ fits default_config 10 o /\ no_estimate o.
Proof.
  intros o. split; [|split].
  - destruct (run_args islands o 3 [2; 0; 1; 2; 0; 1; 2; 0; 1; 2]%Z); [apply clustered_by; by vm_compute|done].
  - split; [by vm_compute|]. split; [by vm_compute|]. intros _. by vm_compute.
  - split; [right|left]; done.
Qed.
(** Two types, two points of the first and one of the second in every cluster. *)
Example ex_found_types : let o := o_isl_types SM_LEXICAL UM_ANY_NEIGHBOR UM_IGNORE [2; 1] 3 in
  types_within 10 island o /\ assigns_all o /\ clustered islands o 3 [0; 1; 2; 0; 1; 2; 0; 1; 2; 0]%Z.
Proof. intros o. split; [apply types_within_by; by vm_compute|]. split; [by left|]. apply clustered_by; by vm_compute. Qed.
