(** C87: groups of points that are far apart are not mixed. *)

From stdpp Require Import prelude list sorting.
From Coq Require Import NArith ZArith.
From Verif Require Import Base World Mem Float Spi Dist Options OptionsProof NngClustering ScSpec ScProof ClusSpec ScFacts ScClaims DistProof Example1 Groups.

(** C87. [apart n G grp]: no point is as close to a point of another group as to a
    point of its own; [groups_of n grp k]: each group has at least [k] points;
    [types_within n grp o]: and as many of each type as the constraint for it. *)
Theorem C87_neighbours : forall cfg P V ds n G D o c w w' c' grp,
  call_ok cfg P V ds n G D o c -> apart n G grp -> groups_of n grp (o_size o) -> types_within n grp o ->
  ~ is_closest (o_pum o) -> ~ is_closest (o_sum o) ->
  sc_clustering cfg P ds (Some o) (Some c) w = Ok ((ER_OK, Some c'), w') ->
  forall i x y, i < c_k c' -> x ∈ cluster c' i -> y ∈ cluster c' i -> grp x = grp y.
Proof. exact claim_groups_any. Qed.
Print Assumptions C87_neighbours.

(** All methods, without a seed radius. *)
Theorem C87_closest : forall cfg P V ds n G D o c w w' c' grp,
  call_ok cfg P V ds n G D o c -> apart n G grp -> groups_of n grp (o_size o) -> types_within n grp o ->
  o_srad o = RM_NO_RADIUS -> (forall p, o_prim o = Some p -> forall x, x < n -> exists v, v ∈ take (o_len_prim o) p /\ grp v = grp x) ->
  sc_clustering cfg P ds (Some o) (Some c) w = Ok ((ER_OK, Some c'), w') ->
  forall i x y, i < c_k c' -> x ∈ cluster c' i -> y ∈ cluster c' i -> grp x = grp y.
Proof. exact claim_groups_closest. Qed.
Print Assumptions C87_closest.

(** All methods and radii, if each group has a point that can be a seed. *)
Theorem C87_seedable : forall cfg P V ds n G D o c w w' c' grp,
  call_ok cfg P V ds n G D o c -> apart n G grp -> groups_of n grp (o_size o) -> types_within n grp o ->
  (is_closest (o_pum o) \/ is_closest (o_sum o) -> forall x, x < n -> exists v, v < n /\ grp v = grp x /\ seedable o n G v) ->
  sc_clustering cfg P ds (Some o) (Some c) w = Ok ((ER_OK, Some c'), w') ->
  forall i x y, i < c_k c' -> x ∈ cluster c' i -> y ∈ cluster c' i -> grp x = grp y.
Proof. exact claim_groups. Qed.
Print Assumptions C87_seedable.

(** Some group has no primary points. *)
Theorem C87_primary_refuted : exists l grp o k labels x y i, apart (length l) (eucl_geo (line l)) grp /\ groups_of (length l) grp (o_size o) /\ types_within (length l) grp o /\ o_srad o = RM_NO_RADIUS /\
  clustered l o k labels /\ labels !! x = Some (Z.of_nat i) /\ labels !! y = Some (Z.of_nat i) /\ i < k /\ grp x <> grp y.
Proof. exact groups_primary_refuted. Qed.
Print Assumptions C87_primary_refuted.

(** Types not within the groups. *)
Theorem C87_types_refuted : exists l grp o k labels x y i, apart (length l) (eucl_geo (line l)) grp /\ groups_of (length l) grp (o_size o) /\
  o_prim o = None /\ o_srad o = RM_NO_RADIUS /\ o_pum o = UM_IGNORE /\ o_sum o = UM_IGNORE /\
  clustered l o k labels /\ labels !! x = Some (Z.of_nat i) /\ labels !! y = Some (Z.of_nat i) /\ i < k /\ grp x <> grp y.
Proof. exact groups_types_refuted. Qed.
Print Assumptions C87_types_refuted.

(** Groups one smaller than the size constraint. *)
Theorem C87_small_refuted : exists l grp o k labels x y i, apart (length l) (eucl_geo (line l)) grp /\ groups_of (length l) grp (o_size o - 1) /\ types_within (length l) grp o /\
  o_prim o = None /\ o_srad o = RM_NO_RADIUS /\ o_pum o = UM_IGNORE /\ o_sum o = UM_IGNORE /\
  clustered l o k labels /\ labels !! x = Some (Z.of_nat i) /\ labels !! y = Some (Z.of_nat i) /\ i < k /\ grp x <> grp y.
Proof. exact groups_small_refuted. Qed.
Print Assumptions C87_small_refuted.

(** Three groups, points with the same index modulo 3. *)
Example ex_groups : apart 10 (eucl_geo (line islands)) island /\ groups_of 10 island 3 /\ groups_of 10 island 2 /\
  clustered islands (o_isl SM_LEXICAL UM_IGNORE UM_IGNORE 2) 4 [0; 1; 2; 0; 1; 2; 3; 4294967295; 4294967295; 3]%Z /\
  clustered islands (o_isl SM_BATCHES UM_ANY_NEIGHBOR UM_IGNORE 2) 4 [0; 1; 2; 0; 1; 2; 3; 1; 2; 3]%Z /\
  clustered islands (o_isl SM_LEXICAL UM_CLOSEST_ASSIGNED UM_IGNORE 3) 3 [0; 1; 2; 0; 1; 2; 0; 1; 2; 0]%Z /\
  clustered islands (o_isl SM_LEXICAL UM_CLOSEST_SEED UM_IGNORE 2) 4 [0; 1; 2; 0; 1; 2; 3; 1; 2; 3]%Z.
Proof.
  split; [exact islands_apart|]. split; [by apply islands_groups|]. split; [apply islands_groups; lia|].
  do 3 (split; [apply clustered_by; by vm_compute|]). apply clustered_by; by vm_compute.
Qed.
(** Two types, a point of each in every cluster. *)
Example ex_groups_types : let o := o_isl_types SM_INWARDS_ORDER UM_CLOSEST_SEED UM_IGNORE [1; 1] 2 in
  types_within 10 island o /\ clustered islands o 4 [0; 2; 1; 0; 2; 1; 3; 2; 1; 3]%Z.
Proof. intros o. split; [apply types_within_by; by vm_compute|apply clustered_by; by vm_compute]. Qed.
