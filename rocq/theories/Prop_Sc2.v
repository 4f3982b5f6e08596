(** Further properties of calls of scc_sc_clustering that return SCC_ER_OK: C17,
    C55-C60. *)

From stdpp Require Import prelude list sorting.
From Coq Require Import NArith ZArith.
From Verif Require Import Base World Mem Digraph DigraphRep Float Spi Dist Options Arrays GraphSpec SeedSpec AssignSpec SeedsExcl
  Nng NngGraph NngSize NngAssign NngStage TypeCount TypeRows Batch BatchSpec BatchProof OptionsProof NngClustering
  ScSpec ScProof ClusSpec ScFacts Approx ScClaims ScClaims2 ScClaims3 ScDet DistProof Example1.

(** C55. [sc_result cfg False]: graph [g], seeds [ss] and labels [L] are those of the
    procedure; [shows]: the labels of the clustering are [L]. *)
Theorem C55_procedure : forall cfg P V ds n G D o c, call_ok cfg P V ds n G D o c ->
  forall w w' c', sc_clustering cfg P ds (Some o) (Some c) w = Ok ((ER_OK, Some c'), w') ->
  solid P V ds n w -> o_seed o <> SM_BATCHES ->
  exists g ss L, sc_result cfg False o n G D g ss L (c_k c') /\ shows cfg c' n L.
Proof. exact claim_procedure. Qed.
Print Assumptions C55_procedure.

(** C56. [batch_run]: the points from which a seed can be made are considered one
    after another. *)
Theorem C56_procedure_batches : forall cfg P V ds n G D o c, call_ok cfg P V ds n G D o c ->
  forall w w' c', sc_clustering cfg P ds (Some o) (Some c) w = Ok ((ER_OK, Some c'), w') ->
  o_seed o = SM_BATCHES -> (o_pum o = UM_IGNORE \/ o_pum o = UM_ANY_NEIGHBOR) /\
  exists A L, batch_run (bool_decide (o_pum o = UM_IGNORE)) (o_size o) (batch_neighbors cfg n G o)
      (filter (seedable o n G) (seq 0 n)) ([], replicate n None, 0) (A, L, c_k c') /\ shows cfg c' n L.
Proof. exact claim_procedure_batches. Qed.
Print Assumptions C56_procedure_batches.

(** C57. *)
Theorem C57_closest_assigned_primary : forall cfg P V ds n G D o c, call_ok cfg P V ds n G D o c ->
  forall w w' c', sc_clustering cfg P ds (Some o) (Some c) w = Ok ((ER_OK, Some c'), w') ->
  solid P V ds n w -> o_seed o <> SM_BATCHES -> o_pum o = UM_CLOSEST_ASSIGNED ->
  exists g ss, made_from cfg n G o c' g ss /\ let rad := radius_of (o_pum o) (o_prad o) (o_prad_val o) (srad_of o) (est_dist D g ss) in
    forall x, x ∈ primary o n -> (forall s, s ∈ ss -> x ∉ closed g s) ->
      if decide (o_num_types o < 2 /\ seedable o n G x)
      then (exists i s y, ss !! i = Some s /\ y ∈ closed g s /\ y ∈ adj g x /\ x ∈ cluster c' i) /\
           (stable_nng cfg = false -> at_nearest_assigned G c' g ss (srad_of o) x)
      else at_nearest_assigned G c' g ss rad x \/ (none_within G g ss rad x /\ (o_sum o = UM_IGNORE -> unlabelled cfg c' x)).
Proof. exact claim_assigned_primary. Qed.
Print Assumptions C57_closest_assigned_primary.

Theorem C57_closest_assigned_secondary : forall cfg P V ds n G D o c, call_ok cfg P V ds n G D o c ->
  forall w w' c', sc_clustering cfg P ds (Some o) (Some c) w = Ok ((ER_OK, Some c'), w') ->
  solid P V ds n w -> o_seed o <> SM_BATCHES -> o_sum o = UM_CLOSEST_ASSIGNED ->
  exists g ss, made_from cfg n G o c' g ss /\ let rad := radius_of (o_sum o) (o_2rad o) (o_2rad_val o) (srad_of o) (est_dist D g ss) in
    forall x, x < n -> (o_pum o = UM_IGNORE \/ x ∉ primary o n) -> (forall s, s ∈ ss -> x ∉ closed g s) ->
      at_nearest_assigned G c' g ss rad x \/ (none_within G g ss rad x /\ unlabelled cfg c' x).
Proof. exact claim_assigned_secondary. Qed.
Print Assumptions C57_closest_assigned_secondary.

Theorem C57_any_neighbor : forall cfg P V ds n G D o c, call_ok cfg P V ds n G D o c ->
  forall w w' c', sc_clustering cfg P ds (Some o) (Some c) w = Ok ((ER_OK, Some c'), w') ->
  solid P V ds n w -> o_seed o <> SM_BATCHES -> o_pum o = UM_ANY_NEIGHBOR ->
  exists g ss, made_from cfg n G o c' g ss /\
    forall x, x ∈ primary o n -> (forall s, s ∈ ss -> x ∉ closed g s) ->
      if decide (seedable o n G x)
      then (exists i s y, ss !! i = Some s /\ y ∈ closed g s /\ y ∈ adj g x /\ x ∈ cluster c' i) /\
           (stable_nng cfg = false -> o_num_types o < 2 -> at_nearest_assigned G c' g ss (srad_of o) x)
      else o_sum o = UM_IGNORE -> unlabelled cfg c' x.
Proof. exact claim_any_radius. Qed.
Print Assumptions C57_any_neighbor.

(** C17, as far as it holds ([C17_primary_radius_refuted] shows that it does not hold in
    general): for the primary radius to be honoured the seed radius has to be no
    larger, and no secondary stage follows. *)
Theorem C17_primary_radius_partial : forall cfg P V ds n G D o c, call_ok cfg P V ds n G D o c ->
  forall w w' c', sc_clustering cfg P ds (Some o) (Some c) w = Ok ((ER_OK, Some c'), w') ->
  solid P V ds n w -> o_seed o <> SM_BATCHES -> o_prad o = RM_USE_SUPPLIED -> o_sum o = UM_IGNORE ->
  (forall q x, within_opt G (srad_of o) q x = true -> within G (o_prad_val o) q x = true) ->
  exists g ss, made_from cfg n G o c' g ss /\ forall x i, x ∈ primary o n -> (forall s, s ∈ ss -> x ∉ closed g s) -> i < c_k c' -> x ∈ cluster c' i ->
    exists s y, ss !! i = Some s /\ y ∈ closed g s /\ within G (o_prad_val o) x y = true.
Proof. exact claim_primary_radius. Qed.
Print Assumptions C17_primary_radius_partial.

(** C58. [type_group o n G s t r]: [r] are the points of type [t] nearest to [s], as
    many as required, [s] counted if it is of this type. *)
Theorem C58_type_groups : forall cfg P V ds n G D o c, call_ok cfg P V ds n G D o c ->
  forall w w' c', sc_clustering cfg P ds (Some o) (Some c) w = Ok ((ER_OK, Some c'), w') ->
  forall i, 2 <= o_num_types o -> i < c_k c' -> exists s, s ∈ primary o n /\ s ∈ cluster c' i /\
  forall t, t < o_num_types o -> exists r, type_group o n G s t r /\ forall x, x ∈ r -> x ∈ cluster c' i.
Proof. exact claim_type_groups. Qed.
Print Assumptions C58_type_groups.

(** C59. *)
Theorem C59_seed_and_nearest_batches : forall cfg P V ds n G D o c, call_ok cfg P V ds n G D o c ->
  forall w w' c', sc_clustering cfg P ds (Some o) (Some c) w = Ok ((ER_OK, Some c'), w') ->
  forall i, stable_nng cfg = false \/ own_nearest G -> o_seed o = SM_BATCHES -> i < c_k c' -> exists s r,
    s ∈ primary o n /\ NoDup (s :: r) /\ S (length r) = o_size o /\ (forall x, x ∈ s :: r -> x ∈ cluster c' i) /\
    (forall x, x ∈ r -> within_opt G (srad_of o) s x = true) /\
    (forall x y, x ∈ r -> y < n -> y ∉ s :: r -> nearer G s x y = true).
Proof. exact claim_seed_batches. Qed.
Print Assumptions C59_seed_and_nearest_batches.

(** C60. [fixed_order]: seed method LEXICAL, INWARDS_ORDER, EXCLUSION_ORDER or
    BATCHES, or any if SCC_STABLE_FINDSEED is defined. *)
Theorem C60_determined : forall cfg n G D o P1 V1 ds1 c1 w1 c1' w1' P2 V2 ds2 c2 w2 c2' w2',
  call_ok cfg P1 V1 ds1 n G D o c1 -> call_ok cfg P2 V2 ds2 n G D o c2 -> solid P1 V1 ds1 n w1 -> solid P2 V2 ds2 n w2 ->
  no_ties n G -> fixed_order cfg (o_seed o) ->
  sc_clustering cfg P1 ds1 (Some o) (Some c1) w1 = Ok ((ER_OK, Some c1'), w1') ->
  sc_clustering cfg P2 ds2 (Some o) (Some c2) w2 = Ok ((ER_OK, Some c2'), w2') ->
  c_k c1' = c_k c2' /\ forall x, x < n -> label_of c1' x = label_of c2' x.
Proof. exact claim_determined. Qed.
Print Assumptions C60_determined.

(** ** Concrete cases *)

Notation NA := 4294967295%Z.
Notation o3 := (with_size 3 default_options).

(** Meets C55 and C57 in both stages: seed radius 2, primary radius 5; points 8, 9
    and 10 are not primary. Point 5 is too far from all groups for the primary
    stage; points 8 and 9 are too far for the secondary stage, point 10 joins the
    group of point 4. *)
Example ex_assigned : clustered pts (with_methods SM_INWARDS_ORDER UM_CLOSEST_ASSIGNED UM_CLOSEST_ASSIGNED
    (with_radii RM_USE_SUPPLIED 2 RM_USE_SUPPLIED 5 RM_USE_SUPPLIED 30 (with_primary [0; 1; 2; 5; 7] o3))) 2
  [1; 0; 1; 1; 0; NA; 0; 1; NA; NA; 0; 1]%Z.
Proof. apply clustered_by. by vm_compute. Qed.

(** Meets C55 with an estimated radius: the average distance between a seed and a
    neighbour is 5/4, so the second point at 11 is assigned and the point at 12 is not. *)
Example ex_estimated : clustered [0; 10; 1; 9; 2; 12; 11; 11; 60]%Z (with_methods SM_LEXICAL UM_IGNORE UM_CLOSEST_SEED
    (with_radii RM_USE_SUPPLIED 2 RM_NO_RADIUS 0 RM_USE_ESTIMATED 0 (with_primary [0; 1; 2; 3] o3))) 2 [0; 1; 0; 1; 0; NA; 1; 1; NA]%Z.
Proof. apply clustered_by. by vm_compute. Qed.

(** Meets C17: seed radius and primary radius are 2; 3 and 7 (at 3 and 4) join the group
    of 0, 1 and 2 because of the point at 2, and 10 (at 14) the other because of the
    point at 12. *)
Notation o_r2 := (with_methods SM_LEXICAL UM_CLOSEST_ASSIGNED UM_IGNORE (with_radii RM_USE_SUPPLIED 2 RM_USE_SUPPLIED 2 RM_NO_RADIUS 0 o3)).
Example ex_primary_radius : clustered pts o_r2 2 [0; 1; 0; 0; 1; NA; 1; 0; NA; NA; 1; 0]%Z /\
  forall q x, within_opt (eucl_geo (line pts)) (srad_of o_r2) q x = true -> within (eucl_geo (line pts)) (o_prad_val o_r2) q x = true.
Proof. split; [apply clustered_by; by vm_compute|]. intros q x H. exact H. Qed.

(** Meets C57 for any neighbour. *)
Example ex_any : clustered pts (with_methods SM_LEXICAL UM_ANY_NEIGHBOR UM_IGNORE
    (with_radii RM_USE_SUPPLIED 2 RM_NO_RADIUS 0 RM_NO_RADIUS 0 o3)) 2 [0; 1; 0; 0; 1; NA; 1; 0; NA; NA; NA; 0]%Z.
Proof. apply clustered_by. by vm_compute. Qed.

(** Meets C58: a point of type 0 and two of type 1 in each cluster. *)
Example ex_types : clustered pts (with_types [1; 2] [0; 1; 0; 1; 0; 1; 0; 1; 0; 1; 0; 1] (with_size 4 default_options)) 3
  [0; 1; 0; 0; 1; 2; 1; 1; 2; 2; 2; 0]%Z.
Proof. apply clustered_by. by vm_compute. Qed.

(** Meets C56 and C59: 3, 7 and 10 join the cluster of a neighbour. *)
Example ex_batches : clustered pts (with_methods SM_BATCHES UM_ANY_NEIGHBOR UM_IGNORE (with_batch 5 o3)) 3 [0; 1; 0; 0; 1; 2; 1; 0; 2; 2; 1; 0]%Z.
Proof. apply clustered_by. by vm_compute. Qed.

(** Meets C60: no two distances from a point are equal. *)
Definition powers : list Z := [1; 2; 4; 8; 16; 32; 64; 128]%Z.
Example ex_determined : no_ties 8 (eucl_geo (line powers)) /\
  clustered powers (with_methods SM_EXCLUSION_ORDER UM_ANY_NEIGHBOR UM_IGNORE (with_size 2 default_options)) 4 [1; 1; 2; 2; 3; 3; 0; 0]%Z.
Proof.
  split; [|apply clustered_by; by vm_compute]. intros q x y Hq Hx Hy Hne H1 H2.
  assert (forallb (fun q => forallb (fun x => forallb (fun y => bool_decide (x = y) ||
    negb (nearer (eucl_geo (line powers)) q x y && nearer (eucl_geo (line powers)) q y x)) (seq 0 8)) (seq 0 8)) (seq 0 8) = true) as H by by vm_compute.
  assert (forall f, forallb f (seq 0 8) = true -> forall i, i < 8 -> f i = true) as Hall by (intros f Hf i Hi; apply (proj1 (forallb_forall f _) Hf), in_seq; lia).
  pose proof (Hall _ (Hall _ (Hall _ H q Hq) x Hx) y Hy) as H3. cbv beta in H3. rewrite H1, H2, bool_decide_eq_false_2 in H3 by done. discriminate H3.
Qed.
