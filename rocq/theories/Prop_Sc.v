(** Properties of calls of scc_sc_clustering that return SCC_ER_OK: C01-C07, C09,
    C10, C13-C17, C39. *)

From stdpp Require Import prelude list sorting.
From Coq Require Import NArith ZArith.
From Verif Require Import Base World Mem Digraph DigraphRep Float Spi Dist Options Arrays GraphSpec SeedSpec AssignSpec SeedsExcl
  Nng NngGraph NngSize NngAssign NngStage TypeCount TypeRows Batch BatchSpec BatchProof OptionsProof NngClustering
  ScSpec ScProof ClusSpec ScFacts Approx ScClaims ScClaims2 StageKeep DistProof DistClaims Example1 FailClaims.

(** C01. *)
Theorem C01_size_constraint : forall cfg P V ds n G D o c, call_ok cfg P V ds n G D o c ->
  forall w w' c', sc_clustering cfg P ds (Some o) (Some c) w = Ok ((ER_OK, Some c'), w') ->
  forall i, o_seed o <> SM_BATCHES -> i < c_k c' -> o_size o <= length (cluster c' i).
Proof. exact claim_size. Qed.
Print Assumptions C01_size_constraint.

(** C02. *)
Theorem C02_type_constraints : forall cfg P V ds n G D o c, call_ok cfg P V ds n G D o c ->
  forall w w' c', sc_clustering cfg P ds (Some o) (Some c) w = Ok ((ER_OK, Some c'), w') ->
  forall i t, 2 <= o_num_types o -> i < c_k c' -> t < o_num_types o ->
    tcon (tcons_of o) t <= length (of_type (tlabels_of o) t (cluster c' i)) /\ o_size o <= length (cluster c' i).
Proof. exact claim_types. Qed.
Print Assumptions C02_type_constraints.

(** C03. *)
Theorem C03_size_constraint_batches : forall cfg P V ds n G D o c, call_ok cfg P V ds n G D o c ->
  forall w w' c', sc_clustering cfg P ds (Some o) (Some c) w = Ok ((ER_OK, Some c'), w') ->
  forall i, o_seed o = SM_BATCHES -> i < c_k c' -> o_size o <= length (cluster c' i).
Proof. exact claim_size_batches. Qed.
Print Assumptions C03_size_constraint_batches.

(** C04. *)
Theorem C04_labels_well_formed : forall cfg P V ds n G D o c, call_ok cfg P V ds n G D o c ->
  forall w w' c', sc_clustering cfg P ds (Some o) (Some c) w = Ok ((ER_OK, Some c'), w') ->
  c_n c' = n /\ 1 <= c_k c' /\ length (cells c') = n /\
  (forall x, x < n -> unlabelled cfg c' x \/ exists i, i < c_k c' /\ label_of c' x = Some (Z.of_nat i)) /\
  (forall i, i < c_k c' -> Z.of_nat i <> cl_na cfg).
Proof. exact claim_labels. Qed.
Print Assumptions C04_labels_well_formed.

(** C05. *)
Theorem C05_number_of_clusters : forall cfg P V ds n G D o c, call_ok cfg P V ds n G D o c ->
  forall w w' c', sc_clustering cfg P ds (Some o) (Some c) w = Ok ((ER_OK, Some c'), w') -> c_k c' * o_size o <= n.
Proof. exact claim_count. Qed.
Print Assumptions C05_number_of_clusters.

(** C06. *)
Theorem C06_any_neighbor_covers : forall cfg P V ds n G D o c, call_ok cfg P V ds n G D o c ->
  forall w w' c', sc_clustering cfg P ds (Some o) (Some c) w = Ok ((ER_OK, Some c'), w') ->
  forall x, solid P V ds n w -> o_pum o = UM_ANY_NEIGHBOR -> o_srad o = RM_NO_RADIUS -> x ∈ primary o n -> in_cluster c' x.
Proof. exact claim_any_primary. Qed.
Print Assumptions C06_any_neighbor_covers.

(** C06, with a seed radius: all primary points from which a seed could be made. *)
Theorem C06_any_neighbor_radius : forall cfg P V ds n G D o c, call_ok cfg P V ds n G D o c ->
  forall w w' c', sc_clustering cfg P ds (Some o) (Some c) w = Ok ((ER_OK, Some c'), w') ->
  forall x, solid P V ds n w -> o_pum o = UM_ANY_NEIGHBOR -> seedable o n G x -> in_cluster c' x.
Proof. exact claim_any. Qed.
Print Assumptions C06_any_neighbor_radius.

(** C07. *)
Theorem C07_closest_covers_primary : forall cfg P V ds n G D o c, call_ok cfg P V ds n G D o c ->
  forall w w' c', sc_clustering cfg P ds (Some o) (Some c) w = Ok ((ER_OK, Some c'), w') ->
  forall x, solid P V ds n w -> is_closest (o_pum o) -> no_radius o (o_prad o) -> x ∈ primary o n -> in_cluster c' x.
Proof. exact claim_closest_primary. Qed.
Print Assumptions C07_closest_covers_primary.

Theorem C07_closest_covers_all : forall cfg P V ds n G D o c, call_ok cfg P V ds n G D o c ->
  forall w w' c', sc_clustering cfg P ds (Some o) (Some c) w = Ok ((ER_OK, Some c'), w') ->
  forall x, solid P V ds n w -> is_closest (o_sum o) -> no_radius o (o_2rad o) -> x < n -> in_cluster c' x.
Proof. exact claim_closest_all. Qed.
Print Assumptions C07_closest_covers_all.

(** C09. *)
Theorem C09_exact_sizes : forall cfg P V ds n G D o c, call_ok cfg P V ds n G D o c ->
  forall w w' c', sc_clustering cfg P ds (Some o) (Some c) w = Ok ((ER_OK, Some c'), w') ->
  forall i, o_num_types o < 2 -> o_pum o = UM_IGNORE -> o_sum o = UM_IGNORE -> i < c_k c' -> length (cluster c' i) = o_size o.
Proof. exact claim_exact. Qed.
Print Assumptions C09_exact_sizes.

Theorem C09_others_unlabelled : forall cfg P V ds n G D o c, call_ok cfg P V ds n G D o c ->
  forall w w' c', sc_clustering cfg P ds (Some o) (Some c) w = Ok ((ER_OK, Some c'), w') ->
  forall x, x < n -> ~ in_cluster c' x -> unlabelled cfg c' x.
Proof. exact not_in_unlabelled. Qed.
Print Assumptions C09_others_unlabelled.

(** C10. *)
Theorem C10_seed_and_nearest : forall cfg P V ds n G D o c, call_ok cfg P V ds n G D o c ->
  forall w w' c', sc_clustering cfg P ds (Some o) (Some c) w = Ok ((ER_OK, Some c'), w') ->
  forall i, o_num_types o < 2 -> o_seed o <> SM_BATCHES -> i < c_k c' -> exists s r,
    s ∈ primary o n /\ NoDup (s :: r) /\ S (length r) = o_size o /\ (forall x, x ∈ s :: r -> x ∈ cluster c' i) /\
    (forall x, x ∈ r -> within_opt G (srad_of o) s x = true) /\
    (forall x y, x ∈ r -> y < n -> y ∉ s :: r -> nearer G s x y = true).
Proof. exact claim_seed. Qed.
Print Assumptions C10_seed_and_nearest.

(** C13. [linked]: one of two points is a nearest neighbour of the other. *)
Theorem C13_two_arcs : forall cfg P V ds n G D o c, call_ok cfg P V ds n G D o c ->
  forall w w' c', sc_clustering cfg P ds (Some o) (Some c) w = Ok ((ER_OK, Some c'), w') ->
  forall x y i, o_size o = 2 -> o_num_types o < 2 -> o_seed o = SM_INWARDS_UPDATING -> o_pum o = UM_ANY_NEIGHBOR ->
  one_stage P V ds n o w ->
  i < c_k c' -> x ∈ cluster c' i -> y ∈ cluster c' i -> x <> y ->
  linked n G x y \/ exists z, z ∈ cluster c' i /\ linked n G x z /\ linked n G z y.
Proof. exact claim_two. Qed.
Print Assumptions C13_two_arcs.

(** C14. [f] is another clustering of all points that meets the constraints. *)
Theorem C14_four_approximation : forall cfg P V ds n G D o c, call_ok cfg P V ds n G D o c ->
  forall w w' c', sc_clustering cfg P ds (Some o) (Some c) w = Ok ((ER_OK, Some c'), w') ->
  forall (T : Type) (le : T -> T -> Prop) (add : T -> T -> T) (d : nat -> nat -> T) f lam x y i,
  metric le add d -> (forall q x y, q < n -> x < n -> y < n -> nearer G q x y = true -> le (d q x) (d q y)) ->
  alt_ok o n f -> (forall x y, x < n -> y < n -> f x = f y -> le (d x y) lam) ->
  o_seed o <> SM_BATCHES -> o_pum o = UM_ANY_NEIGHBOR -> one_stage P V ds n o w ->
  i < c_k c' -> x ∈ cluster c' i -> y ∈ cluster c' i -> le (d x y) (add (add lam lam) (add lam lam)).
Proof. exact (fun cfg P V ds n G D o c Hc w w' c' Hr T => claim_four cfg P V ds n G D o c Hc w w' c' Hr (T := T)). Qed.
Print Assumptions C14_four_approximation.

(** C15. *)
Theorem C15_closest_seed_primary : forall cfg P V ds n G D o c, call_ok cfg P V ds n G D o c ->
  forall w w' c', sc_clustering cfg P ds (Some o) (Some c) w = Ok ((ER_OK, Some c'), w') ->
  solid P V ds n w -> o_seed o <> SM_BATCHES -> o_pum o = UM_CLOSEST_SEED ->
  exists g ss, made_from cfg n G o c' g ss /\ let rad := radius_of (o_pum o) (o_prad o) (o_prad_val o) (srad_of o) (est_dist D g ss) in
    forall x, x ∈ primary o n -> (forall s, s ∈ ss -> x ∉ closed g s) ->
      at_nearest_seed G c' ss rad x \/ (no_seed_within G ss rad x /\ (o_sum o = UM_IGNORE -> unlabelled cfg c' x)).
Proof. exact claim_closest_seed_primary. Qed.
Print Assumptions C15_closest_seed_primary.

Theorem C15_closest_seed_secondary : forall cfg P V ds n G D o c, call_ok cfg P V ds n G D o c ->
  forall w w' c', sc_clustering cfg P ds (Some o) (Some c) w = Ok ((ER_OK, Some c'), w') ->
  solid P V ds n w -> o_sum o = UM_CLOSEST_SEED ->
  (o_pum o = UM_IGNORE \/ o_pum o = UM_CLOSEST_SEED \/ (o_pum o = UM_CLOSEST_ASSIGNED /\ 2 <= o_num_types o)) ->
  exists g ss, made_from cfg n G o c' g ss /\ let rad := radius_of (o_sum o) (o_2rad o) (o_2rad_val o) (srad_of o) (est_dist D g ss) in
    forall x, x < n -> (o_pum o = UM_IGNORE \/ x ∉ primary o n) -> (forall s, s ∈ ss -> x ∉ closed g s) ->
      at_nearest_seed G c' ss rad x \/ (no_seed_within G ss rad x /\ unlabelled cfg c' x).
Proof. exact claim_closest_seed_secondary. Qed.
Print Assumptions C15_closest_seed_secondary.

(** C16. Seeds and their neighbours have kept the label of the seed in the end. *)
Theorem C16_groups_kept : forall cfg P V ds n G D o c, call_ok cfg P V ds n G D o c ->
  forall w w' c', sc_clustering cfg P ds (Some o) (Some c) w = Ok ((ER_OK, Some c'), w') ->
  o_seed o <> SM_BATCHES -> exists g ss, made_from cfg n G o c' g ss.
Proof. exact claim_groups. Qed.
Print Assumptions C16_groups_kept.

(** C16. The two assignment functions, whatever fails. *)
Theorem C16_assign_by_nng_only_adds : forall cfg, config_ok cfg -> forall cl k dg g n w cl' num w',
  0 < n -> dg_rep cfg dg g -> length g = n -> labels_ok cfg n k cl ->
  assign_by_nng cfg cl dg w = Ok ((cl', num), w') -> only_adds cfg n cl cl'.
Proof. exact keep_nng. Qed.
Print Assumptions C16_assign_by_nng_only_adds.

Theorem C16_assign_by_search_only_adds : forall cfg, config_ok cfg -> forall P V ds n G D cl k o U tb tc rad w ec cl' ta w',
  provider_ok P V ds n G D -> 0 < n ->
  nn_good V o -> (forall x, cnt x (nn_blk V o) <= cnt x (w_live w)) -> nn_set V o <> [] -> labels_ok cfg n k cl ->
  NoDup U -> U <> [] -> (forall x, x ∈ U -> x < n /\ label_of cl x = Some (cl_na cfg)) ->
  (forall x, x ∈ nn_set V o -> x < n /\ label_of cl x <> Some (cl_na cfg)) -> filled tc U ->
  assign_by_nn_search P cl o (length U) (Some (Arr tb tc)) rad w = Ok ((ec, cl', ta), w') -> only_adds cfg n cl cl'.
Proof. exact keep_search. Qed.
Print Assumptions C16_assign_by_search_only_adds.

(** C39. [steady]: what the provider answers for a query point does not depend on
    the rest of the query. *)
Theorem C39_batch_size : forall cfg P V ds n G D o o' c1 c2 w1 w2 c1' c2' w1' w2',
  call_ok cfg P V ds n G D o c1 -> call_ok cfg P V ds n G D o' c2 ->
  o_seed o = SM_BATCHES -> o_seed o' = SM_BATCHES -> o_size o' = o_size o -> srad_of o' = srad_of o -> o_pum o' = o_pum o ->
  o_len_prim o' = o_len_prim o -> o_prim o' = o_prim o ->
  (2 <= o_size o <= n -> steady P V n (o_size o) (srad_of o)) ->
  sc_clustering cfg P ds (Some o) (Some c1) w1 = Ok ((ER_OK, Some c1'), w1') ->
  sc_clustering cfg P ds (Some o') (Some c2) w2 = Ok ((ER_OK, Some c2'), w2') ->
  c_k c1' = c_k c2' /\ cells c1' = cells c2'.
Proof. exact claim_batch_size. Qed.
Print Assumptions C39_batch_size.

Theorem C39_builtin_steady : forall d n, data_ok d n -> forall k rad, 0 < k -> k <= n -> steady builtin (builtin_view d n) n k rad.
Proof. exact builtin_steady. Qed.
Print Assumptions C39_builtin_steady.

(** ** Concrete cases

    [clustered l o k labels]: scc_sc_clustering with options [o] on the points [l]
    of a line meets the requirements above and returns [k] clusters and [labels]. *)

Definition o3 : options := with_size 3 default_options.
Notation NA := 4294967295%Z.

(** Meets C01, C04, C05, C06, C10, C16. *)
Example ex_default : clustered pts o3 3 [0; 1; 0; 0; 1; 2; 1; 0; 2; 2; 1; 0]%Z.
Proof. apply clustered_by. by vm_compute. Qed.

(** Meets C02. *)
Example ex_types : clustered pts (with_types [1; 2] [0; 1; 0; 1; 0; 1; 0; 1; 0; 1; 0; 1] (with_size 4 default_options)) 3
  [0; 1; 0; 0; 1; 2; 1; 1; 2; 2; 2; 0]%Z.
Proof. apply clustered_by. by vm_compute. Qed.

(** Meets C03 and, together, C39. *)
Example ex_batches1 : clustered pts (with_methods SM_BATCHES UM_IGNORE UM_IGNORE (with_batch 1 o3)) 3 [0; 1; 0; NA; 1; 2; 1; NA; 2; 2; NA; 0]%Z.
Proof. apply clustered_by. by vm_compute. Qed.
Example ex_batches5 : clustered pts (with_methods SM_BATCHES UM_IGNORE UM_IGNORE (with_batch 5 o3)) 3 [0; 1; 0; NA; 1; 2; 1; NA; 2; 2; NA; 0]%Z.
Proof. apply clustered_by. by vm_compute. Qed.

(** Meets C06 with a seed radius; 5, 8, 9 and 10 have no two points within 2. *)
Example ex_radius : clustered pts (with_methods SM_INWARDS_ORDER UM_ANY_NEIGHBOR UM_IGNORE
    (with_radii RM_USE_SUPPLIED 2 RM_USE_SEED_RADIUS 0 RM_NO_RADIUS 0 o3)) 2 [0; 1; 0; 0; 1; NA; 1; 0; NA; NA; NA; 0]%Z.
Proof. apply clustered_by. by vm_compute. Qed.

(** Meets C07 for the primary points; 8, 9 and 10 are not primary. *)
Example ex_closest_primary : clustered pts (with_methods SM_INWARDS_ORDER UM_CLOSEST_ASSIGNED UM_IGNORE
    (with_radii RM_USE_SUPPLIED 2 RM_NO_RADIUS 0 RM_NO_RADIUS 0 (with_primary [0; 1; 2; 5; 7] o3))) 2
  [1; 0; 1; 1; 0; 0; 0; 1; NA; NA; NA; 1]%Z.
Proof. apply clustered_by. by vm_compute. Qed.

(** Meets C07 for all points. *)
Example ex_closest_all : clustered pts (with_methods SM_INWARDS_ORDER UM_IGNORE UM_CLOSEST_SEED
    (with_radii RM_USE_SUPPLIED 2 RM_NO_RADIUS 0 RM_NO_RADIUS 0 (with_primary [0; 1; 2; 5; 7] o3))) 2
  [1; 0; 1; 1; 0; 0; 0; 1; 0; 0; 0; 1]%Z.
Proof. apply clustered_by. by vm_compute. Qed.

(** Meets C15 in the primary and the secondary stage; some points have no seed
    within the radius. *)
Example ex_closest_seed1 : clustered pts (with_methods SM_LEXICAL UM_CLOSEST_SEED UM_IGNORE
    (with_radii RM_USE_SUPPLIED 2 RM_USE_SUPPLIED 5 RM_NO_RADIUS 0 o3)) 2 [0; 1; 0; 0; 1; NA; 1; 0; NA; NA; 1; 0]%Z.
Proof. apply clustered_by. by vm_compute. Qed.
Example ex_closest_seed2 : clustered pts (with_methods SM_INWARDS_ORDER UM_IGNORE UM_CLOSEST_SEED
    (with_radii RM_USE_SUPPLIED 2 RM_NO_RADIUS 0 RM_USE_SUPPLIED 5 (with_primary [0; 1; 2; 5; 7] o3))) 2
  [1; 0; 1; 1; 0; NA; 0; 1; NA; NA; 0; 1]%Z.
Proof. apply clustered_by. by vm_compute. Qed.

(** Meets C09. *)
Example ex_exact : clustered pts (with_methods SM_LEXICAL UM_IGNORE UM_IGNORE o3) 3 [0; 1; 0; NA; 1; 2; 1; NA; 2; 2; NA; 0]%Z.
Proof. apply clustered_by. by vm_compute. Qed.

(** Meets C13. *)
Example ex_two : clustered pts (with_methods SM_INWARDS_UPDATING UM_ANY_NEIGHBOR UM_IGNORE (with_size 2 default_options)) 5
  [2; 4; 2; 3; 1; 0; 4; 3; 0; 0; 1; 2]%Z.
Proof. apply clustered_by. by vm_compute. Qed.

(** Meets C14: distances on the line, and the three groups of [pts], which are at
    most 5 wide. *)
Definition gap (x y : nat) : Z := Z.abs (nth x pts 0 - nth y pts 0)%Z.
Definition groups (x : nat) : nat := nth x [0; 1; 0; 0; 1; 2; 1; 0; 2; 2; 1; 0] 9.
Definition below (n : nat) (p : nat -> bool) : bool := forallb p (seq 0 n).
Lemma below_spec n p x : below n p = true -> x < n -> p x = true.
Proof. unfold below. rewrite forallb_forall. intros H Hx. apply H, in_seq. lia. Qed.

Example ex_four : metric Z.le Z.add gap /\
  (forall q x y, q < 12 -> x < 12 -> y < 12 -> nearer (eucl_geo (line pts)) q x y = true -> (gap q x <= gap q y)%Z) /\
  alt_ok o3 12 groups /\ (forall x y, x < 12 -> y < 12 -> groups x = groups y -> (gap x y <= 5)%Z).
Proof.
  split; [|split; [|split]].
  - unfold gap. constructor; intros; lia.
  - intros q x y Hq Hx Hy.
    assert (below 12 (fun q => below 12 (fun x => below 12 (fun y => implb (nearer (eucl_geo (line pts)) q x y) (gap q x <=? gap q y)%Z))) = true) as H by by vm_compute.
    apply (below_spec _ _ q) in H; [|done]. apply (below_spec _ _ x) in H; [|done]. apply (below_spec _ _ y) in H; [|done].
    cbv beta in H. intros Hn. rewrite Hn in H. by apply Z.leb_le.
  - intros v Hv. split; [|simpl; lia].
    assert (below 12 (fun v => 3 <=? length (alt_cluster 12 groups v)) = true) as H by by vm_compute.
    apply (below_spec _ _ v) in H; [|done]. by apply Nat.leb_le.
  - intros x y Hx Hy E.
    assert (below 12 (fun x => below 12 (fun y => implb (groups x =? groups y) (gap x y <=? 5)%Z)) = true) as H by by vm_compute.
    apply (below_spec _ _ x) in H; [|done]. apply (below_spec _ _ y) in H; [|done]. cbv beta in H. rewrite E, Nat.eqb_refl in H. by apply Z.leb_le.
Qed.

(** ** C17: the primary radius is not honoured

    With SCC_UM_CLOSEST_SEED it is ([C15_closest_seed_primary]: a point joins a seed
    within the radius or no group). With the other two methods it is not: of the
    points 0, 1, 10, the first two make a group, and the last one joins it although
    it is 9 away from its nearest point and the primary radius is 2. *)
Theorem C17_primary_radius_refuted : exists l um, 
  clustered l (far_options um) 1 [0; 0; 0]%Z /\
  (* without assignment of left-over points, the last point is in no cluster *)
  clustered l (far_options UM_IGNORE) 1 [0; 0; NA]%Z /\
  (* no other point is within the primary radius of the last point *)
  (forall x, x < 3 -> x <> 2 -> within (eucl_geo (line l)) (d_of_Z 2) 2 x = false).
Proof. exact (ex_intro _ [0; 1; 10]%Z (ex_intro _ UM_CLOSEST_ASSIGNED radius_witness)). Qed.
Print Assumptions C17_primary_radius_refuted.
Example C17_any_neighbor : clustered [0; 1; 10]%Z (far_options UM_ANY_NEIGHBOR) 1 [0; 0; 0]%Z.
Proof. apply clustered_by. by vm_compute. Qed.
Example C17_closest_seed : clustered [0; 1; 10]%Z (far_options UM_CLOSEST_SEED) 1 [0; 0; NA]%Z.
Proof. apply clustered_by. by vm_compute. Qed.
