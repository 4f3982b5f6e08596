(** Properties of scc_hierarchical_clustering: C61-C63, which clusters are made. *)

From stdpp Require Import prelude list sorting.
From Coq Require Import NArith ZArith.
From Verif Require Import Base World Mem Float Spi Dist Options Arrays NngGraph NngStage Batch BatchProof NngClustering DigraphRep ClusSpec ScClaims DistProof Example1 FailClaims
  Hier HierDiv HierFind HierSpec HierRun HierTop HierClaims HierClaims2 ScDet.

(** C61. [hier_forest]: the clusters [news] are made by dividing the clusters to start
    from; [painted]: they give the labels. *)
Theorem C61_procedure : forall cfg P V ds n G D qs log2cap k batch c, hier_call cfg P V ds n G D qs k c -> sorts qs ->
  forall w c' w', hierarchical_clustering cfg P qs log2cap ds k batch (Some c) w = Ok ((ER_OK, Some c'), w') ->
  exists news, length news = c_k c' /\ hier_forest k (if batch then k else 1) G D (starts_of c) news /\
    length (cells c') = n /\ painted (start_cells c) (cells c') news.
Proof. exact hier_procedure. Qed.
Print Assumptions C61_procedure.

(** C62. *)
Theorem C62_determined : forall n G D k batch cfg1 P1 V1 ds1 qs1 log1 c1 w1 c1' w1' cfg2 P2 V2 ds2 qs2 log2 c2 w2 c2' w2',
  hier_call cfg1 P1 V1 ds1 n G D qs1 k c1 -> hier_call cfg2 P2 V2 ds2 n G D qs2 k c2 -> sorts qs1 -> sorts qs2 ->
  no_ties n G -> no_equal_dists n D -> c_k c1 = c_k c2 -> (c_k c1 <> 0 -> cells c1 = cells c2) ->
  hierarchical_clustering cfg1 P1 qs1 log1 ds1 k batch (Some c1) w1 = Ok ((ER_OK, Some c1'), w1') ->
  hierarchical_clustering cfg2 P2 qs2 log2 ds2 k batch (Some c2) w2 = Ok ((ER_OK, Some c2'), w2') ->
  c_k c1' = c_k c2' /\ cells c1' = cells c2'.
Proof. exact hier_determined. Qed.
Print Assumptions C62_determined.

(** C63. [apart]: two groups of points, all distances within them smaller than between
    them; [enough]: none or at least [k] points of a group. *)
Theorem C63_groups : forall cfg P V ds n G D qs log2cap k c g, hier_call cfg P V ds n G D qs k c -> sorts qs ->
  apart n G D g -> few_duplicates n D (2 * k) -> (forall ms, ms ∈ starts_of c -> enough k g ms) ->
  forall w c' w', hierarchical_clustering cfg P qs log2cap ds k false (Some c) w = Ok ((ER_OK, Some c'), w') ->
  forall i x y, i < c_k c' -> x ∈ cluster c' i -> y ∈ cluster c' i -> g x = g y.
Proof. exact hier_groups. Qed.
Print Assumptions C63_groups.

(** With batch assignment the groups are mixed, ... *)
Theorem C63_groups_batches_refuted : exists l k g, let n := length l in
  hier_callable l k (new_clustering n) /\ apart n (eucl_geo (line l)) (eucl (line l)) g /\ few_duplicates n (eucl (line l)) (2 * k) /\
  (forall ms, ms ∈ starts_of (new_clustering n) -> enough k g ms) /\
  exists c' w', hier_line l k true (new_clustering n) world0 = Ok ((ER_OK, Some c'), w') /\
  exists i x y, i < c_k c' /\ x ∈ cluster c' i /\ y ∈ cluster c' i /\ g x <> g y.
Proof. exact hier_groups_batches. Qed.
Print Assumptions C63_groups_batches_refuted.

(** ... and so are three groups without it: [0; 1], [10; 11], [20; 21]. *)
Theorem C63_three_groups_refuted : hier_callable [0; 1; 10; 11; 20; 21]%Z 2 (new_clustering 6) /\
  ends (hier_line [0; 1; 10; 11; 20; 21]%Z 2 false (new_clustering 6) world0) ER_OK 2 [1; 1; 1; 0; 0; 0]%Z 1.
Proof. exact hier_three_groups. Qed.
Print Assumptions C63_three_groups_refuted.

(** ** Concrete cases *)

(** Meet C61: a new clustering, and one with clusters. *)
Example ex_procedure : sorts sort_edges /\ hier_callable pts 2 (new_clustering 12) /\
  ends (hier_line pts 2 false (new_clustering 12) world0) ER_OK 5 [4; 2; 4; 3; 1; 0; 2; 3; 0; 0; 1; 4]%Z 1.
Proof. exact (conj sort_edges_sorts (conj (proj1 hier_run_scratch) (proj2 (proj2 hier_run_scratch)))). Qed.
Example ex_procedure_old : sorts sort_edges /\ hier_callable pts 2 old3 /\
  ends (hier_line pts 2 false old3 (world_old (fun _ => false))) ER_OK 4 [3; 3; 3; 4294967295; 1; 2; 1; 1; 2; 0; 0; 0]%Z 1.
Proof. exact (conj sort_edges_sorts hier_run_old). Qed.

(** Meets C62: no two distances from a point are equal. *)
Definition thirds : list Z := [1; 243; 9; 27; 81; 3; 729]%Z.
Example ex_determined : hier_callable thirds 2 (new_clustering 7) /\ no_ties 7 (eucl_geo (line thirds)) /\ no_equal_dists 7 (eucl (line thirds)) /\
  ends (hier_line thirds 2 false (new_clustering 7) world0) ER_OK 3 [2; 0; 2; 1; 1; 2; 0]%Z 1.
Proof.
  split; [apply hier_callable_by; try done; simpl; lia|]. split; [apply no_ties_by; by vm_compute|]. split; [apply no_equal_dists_by; by vm_compute|]. apply ends_by. by vm_compute.
Qed.

(** Meets C63: four points around 0 and five around 100. *)
Definition two_groups : list Z := [0; 100; 1; 101; 2; 102; 103; 3; 104]%Z.
Example ex_groups : let g x := bool_decide (x ∈ [0; 2; 4; 7]) in
  hier_callable two_groups 2 (new_clustering 9) /\ apart 9 (eucl_geo (line two_groups)) (eucl (line two_groups)) g /\ few_duplicates 9 (eucl (line two_groups)) (2 * 2) /\
  (forall ms, ms ∈ starts_of (new_clustering 9) -> enough 2 g ms) /\
  ends (hier_line two_groups 2 false (new_clustering 9) world0) ER_OK 4 [3; 1; 3; 1; 2; 1; 0; 2; 0]%Z 1.
Proof.
  intros g. split; [apply hier_callable_by; try done; simpl; lia|]. split; [apply apart_by; by vm_compute|]. split; [apply few_duplicates_by; by vm_compute|].
  split; [|apply ends_by; by vm_compute]. intros ms Hms. apply elem_of_list_singleton in Hms as ->. apply enough_by. by vm_compute.
Qed.
