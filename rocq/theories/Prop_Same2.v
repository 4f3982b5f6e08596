(** C75: repeated calls of scc_hierarchical_clustering. *)

From stdpp Require Import prelude list sorting.
From Coq Require Import NArith ZArith.
From Verif Require Import Base World Mem Float Spi Dist Options Hier NngClustering ClusSpec DistProof Example1 FailClaims HierSpec HierFind HierDiv HierRun HierTop HierClaims Same SameClaims SameHier.

(** C75. *)
Theorem C75_repeatable : forall cfg P V ds n G D qs log2cap k batch, hier_repeatable P -> qsort_repeatable qs ->
  forall c1 c2 w1 w2, hier_call cfg P V ds n G D qs k c1 -> hier_call cfg P V ds n G D qs k c2 -> same_start c1 c2 -> (c_k c1 = 0 -> few_duplicates n D (2 * k)) ->
  no_fail w1 -> no_fail w2 ->
  exists ec d1 w1' d2 w2', hierarchical_clustering cfg P qs log2cap ds k batch (Some c1) w1 = Ok ((ec, Some d1), w1') /\
    hierarchical_clustering cfg P qs log2cap ds k batch (Some c2) w2 = Ok ((ec, Some d2), w2') /\ (ec = ER_OK -> c_k d1 = c_k d2 /\ cells d1 = cells d2).
Proof. exact hier_repeat. Qed.
Print Assumptions C75_repeatable.
(** Success means that the clusters are those of a call in which no allocation
    fails. *)
Theorem C75_survives : forall cfg P V ds n G D qs log2cap k batch, hier_repeatable P -> qsort_repeatable qs ->
  forall c1 c2 w1 w1' d1 w2, hier_call cfg P V ds n G D qs k c1 -> hier_call cfg P V ds n G D qs k c2 -> same_start c1 c2 -> (c_k c1 = 0 -> few_duplicates n D (2 * k)) ->
  no_fail w2 -> hierarchical_clustering cfg P qs log2cap ds k batch (Some c1) w1 = Ok ((ER_OK, Some d1), w1') ->
  exists d2 w2', hierarchical_clustering cfg P qs log2cap ds k batch (Some c2) w2 = Ok ((ER_OK, Some d2), w2') /\ c_k d1 = c_k d2 /\ cells d1 = cells d2.
Proof. exact hier_survives. Qed.
Print Assumptions C75_survives.
Theorem C75_builtin : hier_repeatable builtin.
Proof. exact builtin_hier_repeatable. Qed.
Print Assumptions C75_builtin.
(** A new clustering object, and one with the user's label array after other calls. *)
Example ex_C75 : qsort_repeatable sort_edges /\ hier_callable pts 2 (new_clustering 12) /\ hier_callable pts 2 SameClaims.old_clustering /\
  same_start (new_clustering 12) SameClaims.old_clustering /\ few_duplicates 12 (eucl (line pts)) (2 * 2) /\ no_fail world0 /\ no_fail world_used /\
  ends (hier_line pts 2 false (new_clustering 12) world0) ER_OK 5 [4; 2; 4; 3; 1; 0; 2; 3; 0; 0; 1; 4]%Z 1 /\
  ends (hier_line pts 2 false SameClaims.old_clustering world_used) ER_OK 5 [4; 2; 4; 3; 1; 0; 2; 3; 0; 0; 1; 4]%Z 3.
Proof. exact hier_repeat_run. Qed.
(** A clustering with clusters; two worlds, in one of which later allocations fail. *)
Example ex_C75_old : hier_callable pts 2 old3 /\ same_start old3 old3 /\ ~ no_fail (world_old (fun j => bool_decide (100 <= j))) /\
  ends (hier_line pts 2 false old3 (world_old (fun j => bool_decide (100 <= j)))) ER_OK 4 [3; 3; 3; 4294967295; 1; 2; 1; 1; 2; 0; 0; 0]%Z 1 /\
  ends (hier_line pts 2 false old3 (world_old (fun _ => false))) ER_OK 4 [3; 3; 3; 4294967295; 1; 2; 1; 1; 2; 0; 0; 0]%Z 1.
Proof. exact hier_survive_run. Qed.
