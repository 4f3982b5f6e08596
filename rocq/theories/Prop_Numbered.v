(** C91: the numbers that clusters get when clusterings are refined. *)

From stdpp Require Import prelude list sorting.
From Coq Require Import NArith ZArith.
From Verif Require Import Base World Mem Float Spi Dist Options Hier ClusSpec DistProof Example1 FailClaims HierSpec HierFind HierDiv HierRun HierTop HierClaims HierClaims2 Numbered.

(** C91. [x] and [y] are in clusters [i < j] before the call. *)
Theorem C91_order : forall cfg P V ds n G D qs log2cap k batch c, hier_call cfg P V ds n G D qs k c -> sorts qs -> c_k c <> 0 ->
  forall w c' w', few_duplicates n D (2 * k) -> hierarchical_clustering cfg P qs log2cap ds k batch (Some c) w = Ok ((ER_OK, Some c'), w') ->
  forall i j x y, i < j -> j < c_k c -> x ∈ cluster c i -> y ∈ cluster c j ->
  exists a b, label_of c' x = Some (Z.of_nat a) /\ label_of c' y = Some (Z.of_nat b) /\ b < a /\ a < c_k c'.
Proof. exact numbered_order. Qed.
Print Assumptions C91_order.

(** Nothing to divide. *)
Theorem C91_reversed : forall cfg P V ds n G D qs log2cap k batch c, hier_call cfg P V ds n G D qs k c -> sorts qs -> c_k c <> 0 ->
  forall w c' w', (forall i, i < c_k c -> 0 < length (cluster c i) < 2 * k) ->
  hierarchical_clustering cfg P qs log2cap ds k batch (Some c) w = Ok ((ER_OK, Some c'), w') ->
  c_k c' = c_k c /\ (forall i x, i < c_k c -> x ∈ cluster c i -> label_of c' x = Some (Z.of_nat (c_k c - 1 - i))) /\
  (forall x, x < n -> unlabelled cfg c x -> unlabelled cfg c' x).
Proof. exact numbered_small. Qed.
Print Assumptions C91_reversed.

(** Any call, followed by two more. *)
Theorem C91_twice : forall cfg P V ds n G D qs log2cap k batch c, hier_call cfg P V ds n G D qs k c -> few_duplicates n D (2 * k) ->
  forall w1 w1' c1 qs2 log2 batch2 w2 w2' c2 qs3 log3 batch3 w3 w3' c3, c_k c1 <> 0 ->
  (forall w l, qs2 w l ≡ₚ l) -> sorts qs2 -> (forall w l, qs3 w l ≡ₚ l) -> sorts qs3 ->
  hierarchical_clustering cfg P qs log2cap ds k batch (Some c) w1 = Ok ((ER_OK, Some c1), w1') ->
  hierarchical_clustering cfg P qs2 log2 ds k batch2 (Some c1) w2 = Ok ((ER_OK, Some c2), w2') ->
  hierarchical_clustering cfg P qs3 log3 ds k batch3 (Some c2) w3 = Ok ((ER_OK, Some c3), w3') ->
  c_k c3 = c_k c1 /\ forall x, x < n -> label_of c3 x = label_of c1 x.
Proof. exact numbered_twice. Qed.
Print Assumptions C91_twice.

(** Empty clusters are dropped. *)
Theorem C91_empty_refuted : exists l k c, hier_callable l k c /\ few_duplicates (length l) (eucl (line l)) (2 * k) /\ (forall i, i < c_k c -> length (cluster c i) < 2 * k) /\
  exists c' w', hier_line l k false c (world_old (fun _ => false)) = Ok ((ER_OK, Some c'), w') /\ c_k c' <> c_k c.
Proof. exact numbered_empty_refuted. Qed.
Print Assumptions C91_empty_refuted.

Notation NA := 4294967295%Z.
(** [old3] has the labels 0, 0, 0, NA, 1, 1, 1, 1, 1, 2, 2, 2; its second cluster is divided. *)
Example ex_order : sorts sort_edges /\ few_duplicates 12 (eucl (line pts)) (2 * 2) /\ hier_callable pts 2 old3 /\
  ends (hier_line pts 2 false old3 (world_old (fun _ => false))) ER_OK 4 [3; 3; 3; NA; 1; 2; 1; 1; 2; 0; 0; 0]%Z 1.
Proof. exact (conj sort_edges_sorts (conj (proj1 (proj2 hier_run_scratch)) hier_run_old)). Qed.
(** Three clusters that are not divided; and the labels this gives. *)
Definition kept : list Z := [0; 1; 10; 11; 12; 20; 21; 30]%Z.
Definition kept1 : clustering := old_clustering 3 [0; 0; 1; 1; 1; 2; 2; NA]%Z.
Definition kept2 : clustering := old_clustering 3 [2; 2; 1; 1; 1; 0; 0; NA]%Z.
Example ex_reversed : hier_callable kept 2 kept1 /\ hier_callable kept 2 kept2 /\ few_duplicates 8 (eucl (line kept)) (2 * 2) /\
  (length (cluster kept1 0), length (cluster kept1 1), length (cluster kept1 2)) = (2, 3, 2) /\
  ends (hier_line kept 2 false kept1 (world_old (fun _ => false))) ER_OK 3 [2; 2; 1; 1; 1; 0; 0; NA]%Z 1 /\
  ends (hier_line kept 2 true kept2 (world_old (fun _ => false))) ER_OK 3 [0; 0; 1; 1; 1; 2; 2; NA]%Z 1.
Proof.
  do 2 (split; [apply hier_callable_by; try done; simpl; lia|]). split; [apply few_duplicates_by; by vm_compute|]. split; [by vm_compute|]. split; apply ends_by; by vm_compute.
Qed.
