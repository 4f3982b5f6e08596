(** C90: hierarchical clustering finds two groups of points that are far apart. *)

From stdpp Require Import prelude list sorting.
From Coq Require Import NArith ZArith.
From Verif Require Import Base World Mem Float Spi Dist Options NngGraph OptionsProof NngClustering ScSpec ScProof ClusSpec ScClaims ScClaims2 DistProof Example1 FailClaims
  Hier HierDiv HierFind HierSpec HierRun HierTop HierClaims HierClaims2 TwoGroups.
From Verif Require Recovered.

(** C90. [apart] as in C63: two groups of points, all distances within them smaller than
    between them; [sized n g k]: each has at least [k] and fewer than [2 * k] points. *)
Theorem C90_found : forall cfg P V ds n G D qs log2cap k c g, hier_call cfg P V ds n G D qs k c -> sorts qs -> c_k c = 0 -> apart n G D g -> sized n g k ->
  forall w c' w', hierarchical_clustering cfg P qs log2cap ds k false (Some c) w = Ok ((ER_OK, Some c'), w') ->
  forall x, x < n -> exists i, i < c_k c' /\ forall y, y ∈ cluster c' i <-> y < n /\ g y = g x.
Proof. exact hier_found. Qed.
Print Assumptions C90_found.

Theorem C90_two : forall cfg P V ds n G D qs log2cap k c g, hier_call cfg P V ds n G D qs k c -> sorts qs -> c_k c = 0 -> apart n G D g -> sized n g k ->
  forall w c' w', hierarchical_clustering cfg P qs log2cap ds k false (Some c) w = Ok ((ER_OK, Some c'), w') ->
  (exists x y, x < n /\ y < n /\ g x <> g y) -> c_k c' = 2.
Proof. exact hier_two. Qed.
Print Assumptions C90_two.

Theorem C90_succeeds : forall cfg P V ds n G D qs log2cap k c g, hier_call cfg P V ds n G D qs k c -> sorts qs -> c_k c = 0 -> apart n G D g -> sized n g k ->
  forall w, no_fail w /\ provider_reliable P V ds n -> (N.of_nat n <= cl_max cfg)%N -> (N.of_nat (4 * n + 18) <= u64max)%N ->
  exists c' w', hierarchical_clustering cfg P qs log2cap ds k false (Some c) w = Ok ((ER_OK, Some c'), w') /\
    forall x, x < n -> exists i, i < c_k c' /\ forall y, y ∈ cluster c' i <-> y < n /\ g y = g x.
Proof. exact hier_finds. Qed.
Print Assumptions C90_succeeds.

(** Both functions put the same points together. *)
Theorem C90_as_sc : forall cfg n G D g k P1 V1 ds1 qs log2cap c1 w1 c1' w1' P2 V2 ds2 o c2 w2 c2' w2',
  hier_call cfg P1 V1 ds1 n G D qs k c1 -> sorts qs -> c_k c1 = 0 -> apart n G D g -> sized n g k ->
  call_ok cfg P2 V2 ds2 n G D o c2 -> solid P2 V2 ds2 n w2 -> o_size o = k -> o_num_types o < 2 -> o_srad o = RM_NO_RADIUS -> o_prim o = None -> Recovered.assigns_all o ->
  hierarchical_clustering cfg P1 qs log2cap ds1 k false (Some c1) w1 = Ok ((ER_OK, Some c1'), w1') ->
  sc_clustering cfg P2 ds2 (Some o) (Some c2) w2 = Ok ((ER_OK, Some c2'), w2') ->
  forall x y, x < n -> y < n -> label_of c1' x = label_of c1' y <-> label_of c2' x = label_of c2' y.
Proof. exact hier_as_sc. Qed.
Print Assumptions C90_as_sc.

(** With batch assignment groups are mixed. *)
Theorem C90_batches_refuted : exists l k g, let n := length l in
  hier_callable l k (new_clustering n) /\ apart n (eucl_geo (line l)) (eucl (line l)) g /\ sized n g k /\
  exists c' w', hier_line l k true (new_clustering n) world0 = Ok ((ER_OK, Some c'), w') /\
  exists i x y, i < c_k c' /\ x ∈ cluster c' i /\ y ∈ cluster c' i /\ g x <> g y.
Proof. exact hier_found_batches. Qed.
Print Assumptions C90_batches_refuted.

Example ex_pair : sorts sort_edges /\ hier_callable pair_groups 3 (new_clustering 9) /\ apart 9 (eucl_geo (line pair_groups)) (eucl (line pair_groups)) first_group /\ sized 9 first_group 3 /\
  ends (hier_line pair_groups 3 false (new_clustering 9) world0) ER_OK 2 [1; 0; 1; 0; 1; 0; 0; 1; 0]%Z 1.
Proof.
  split; [exact sort_edges_sorts|]. split; [apply hier_callable_by; try done; simpl; lia|]. split; [apply apart_by; by vm_compute|]. split; [apply sized_by; by vm_compute|]. apply ends_by. by vm_compute.
Qed.
(** The same with [scc_sc_clustering]. *)
Example ex_pair_sc : let o := with_methods SM_LEXICAL UM_ANY_NEIGHBOR UM_IGNORE (with_size 3 default_options) in
  o_srad o = RM_NO_RADIUS /\ o_prim o = None /\ Recovered.assigns_all o /\ clustered pair_groups o 2 [0; 1; 0; 1; 0; 1; 1; 0; 1]%Z.
Proof. split; [done|]. split; [done|]. split; [by left|]. apply clustered_by; by vm_compute. Qed.
