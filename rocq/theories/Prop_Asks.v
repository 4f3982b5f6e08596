(** C76, C77: the sizes of requests for memory. *)

From stdpp Require Import prelude list sorting.
From Coq Require Import NArith ZArith.
From Verif Require Import Base World Mem Float Spi Dist Options Hier Util NngClustering ClusSpec ScSpec ScClaims DistProof Example1 FailClaims HierTop HierClaims UtilClaims Ann Asks AsksClaims.

(** C76. [w_most] is the largest number of elements asked for so far, [size] the size of
    an element in bytes. *)
Theorem C76_sc : forall cfg P, index32 cfg -> modest P -> forall size, (size <= 64)%N ->
  forall V ds n G D o c w r w', call_ok cfg P V ds n G D o c -> Forall (fun m => (N.of_nat m <= u32max)%N) (tcons_of o) -> fits size (w_most w) ->
  sc_clustering cfg P ds (Some o) (Some c) w = Ok (r, w') -> fits size (w_most w').
Proof. exact sc_fits. Qed.
Print Assumptions C76_sc.
Theorem C76_hierarchical : forall cfg P, index32 cfg -> modest P -> forall size, (size <= 64)%N ->
  forall qs log2cap ds k batch cl w r w', (forall c n, (N.of_nat n <= u32max)%N -> log2cap c n <= 64 * c) -> fits size (w_most w) ->
  hierarchical_clustering cfg P qs log2cap ds k batch cl w = Ok (r, w') -> fits size (w_most w').
Proof. exact hier_fits. Qed.
Print Assumptions C76_hierarchical.
Theorem C76_check : forall cfg, index32 cfg -> forall size, (size <= 64)%N ->
  forall cl opt out w r w', fits size (w_most w) -> check_clustering cfg cl opt out w = Ok (r, w') -> fits size (w_most w').
Proof. exact check_fits. Qed.
Print Assumptions C76_check.
Theorem C76_builtin : modest builtin.
Proof. exact builtin_modest. Qed.
Print Assumptions C76_builtin.
Theorem C76_ann : forall lib pi_int, modest (ann lib pi_int).
Proof. exact ann_modest. Qed.
Print Assumptions C76_ann.
(** Numbers of elements asked for in concrete runs. *)
Example ex_C76 :
  index32 default_config /\ modest builtin /\ callable pts (with_size 3 default_options) /\ callable pts wide_types /\
  asked (cluster_line pts (with_size 3 default_options) world0) = Some 36 /\ asked (cluster_line pts wide_types world0) = Some 48 /\
  asked (hier_line pts 2 false (new_clustering 12) world0) = Some 100 /\ asked (hier_line pts 2 false old3 (world_old (fun _ => false))) = Some 100 /\
  asked (check_line part3 type_options) = Some 6 /\ fits 64 48.
Proof. exact asked_example. Qed.
Example ex_C76_log : forall c n, (N.of_nat n <= u32max)%N -> cap c n <= 64 * c.
Proof. exact cap_small. Qed.

(** C77 without the restriction on the size of clusters does not hold. *)
Theorem C77_refuted : exists l c ec out w', stats_callable l c /\ stats_line l c (world_old (fun _ => false)) = Ok ((ec, out), w') /\ ~ fits 8 (w_most w').
Proof. exact huge_refuted. Qed.
Print Assumptions C77_refuted.
Theorem C77_partial : forall cfg P V ds n G D c, stats_call cfg P V ds n G D c -> forall w r w', index32 cfg -> modest P ->
  (forall j, j < c_k c -> (N.of_nat (length (cluster c j)) <= 2 ^ 31)%N) -> fits 8 (w_most w) ->
  get_clustering_stats cfg P ds (Some c) true w = Ok (r, w') -> fits 8 (w_most w').
Proof. exact stats_fits. Qed.
Print Assumptions C77_partial.
Example ex_C77 : stats_callable pts old3 /\ (forall j, j < c_k old3 -> (N.of_nat (length (cluster old3 j)) <= 2 ^ 31)%N) /\
  asked (stats_line pts old3 (world_old (fun _ => false))) = Some 11.
Proof. exact asked_stats_example. Qed.
