(** C74: scc_hierarchical_clustering applied to the clusterings that
    scc_sc_clustering and scc_hierarchical_clustering return. *)

From stdpp Require Import prelude list sorting.
From Coq Require Import NArith ZArith.
From Verif Require Import Base World Mem Digraph Float Spi Dist Options NngClustering Hier Util ClusSpec ScSpec ScProof ScFacts ScClaims DistProof
  Example1 FailClaims HierSpec HierFind HierDiv HierRun HierTop HierClaims BatchProof CheckProof OptionsProof StatsProof UtilClaims Pipe PipeHier.

(** C74. Refining a clustering of scc_sc_clustering. *)
Theorem C74_refine : forall cfg P V ds n G D o c, call_ok cfg P V ds n G D o c ->
  forall w w' c', sc_clustering cfg P ds (Some o) (Some c) w = Ok ((ER_OK, Some c'), w') ->
  forall qs log2cap k batch, dist_sane G D n -> (forall w l, qs w l ≡ₚ l) -> 2 <= k <= o_size o -> (N.of_nat (2 * k) <= u32max)%N -> first_fits k c' ->
  few_duplicates n D (2 * k) ->
  forall w1 w2 c2, hierarchical_clustering cfg P qs log2cap ds k batch (Some c') w1 = Ok ((ER_OK, Some c2), w2) ->
  finer c' c2 /\ (forall i, i < c_k c2 -> k <= length (cluster c2 i) < 2 * k) /\ forall x, x < n -> unlabelled cfg c' x -> unlabelled cfg c2 x.
Proof. exact sc_then_hier. Qed.
Print Assumptions C74_refine.
(** The call of scc_hierarchical_clustering meets the requirements of C20 and
    of the other properties about it. *)
Theorem C74_call : forall cfg P V ds n G D o c, call_ok cfg P V ds n G D o c ->
  forall w w' c', sc_clustering cfg P ds (Some o) (Some c) w = Ok ((ER_OK, Some c'), w') ->
  forall qs k, dist_sane G D n -> (forall w l, qs w l ≡ₚ l) -> 2 <= k <= o_size o -> (N.of_nat (2 * k) <= u32max)%N -> first_fits k c' ->
  hier_call cfg P V ds n G D qs k c'.
Proof. exact sc_hier_call. Qed.
Print Assumptions C74_call.
(** scc_check_clustering accepts the refined clustering. *)
Theorem C74_check : forall cfg P V ds n G D o c, call_ok cfg P V ds n G D o c ->
  forall w w' c', sc_clustering cfg P ds (Some o) (Some c) w = Ok ((ER_OK, Some c'), w') ->
  forall qs log2cap k batch, dist_sane G D n -> (forall w l, qs w l ≡ₚ l) -> 2 <= k <= o_size o -> (N.of_nat (2 * k) <= u32max)%N -> first_fits k c' ->
  few_duplicates n D (2 * k) ->
  forall w1 w2 c2, hierarchical_clustering cfg P qs log2cap ds k batch (Some c') w1 = Ok ((ER_OK, Some c2), w2) ->
  forall o2, prim_readable o2 -> options_valid o2 n -> check_sane o2 n (c_k c2) -> o_num_types o2 < 2 -> o_size o2 <= k -> o_prim o2 = None ->
  forall w3, exists ec out w4, check_clustering cfg (Some c2) (Some o2) true w3 = Ok ((ec, out), w4) /\ w_live w4 ≡ₚ w_live w3 /\
    ((ec = ER_OK /\ out = Some true) \/ (ec = ER_NO_MEMORY /\ ~ no_fail w3)).
Proof. exact refined_checks. Qed.
Print Assumptions C74_check.
(** Three clusters of four, four and three points, and a point that is not
    primary, become five clusters; a second call only numbers them differently. *)
Example ex_C74 : clustered (rev pts) o74 3 [0; 1; 2; 2; 0; 1; 2; 1; 0; 0; 1; 4294967295]%Z /\ few_duplicates 12 (eucl (line (rev pts))) (2 * 2) /\
  refined (rev pts) o74 2 false o2_74 (fun c1 c2 c3 out => hier_callable (rev pts) 2 c1 /\
    c_k c2 = 5 /\ cells c2 = Some <$> [4; 1; 0; 0; 3; 2; 0; 1; 3; 4; 2; 4294967295]%Z /\
    hier_callable (rev pts) 2 c2 /\ c_k c3 = 5 /\ cells c3 = Some <$> [0; 3; 4; 4; 1; 2; 4; 3; 1; 0; 2; 4294967295]%Z /\
    options_valid o2_74 12 /\ check_sane o2_74 12 (c_k c2) /\ out = Some true).
Proof. exact refine_run. Qed.

(** C74. The condition that the first cluster is small or not the largest cannot be
    left out: applied to what scc_sc_clustering returns with default options but
    for the size, scc_hierarchical_clustering writes outside its memory. *)
Theorem C74_first_refuted : exists l o k c' w', 2 <= k <= o_size o /\ few_duplicates (length l) (eucl (line l)) (2 * k) /\
  clustered l o 3 [0; 1; 0; 0; 1; 2; 1; 0; 2; 2; 1; 0]%Z /\ cluster_line l o world0 = Ok ((ER_OK, Some c'), w') /\
  exists u, hier_line l k false c' w' = Bad u.
Proof. exact first_refuted. Qed.
Print Assumptions C74_first_refuted.

(** C74. A clustering of scc_hierarchical_clustering given to it again keeps its
    clusters. *)
Theorem C74_again : forall cfg P V ds n G D qs log2cap k batch c, hier_call cfg P V ds n G D qs k c ->
  forall w w' c', few_duplicates n D (2 * k) -> hierarchical_clustering cfg P qs log2cap ds k batch (Some c) w = Ok ((ER_OK, Some c'), w') ->
  forall qs2 log2 batch2 w2 w3 c2, c_k c' <> 0 -> (forall w l, qs2 w l ≡ₚ l) ->
  hierarchical_clustering cfg P qs2 log2 ds k batch2 (Some c') w2 = Ok ((ER_OK, Some c2), w3) ->
  same_clusters c' c2 /\ forall x, x < n -> unlabelled cfg c' x -> unlabelled cfg c2 x.
Proof. exact again_same. Qed.
Print Assumptions C74_again.
Theorem C74_again_call : forall cfg P V ds n G D qs log2cap k batch c, hier_call cfg P V ds n G D qs k c ->
  forall w w' c', few_duplicates n D (2 * k) -> hierarchical_clustering cfg P qs log2cap ds k batch (Some c) w = Ok ((ER_OK, Some c'), w') ->
  forall qs2, (forall w l, qs2 w l ≡ₚ l) -> hier_call cfg P V ds n G D qs2 k c'.
Proof. exact again_call. Qed.
Print Assumptions C74_again_call.
(** See [ex_C74] for a case; the next is a clustering made from nothing. *)
Theorem C74_check_scratch : forall cfg P V ds n G D qs log2cap k batch c, hier_call cfg P V ds n G D qs k c ->
  forall w w' c', few_duplicates n D (2 * k) -> hierarchical_clustering cfg P qs log2cap ds k batch (Some c) w = Ok ((ER_OK, Some c'), w') ->
  forall o2, c_k c = 0 -> prim_readable o2 -> options_valid o2 n -> check_sane o2 n (c_k c') -> o_num_types o2 < 2 -> o_size o2 <= k ->
  forall w1, exists ec out w2, check_clustering cfg (Some c') (Some o2) true w1 = Ok ((ec, out), w2) /\ w_live w2 ≡ₚ w_live w1 /\
    ((ec = ER_OK /\ out = Some true) \/ (ec = ER_NO_MEMORY /\ ~ no_fail w1)).
Proof. exact scratch_checks. Qed.
Print Assumptions C74_check_scratch.
(** The other hypotheses are met in [ex_scratch]. *)
Example ex_C74_scratch : options_valid (with_primary [3; 7; 8] o2_74) 12 /\ check_sane (with_primary [3; 7; 8] o2_74) 12 5 /\
  exists c' w', hier_line pts 2 false (new_clustering 12) world0 = Ok ((ER_OK, Some c'), w') /\ c_k c' = 5 /\
  exists w2, check_clustering default_config (Some c') (Some (with_primary [3; 7; 8] o2_74)) true w' = Ok ((ER_OK, Some true), w2).
Proof. exact scratch_check_run. Qed.
