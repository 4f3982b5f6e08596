(** Properties of scc_check_clustering and scc_get_clustering_stats: C86, the numbers of
    clusters are names only. *)

From stdpp Require Import prelude list sorting.
From Coq Require Import NArith ZArith Floats.SpecFloat.
From Verif Require Import Base World Mem Digraph DigraphRep Float FloatFacts Spi Dist Options Arrays GraphSpec SeedSpec AssignSpec SeedsExcl
  Nng NngGraph NngSize NngAssign NngStage TypeCount TypeRows Batch BatchSpec BatchProof OptionsProof NngClustering
  ScSpec ScProof ClusSpec ScFacts ScClaims ScClaims2 DistProof DistClaims Example1 FailClaims Hier HierTop HierClaims Util CheckProof StatsProof UtilClaims Relabelled.

(** C86. [relabelled c c' p q]: cluster [j] of [c] is cluster [p j] of [c'] for every
    [j], and [q] is the inverse of [p]. *)
Theorem C86_check : forall cfg c c' p q o w1 w2 w1' w2' b b', relabelled c c' p q -> check_call cfg c o -> check_call cfg c' o ->
  check_clustering cfg (Some c) (Some o) true w1 = Ok ((ER_OK, Some b), w1') -> check_clustering cfg (Some c') (Some o) true w2 = Ok ((ER_OK, Some b'), w2') -> b = b'.
Proof. exact relabelled_check. Qed.
Print Assumptions C86_check.
Theorem C86_check_returns : forall cfg c c' p q o w1 w2 ec1 out1 w1' ec2 out2 w2', relabelled c c' p q -> check_call cfg c o -> check_call cfg c' o -> no_fail w1 -> no_fail w2 ->
  check_clustering cfg (Some c) (Some o) true w1 = Ok ((ec1, out1), w1') -> check_clustering cfg (Some c') (Some o) true w2 = Ok ((ec2, out2), w2') -> ec1 = ER_OK <-> ec2 = ER_OK.
Proof. exact relabelled_check_ok. Qed.
Print Assumptions C86_check_returns.
Theorem C86_stats : forall cfg P V ds n G D c c' p q w1 w2 w1' w2' s s', relabelled c c' p q -> stats_call cfg P V ds n G D c -> stats_call cfg P V ds n G D c' ->
  get_clustering_stats cfg P ds (Some c) true w1 = Ok ((ER_OK, Some s), w1') -> get_clustering_stats cfg P ds (Some c') true w2 = Ok ((ER_OK, Some s'), w2') ->
  st_n s = st_n s' /\ st_k s = st_k s' /\ st_assigned s = st_assigned s' /\ st_pop s = st_pop s' /\ st_minsize s = st_minsize s' /\ st_maxsize s = st_maxsize s' /\
  (st_pop s <> 0 -> st_avgsize s = st_avgsize s') /\
  (finite_dists n D -> (exists x y, mates c x y) -> st_min s = st_min s' /\ st_max s = st_max s').
Proof. exact relabelled_stats. Qed.
Print Assumptions C86_stats.

(** The sum of distances may be rounded in another way. *)
Theorem C86_sum_refuted : exists l c c' p q s s' w w', relabelled c c' p q /\ stats_callable l c /\ stats_callable l c' /\ finite_dists (length l) (eucl (line l)) /\
  stats_line l c (world_old (fun _ => false)) = Ok ((ER_OK, Some s), w) /\ stats_line l c' (world_old (fun _ => false)) = Ok ((ER_OK, Some s'), w') /\ d_gt (st_sum s) (st_sum s') = true.
Proof. exact relabelled_sum_refuted. Qed.
Print Assumptions C86_sum_refuted.

(** ** Concrete case *)

(** Meets C86. *)
Example ex_relabelled : relabelled part3 part3_next next3 prev3 /\
  check_call default_config part3 (with_size 3 default_options) /\ check_call default_config part3_next (with_size 3 default_options) /\
  says (check_line part3 (with_size 3 default_options)) true /\ says (check_line part3_next (with_size 3 default_options)) true /\
  stats_callable pts part3 /\ stats_callable pts part3_next /\ finite_dists 12 (eucl (line pts)) /\ mates part3 0 2 /\
  exists s s' w w', stats_line pts part3 (world_old (fun _ => false)) = Ok ((ER_OK, Some s), w) /\ stats_line pts part3_next (world_old (fun _ => false)) = Ok ((ER_OK, Some s'), w') /\
    st_pop s = 3 /\ st_assigned s' = 11 /\ st_minsize s' = 3%N /\ st_maxsize s' = 5.
Proof. exact relabelled_example. Qed.
