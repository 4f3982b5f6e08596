(** C36, C53, C54: calls in which a distance search or an allocation fails. [failed] is any predicate of the
    search functions' private state that becomes true only in calls that report a
    failure to the library ([records]). *)

From stdpp Require Import prelude list.
From Coq Require Import NArith ZArith.
From Verif Require Import Base World Mem Float Options Spi Dist NngClustering Hier Util ClusSpec Example1 FailClaims HierClaims UtilClaims Report Oom ReportClaims.

(** C36, for scc_sc_clustering without secondary stage. The full statement is
    without the condition on [o_sum]; it is false ([C36_search_failure_refuted]). *)
Theorem C36_reported_partial : forall cfg P failed ds o cl, records failed P -> o_sum o = UM_IGNORE ->
  forall w ec cl' w', search_failed failed (sc_clustering cfg P ds (Some o) cl) w (ec, cl') w' -> ec = ER_DIST_SEARCH_ERROR.
Proof. exact report_sc. Qed.
Print Assumptions C36_reported_partial.
Example ex_C36 : records frail_failed frail /\ o_sum first_options = UM_IGNORE /\
  exists cl' w', search_failed frail_failed (sc_clustering default_config frail (Some (line pts)) (Some first_options) (Some (new_clustering 12)))
    (set_tick 4 world0) (ER_DIST_SEARCH_ERROR, cl') w'.
Proof. exact (conj frail_records (conj eq_refl frail_sc)). Qed.

(** C53, for scc_hierarchical_clustering. *)
Theorem C53_hier : forall cfg P failed qs log2cap ds k batch cl, records failed P ->
  forall w ec cl' w', search_failed failed (hierarchical_clustering cfg P qs log2cap ds k batch cl) w (ec, cl') w' -> ec = ER_DIST_SEARCH_ERROR.
Proof. exact report_hier. Qed.
Print Assumptions C53_hier.
Example ex_C53_hier : exists cl' w', search_failed frail_failed (hierarchical_clustering default_config frail sort_edges cap (Some (line pts)) 2 false (Some (new_clustering 12)))
  (set_tick 5 world0) (ER_DIST_SEARCH_ERROR, cl') w'.
Proof. exact frail_hier. Qed.

(** C53, for scc_get_clustering_stats. *)
Theorem C53_stats : forall cfg P failed ds cl out, records failed P ->
  forall w ec st w', search_failed failed (get_clustering_stats cfg P ds cl out) w (ec, st) w' -> ec = ER_DIST_SEARCH_ERROR.
Proof. exact report_stats. Qed.
Print Assumptions C53_stats.
Example ex_C53_stats : exists st w', search_failed frail_failed (get_clustering_stats default_config frail (Some (line pts)) (Some old3) true)
  (set_tick 2 (world_old (fun _ => false))) (ER_DIST_SEARCH_ERROR, st) w'.
Proof. exact frail_stats. Qed.

(** C54. The search functions report their own failing allocations as search
    failures. *)
Theorem C54_hier : forall cfg P qs log2cap ds k batch cl, provider_reports P ->
  forall w ec cl' w', oom_run (hierarchical_clustering cfg P qs log2cap ds k batch cl) w (ec, cl') w' -> oom_code ec.
Proof. exact oom_hier. Qed.
Print Assumptions C54_hier.
Theorem C54_check : forall cfg cl opt out w ec ok w', oom_run (check_clustering cfg cl opt out) w (ec, ok) w' -> oom_code ec.
Proof. exact oom_check. Qed.
Print Assumptions C54_check.
Theorem C54_stats : forall cfg P ds cl out, provider_reports P ->
  forall w ec st w', oom_run (get_clustering_stats cfg P ds cl out) w (ec, st) w' -> oom_code ec.
Proof. exact oom_stats. Qed.
Print Assumptions C54_stats.
Theorem C54_builtin : provider_reports builtin.
Proof. exact builtin_reports. Qed.
Print Assumptions C54_builtin.
Example ex_C54_hier : exists cl' w', oom_run (hierarchical_clustering default_config builtin sort_edges cap (Some (line pts)) 2 false (Some (new_clustering 12)))
  (world_fail 10) (ER_DIST_SEARCH_ERROR, cl') w'.
Proof. exact oom_hier_witness. Qed.
Example ex_C54_check : exists w', oom_run (check_clustering default_config (Some old3) (Some (with_size 3 default_options)) true)
  (world_old (fun j => bool_decide (j = 1))) (ER_NO_MEMORY, Some false) w'.
Proof. exact oom_check_witness. Qed.
Example ex_C54_stats : exists st w', oom_run (get_clustering_stats default_config builtin (Some (line pts)) (Some old3) true)
  (world_old (fun j => bool_decide (j = 3))) (ER_NO_MEMORY, st) w'.
Proof. exact oom_stats_witness. Qed.
