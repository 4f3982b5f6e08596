(** No function of the library reuses a block number: every function keeps the list
    of live blocks free of duplicates, and the blocks it adds are new. *)

From stdpp Require Import prelude list.
From Coq Require Import NArith ZArith.
From Verif Require Import Base World Mem Float Options Spi Dist Digraph Nng Seeds Batch NngClustering Hier Util DigraphRep ObjRun ObjProof.

Definition tidyM {A} (m : M A) : Prop := forall w a w', m w = Ok (a, w') -> tidy w ->
  tidy w' /\ w_next w <= w_next w' /\ forall b, b ∈ w_live w' -> b ∈ w_live w \/ w_next w <= b.

Lemma tm_ret {A} (a : A) : tidyM (Mret a).
Proof. intros w a' w' [= <- <-] Ht. auto. Qed.
Lemma tm_bad {A} u : tidyM (@Mbad A u).
Proof. intros w a w' [=]. Qed.
Lemma tm_lift {A} (m : R A) : tidyM (lift m).
Proof. intros w a w' E Ht. unfold lift in E. destruct m; [|done]. injection E as <- <-. auto. Qed.
Lemma tm_bind {A B} (m : M A) (k : A -> M B) : tidyM m -> (forall a, tidyM (k a)) -> tidyM (Mbind m k).
Proof.
  intros Hm Hk w b w' E Ht. unfold Mbind in E. destruct (m w) as [[a w1]|] eqn:E1; [|done]. destruct (Hm _ _ _ E1 Ht) as (T1 & N1 & L1). destruct (Hk a _ _ _ E T1) as (T2 & N2 & L2).
  splits; auto; [lia|]. intros x Hx. destruct (L2 _ Hx) as [Hx1|?]; [|right; lia]. auto.
Qed.
Lemma tm_get : tidyM (fun w => Ok (w, w)).
Proof. intros w a w' [= <- <-] Ht. auto. Qed.
Lemma tm_malloc n : tidyM (malloc n).
Proof.
  intros w a w' E [T1 T2]. unfold malloc in E. destruct (w_fail w (w_next w)); injection E as <- <-; simpl.
  - splits; auto. split; [done|]. simpl. eapply Forall_impl; [done|]. simpl. lia.
  - splits; auto; [|intros b [->|?]%elem_of_cons; auto]. split; simpl.
    + constructor; [|done]. intros Hin. rewrite Forall_forall in T2. apply T2 in Hin. lia.
    + constructor; [lia|]. eapply Forall_impl; [done|]. simpl. lia.
Qed.
Lemma tidy_remove w b : tidy w -> b ∈ w_live w -> NoDup (remove_blk b (w_live w)) /\ Forall (fun b => b < w_next w) (remove_blk b (w_live w)) /\ forall x, x ∈ remove_blk b (w_live w) -> x ∈ w_live w.
Proof.
  intros [T1 T2] Hb. pose proof (remove_perm _ _ Hb) as Hp. rewrite Hp in T1, T2. apply NoDup_cons in T1 as [_ T1]. apply Forall_cons in T2 as [_ T2]. splits; auto. intros x Hx. rewrite Hp. by right.
Qed.
Lemma tm_free p : tidyM (free p).
Proof.
  intros w a w' E Ht. unfold free in E. destruct p as [b|]; [|by injection E as <- <-; auto]. destruct (decide (b ∈ w_live w)) as [Hb|]; [|done]. injection E as <- <-. destruct (tidy_remove _ _ Ht Hb) as (H1 & H2 & H3). simpl. splits; auto. by split.
Qed.
Lemma tm_realloc p n : tidyM (realloc p n).
Proof.
  intros w a w' E Ht. unfold realloc in E. destruct p as [b|]; [|by eapply tm_malloc]. destruct (decide (b ∈ w_live w)) as [Hb|]; [|done]. destruct (w_fail w (w_next w)); injection E as <- <-; simpl.
  - destruct Ht as [T1 T2]. splits; auto. split; [done|]. simpl. eapply Forall_impl; [done|]. simpl. lia.
  - destruct (tidy_remove _ _ Ht Hb) as (H1 & H2 & H3). splits; auto; [|intros x [->|?]%elem_of_cons; auto]. split; simpl.
    + constructor; [|done]. intros Hin. rewrite Forall_forall in H2. apply H2 in Hin. lia.
    + constructor; [lia|]. eapply Forall_impl; [done|]. simpl. lia.
Qed.
Lemma tm_set_err e : tidyM (set_err e).
Proof. intros w a w' [= <- <-] Ht. simpl. splits; auto. Qed.
Lemma tm_forM {S} n i (s : S) f : (forall j s, tidyM (f j s)) -> tidyM (forM n i s f).
Proof.
  intros Hf. unfold forM. revert i s. induction n as [|n IH]; intros i s w a w' E Ht; simpl in E.
  - injection E as <- <-. auto.
  - destruct (f i s w) as [[s1 w1]|] eqn:E1; simpl in E; [|done]. destruct (Hf _ _ _ _ _ E1 Ht) as (T1 & N1 & L1). destruct (IH _ _ _ _ _ E T1) as (T2 & N2 & L2).
    splits; auto; [lia|]. intros x Hx. destruct (L2 _ Hx) as [Hx1|?]; [|right; lia]. auto.
Qed.
Lemma tm_loopM {S T} n i (s : S) (f : nat -> S -> M (S + T)) : (forall j s, tidyM (f j s)) -> tidyM (loopM n i s f).
Proof.
  intros Hf. unfold loopM. revert i s. induction n as [|n IH]; intros i s w a w' E Ht; simpl in E.
  - injection E as <- <-. auto.
  - destruct (f i s w) as [[[s1|t1] w1]|] eqn:E1; simpl in E; [| |done].
    + destruct (Hf _ _ _ _ _ E1 Ht) as (T1 & N1 & L1). destruct (IH (Datatypes.S i) s1 w1 a w' E T1) as (T2 & N2 & L2).
      splits; auto; [lia|]. intros x Hx. destruct (L2 _ Hx) as [Hx1|?]; [|right; lia]. auto.
    + injection E as <- <-. by eapply Hf.
Qed.

(** ** Each function in turn *)

Class Tid (T : Type) := tid : T -> Prop.
Global Instance Tid_fun {A B} `{Tid B} : Tid (A -> B) | 10 := fun f => forall a, tid (f a).
Global Instance Tid_M {A} : Tid (M A) | 0 := fun m => tidyM m.

Create HintDb tidy.
Global Hint Resolve tm_ret tm_bad tm_lift tm_get tm_malloc tm_free tm_realloc tm_set_err : tidy.

Ltac tidy_step :=
  match goal with
  | |- forall _, _ => intro
  | |- tidyM (let x := _ in _) => cbv zeta
  | |- tidyM (Mbind _ _) => apply tm_bind
  | |- tidyM (forM _ _ _ _) => apply tm_forM
  | |- tidyM (loopM _ _ _ _) => apply tm_loopM
  | |- tidyM _ => solve [eauto 1 with tidy nocore]
  | |- tidyM (match ?x with _ => _ end) => destruct x
  | |- tidyM (match ?x with _ => _ end _) => destruct x
  | H : forall _, _ |- tidyM _ => solve [eapply H]
  end.
Ltac tidy_all := repeat tidy_step.
Ltac is_tidy f := let T := eval cbv [tid Tid_fun Tid_M] in (tid f) in exact T.

Lemma tm_make_error__ : ltac:(is_tidy make_error__). Proof. unfold make_error__. tidy_all. Qed.
Global Hint Resolve tm_make_error__ : tidy.
Lemma tm_make_error : ltac:(is_tidy make_error). Proof. unfold make_error. tidy_all. Qed.
Lemma tm_make_error_msg : ltac:(is_tidy make_error_msg). Proof. unfold make_error_msg. tidy_all. Qed.
Lemma tm_reset_error : ltac:(is_tidy reset_error). Proof. unfold reset_error. tidy_all. Qed.
Lemma tm_malloc_arr A n : tidyM (malloc_arr A n). Proof. unfold malloc_arr. tidy_all. Qed.
Lemma tm_calloc_arr {A} n (x : A) : tidyM (calloc_arr n x). Proof. unfold calloc_arr. tidy_all. Qed.
Lemma tm_free_arr {A} (p : option (arr A)) : tidyM (free_arr p). Proof. unfold free_arr. tidy_all. Qed.
Lemma tm_realloc_arr {A} (p : option (arr A)) n : tidyM (realloc_arr p n). Proof. unfold realloc_arr. tidy_all. Qed.
Global Hint Resolve tm_make_error tm_make_error_msg tm_reset_error tm_malloc_arr tm_calloc_arr tm_free_arr tm_realloc_arr : tidy.

Record tidy_provider (P : provider) : Prop := {
  tp_matrix : forall d q, tidyM (p_matrix P d q);
  tp_rows : forall d q c, tidyM (p_rows P d q c);
  tp_mx_init : forall d q, tidyM (p_mx_init P d q);
  tp_mx_get : forall o q, tidyM (p_mx_get P o q);
  tp_mx_close : forall o, tidyM (p_mx_close P o);
  tp_nn_init : forall d q, tidyM (p_nn_init P d q);
  tp_nn_search : forall o q k r, tidyM (p_nn_search P o q k r);
  tp_nn_close : forall o, tidyM (p_nn_close P o)
}.

Section Tidy.
Context (cfg : config) (P : provider) (HP : tidy_provider P).
Definition hp_matrix := tp_matrix _ HP. Definition hp_rows := tp_rows _ HP. Definition hp_mx_init := tp_mx_init _ HP. Definition hp_mx_get := tp_mx_get _ HP.
Definition hp_mx_close := tp_mx_close _ HP. Definition hp_nn_init := tp_nn_init _ HP. Definition hp_nn_search := tp_nn_search _ HP. Definition hp_nn_close := tp_nn_close _ HP.
Hint Resolve hp_matrix hp_rows hp_mx_init hp_mx_get hp_mx_close hp_nn_init hp_nn_search hp_nn_close : tidy.

Lemma tm_nn_search : ltac:(is_tidy (nn_search P)). Proof. unfold nn_search. tidy_all. Qed.
Hint Resolve tm_nn_search : tidy.
Lemma tm_nn_init : ltac:(is_tidy (nn_init P)). Proof. unfold nn_init. tidy_all. Qed.
Hint Resolve tm_nn_init : tidy.
Lemma tm_dist_rows : ltac:(is_tidy (dist_rows P)). Proof. unfold dist_rows. tidy_all. Qed.
Hint Resolve tm_dist_rows : tidy.
Lemma tm_dist_matrix : ltac:(is_tidy (dist_matrix P)). Proof. unfold dist_matrix. tidy_all. Qed.
Hint Resolve tm_dist_matrix : tidy.
Lemma tm_mx_init : ltac:(is_tidy (mx_init P)). Proof. unfold mx_init. tidy_all. Qed.
Hint Resolve tm_mx_init : tidy.
Lemma tm_max_dist : ltac:(is_tidy (max_dist P)). Proof. unfold max_dist. tidy_all. Qed.
Hint Resolve tm_max_dist : tidy.
Lemma tm_imp_matrix : ltac:(is_tidy (imp_matrix)). Proof. unfold imp_matrix. tidy_all. Qed.
Hint Resolve tm_imp_matrix : tidy.
Lemma tm_imp_rows : ltac:(is_tidy (imp_rows)). Proof. unfold imp_rows. tidy_all. Qed.
Hint Resolve tm_imp_rows : tidy.
Lemma tm_imp_init : ltac:(is_tidy (imp_init)). Proof. unfold imp_init. tidy_all. Qed.
Hint Resolve tm_imp_init : tidy.
Lemma tm_deref : ltac:(is_tidy (deref)). Proof. intros b w a w' E Ht. unfold deref in E. destruct (decide _); [|done]. injection E as <- <-. auto. Qed.
Hint Resolve tm_deref : tidy.
Lemma tm_imp_close : ltac:(is_tidy (imp_close)). Proof. unfold imp_close. tidy_all. Qed.
Hint Resolve tm_imp_close : tidy.
Lemma tm_imp_max_get : ltac:(is_tidy (imp_max_get)). Proof. unfold imp_max_get. tidy_all. Qed.
Hint Resolve tm_imp_max_get : tidy.
Lemma tm_imp_nn_search : ltac:(is_tidy (imp_nn_search)). Proof. unfold imp_nn_search. tidy_all. Qed.
Hint Resolve tm_imp_nn_search : tidy.
Lemma tm_check_cluster_options : ltac:(is_tidy (check_cluster_options)). Proof. unfold check_cluster_options. tidy_all. Qed.
Hint Resolve tm_check_cluster_options : tidy.
Lemma tm_free_digraph : ltac:(is_tidy (free_digraph)). Proof. unfold free_digraph. tidy_all. Qed.
Hint Resolve tm_free_digraph : tidy.
Lemma tm_init_digraph : ltac:(is_tidy (init_digraph cfg)). Proof. unfold init_digraph. tidy_all. Qed.
Hint Resolve tm_init_digraph : tidy.
Lemma tm_empty_digraph : ltac:(is_tidy (empty_digraph cfg)). Proof. unfold empty_digraph. tidy_all. Qed.
Hint Resolve tm_empty_digraph : tidy.
Lemma tm_change_arc_storage : ltac:(is_tidy (change_arc_storage cfg)). Proof. unfold change_arc_storage. tidy_all. Qed.
Hint Resolve tm_change_arc_storage : tidy.
Lemma tm_delete_loops : ltac:(is_tidy (delete_loops cfg)). Proof. unfold delete_loops. tidy_all. Qed.
Hint Resolve tm_delete_loops : tidy.
Lemma tm_digraph_union_and_delete : ltac:(is_tidy (digraph_union_and_delete cfg)). Proof. unfold digraph_union_and_delete. tidy_all. Qed.
Hint Resolve tm_digraph_union_and_delete : tidy.
Lemma tm_digraph_difference : ltac:(is_tidy (digraph_difference cfg)). Proof. unfold digraph_difference. tidy_all. Qed.
Hint Resolve tm_digraph_difference : tidy.
Lemma tm_digraph_transpose : ltac:(is_tidy (digraph_transpose cfg)). Proof. unfold digraph_transpose. tidy_all. Qed.
Hint Resolve tm_digraph_transpose : tidy.
Lemma tm_adjacency_product : ltac:(is_tidy (adjacency_product cfg)). Proof. unfold adjacency_product. tidy_all. Qed.
Hint Resolve tm_adjacency_product : tidy.
Lemma tm_make_nng_from_search_object : ltac:(is_tidy (make_nng_from_search_object cfg P)). Proof. unfold make_nng_from_search_object. tidy_all. Qed.
Hint Resolve tm_make_nng_from_search_object : tidy.
Lemma tm_make_nng : ltac:(is_tidy (make_nng cfg P)). Proof. unfold make_nng. tidy_all. Qed.
Hint Resolve tm_make_nng : tidy.
Lemma tm_finish_nng : ltac:(is_tidy (finish_nng cfg)). Proof. unfold finish_nng. tidy_all. Qed.
Hint Resolve tm_finish_nng : tidy.
Lemma tm_get_nng_with_size_constraint : ltac:(is_tidy (get_nng_with_size_constraint cfg P)). Proof. unfold get_nng_with_size_constraint. tidy_all. Qed.
Hint Resolve tm_get_nng_with_size_constraint : tidy.
Lemma tm_free_tc : ltac:(is_tidy (free_tc)). Proof. unfold free_tc. tidy_all. Qed.
Hint Resolve tm_free_tc : tidy.
Lemma tm_get_type_count : ltac:(is_tidy (get_type_count)). Proof. unfold get_type_count. tidy_all. Qed.
Hint Resolve tm_get_type_count : tidy.
Lemma tm_type_step : ltac:(is_tidy (type_step cfg P)). Proof. unfold type_step. tidy_all. Qed.
Hint Resolve tm_type_step : tidy.
Lemma tm_free_dgs : ltac:(is_tidy (free_dgs)). Proof. unfold free_dgs. tidy_all. Qed.
Hint Resolve tm_free_dgs : tidy.
Lemma tm_add_general_nn : ltac:(is_tidy (add_general_nn cfg P)). Proof. unfold add_general_nn. tidy_all. Qed.
Hint Resolve tm_add_general_nn : tidy.
Lemma tm_get_nng_with_type_constraint : ltac:(is_tidy (get_nng_with_type_constraint cfg P)). Proof. unfold get_nng_with_type_constraint. tidy_all. Qed.
Hint Resolve tm_get_nng_with_type_constraint : tidy.
Lemma tm_estimate_avg_seed_dist : ltac:(is_tidy (estimate_avg_seed_dist P)). Proof. unfold estimate_avg_seed_dist. tidy_all. Qed.
Hint Resolve tm_estimate_avg_seed_dist : tidy.
Lemma tm_assign_by_nng : ltac:(is_tidy (assign_by_nng cfg)). Proof. unfold assign_by_nng. tidy_all. Qed.
Hint Resolve tm_assign_by_nng : tidy.
Lemma tm_assign_by_nn_search : ltac:(is_tidy (assign_by_nn_search P)). Proof. unfold assign_by_nn_search. tidy_all. Qed.
Hint Resolve tm_assign_by_nn_search : tidy.
Lemma tm_close_opt : ltac:(is_tidy (close_opt P)). Proof. unfold close_opt. tidy_all. Qed.
Hint Resolve tm_close_opt : tidy.
Lemma tm_assign_stage : ltac:(is_tidy (assign_stage P)). Proof. unfold assign_stage. tidy_all. Qed.
Hint Resolve tm_assign_stage : tidy.
Lemma tm_assign_rest : ltac:(is_tidy (assign_rest cfg P)). Proof. unfold assign_rest. tidy_all. Qed.
Hint Resolve tm_assign_rest : tidy.
Lemma tm_assign_search : ltac:(is_tidy (assign_search cfg P)). Proof. unfold assign_search. tidy_all. Qed.
Hint Resolve tm_assign_search : tidy.
Lemma tm_make_nng_clusters_from_seeds : ltac:(is_tidy (make_nng_clusters_from_seeds cfg P)). Proof. unfold make_nng_clusters_from_seeds. tidy_all. Qed.
Hint Resolve tm_make_nng_clusters_from_seeds : tidy.
Lemma tm_add_seed : ltac:(is_tidy (add_seed cfg)). Proof. unfold add_seed. tidy_all. Qed.
Hint Resolve tm_add_seed : tidy.
Lemma tm_free_sort_result : ltac:(is_tidy (free_sort_result)). Proof. unfold free_sort_result. tidy_all. Qed.
Hint Resolve tm_free_sort_result : tidy.
Lemma tm_sort_by_inwards : ltac:(is_tidy (sort_by_inwards cfg)). Proof. unfold sort_by_inwards. tidy_all. Qed.
Hint Resolve tm_sort_by_inwards : tidy.
Lemma tm_findseeds_lexical : ltac:(is_tidy (findseeds_lexical cfg)). Proof. unfold findseeds_lexical. tidy_all. Qed.
Hint Resolve tm_findseeds_lexical : tidy.
Lemma tm_inwards_step : ltac:(is_tidy (inwards_step cfg)). Proof. unfold inwards_step. tidy_all. Qed.
Hint Resolve tm_inwards_step : tidy.
Lemma tm_findseeds_inwards : ltac:(is_tidy (findseeds_inwards cfg)). Proof. unfold findseeds_inwards. tidy_all. Qed.
Hint Resolve tm_findseeds_inwards : tidy.
Lemma tm_exclusion_graph : ltac:(is_tidy (exclusion_graph cfg)). Proof. unfold exclusion_graph. tidy_all. Qed.
Hint Resolve tm_exclusion_graph : tidy.
Lemma tm_exclusion_step : ltac:(is_tidy (exclusion_step cfg)). Proof. unfold exclusion_step. tidy_all. Qed.
Hint Resolve tm_exclusion_step : tidy.
Lemma tm_findseeds_exclusion : ltac:(is_tidy (findseeds_exclusion cfg)). Proof. unfold findseeds_exclusion. tidy_all. Qed.
Hint Resolve tm_findseeds_exclusion : tidy.
Lemma tm_find_seeds : ltac:(is_tidy (find_seeds cfg)). Proof. unfold find_seeds. tidy_all. Qed.
Hint Resolve tm_find_seeds : tidy.
Lemma tm_batch_iter : ltac:(is_tidy (batch_iter cfg P)). Proof. unfold batch_iter. tidy_all. Qed.
Hint Resolve tm_batch_iter : tidy.
Lemma tm_run_batches : ltac:(is_tidy (run_batches cfg P)). Proof. unfold run_batches. tidy_all. Qed.
Hint Resolve tm_run_batches : tidy.
Lemma tm_nng_clustering_batches : ltac:(is_tidy (nng_clustering_batches cfg P)). Proof. unfold nng_clustering_batches. tidy_all. Qed.
Hint Resolve tm_nng_clustering_batches : tidy.
Lemma tm_cluster_seeds : ltac:(is_tidy (cluster_seeds cfg P)). Proof. unfold cluster_seeds. tidy_all. Qed.
Hint Resolve tm_cluster_seeds : tidy.
Lemma tm_make_clustering_from_nng : ltac:(is_tidy (make_clustering_from_nng cfg P)). Proof. unfold make_clustering_from_nng. tidy_all. Qed.
Hint Resolve tm_make_clustering_from_nng : tidy.
Lemma tm_sc_clustering : ltac:(is_tidy (sc_clustering cfg P)). Proof. unfold sc_clustering. tidy_all. Qed.
Hint Resolve tm_sc_clustering : tidy.
Lemma tm_centers_iter : ltac:(is_tidy (centers_iter P)). Proof. unfold centers_iter. tidy_all. Qed.
Hint Resolve tm_centers_iter : tidy.
Lemma tm_find_centers : ltac:(is_tidy (find_centers cfg P)). Proof. unfold find_centers. tidy_all. Qed.
Hint Resolve tm_find_centers : tidy.
Lemma tm_populate_edge_lists : ltac:(is_tidy (populate_edge_lists P)). Proof. unfold populate_edge_lists. tidy_all. Qed.
Hint Resolve tm_populate_edge_lists : tidy.
Lemma tm_break_cluster : ltac:(is_tidy (break_cluster cfg P)). Proof. unfold break_cluster. tidy_all. Qed.
Hint Resolve tm_break_cluster : tidy.
Lemma tm_check_capacity : ltac:(is_tidy (check_capacity)). Proof. unfold check_capacity. tidy_all. Qed.
Hint Resolve tm_check_capacity : tidy.
Lemma tm_run_step : ltac:(is_tidy (run_step cfg P)). Proof. unfold run_step. tidy_all. Qed.
Hint Resolve tm_run_step : tidy.
Lemma tm_hi_run : ltac:(is_tidy (hi_run cfg P)). Proof. unfold hi_run. tidy_all. Qed.
Hint Resolve tm_hi_run : tidy.
Lemma tm_empty_cl_stack : ltac:(is_tidy (empty_cl_stack)). Proof. unfold empty_cl_stack. tidy_all. Qed.
Hint Resolve tm_empty_cl_stack : tidy.
Lemma tm_init_cl_stack : ltac:(is_tidy (init_cl_stack cfg)). Proof. unfold init_cl_stack. tidy_all. Qed.
Hint Resolve tm_init_cl_stack : tidy.
Lemma tm_malloc_es : ltac:(is_tidy (malloc_es)). Proof. unfold malloc_es. tidy_all. Qed.
Hint Resolve tm_malloc_es : tidy.
Lemma tm_free_es : ltac:(is_tidy (free_es)). Proof. unfold free_es. tidy_all. Qed.
Hint Resolve tm_free_es : tidy.
Lemma tm_hierarchical_clustering : ltac:(is_tidy (hierarchical_clustering cfg P)). Proof. unfold hierarchical_clustering. tidy_all. Qed.
Hint Resolve tm_hierarchical_clustering : tidy.
Lemma tm_check_clustering : ltac:(is_tidy (check_clustering cfg)). Proof. unfold check_clustering. tidy_all. Qed.
Hint Resolve tm_check_clustering : tidy.
Lemma tm_dist_stats : ltac:(is_tidy (dist_stats P)). Proof. unfold dist_stats. tidy_all. Qed.
Hint Resolve tm_dist_stats : tidy.
Lemma tm_get_clustering_stats : ltac:(is_tidy (get_clustering_stats cfg P)). Proof. unfold get_clustering_stats. tidy_all. Qed.
Hint Resolve tm_get_clustering_stats : tidy.
End Tidy.
