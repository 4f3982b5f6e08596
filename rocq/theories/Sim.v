(** Two providers that return the same results in the same order make the library
    return the same results, even if one of them leaves memory allocated. *)

From stdpp Require Import prelude list.
From Coq Require Import NArith ZArith.
From Verif Require Import Base World Mem Float Options Spi Dist Digraph Nng Seeds Batch NngClustering DigraphRep.

(** [w1] is [w2] with possibly more blocks allocated; with [lk] false, allocation never
    fails and there are no further blocks. *)
Definition simw (lk : bool) (w1 w2 : world) : Prop :=
  w_fail w1 = w_fail w2 /\ w_next w1 = w_next w2 /\ w_err w1 = w_err w2 /\ w_tick w1 = w_tick w2 /\
  (forall x, cnt x (w_live w2) <= cnt x (w_live w1)) /\
  (lk = false -> no_fail w1 /\ forall x, cnt x (w_live w1) = cnt x (w_live w2)).

(** Whatever [m2] does, [m1] does too. *)
Definition simM {A} (lk : bool) (m1 m2 : M A) : Prop :=
  forall w1 w2 a w2', simw lk w1 w2 -> m2 w2 = Ok (a, w2') -> exists w1', m1 w1 = Ok (a, w1') /\ simw lk w1' w2'.

Section Steps.
Context (lk : bool).

Lemma sm_ret {A} (a : A) : simM lk (Mret a) (Mret a).
Proof. intros w1 w2 a' w2' Hs [= <- <-]. by exists w1. Qed.
Lemma sm_bad {A} u (m : M A) : simM lk m (Mbad u).
Proof. intros w1 w2 a w2' Hs [=]. Qed.
Lemma sm_lift {A} (m : R A) : simM lk (lift m) (lift m).
Proof. intros w1 w2 a w2' Hs E. unfold lift in *. destruct m; [|done]. injection E as <- <-. by exists w1. Qed.
Lemma sm_bind {A B} (m1 m2 : M A) (k1 k2 : A -> M B) : simM lk m1 m2 -> (forall a, simM lk (k1 a) (k2 a)) -> simM lk (Mbind m1 k1) (Mbind m2 k2).
Proof.
  intros Hm Hk w1 w2 b w2' Hs E. unfold Mbind in *. destruct (m2 w2) as [[a v2]|] eqn:E2; [|done].
  destruct (Hm _ _ _ _ Hs E2) as (v1 & -> & Hs1). by apply (Hk a v1 v2).
Qed.
Lemma sm_malloc n : simM lk (malloc n) (malloc n).
Proof.
  intros w1 w2 a w2' (H1 & H2 & H3 & H4 & H5 & H6) E. unfold malloc in *. rewrite H1, H2. destruct (w_fail w2 (w_next w2)); injection E as <- <-; eexists; (split; [done|]).
  - split; [done|]. split; [done|]. split; [done|]. split; [done|]. split; [done|]. intros Hl. destruct (H6 Hl) as [Hn Hc]. split; [|done]. intros i Hi. simpl in *. rewrite <- H1. apply Hn. lia.
  - split; [done|]. split; [done|]. split; [done|]. split; [done|]. split; [intros x; simpl; specialize (H5 x); lia|]. intros Hl. destruct (H6 Hl) as [Hn Hc]. split; [|intros x; simpl; by rewrite Hc].
    intros i Hi. simpl in *. rewrite <- H1. apply Hn. lia.
Qed.
Lemma simw_in w1 w2 b : simw lk w1 w2 -> b ∈ w_live w2 -> b ∈ w_live w1.
Proof. intros (_ & _ & _ & _ & H & _). rewrite !cnt_elem. specialize (H b). lia. Qed.
Lemma sm_free p : simM lk (free p) (free p).
Proof.
  intros w1 w2 a w2' Hs E. unfold free in *. destruct p as [b|]; [|by injection E as <- <-; exists w1]. destruct (decide (b ∈ w_live w2)) as [Hb|]; [|done]. injection E as <- <-.
  rewrite decide_True by (by eapply simw_in). eexists. split; [done|]. destruct Hs as (H1 & H2 & H3 & H4 & H5 & H6). unfold simw. simpl. splits; auto.
  - intros x. rewrite !cnt_remove. specialize (H5 x). lia.
  - intros Hl. destruct (H6 Hl) as [Hn Hc]. split; [done|]. intros x. rewrite !cnt_remove. by rewrite Hc.
Qed.
Lemma sm_realloc p n : simM lk (realloc p n) (realloc p n).
Proof.
  intros w1 w2 a w2' Hs E. unfold realloc in *. destruct p as [b|]; [|by eapply sm_malloc]. destruct (decide (b ∈ w_live w2)) as [Hb|]; [|done].
  rewrite decide_True by (by eapply simw_in). destruct Hs as (H1 & H2 & H3 & H4 & H5 & H6). rewrite H1, H2. destruct (w_fail w2 (w_next w2)); injection E as <- <-; (eexists; split; [done|]); unfold simw; simpl.
  - splits; auto. intros Hl. destruct (H6 Hl) as [Hn Hc]. split; [|done]. intros i Hi. simpl in *. rewrite <- H1. apply Hn. lia.
  - splits; auto.
    + intros x. rewrite !cnt_remove. specialize (H5 x). lia.
    + intros Hl. destruct (H6 Hl) as [Hn Hc]. split; [|intros x; by rewrite !cnt_remove, Hc]. intros i Hi. simpl in *. rewrite <- H1. apply Hn. lia.
Qed.
Lemma sm_set_err e : simM lk (set_err e) (set_err e).
Proof. intros w1 w2 a w2' (H1 & H2 & H3 & H4 & H5 & H6) [= <- <-]. eexists. split; [done|]. unfold simw. simpl. splits; auto. Qed.
Lemma sm_forM {S} n i (s : S) f1 f2 : (forall j s, simM lk (f1 j s) (f2 j s)) -> simM lk (forM n i s f1) (forM n i s f2).
Proof.
  intros Hf. unfold forM. revert i s. induction n as [|n IH]; intros i s w1 w2 a w2' Hs E; simpl in E |- *.
  - injection E as <- <-. by exists w1.
  - destruct (f2 i s w2) as [[s1 v2]|] eqn:E2; simpl in E; [|done]. destruct (Hf _ _ _ _ _ _ Hs E2) as (v1 & -> & Hs1). simpl. by eapply IH.
Qed.
Lemma sm_loopM {S T} n i (s : S) (f1 f2 : nat -> S -> M (S + T)) : (forall j s, simM lk (f1 j s) (f2 j s)) -> simM lk (loopM n i s f1) (loopM n i s f2).
Proof.
  intros Hf. unfold loopM. revert i s. induction n as [|n IH]; intros i s w1 w2 a w2' Hs E; simpl in E |- *.
  - injection E as <- <-. by exists w1.
  - destruct (f2 i s w2) as [[[s1|t1] v2]|] eqn:E2; simpl in E; [| |done].
    + destruct (Hf _ _ _ _ _ _ Hs E2) as (v1 & -> & Hs1). simpl. by apply (IH (Datatypes.S i) s1 v1 v2 a w2').
    + injection E as <- <-. destruct (Hf _ _ _ _ _ _ Hs E2) as (v1 & -> & Hs1). by exists v1.
Qed.
End Steps.

(** ** Each function in turn *)

Class Sim (T : Type) := sim : bool -> T -> T -> Prop.
Global Instance Sim_fun {A B} `{Sim B} : Sim (A -> B) | 10 := fun lk f g => forall a, sim lk (f a) (g a).
Global Instance Sim_M {A} : Sim (M A) | 0 := fun lk m1 m2 => simM lk m1 m2.

Create HintDb sim.
Global Hint Resolve sm_ret sm_bad sm_lift sm_malloc sm_free sm_realloc sm_set_err : sim.

Ltac sim_step :=
  match goal with
  | |- forall _, _ => intro
  | |- simM _ (let x := _ in _) _ => cbv zeta
  | |- simM _ (Mbind _ _) _ => apply sm_bind
  | |- simM _ (forM _ _ _ _) _ => apply sm_forM
  | |- simM _ (loopM _ _ _ _) _ => apply sm_loopM
  | |- simM _ _ _ => solve [eauto 1 with sim nocore]
  | |- simM _ (match ?x with _ => _ end) _ => destruct x
  | |- simM _ (match ?x with _ => _ end _) _ => destruct x
  end.
Ltac sim_all := repeat sim_step.
Ltac is_sim lk f g := let T := eval cbv [sim Sim_fun Sim_M] in (sim lk f g) in exact T.

(** The functions of a provider, with the types of its objects given. *)
Record pfuns (DS NN MX : Type) := PFuns {
  f_matrix : DS -> indices -> M (option (list double));
  f_rows : DS -> indices -> indices -> M (option (list double));
  f_mx_init : DS -> indices -> M (option MX);
  f_mx_get : MX -> indices -> M (option (list nat * list double));
  f_mx_close : MX -> M bool;
  f_nn_init : DS -> indices -> M (option NN);
  f_nn_search : NN -> indices -> nat -> option double -> M (option (list nat * list nat));
  f_nn_close : NN -> M bool
}.
Arguments f_matrix {DS NN MX}. Arguments f_rows {DS NN MX}. Arguments f_mx_init {DS NN MX}. Arguments f_mx_get {DS NN MX}.
Arguments f_mx_close {DS NN MX}. Arguments f_nn_init {DS NN MX}. Arguments f_nn_search {DS NN MX}. Arguments f_nn_close {DS NN MX}.

Definition provider_of {DS NN MX} (chk : DS -> bool) (num : DS -> nat) (f : pfuns DS NN MX) : provider :=
  Provider DS NN MX chk num (f_matrix f) (f_rows f) (f_mx_init f) (f_mx_get f) (f_mx_close f) (f_nn_init f) (f_nn_search f) (f_nn_close f).

Record sim_funs {DS NN MX} (lk : bool) (f g : pfuns DS NN MX) : Prop := {
  sf_matrix : forall d q, simM lk (f_matrix f d q) (f_matrix g d q);
  sf_rows : forall d q c, simM lk (f_rows f d q c) (f_rows g d q c);
  sf_mx_init : forall d q, simM lk (f_mx_init f d q) (f_mx_init g d q);
  sf_mx_get : forall o q, simM lk (f_mx_get f o q) (f_mx_get g o q);
  sf_mx_close : forall o, simM lk (f_mx_close f o) (f_mx_close g o);
  sf_nn_init : forall d q, simM lk (f_nn_init f d q) (f_nn_init g d q);
  sf_nn_search : forall o q k r, simM lk (f_nn_search f o q k r) (f_nn_search g o q k r);
  sf_nn_close : forall o, simM lk (f_nn_close f o) (f_nn_close g o)
}.

Section Sim.
Context (lk : bool).

Lemma sm_make_error__ : ltac:(is_sim lk make_error__ make_error__). Proof. unfold make_error__. sim_all. Qed.
Hint Resolve sm_make_error__ : sim.
Lemma sm_make_error : ltac:(is_sim lk make_error make_error). Proof. unfold make_error. sim_all. Qed.
Lemma sm_make_error_msg : ltac:(is_sim lk make_error_msg make_error_msg). Proof. unfold make_error_msg. sim_all. Qed.
Lemma sm_reset_error : ltac:(is_sim lk reset_error reset_error). Proof. unfold reset_error. sim_all. Qed.
Lemma sm_malloc_arr A n : simM lk (malloc_arr A n) (malloc_arr A n). Proof. unfold malloc_arr. sim_all. Qed.
Lemma sm_calloc_arr {A} n (x : A) : simM lk (calloc_arr n x) (calloc_arr n x). Proof. unfold calloc_arr. sim_all. Qed.
Lemma sm_free_arr {A} (p : option (arr A)) : simM lk (free_arr p) (free_arr p). Proof. unfold free_arr. sim_all. Qed.
Lemma sm_realloc_arr {A} (p : option (arr A)) n : simM lk (realloc_arr p n) (realloc_arr p n). Proof. unfold realloc_arr. sim_all. Qed.
Hint Resolve sm_make_error sm_make_error_msg sm_reset_error sm_malloc_arr sm_calloc_arr sm_free_arr sm_realloc_arr : sim.

Context (cfg : config) {DS NN MX : Type} (chk : DS -> bool) (num : DS -> nat) (fs gs : pfuns DS NN MX) (HP : sim_funs lk fs gs).
Notation P1 := (provider_of chk num fs).
Notation P2 := (provider_of chk num gs).
Ltac same_ds := change (p_check P1) with chk; change (p_check P2) with chk; change (p_num P1) with num; change (p_num P2) with num.
Definition hs_matrix := sf_matrix _ _ _ HP. Definition hs_rows := sf_rows _ _ _ HP. Definition hs_mx_init := sf_mx_init _ _ _ HP. Definition hs_mx_get := sf_mx_get _ _ _ HP.
Definition hs_mx_close := sf_mx_close _ _ _ HP. Definition hs_nn_init := sf_nn_init _ _ _ HP. Definition hs_nn_search := sf_nn_search _ _ _ HP. Definition hs_nn_close := sf_nn_close _ _ _ HP.
Hint Resolve hs_matrix hs_rows hs_mx_init hs_mx_get hs_mx_close hs_nn_init hs_nn_search hs_nn_close : sim.

Lemma sm_nn_search : ltac:(is_sim lk (nn_search P1) (nn_search P2)). Proof. unfold nn_search. sim_all. Qed.
Hint Resolve sm_nn_search : sim.
Lemma sm_nn_init : ltac:(is_sim lk (nn_init P1) (nn_init P2)). Proof. unfold nn_init. sim_all. Qed.
Hint Resolve sm_nn_init : sim.
Lemma sm_dist_rows : ltac:(is_sim lk (dist_rows P1) (dist_rows P2)). Proof. unfold dist_rows. sim_all. Qed.
Hint Resolve sm_dist_rows : sim.
Lemma sm_dist_matrix : ltac:(is_sim lk (dist_matrix P1) (dist_matrix P2)). Proof. unfold dist_matrix. sim_all. Qed.
Hint Resolve sm_dist_matrix : sim.
Lemma sm_mx_init : ltac:(is_sim lk (mx_init P1) (mx_init P2)). Proof. unfold mx_init. sim_all. Qed.
Hint Resolve sm_mx_init : sim.
Lemma sm_max_dist : ltac:(is_sim lk (max_dist P1) (max_dist P2)). Proof. unfold max_dist. sim_all. Qed.
Hint Resolve sm_max_dist : sim.
Lemma sm_check_cluster_options : ltac:(is_sim lk (check_cluster_options) (check_cluster_options)). Proof. unfold check_cluster_options. sim_all. Qed.
Hint Resolve sm_check_cluster_options : sim.
Lemma sm_free_digraph : ltac:(is_sim lk (free_digraph) (free_digraph)). Proof. unfold free_digraph. sim_all. Qed.
Hint Resolve sm_free_digraph : sim.
Lemma sm_init_digraph : ltac:(is_sim lk (init_digraph cfg) (init_digraph cfg)). Proof. unfold init_digraph. sim_all. Qed.
Hint Resolve sm_init_digraph : sim.
Lemma sm_empty_digraph : ltac:(is_sim lk (empty_digraph cfg) (empty_digraph cfg)). Proof. unfold empty_digraph. sim_all. Qed.
Hint Resolve sm_empty_digraph : sim.
Lemma sm_change_arc_storage : ltac:(is_sim lk (change_arc_storage cfg) (change_arc_storage cfg)). Proof. unfold change_arc_storage. sim_all. Qed.
Hint Resolve sm_change_arc_storage : sim.
Lemma sm_delete_loops : ltac:(is_sim lk (delete_loops cfg) (delete_loops cfg)). Proof. unfold delete_loops. sim_all. Qed.
Hint Resolve sm_delete_loops : sim.
Lemma sm_digraph_union_and_delete : ltac:(is_sim lk (digraph_union_and_delete cfg) (digraph_union_and_delete cfg)). Proof. unfold digraph_union_and_delete. sim_all. Qed.
Hint Resolve sm_digraph_union_and_delete : sim.
Lemma sm_digraph_difference : ltac:(is_sim lk (digraph_difference cfg) (digraph_difference cfg)). Proof. unfold digraph_difference. sim_all. Qed.
Hint Resolve sm_digraph_difference : sim.
Lemma sm_digraph_transpose : ltac:(is_sim lk (digraph_transpose cfg) (digraph_transpose cfg)). Proof. unfold digraph_transpose. sim_all. Qed.
Hint Resolve sm_digraph_transpose : sim.
Lemma sm_adjacency_product : ltac:(is_sim lk (adjacency_product cfg) (adjacency_product cfg)). Proof. unfold adjacency_product. sim_all. Qed.
Hint Resolve sm_adjacency_product : sim.
Lemma sm_make_nng_from_search_object : ltac:(is_sim lk (make_nng_from_search_object cfg P1) (make_nng_from_search_object cfg P2)). Proof. unfold make_nng_from_search_object. sim_all. Qed.
Hint Resolve sm_make_nng_from_search_object : sim.
Lemma sm_make_nng : ltac:(is_sim lk (make_nng cfg P1) (make_nng cfg P2)). Proof. unfold make_nng. sim_all. Qed.
Hint Resolve sm_make_nng : sim.
Lemma sm_finish_nng : ltac:(is_sim lk (finish_nng cfg) (finish_nng cfg)). Proof. unfold finish_nng. sim_all. Qed.
Hint Resolve sm_finish_nng : sim.
Lemma sm_get_nng_with_size_constraint : ltac:(is_sim lk (get_nng_with_size_constraint cfg P1) (get_nng_with_size_constraint cfg P2)). Proof. unfold get_nng_with_size_constraint. sim_all. Qed.
Hint Resolve sm_get_nng_with_size_constraint : sim.
Lemma sm_free_tc : ltac:(is_sim lk (free_tc) (free_tc)). Proof. unfold free_tc. sim_all. Qed.
Hint Resolve sm_free_tc : sim.
Lemma sm_get_type_count : ltac:(is_sim lk (get_type_count) (get_type_count)). Proof. unfold get_type_count. sim_all. Qed.
Hint Resolve sm_get_type_count : sim.
Lemma sm_type_step : ltac:(is_sim lk (type_step cfg P1) (type_step cfg P2)). Proof. unfold type_step. sim_all. Qed.
Hint Resolve sm_type_step : sim.
Lemma sm_free_dgs : ltac:(is_sim lk (free_dgs) (free_dgs)). Proof. unfold free_dgs. sim_all. Qed.
Hint Resolve sm_free_dgs : sim.
Lemma sm_add_general_nn : ltac:(is_sim lk (add_general_nn cfg P1) (add_general_nn cfg P2)). Proof. unfold add_general_nn. sim_all. Qed.
Hint Resolve sm_add_general_nn : sim.
Lemma sm_get_nng_with_type_constraint : ltac:(is_sim lk (get_nng_with_type_constraint cfg P1) (get_nng_with_type_constraint cfg P2)). Proof. unfold get_nng_with_type_constraint. sim_all. Qed.
Hint Resolve sm_get_nng_with_type_constraint : sim.
Lemma sm_estimate_avg_seed_dist : ltac:(is_sim lk (estimate_avg_seed_dist P1) (estimate_avg_seed_dist P2)). Proof. unfold estimate_avg_seed_dist. sim_all. Qed.
Hint Resolve sm_estimate_avg_seed_dist : sim.
Lemma sm_assign_by_nng : ltac:(is_sim lk (assign_by_nng cfg) (assign_by_nng cfg)). Proof. unfold assign_by_nng. sim_all. Qed.
Hint Resolve sm_assign_by_nng : sim.
Lemma sm_assign_by_nn_search : ltac:(is_sim lk (assign_by_nn_search P1) (assign_by_nn_search P2)). Proof. unfold assign_by_nn_search. sim_all. Qed.
Hint Resolve sm_assign_by_nn_search : sim.
Lemma sm_close_opt : ltac:(is_sim lk (close_opt P1) (close_opt P2)). Proof. unfold close_opt. sim_all. Qed.
Hint Resolve sm_close_opt : sim.
Lemma sm_assign_stage : ltac:(is_sim lk (assign_stage P1) (assign_stage P2)). Proof. unfold assign_stage. sim_all. Qed.
Hint Resolve sm_assign_stage : sim.
Lemma sm_assign_rest : ltac:(is_sim lk (assign_rest cfg P1) (assign_rest cfg P2)). Proof. unfold assign_rest. sim_all. Qed.
Hint Resolve sm_assign_rest : sim.
Lemma sm_assign_search : ltac:(is_sim lk (assign_search cfg P1) (assign_search cfg P2)). Proof. unfold assign_search. sim_all. Qed.
Hint Resolve sm_assign_search : sim.
Lemma sm_make_nng_clusters_from_seeds : ltac:(is_sim lk (make_nng_clusters_from_seeds cfg P1) (make_nng_clusters_from_seeds cfg P2)). Proof. unfold make_nng_clusters_from_seeds. sim_all. Qed.
Hint Resolve sm_make_nng_clusters_from_seeds : sim.
Lemma sm_add_seed : ltac:(is_sim lk (add_seed cfg) (add_seed cfg)). Proof. unfold add_seed. sim_all. Qed.
Hint Resolve sm_add_seed : sim.
Lemma sm_free_sort_result : ltac:(is_sim lk (free_sort_result) (free_sort_result)). Proof. unfold free_sort_result. sim_all. Qed.
Hint Resolve sm_free_sort_result : sim.
Lemma sm_sort_by_inwards : ltac:(is_sim lk (sort_by_inwards cfg) (sort_by_inwards cfg)). Proof. unfold sort_by_inwards. sim_all. Qed.
Hint Resolve sm_sort_by_inwards : sim.
Lemma sm_findseeds_lexical : ltac:(is_sim lk (findseeds_lexical cfg) (findseeds_lexical cfg)). Proof. unfold findseeds_lexical. sim_all. Qed.
Hint Resolve sm_findseeds_lexical : sim.
Lemma sm_inwards_step : ltac:(is_sim lk (inwards_step cfg) (inwards_step cfg)). Proof. unfold inwards_step. sim_all. Qed.
Hint Resolve sm_inwards_step : sim.
Lemma sm_findseeds_inwards : ltac:(is_sim lk (findseeds_inwards cfg) (findseeds_inwards cfg)). Proof. unfold findseeds_inwards. sim_all. Qed.
Hint Resolve sm_findseeds_inwards : sim.
Lemma sm_exclusion_graph : ltac:(is_sim lk (exclusion_graph cfg) (exclusion_graph cfg)). Proof. unfold exclusion_graph. sim_all. Qed.
Hint Resolve sm_exclusion_graph : sim.
Lemma sm_exclusion_step : ltac:(is_sim lk (exclusion_step cfg) (exclusion_step cfg)). Proof. unfold exclusion_step. sim_all. Qed.
Hint Resolve sm_exclusion_step : sim.
Lemma sm_findseeds_exclusion : ltac:(is_sim lk (findseeds_exclusion cfg) (findseeds_exclusion cfg)). Proof. unfold findseeds_exclusion. sim_all. Qed.
Hint Resolve sm_findseeds_exclusion : sim.
Lemma sm_find_seeds : ltac:(is_sim lk (find_seeds cfg) (find_seeds cfg)). Proof. unfold find_seeds. sim_all. Qed.
Hint Resolve sm_find_seeds : sim.
Lemma sm_batch_iter : ltac:(is_sim lk (batch_iter cfg P1) (batch_iter cfg P2)). Proof. unfold batch_iter. sim_all. Qed.
Hint Resolve sm_batch_iter : sim.
Lemma sm_run_batches : ltac:(is_sim lk (run_batches cfg P1) (run_batches cfg P2)). Proof. unfold run_batches. sim_all. Qed.
Hint Resolve sm_run_batches : sim.
Lemma sm_nng_clustering_batches : ltac:(is_sim lk (nng_clustering_batches cfg P1) (nng_clustering_batches cfg P2)). Proof. unfold nng_clustering_batches. same_ds. sim_all. Qed.
Hint Resolve sm_nng_clustering_batches : sim.
Lemma sm_cluster_seeds : ltac:(is_sim lk (cluster_seeds cfg P1) (cluster_seeds cfg P2)). Proof. unfold cluster_seeds. sim_all. Qed.
Hint Resolve sm_cluster_seeds : sim.
Lemma sm_make_clustering_from_nng : ltac:(is_sim lk (make_clustering_from_nng cfg P1) (make_clustering_from_nng cfg P2)). Proof. unfold make_clustering_from_nng. sim_all. Qed.
Hint Resolve sm_make_clustering_from_nng : sim.
Lemma sm_sc_clustering : ltac:(is_sim lk (sc_clustering cfg P1) (sc_clustering cfg P2)). Proof. unfold sc_clustering. same_ds. sim_all. Qed.
Hint Resolve sm_sc_clustering : sim.
End Sim.
