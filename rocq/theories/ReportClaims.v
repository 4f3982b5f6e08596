(** Statements about failing searches, with a provider that fails at any chosen call. *)

From stdpp Require Import prelude list.
From Coq Require Import NArith ZArith.
From Verif Require Import Base World Mem Digraph Float Options Spi Dist Nng Batch NngClustering Hier Util ClusSpec Example1 Example2 FailClaims HierClaims UtilClaims Report Oom.

(** The result of a run in which a search failed. *)
Definition search_failed {A} (failed : nat -> bool) (m : M A) (w : world) (a : A) (w' : world) : Prop :=
  m w = Ok (a, w') /\ failed (w_tick w) = false /\ failed (w_tick w') = true.

Lemma report_sc cfg P failed ds o cl : records failed P -> o_sum o = UM_IGNORE ->
  forall w ec cl' w', search_failed failed (sc_clustering cfg P ds (Some o) cl) w (ec, cl') w' -> ec = ER_DIST_SEARCH_ERROR.
Proof. intros HP Ho w ec cl' w' (E & F & F'). destruct (rp_sc_clustering failed cfg P HP ds o cl Ho _ _ _ E F) as [Hf|?]; [congruence|done]. Qed.
Lemma report_hier cfg P failed qs log2cap ds k batch cl : records failed P ->
  forall w ec cl' w', search_failed failed (hierarchical_clustering cfg P qs log2cap ds k batch cl) w (ec, cl') w' -> ec = ER_DIST_SEARCH_ERROR.
Proof. intros HP w ec cl' w' (E & F & F'). destruct (rp_hierarchical_clustering failed cfg P HP qs log2cap ds k batch cl _ _ _ E F) as [Hf|?]; [congruence|done]. Qed.
Lemma report_stats cfg P failed ds cl out : records failed P ->
  forall w ec st w', search_failed failed (get_clustering_stats cfg P ds cl out) w (ec, st) w' -> ec = ER_DIST_SEARCH_ERROR.
Proof. intros HP w ec cl' w' (E & F & F'). destruct (rp_get_clustering_stats failed cfg P HP ds cl out _ _ _ E F) as [Hf|?]; [congruence|done]. Qed.

(** The built-in functions, except that the call that makes the private state zero
    fails. Closing does not count as a call. *)
Definition set_tick (t : nat) (w : world) : world := World (w_fail w) (w_next w) (w_live w) (w_err w) t (w_most w).
Definition failing {A} (m : M (option A)) : M (option A) := fun w =>
  if decide (w_tick w <= 1) then Ok (None, set_tick 0 w) else m (set_tick (w_tick w - 1) w).
Definition frail : provider := {|
  p_ds := p_ds builtin; p_nn := p_nn builtin; p_mx := p_mx builtin; p_check := p_check builtin; p_num := p_num builtin;
  p_matrix := fun d q => failing (p_matrix builtin d q); p_rows := fun d q c => failing (p_rows builtin d q c);
  p_mx_init := fun d s => failing (p_mx_init builtin d s); p_mx_get := fun o q => failing (p_mx_get builtin o q); p_mx_close := p_mx_close builtin;
  p_nn_init := fun d s => failing (p_nn_init builtin d s);
  p_nn_search := fun o q k rad => failing (p_nn_search builtin o q k rad); p_nn_close := p_nn_close builtin |}.
Definition frail_failed (t : nat) : bool := bool_decide (t = 0).

Lemma km_deref b : keepM (deref b). Proof. unfold deref. intros w a w' E. destruct (decide (b ∈ w_live w)); by simplify_eq. Qed.
Global Hint Resolve km_deref : keep.
Lemma km_imp_matrix : ltac:(is_keep imp_matrix). Proof. unfold imp_matrix. keep_all. Qed.
Lemma km_imp_rows : ltac:(is_keep imp_rows). Proof. unfold imp_rows. keep_all. Qed.
Lemma km_imp_init : ltac:(is_keep imp_init). Proof. unfold imp_init. keep_all. Qed.
Lemma km_imp_close : ltac:(is_keep imp_close). Proof. unfold imp_close. keep_all. Qed.
Lemma km_imp_max_get : ltac:(is_keep imp_max_get). Proof. unfold imp_max_get. keep_all. Qed.
Lemma km_imp_nn_search : ltac:(is_keep imp_nn_search). Proof. unfold imp_nn_search. keep_all. Qed.

Lemma rep_failing {A} (m : M (option A)) : keepM m -> repG (unfailed frail_failed) (fun r => r = None) (failing m).
Proof.
  intros Hm w a w' E F. unfold failing in E. unfold unfailed, frail_failed in *. apply bool_decide_eq_false_1 in F. destruct (decide (w_tick w <= 1)) as [H1|H1].
  - injection E as <- <-. by right.
  - left. apply Hm in E. simpl in E. apply bool_decide_eq_false_2. lia.
Qed.
Lemma frail_records : records frail_failed frail.
Proof.
  constructor; intros; simpl; try (apply rep_keep, keep_unfailed, km_imp_close); apply rep_failing;
    first [apply km_imp_matrix | apply km_imp_rows | apply km_imp_init | apply km_imp_max_get | apply km_imp_nn_search].
Qed.

(** A call that fails during a run. *)
Lemma frail_sc : exists cl' w', search_failed frail_failed (sc_clustering default_config frail (Some (line pts)) (Some first_options) (Some (new_clustering 12)))
  (set_tick 4 world0) (ER_DIST_SEARCH_ERROR, cl') w'.
Proof. eexists _, _. split; [vm_compute; reflexivity|]. by vm_compute. Qed.
Lemma frail_hier : exists cl' w', search_failed frail_failed (hierarchical_clustering default_config frail sort_edges cap (Some (line pts)) 2 false (Some (new_clustering 12)))
  (set_tick 5 world0) (ER_DIST_SEARCH_ERROR, cl') w'.
Proof. eexists _, _. split; [vm_compute; reflexivity|]. by vm_compute. Qed.
Lemma frail_stats : exists st w', search_failed frail_failed (get_clustering_stats default_config frail (Some (line pts)) (Some old3) true)
  (set_tick 2 (world_old (fun _ => false))) (ER_DIST_SEARCH_ERROR, st) w'.
Proof. eexists _, _. split; [vm_compute; reflexivity|]. by vm_compute. Qed.

(** An allocation that fails during a run. *)
Lemma oom_hier_witness : exists cl' w', oom_run (hierarchical_clustering default_config builtin sort_edges cap (Some (line pts)) 2 false (Some (new_clustering 12)))
  (world_fail 10) (ER_DIST_SEARCH_ERROR, cl') w'.
Proof. eexists _, _. split; [vm_compute; reflexivity|]. exists 10. vm_compute. lia. Qed.
Lemma oom_check_witness : exists w', oom_run (check_clustering default_config (Some old3) (Some (with_size 3 default_options)) true) (world_old (fun j => bool_decide (j = 1))) (ER_NO_MEMORY, Some false) w'.
Proof. eexists. split; [vm_compute; reflexivity|]. exists 1. vm_compute. lia. Qed.
Lemma oom_stats_witness : exists st w', oom_run (get_clustering_stats default_config builtin (Some (line pts)) (Some old3) true) (world_old (fun j => bool_decide (j = 3))) (ER_NO_MEMORY, st) w'.
Proof. eexists _, _. split; [vm_compute; reflexivity|]. exists 3. vm_compute. lia. Qed.
