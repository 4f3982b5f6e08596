(** Properties of scc_hierarchical_clustering: C18-C22 and its part of C35, C37, C38. *)

From stdpp Require Import prelude list sorting.
From Coq Require Import NArith ZArith.
From Verif Require Import Base World Mem Float Spi Dist Options Arrays NngGraph NngStage Batch BatchProof NngClustering DigraphRep ClusSpec ScClaims DistProof Example1 FailClaims
  Hier HierDiv HierFind HierSpec HierRun HierTop HierClaims.

(** C18. *)
Theorem C18_from_scratch : forall cfg P V ds n G D qs log2cap k batch c, hier_call cfg P V ds n G D qs k c ->
  forall w c' w', c_k c = 0 -> few_duplicates n D (2 * k) ->
  hierarchical_clustering cfg P qs log2cap ds k batch (Some c) w = Ok ((ER_OK, Some c'), w') ->
  (forall x, x < n -> in_cluster c' x) /\ forall i, i < c_k c' -> k <= length (cluster c' i) < 2 * k.
Proof. exact hier_from_scratch. Qed.
Print Assumptions C18_from_scratch.
Example ex_scratch : hier_callable pts 2 (new_clustering 12) /\ few_duplicates 12 (eucl (line pts)) (2 * 2) /\
  ends (hier_line pts 2 false (new_clustering 12) world0) ER_OK 5 [4; 2; 4; 3; 1; 0; 2; 3; 0; 0; 1; 4]%Z 1.
Proof. exact hier_run_scratch. Qed.

(** C19. Four equal points: a point is not labelled and a cluster is too small. *)
Theorem C19_duplicates_refuted : exists l k, hier_callable l k (new_clustering (length l)) /\ exists c' w',
  hier_line l k false (new_clustering (length l)) world0 = Ok ((ER_OK, Some c'), w') /\ c_k c' = 2 /\ cells c' = [Some 1; Some 1; Some 0; None]%Z /\
  length (cluster c' 0) = 1.
Proof. exact (ex_intro _ _ (ex_intro _ _ hier_duplicates_witness)). Qed.
Print Assumptions C19_duplicates_refuted.
(** The labels written are those of clusters in all cases. *)
Theorem C19_labels : forall cfg P V ds n G D qs log2cap k batch c, hier_call cfg P V ds n G D qs k c ->
  forall w c' w', hierarchical_clustering cfg P qs log2cap ds k batch (Some c) w = Ok ((ER_OK, Some c'), w') ->
  length (cells c') = n /\ forall x z, cells c' !! x = Some z -> start_cells c !! x = Some z \/ exists i, i < c_k c' /\ z = Some (Z.of_nat i).
Proof. exact hier_labels. Qed.
Print Assumptions C19_labels.

(** C20. *)
Theorem C20_nested : forall cfg P V ds n G D qs log2cap k batch c, hier_call cfg P V ds n G D qs k c ->
  forall w c' w', c_k c <> 0 -> few_duplicates n D (2 * k) ->
  hierarchical_clustering cfg P qs log2cap ds k batch (Some c) w = Ok ((ER_OK, Some c'), w') ->
  (forall i, i < c_k c' -> cluster c' i <> [] /\ exists j, j < c_k c /\ (forall x, x ∈ cluster c' i -> x ∈ cluster c j) /\
     (length (cluster c j) < 2 * k -> cluster c' i ≡ₚ cluster c j) /\ (2 * k <= length (cluster c j) -> k <= length (cluster c' i) < 2 * k)) /\
  (forall j, j < c_k c -> 0 < length (cluster c j) < 2 * k -> exists i, i < c_k c' /\ cluster c' i ≡ₚ cluster c j) /\
  (forall x, x < n -> unlabelled cfg c x -> unlabelled cfg c' x) /\
  (forall x, x < n -> in_cluster c x <-> in_cluster c' x).
Proof. exact hier_nested. Qed.
Print Assumptions C20_nested.
Example ex_nested : hier_callable pts 2 old3 /\
  ends (hier_line pts 2 false old3 (world_old (fun _ => false))) ER_OK 4 [3; 3; 3; 4294967295; 1; 2; 1; 1; 2; 0; 0; 0]%Z 1.
Proof. exact hier_run_old. Qed.

(** C21. The first cluster is larger than the others. *)
Theorem C21_buffer_refuted : exists l k c, is_initialized_clustering default_config (Some c) = true /\ clu_ok c /\ labels_valid default_config c /\
  hier_line l k false c (world_old (fun _ => false)) = Bad Oob.
Proof. exact (ex_intro _ [0; 1; 2; 3]%Z (ex_intro _ 2 (ex_intro _ _ hier_overflow_witness))). Qed.
Print Assumptions C21_buffer_refuted.

(** C22. Calls with a clustering without clusters, and with one whose first
    cluster is not too large; any allocation may fail. *)
Theorem C22_safe : forall cfg P V ds n G D qs log2cap k batch c, hier_call cfg P V ds n G D qs k c ->
  forall w, exists ec c' w', hierarchical_clustering cfg P qs log2cap ds k batch (Some c) w = Ok ((ec, Some c'), w').
Proof. exact hier_safe. Qed.
Print Assumptions C22_safe.
Theorem C22_succeeds : forall cfg P V ds n G D qs (log2cap : nat -> nat -> nat) k batch c, hier_call cfg P V ds n G D qs k c ->
  forall w, no_fail w /\ provider_reliable P V ds n -> (N.of_nat n <= cl_max cfg)%N -> (N.of_nat (4 * n + 2 * c_k c + 18) <= u64max)%N ->
  (c_k c = 0 \/ (N.of_nat (c_k c + 1 + log2cap 10 n)%nat <= u64max)%N) ->
  exists c' w', hierarchical_clustering cfg P qs log2cap ds k batch (Some c) w = Ok ((ER_OK, Some c'), w').
Proof. exact hier_succeeds. Qed.
Print Assumptions C22_succeeds.
Theorem C22_error_codes : forall cfg P V ds n G D qs log2cap k batch c, hier_call cfg P V ds n G D qs k c ->
  forall w ec cl' w', hierarchical_clustering cfg P qs log2cap ds k batch (Some c) w = Ok ((ec, cl'), w') -> ec <> ER_OK ->
  hier_fail cfg P V ds n log2cap k c w ec w'.
Proof. exact hier_error_code. Qed.
Print Assumptions C22_error_codes.

(** C35. *)
Theorem C35_hier_no_leak : forall cfg P V ds n G D qs log2cap k batch c, hier_call cfg P V ds n G D qs k c ->
  forall w ec cl' w', hierarchical_clustering cfg P qs log2cap ds k batch (Some c) w = Ok ((ec, cl'), w') ->
  exists c', cl' = Some c' /\ w_live w' ++ arr_blk (c_label c) ≡ₚ arr_blk (c_label c') ++ w_live w.
Proof. exact hier_no_leak. Qed.
Print Assumptions C35_hier_no_leak.

(** C37. Labels are changed by a call that fails. *)
Theorem C37_hier_unchanged_refuted : exists l k c w, hier_callable l k c /\
  cells c = Some <$> [0; 1; 0; 1; 0; 1; 0; 1]%Z /\ c_k c = 2 /\ ends (hier_line l k false c w) ER_DIST_SEARCH_ERROR 2 [0; 0; 0; 0; 0; 1; 0; 1]%Z 1.
Proof.
  exact (ex_intro _ _ (ex_intro _ _ (ex_intro _ old2 (ex_intro _ _ (conj (proj1 hier_changed_witness) (conj eq_refl (conj eq_refl (proj2 hier_changed_witness)))))))).
Qed.
Print Assumptions C37_hier_unchanged_refuted.
Theorem C37_hier_still_valid : forall cfg P V ds n G D qs log2cap k batch c, hier_call cfg P V ds n G D qs k c ->
  forall w ec cl' w', hierarchical_clustering cfg P qs log2cap ds k batch (Some c) w = Ok ((ec, cl'), w') ->
  exists c', cl' = Some c' /\ is_initialized_clustering cfg (Some c') = true /\ c_n c' = c_n c /\ clu_ok c' /\ (ec <> ER_OK -> c_k c' = c_k c).
Proof. exact hier_still_valid. Qed.
Print Assumptions C37_hier_still_valid.

(** C38. *)
Theorem C38_hier_reject : forall cfg P qs log2cap ds k batch cl w,
  is_initialized_clustering cfg cl = false \/ p_check P ds = false \/ (exists c, cl = Some c /\ (p_num P ds <> c_n c \/ k < 2 \/ c_n c < k)) ->
  exists ec w', hierarchical_clustering cfg P qs log2cap ds k batch cl w = Ok ((ec, cl), w') /\ ec <> ER_OK /\ w_live w' ≡ₚ w_live w /\ e_code (w_err w') = ec.
Proof. exact hier_reject. Qed.
Print Assumptions C38_hier_reject.
Example ex_hier_reject : exists c, is_initialized_clustering default_config (Some c) = true /\ p_check builtin (Some (line pts)) = true /\ p_num builtin (Some (line pts)) <> c_n c.
Proof. exists (new_clustering 11). done. Qed.
