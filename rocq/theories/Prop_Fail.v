(** Properties of calls of scc_sc_clustering that may fail: C26, C32-C38, C40, C50,
    C51. *)

From stdpp Require Import prelude list sorting.
From Coq Require Import NArith ZArith.
From Verif Require Import Base World Mem Digraph DigraphRep Float Spi Dist Options Arrays GraphSpec SeedSpec AssignSpec SeedsExcl
  Nng NngGraph NngSize NngAssign NngStage TypeCount TypeRows Batch BatchSpec BatchProof OptionsProof NngClustering
  ScSpec ScProof ClusSpec ScFacts Approx ScClaims ScClaims2 DistProof Example1 Example2 FailClaims.

(** C26. *)
Theorem C26_option_validation : forall o n w, prim_readable o -> exists ec w', check_cluster_options (Some o) n w = Ok (ec, w') /\
  w_live w' ≡ₚ w_live w /\
  ((ec = ER_OK /\ options_valid o n /\ w_err w' = w_err w) \/ (ec <> ER_OK /\ ~ options_valid o n /\ e_code (w_err w') = ec /\ options_error o n ec)).
Proof. exact check_options_exact. Qed.
Print Assumptions C26_option_validation.
Theorem C26_default_rejected : forall n, ~ options_valid default_options n.
Proof. exact default_options_rejected. Qed.
Print Assumptions C26_default_rejected.
Example ex_valid : options_valid (with_primary [1; 4; 7] (with_types [1; 2] [0; 1; 0; 1; 0; 1; 0; 1; 0; 1; 0; 1] (with_size 4 default_options))) 12.
Proof. constructor; simpl; auto; try (intros; lia); try (intros; splits; eauto; done); try (split; [done|repeat constructor]); lia. Qed.
Example ex_invalid : ~ options_valid (with_primary [1; 7; 4] (with_size 4 default_options)) 12.
Proof. intros []. simpl in ov_prim. destruct ov_prim as [_ H]. inversion H as [|? ? H1]; subst. inversion H1 as [|? ? ? H2]; subst. inversion H2; subst. lia. Qed.

(** C32. *)
Theorem C32_safe : forall cfg P V ds n G D o c, call_ok cfg P V ds n G D o c ->
  forall w, no_fail w -> exists ec c' w', sc_clustering cfg P ds (Some o) (Some c) w = Ok ((ec, Some c'), w').
Proof. exact claim_safe. Qed.
Print Assumptions C32_safe.
Theorem C32_undefined_only_after_failure : forall cfg P V ds n G D o c, call_ok cfg P V ds n G D o c ->
  forall w u, sc_clustering cfg P ds (Some o) (Some c) w = Bad u -> (u = NullPtr \/ u = Oob \/ u = Arith) /\ ~ no_fail w.
Proof. exact claim_ub. Qed.
Print Assumptions C32_undefined_only_after_failure.
Example ex_safe : callable pts excl_options /\ no_fail world0.
Proof. split; [apply callable_by; by vm_compute|done]. Qed.
Example ex_safe_typed : callable pts (with_methods SM_INWARDS_UPDATING UM_CLOSEST_SEED UM_CLOSEST_ASSIGNED
  (with_types [1; 2] [0; 1; 0; 1; 0; 1; 0; 1; 0; 1; 0; 1] (with_size 4 default_options))).
Proof. apply callable_by; by vm_compute. Qed.

(** C33. Options that pass validation, but uninitialised memory is read. *)
Theorem C33_zero_types_refuted : exists l o, options_valid o (length l) /\ cluster_line l o world0 = Bad Uninit.
Proof. exact (ex_intro _ pts (ex_intro _ zero_types (conj zero_types_valid zero_types_witness))). Qed.
Print Assumptions C33_zero_types_refuted.

(** C34. A failed allocation ends in success with points left out that are
    otherwise assigned. *)
Theorem C34_out_of_memory_ok_refuted : exists l o i labels labels', callable l o /\
  clustered l o 3 labels /\ ends (cluster_line l o (world_fail i)) ER_OK 3 labels' 1 /\ labels <> labels'.
Proof. exact (ex_intro _ pts (ex_intro _ (with_size 3 default_options) (ex_intro _ 9 (ex_intro _ _ (ex_intro _ _
  oom_ok_witness))))). Qed.
Print Assumptions C34_out_of_memory_ok_refuted.
(** C34. A failed allocation ends in use of a null pointer. *)
Theorem C34_out_of_memory_null_refuted : exists l o i, callable l o /\ cluster_line l o (world_fail i) = Bad NullPtr.
Proof. exact (ex_intro _ pts (ex_intro _ excl_options (ex_intro _ 8 oom_null_witness))). Qed.
Print Assumptions C34_out_of_memory_null_refuted.
Theorem C34_out_of_memory_batches_refuted : exists l o i, o_seed o = SM_BATCHES /\ callable l o /\ cluster_line l o (world_fail i) = Bad NullPtr.
Proof. exact (ex_intro _ pts (ex_intro _ batch_options (ex_intro _ 5 (conj eq_refl oom_batch_witness)))). Qed.
Print Assumptions C34_out_of_memory_batches_refuted.

(** C35. [claim_no_leak]: nothing is leaked, except ... *)
Theorem C35_no_leak_partial : forall cfg P V ds n G D o c, call_ok cfg P V ds n G D o c ->
  forall w ec cl' w', sc_clustering cfg P ds (Some o) (Some c) w = Ok ((ec, cl'), w') ->
  ec = ER_OK \/ ~ is_exclusion (o_seed o) \/ (o_prim o = None /\ o_srad o = RM_NO_RADIUS) ->
  exists c', cl' = Some c' /\ w_live w' ++ arr_blk (c_label c) ≡ₚ arr_blk (c_label c') ++ w_live w.
Proof. exact claim_no_leak. Qed.
Print Assumptions C35_no_leak_partial.
(** ... in errors with exclusion graphs in which some point cannot be a seed. *)
Theorem C35_leak_refuted : exists l o i, callable l o /\ exists c' w',
  cluster_line l o (world_fail i) = Ok ((ER_NO_MEMORY, Some c'), w') /\ c_label c' = None /\ length (w_live w') = 1.
Proof. exact (ex_intro _ pts (ex_intro _ excl_options (ex_intro _ 9 leak_witness))). Qed.
Print Assumptions C35_leak_refuted.

(** C36. All searches for one neighbour fail; the call succeeds, with points left
    out, and the failure is only in the error state. *)
Theorem C36_search_failure_refuted : exists o, flaky_callable o /\ exists c' w',
  flaky_line o = Ok ((ER_OK, Some c'), w') /\ e_code (w_err w') = ER_DIST_SEARCH_ERROR /\
  cells c' = Some <$> [0; 1; 0; 4294967295; 1; 2; 1; 4294967295; 2; 2; 4294967295; 0]%Z.
Proof. exact (ex_intro _ second_options search_ok_witness). Qed.
Print Assumptions C36_search_failure_refuted.

(** C37. The clustering is changed by a failing call. *)
Theorem C37_unchanged_refuted : exists o, flaky_callable o /\ ends (flaky_line o) ER_DIST_SEARCH_ERROR 3
  [0; 1; 0; 4294967295; 1; 2; 1; 4294967295; 2; 2; 4294967295; 0]%Z 1.
Proof. exact (ex_intro _ first_options changed_witness). Qed.
Print Assumptions C37_unchanged_refuted.
(** C37. It stays a valid object. *)
Theorem C37_still_valid : forall cfg P V ds n G D o c, call_ok cfg P V ds n G D o c ->
  forall w ec cl' w', sc_clustering cfg P ds (Some o) (Some c) w = Ok ((ec, cl'), w') -> is_initialized_clustering cfg (Some c) = true ->
  exists c', cl' = Some c' /\ is_initialized_clustering cfg (Some c') = true /\ c_n c' = c_n c /\
    (c_k c' <> c_k c -> length (cells c') = n /\ forall x, x < n -> unlabelled cfg c' x \/ exists i, i < c_k c' /\ label_of c' x = Some (Z.of_nat i)).
Proof. exact claim_still_valid. Qed.
Print Assumptions C37_still_valid.

(** C38. *)
Theorem C38_sc_reject : forall cfg P ds opt cl w,
  is_initialized_clustering cfg cl = false \/ p_check P ds = false \/
  (exists c, cl = Some c /\ p_num P ds <> c_n c) \/
  (exists c o, cl = Some c /\ opt = Some o /\ prim_readable o /\ (~ options_valid o (c_n c) \/ c_k c <> 0)) ->
  (cl = None \/ is_initialized_clustering cfg cl = false \/ p_check P ds = false \/ opt <> None) ->
  exists ec w', sc_clustering cfg P ds opt cl w = Ok ((ec, cl), w') /\ ec <> ER_OK /\ w_live w' ≡ₚ w_live w /\ e_code (w_err w') = ec.
Proof. exact reject_exact. Qed.
Print Assumptions C38_sc_reject.
Theorem C38_sc_invalid : forall cfg P V ds n G D o c, call_ok cfg P V ds n G D o c ->
  forall w ec cl' w', sc_clustering cfg P ds (Some o) (Some c) w = Ok ((ec, cl'), w') -> ~ args_valid cfg n o c ->
  ec <> ER_OK /\ cl' = Some c /\ w_live w' ≡ₚ w_live w /\ e_code (w_err w') = ec.
Proof. exact claim_invalid. Qed.
Print Assumptions C38_sc_invalid.
Example ex_reject_size : p_num builtin (Some (line pts)) <> c_n (new_clustering 11).
Proof. done. Qed.
Example ex_reject_options : ~ options_valid (with_size 13 default_options) (c_n (new_clustering 12)).
Proof. intros []. simpl in *. lia. Qed.

(** C40. The products wrap, and the neighbour buffer is overrun. *)
Theorem C40_batch_buffer_refuted : exists n d o, data_ok d n /\ options_valid o n /\ o_seed o = SM_BATCHES /\
  sc_clustering default_config builtin (Some d) (Some o) (Some (new_clustering n)) world0 = Bad Oob.
Proof. exact (ex_intro _ big (ex_intro _ big_line (ex_intro _ big_options (conj big_data (conj big_valid (conj eq_refl big_overflow)))))). Qed.
Print Assumptions C40_batch_buffer_refuted.
(** C40. Without wrap the buffers are large enough: [C32_safe], whose requirement
    [co_batch] is the product. *)

(** C50. *)
Theorem C50_succeeds : forall cfg P V ds n G D o c, call_ok cfg P V ds n G D o c ->
  forall w, solid P V ds n w -> args_valid cfg n o c -> fits cfg n o -> no_estimate o -> (exists v, seedable o n G v) ->
  exists c' w', sc_clustering cfg P ds (Some o) (Some c) w = Ok ((ER_OK, Some c'), w').
Proof. exact claim_succeeds. Qed.
Print Assumptions C50_succeeds.
Example ex_succeeds : fits default_config 12 (with_size 3 default_options) /\ no_estimate (with_size 3 default_options) /\
  seedable (with_size 3 default_options) 12 (eucl_geo (line pts)) 0.
Proof.
  split; [|split].
  - unfold fits. split; [done|]. split; [by vm_compute|]. intros [H|H]; done.
  - split; right; done.
  - split; [by apply elem_of_seq; lia|]. vm_compute. lia.
Qed.

(** C51. *)
Theorem C51_error_codes : forall cfg P V ds n G D o c, call_ok cfg P V ds n G D o c ->
  forall w ec cl' w', sc_clustering cfg P ds (Some o) (Some c) w = Ok ((ec, cl'), w') -> ec <> ER_OK ->
  e_code (w_err w') = ec /\ (args_valid cfg n o c -> error_reason cfg P V ds n G D o w ec).
Proof. exact claim_error_code. Qed.
Print Assumptions C51_error_codes.
(** No three points are within 1 of a fourth. *)
Example ex_no_solution : callable pts (with_radii RM_USE_SUPPLIED 1 RM_USE_SEED_RADIUS 0 RM_NO_RADIUS 0 (with_size 4 default_options)) /\
  exists w', cluster_line pts (with_radii RM_USE_SUPPLIED 1 RM_USE_SEED_RADIUS 0 RM_NO_RADIUS 0 (with_size 4 default_options)) world0 =
    Ok ((ER_NO_SOLUTION, Some (new_clustering 12)), w').
Proof. split; [apply callable_by; by vm_compute|]. eexists. vm_compute. reflexivity. Qed.
