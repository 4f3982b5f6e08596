(** Clustering with the search functions for the ANN library. *)

From stdpp Require Import prelude list.
From Coq Require Import NArith ZArith.
From Verif Require Import Base World Mem DigraphRep Float Spi Dist DistProof Options OptionsProof Batch NngClustering Hier Util SeedSpec SeedsExcl ScSpec ClusSpec ScClaims ScClaims2 Example1 Sim Ann AnnProof AnnClaims.

Local Notation o3 := (with_size 3 default_options).
Local Notation data := (line pts).

(** C68. Opening a search object. [keeps] and [open_for] are in AnnClaims.v,
    [ann_exact] is what the ANN library has to do (AnnProof.v). *)
Theorem C68_open : forall lib pi_int d n, data_ok d n -> forall s w, search_set n s ->
  exists r w', ann_init (Some d) s w = Ok (r, w') /\ keeps w w' /\ w_tick w' = w_tick w + (match r with None => 0 | Some _ => 1 end) /\
  match r with
  | None => ~ no_fail w \/ (i32max < N.of_nat s.1)%N
  | Some o => open_for lib pi_int d n o (il_list s) w'
  end.
Proof. exact init_claim. Qed.
Print Assumptions C68_open.

(** C68. Searching. *)
Theorem C68_search : forall lib pi_int d n, data_ok d n -> ann_exact lib d n -> forall o S q k rad w,
  open_for lib pi_int d n o S w -> query_list n q -> 0 < k -> k <= length S -> exists r w',
  ann_search lib pi_int o q k rad w = Ok (r, w') /\ keeps w w' /\ w_tick w' = w_tick w /\
  match r with
  | None => ~ no_fail w \/ (i32max < N.of_nat k)%N
  | Some (ok, nn) => search_ok (eucl_geo d) S (il_list q) k rad ok nn
  end.
Proof. exact search_claim. Qed.
Print Assumptions C68_search.

(** C68. Closing. *)
Theorem C68_close : forall lib pi_int d n o S w, open_for lib pi_int d n o S w -> exists r w', ann_close o w = Ok (r, w') /\ wle w w' /\ w_err w' = w_err w /\
  (r = true <-> w_tick w <> 0) /\ (w_tick w <> 0 -> w_tick w' = w_tick w - 1) /\
  w_live w ≡ₚ [ao_blk o; ao_pblk o; ao_tblk o] ++ w_live w'.
Proof. exact close_claim. Qed.
Print Assumptions C68_close.

(** An exact library exists. Points 5 and 9 of [pts] and their nearest neighbours among
    the points 1 to 11, both with and without a radius. *)
Example ex_C68 : data_ok data 12 /\ ann_exact brute data 12 /\ search_set 12 (11, Some (seq 1 11)) /\
  exists o w1 w2 w3 w4, ann_init (Some data) (11, Some (seq 1 11)) world0 = Ok (Some o, w1) /\ w_tick w1 = 1 /\
  ann_search brute false o (2, Some [5; 9]) 3 None w1 = Ok (Some ([5; 9], [5; 8; 9; 9; 8; 5]), w2) /\
  ann_search brute false o (2, Some [5; 9]) 2 (Some (d_of_Z 1)) w2 = Ok (Some ([5], [5; 8]), w3) /\
  ann_close o w3 = Ok (true, w4) /\ w_tick w4 = 0 /\ w_live w4 = [].
Proof.
  split; [by apply line_data|]. split; [by apply brute_exact, line_data|]. split.
  - split; [done|]. split; [done|]. split; [|apply NoDup_seq]. apply Forall_forall. intros x Hx%elem_of_seq. lia.
  - eexists _, _, _, _, _. repeat split; vm_compute; reflexivity.
Qed.

(** C69. *)
Theorem C69_clustering : forall cfg lib pi_int d n, data_ok d n -> ann_exact lib d n -> forall o c, ann_call_ok cfg n o c -> forall w, no_fail w ->
  exists ec c' w', sc_clustering cfg (ann lib pi_int) (Some d) (Some o) (Some c) w = Ok ((ec, Some c'), w') /\
  (ec = ER_OK ->
    c_n c' = n /\ 1 <= c_k c' /\ (forall i, i < c_k c' -> o_size o <= length (cluster c' i)) /\
    (forall x, x < n -> unlabelled cfg c' x \/ exists i, i < c_k c' /\ label_of c' x = Some (Z.of_nat i)) /\
    (o_num_types o < 2 -> o_seed o <> SM_BATCHES -> forall i, i < c_k c' -> exists s r,
       s ∈ primary o n /\ NoDup (s :: r) /\ S (length r) = o_size o /\ (forall x, x ∈ s :: r -> x ∈ cluster c' i) /\
       (forall x, x ∈ r -> within_opt (eucl_geo d) (srad_of o) s x = true) /\
       (forall x y, x ∈ r -> y < n -> y ∉ s :: r -> nearer (eucl_geo d) s x y = true))) /\
  (ec <> ER_OK -> e_code (w_err w') = ec) /\
  (pi_int = false -> ec = ER_OK \/ ~ is_exclusion (o_seed o) \/ (o_prim o = None /\ o_srad o = RM_NO_RADIUS) ->
    w_live w' ++ arr_blk (c_label c) ≡ₚ arr_blk (c_label c') ++ w_live w).
Proof. exact cluster_claim. Qed.
Print Assumptions C69_clustering.

(** C69. With or without allocation failures, every result is one that a provider of
    search functions meeting the contract leads to. *)
Theorem C69_contract : forall cfg lib pi_int d n, data_ok d n -> ann_exact lib d n ->
  exists (P : provider) (V : pview P) (ds : p_ds P), provider_ok P V ds n (eucl_geo d) (eucl d) /\
  forall opt cl w r w2, sc_clustering cfg P ds opt cl w = Ok (r, w2) ->
  exists w1, sc_clustering cfg (ann lib pi_int) (Some d) opt cl w = Ok (r, w1) /\
    w_err w1 = w_err w2 /\ (forall x, cnt x (w_live w2) <= cnt x (w_live w1)) /\
    (pi_int = false -> no_fail w -> w_live w1 ≡ₚ w_live w2).
Proof. exact transfer_claim. Qed.
Print Assumptions C69_contract.

(** C69. The other functions do not search for nearest neighbours. *)
Theorem C69_others : forall cfg lib pi_int ds,
  (forall qs log2cap k batch cl w, hierarchical_clustering cfg (ann lib pi_int) qs log2cap ds k batch cl w = hierarchical_clustering cfg builtin qs log2cap ds k batch cl w) /\
  (forall cl all w, get_clustering_stats cfg (ann lib pi_int) ds cl all w = get_clustering_stats cfg builtin ds cl all w).
Proof. exact others_claim. Qed.
Print Assumptions C69_others.

(** The clustering is that of the built-in search, for both types of point indices. *)
Example ex_C69 : data_ok data 12 /\ ann_exact brute data 12 /\ ann_call_ok default_config 12 o3 (new_clustering 12) /\ no_fail world0 /\
  clustered pts o3 3 [0; 1; 0; 0; 1; 2; 1; 0; 2; 2; 1; 0]%Z /\
  forall pi_int, exists c' w', ann_line pi_int pts o3 world0 = Ok ((ER_OK, Some c'), w') /\ c_k c' = 3 /\ cells c' = Some <$> [0; 1; 0; 0; 1; 2; 1; 0; 2; 2; 1; 0]%Z.
Proof.
  split; [by apply line_data|]. split; [by apply brute_exact, line_data|]. split; [by apply (ann_line_call pts)|]. split; [done|]. split; [apply clustered_by; by vm_compute|].
  intros []; eexists _, _; (split; [vm_compute; reflexivity|]); by vm_compute.
Qed.

(** C70. Nothing is left behind. Missing: builds whose scc_PointIndex is int, and
    allocation failures; then it is false. *)
Theorem C70_partial : forall cfg lib pi_int d n, data_ok d n -> ann_exact lib d n -> forall o c, ann_call_ok cfg n o c ->
  forall w ec c' w', no_fail w -> pi_int = false ->
  sc_clustering cfg (ann lib pi_int) (Some d) (Some o) (Some c) w = Ok ((ec, Some c'), w') ->
  ec = ER_OK \/ ~ is_exclusion (o_seed o) \/ (o_prim o = None /\ o_srad o = RM_NO_RADIUS) ->
  w_live w' ++ arr_blk (c_label c) ≡ₚ arr_blk (c_label c') ++ w_live w.
Proof. exact release_claim. Qed.
Print Assumptions C70_partial.
Example ex_C70 : exists c' w', ann_line false pts o3 world0 = Ok ((ER_OK, Some c'), w') /\ w_live w' = arr_blk (c_label c') /\ length (w_live w') = 1.
Proof. eexists _, _. split; [vm_compute; reflexivity|]. by vm_compute. Qed.

(** C70. With int point indices every search over all points without a radius that works
    leaves a block behind. *)
Theorem C70_leak : forall lib pi_int d n, data_ok d n -> ann_exact lib d n -> forall o S q k w,
  open_for lib pi_int d n o S w -> query_list n q -> 0 < k -> k <= length S -> (N.of_nat k <= i32max)%N -> no_fail w ->
  pi_int = true -> (ao_set o).2 = None -> exists r w' b, ann_search lib pi_int o q k None w = Ok (Some r, w') /\ w_live w' ≡ₚ b :: w_live w.
Proof. exact leak_claim. Qed.
Print Assumptions C70_leak.
Example ex_C70_leak : exists o w1 w2, ann_init (Some data) (12, None) world0 = Ok (Some o, w1) /\ (ao_set o).2 = None /\ length (w_live w1) = 3 /\
  ann_search brute true o (1, Some [5]) 3 None w1 = Ok (Some ([5], [5; 8; 9]), w2) /\ length (w_live w2) = 4.
Proof. eexists _, _, _. repeat split; vm_compute; reflexivity. Qed.

(** C70 is false: a clustering without any failure. *)
Theorem C70_refuted : exists d n o c, data_ok d n /\ ann_exact brute d n /\ ann_call_ok default_config n o c /\
  exists w c' w', no_fail w /\ sc_clustering default_config (ann brute true) (Some d) (Some o) (Some c) w = Ok ((ER_OK, Some c'), w') /\
  ~ w_live w' ++ arr_blk (c_label c) ≡ₚ arr_blk (c_label c') ++ w_live w.
Proof. exact leak_int. Qed.
Print Assumptions C70_refuted.

(** C70 is false: a failing allocation. *)
Theorem C70_failure_refuted : exists d n o c, data_ok d n /\ ann_exact brute d n /\ ann_call_ok default_config n o c /\
  exists w c' w', sc_clustering default_config (ann brute false) (Some d) (Some o) (Some c) w = Ok ((ER_DIST_SEARCH_ERROR, Some c'), w') /\
  ~ w_live w' ++ arr_blk (c_label c) ≡ₚ arr_blk (c_label c') ++ w_live w.
Proof. exact leak_failure. Qed.
Print Assumptions C70_failure_refuted.
