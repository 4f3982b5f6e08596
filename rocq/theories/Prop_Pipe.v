(** C66, C67: what scc_get_clustering_stats reports of the clusterings that the
    library makes. *)

From stdpp Require Import prelude list sorting.
From Coq Require Import NArith ZArith.
From Verif Require Import Base World Mem Float Spi Dist Options NngClustering Hier Util ClusSpec ScSpec ScProof ScFacts Approx ScClaims ScClaims2 DistProof DistClaims
  Example1 FailClaims HierSpec HierDiv HierRun HierTop HierClaims StatsProof UtilClaims Prop_Sc Pipe.

(** C66. *)
Theorem C66_stats : forall cfg P V ds n G D o c, call_ok cfg P V ds n G D o c ->
  forall w w' c', sc_clustering cfg P ds (Some o) (Some c) w = Ok ((ER_OK, Some c'), w') -> (N.of_nat (n * (n - 1)) <= u64max)%N ->
  forall w1 w2 s, get_clustering_stats cfg P ds (Some c') true w1 = Ok ((ER_OK, Some s), w2) ->
  st_n s = n /\ st_k s = c_k c' /\ st_pop s = c_k c' /\ (N.of_nat (o_size o) <= st_minsize s)%N /\ (st_minsize s <= N.of_nat (st_maxsize s))%N /\
  c_k c' * o_size o <= st_assigned s <= n.
Proof. exact sc_then_stats. Qed.
Print Assumptions C66_stats.
Theorem C66_exact : forall cfg P V ds n G D o c, call_ok cfg P V ds n G D o c ->
  forall w w' c', sc_clustering cfg P ds (Some o) (Some c) w = Ok ((ER_OK, Some c'), w') -> (N.of_nat (n * (n - 1)) <= u64max)%N ->
  forall w1 w2 s, o_num_types o < 2 -> o_pum o = UM_IGNORE -> o_sum o = UM_IGNORE ->
  get_clustering_stats cfg P ds (Some c') true w1 = Ok ((ER_OK, Some s), w2) ->
  st_minsize s = N.of_nat (o_size o) /\ st_maxsize s = o_size o /\ st_assigned s = c_k c' * o_size o.
Proof. exact sc_then_stats_exact. Qed.
Print Assumptions C66_exact.
(** The call of scc_get_clustering_stats meets the requirements of C24. *)
Theorem C66_call : forall cfg P V ds n G D o c, call_ok cfg P V ds n G D o c ->
  forall w w' c', sc_clustering cfg P ds (Some o) (Some c) w = Ok ((ER_OK, Some c'), w') -> (N.of_nat (n * (n - 1)) <= u64max)%N ->
  stats_call cfg P V ds n G D c'.
Proof. exact sc_stats_call. Qed.
Print Assumptions C66_call.
Example ex_C66 : clustered pts o3 3 [0; 1; 0; 0; 1; 2; 1; 0; 2; 2; 1; 0]%Z /\
  sc_and_stats pts o3 (fun c' s => st_k s = 3 /\ st_pop s = 3 /\ st_minsize s = 3%N /\ st_maxsize s = 5 /\ st_assigned s = 12).
Proof.
  split; [apply clustered_by; by vm_compute|]. unfold sc_and_stats. destruct (cluster_line pts o3 world0) as [[[[] [c'|]] w']|] eqn:E; vm_compute in E; try discriminate E.
  injection E as <- <-. eexists _, _, _, _. split; [reflexivity|]. split; [by vm_compute|]. by vm_compute.
Qed.
Example ex_C66_exact : sc_and_stats pts (with_methods SM_LEXICAL UM_IGNORE UM_IGNORE o3) (fun c' s => c_k c' = 3 /\ st_minsize s = 3%N /\ st_maxsize s = 3 /\ st_assigned s = 9).
Proof.
  unfold sc_and_stats. destruct (cluster_line pts _ world0) as [[[[] [c'|]] w']|] eqn:E; vm_compute in E; try discriminate E.
  injection E as <- <-. eexists _, _, _, _. split; [reflexivity|]. split; [by vm_compute|]. by vm_compute.
Qed.

(** C66. The largest distance within clusters is at most four times that of any
    clustering [f] of all points that meets the constraints. [val] gives the
    numbers that stand for the computed distances. *)
Theorem C66_four_times : forall cfg P V ds n G D o c, call_ok cfg P V ds n G D o c ->
  forall w w' c', sc_clustering cfg P ds (Some o) (Some c) w = Ok ((ER_OK, Some c'), w') -> (N.of_nat (n * (n - 1)) <= u64max)%N ->
  forall (T : Type) (le : T -> T -> Prop) (add : T -> T -> T) (val : double -> T) (d : nat -> nat -> T) f lam w1 w2 s,
  metric le add d -> (forall x y, x < n -> y < n -> val (D x y) = d x y) ->
  (forall q x y, q < n -> x < n -> y < n -> nearer G q x y = true -> le (d q x) (d q y)) ->
  alt_ok o n f -> (forall x y, x < n -> y < n -> f x = f y -> le (d x y) lam) ->
  o_seed o <> SM_BATCHES -> o_pum o = UM_ANY_NEIGHBOR -> one_stage P V ds n o w -> finite_dists n D ->
  get_clustering_stats cfg P ds (Some c') true w1 = Ok ((ER_OK, Some s), w2) -> le (val (st_max s)) (add (add lam lam) (add lam lam)).
Proof. exact (fun cfg P V ds n G D o c Hc w w' c' Hr Hs T => sc_then_stats_four cfg P V ds n G D o c Hc w w' c' Hr Hs (T := T)). Qed.
Print Assumptions C66_four_times.
(** The other hypotheses are met in [ex_four]. *)
Example ex_C66_four : (forall x y, x < 12 -> y < 12 -> d_to_Z (eucl (line pts) x y) = gap x y) /\ finite_dists 12 (eucl (line pts)) /\
  sc_and_stats pts o3 (fun c' s => d_to_Z (st_max s) = 5%Z).
Proof.
  split; [|split].
  - intros x y Hx Hy. assert (below 12 (fun x => below 12 (fun y => bool_decide (d_to_Z (eucl (line pts) x y) = gap x y))) = true) as H by by vm_compute.
    apply (below_spec _ _ x) in H; [|done]. apply (below_spec _ _ y) in H; [|done]. by apply bool_decide_eq_true in H.
  - apply extremes_example.
  - unfold sc_and_stats. destruct (cluster_line pts o3 world0) as [[[[] [c'|]] w']|] eqn:E; vm_compute in E; try discriminate E.
    injection E as <- <-. eexists _, _, _, _. split; [reflexivity|]. split; [by vm_compute|]. by vm_compute.
Qed.

(** C67. *)
Theorem C67_stats : forall cfg P V ds n G D qs log2cap k batch c, hier_call cfg P V ds n G D qs k c ->
  forall w w' c', c_k c = 0 -> few_duplicates n D (2 * k) ->
  hierarchical_clustering cfg P qs log2cap ds k batch (Some c) w = Ok ((ER_OK, Some c'), w') -> (N.of_nat (n * (n - 1)) <= u64max)%N ->
  forall w1 w2 s, get_clustering_stats cfg P ds (Some c') true w1 = Ok ((ER_OK, Some s), w2) ->
  st_n s = n /\ st_k s = c_k c' /\ st_pop s = c_k c' /\ st_assigned s = n /\ (N.of_nat k <= st_minsize s)%N /\ (st_minsize s <= N.of_nat (st_maxsize s))%N /\ st_maxsize s < 2 * k.
Proof. exact hier_then_stats. Qed.
Print Assumptions C67_stats.
Theorem C67_call : forall cfg P V ds n G D qs log2cap k batch c, hier_call cfg P V ds n G D qs k c ->
  forall w w' c', c_k c = 0 -> few_duplicates n D (2 * k) ->
  hierarchical_clustering cfg P qs log2cap ds k batch (Some c) w = Ok ((ER_OK, Some c'), w') -> (N.of_nat (n * (n - 1)) <= u64max)%N ->
  stats_call cfg P V ds n G D c'.
Proof. exact hier_stats_call. Qed.
Print Assumptions C67_call.
(** Meets the hypotheses, see [ex_scratch]. *)
Example ex_C67 : hier_and_stats pts 2 (fun c' s => c_k c' = 5 /\ st_pop s = 5 /\ st_assigned s = 12 /\ st_minsize s = 2%N /\ st_maxsize s = 3).
Proof.
  unfold hier_and_stats. destruct (hier_line pts 2 false _ world0) as [[[[] [c'|]] w']|] eqn:E; vm_compute in E; try discriminate E.
  injection E as <- <-. eexists _, _, _, _. split; [reflexivity|]. split; [by vm_compute|]. by vm_compute.
Qed.
