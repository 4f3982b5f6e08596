(** C79: without estimated radius, clusterings depend on the order of the distances only. *)

From stdpp Require Import prelude list sorting.
From Coq Require Import NArith ZArith Floats.SpecFloat.
From Verif Require Import Base World Mem Float Spi Dist Options NngClustering ClusSpec ScClaims DistProof Example1 FailClaims Same SameClaims SameDist SameOrder.

(** C79. [set_radii o x y z] are the options [o] with other values for the supplied
    radii. *)
Theorem C79_order : forall d d' n, data_ok d n -> data_ok d' n -> same_order d d' n ->
  forall cfg o x y z m c1 c2 w1 w2, no_estimate o ->
  (o_srad o = RM_USE_SUPPLIED -> same_within d d' n (o_srad_val o) x) -> (o_prad o = RM_USE_SUPPLIED -> same_within d d' n (o_prad_val o) y) -> (o_2rad o = RM_USE_SUPPLIED -> same_within d d' n (o_2rad_val o) z) ->
  data_call cfg d n o c1 -> data_call cfg d' n (set_radii o x y z) c2 -> unused cfg m c1 -> unused cfg m c2 -> no_fail w1 -> no_fail w2 ->
  exists ec e1 w1' e2 w2', sc_clustering cfg builtin (Some d) (Some o) (Some c1) w1 = Ok ((ec, Some e1), w1') /\
    sc_clustering cfg builtin (Some d') (Some (set_radii o x y z)) (Some c2) w2 = Ok ((ec, Some e2), w2') /\ (ec = ER_OK -> c_k e1 = c_k e2 /\ cells e1 = cells e2).
Proof. exact order_repeat. Qed.
Print Assumptions C79_order.
(** The restriction on the radii is needed. *)
Theorem C79_estimate_refuted : exists l l' o ec c w ec' c' w', length l = 12 /\ length l' = 12 /\ callable l o /\ callable l' o /\ same_order (line l) (line l') 12 /\
  cluster_line l o world0 = Ok ((ec, Some c), w) /\ cluster_line l' o world0 = Ok ((ec', Some c'), w') /\ ec = ER_OK /\ ec' = ER_OK /\ cells c <> cells c'.
Proof. exact estimate_refuted. Qed.
Print Assumptions C79_estimate_refuted.

Example ex_C79 : same_order (line pts) (line pts_stretched) 12 /\ no_estimate excl_options /\
  (o_srad excl_options = RM_USE_SUPPLIED /\ same_within (line pts) (line pts_stretched) 12 (o_srad_val excl_options) (d_of_Z 30)) /\
  (o_prad excl_options = RM_USE_SUPPLIED /\ same_within (line pts) (line pts_stretched) 12 (o_prad_val excl_options) (d_of_Z 20)) /\ o_2rad excl_options <> RM_USE_SUPPLIED /\
  callable pts excl_options /\ callable pts_stretched order_options /\
  clustered pts excl_options 2 [1; 0; 1; 1; 0; 0; 0; 1; 0; 0; 0; 1]%Z /\ clustered pts_stretched order_options 2 [1; 0; 1; 1; 0; 0; 0; 1; 0; 0; 0; 1]%Z.
Proof. exact order_example. Qed.
