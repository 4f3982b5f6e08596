(** What scc_sc_clustering is to compute. *)

From stdpp Require Import prelude list sorting.
From Coq Require Import NArith ZArith.
From Verif Require Import Base World Float Spi Options GraphSpec SeedSpec AssignSpec SeedsExcl NngSize NngStage TypeCount TypeRows.

(** Radius of an assignment stage; [seed] is the seed radius, [avg] the
    estimated average distance. *)
Definition radius_of (um : unassigned_method) (rm : radius_method) (v : double) (seed : option double) (avg : double) : option double :=
  match um with
  | UM_IGNORE => None
  | _ => match rm with
         | RM_USE_SUPPLIED => Some v
         | RM_USE_SEED_RADIUS => seed
         | RM_USE_ESTIMATED => Some avg
         | _ => None
         end
  end.

Definition srad_of (o : options) : option double :=
  match o_srad o with RM_USE_SUPPLIED => Some (o_srad_val o) | _ => None end.
Definition tcons_of (o : options) : list nat := default [] (o_tcons o).
Definition tlabels_of (o : options) : list nat := default [] (o_tlabels o).

(** Points that may be seeds and are treated with the primary method. *)
Definition primary (o : options) (n : nat) : list nat := prim_list n (o_len_prim o) (o_prim o).

(** The nearest neighbour graph. *)
Definition nng_graph (cfg : config) (o : options) (n : nat) (G : geometry) (g : list (list nat)) : Prop :=
  if decide (o_num_types o < 2)
  then size_graph n G (stable_nng cfg) (o_size o) (srad_of o) (primary o n) g
  else type_graph n (tlabels_of o) (tcons_of o) G (srad_of o) (stable_nng cfg) (o_num_types o) (o_size o) (primary o n) g /\
       tsum (o_num_types o) (tcons_of o) <= o_size o.

(** Labels [L] of [m] clusters are a result for the seeds [ss] in the graph [g];
    under [skip] assignment stages may be left out. *)
Record sc_result (cfg : config) (skip : Prop) (o : options) (n : nat) (G : geometry) (D : dist_fun) (g : list (list nat)) (ss : list nat)
    (L : labels) (m : nat) : Prop := {
  sr_graph : nng_graph cfg o n G g;
  sr_spec : seeds_spec cfg (o_seed o) g ss;
  sr_indep : independent_maximal g ss;
  sr_some : ss <> [];
  sr_num : m = length ss;
  sr_assign : assignment skip G n g ss (uses_nng (bool_decide (o_num_types o < 2)) (o_pum o))
    (o_pum o) (radius_of (o_pum o) (o_prad o) (o_prad_val o) (srad_of o) (est_dist D g ss)) (primary o n)
    (o_sum o) (radius_of (o_sum o) (o_2rad o) (o_2rad_val o) (srad_of o) (est_dist D g ss)) L
}.

Global Arguments sr_graph {cfg}.
Global Arguments sr_spec {cfg}.
Global Arguments sr_indep {cfg}.
Global Arguments sr_some {cfg}.
Global Arguments sr_num {cfg}.
Global Arguments sr_assign {cfg}.

(** Requirements on the options that scc_sc_clustering does not check: arrays as
    long as stated, primary points and types in range, some type constraint
    positive, and products within the types used for them. *)
Record options_sane (o : options) (n : nat) : Prop := {
  os_prim : forall p, o_prim o = Some p -> o_len_prim o <= length p /\ Forall (fun x => x < n) (take (o_len_prim o) p);
  os_tcons : forall l, o_tcons o = Some l -> o_num_types o <= length l;
  os_tlabels : forall l, o_tlabels o = Some l -> n <= length l /\ Forall (fun t => t < o_num_types o) (take n l);
  os_sum : 2 <= o_num_types o -> 0 < tsum (o_num_types o) (tcons_of o) /\
     (N.of_nat n <= u32max \/ N.of_nat (tsum (o_num_types o) (tcons_of o)) <= u32max)%N;
  os_size : (N.of_nat (n * o_size o) <= u64max)%N
}.
