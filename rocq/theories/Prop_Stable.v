(** Properties C64 and C65: libraries compiled with SCC_STABLE_FINDSEED or
    SCC_STABLE_NNG. *)

From stdpp Require Import prelude list sorting.
From Coq Require Import NArith ZArith.
From Verif Require Import Base World Mem Digraph DigraphRep Float Spi Dist Options GraphSpec SeedSpec Seeds SeedsExcl SeedsTies NngClustering
  ScSpec ScProof ClusSpec ScClaims ScClaims2 ScClaims3 ScStable DistProof Example1.

(** C64. With SCC_STABLE_FINDSEED the updating methods take, among the vertices that
    may still be taken, one with the smallest number, and the one with the lowest
    index if there are several. *)
Theorem C64_inwards_updating_stable : forall cfg dg g cap w sr w',
  dg_rep cfg dg g -> Forall (@NoDup nat) g -> (N.of_nat (length g) <= pi_max cfg)%N -> g <> [] -> stable_seeds cfg = true ->
  find_seeds cfg dg SM_INWARDS_UPDATING (SR cap 0 None) w = Ok ((ER_OK, sr), w') ->
  exists ss, lists_seeds sr ss /\
    exists ord, visits_first (length g) (inwards_elig g) (inwards_key g) ord /\ ss = greedy g [] ord.
Proof. exact find_inwards_stable. Qed.
Print Assumptions C64_inwards_updating_stable.

Theorem C64_exclusion_updating_stable : forall cfg dg g cap w sr w',
  dg_rep cfg dg g -> Forall (@NoDup nat) g -> (N.of_nat (length g) <= pi_max cfg)%N -> g <> [] -> stable_seeds cfg = true ->
  find_seeds cfg dg SM_EXCLUSION_UPDATING (SR cap 0 None) w = Ok ((ER_OK, sr), w') ->
  exists ss, lists_seeds sr ss /\
    exists ord, visits_first (length g) (exclusion_elig g) (exclusion_key g) ord /\ ss = greedy g [] ord.
Proof. exact find_exclusion_stable. Qed.
Print Assumptions C64_exclusion_updating_stable.

(** C65. With SCC_STABLE_NNG a point added through its neighbours is in the cluster
    of its neighbour with the lowest index among those in a group. *)
Theorem C65_lowest_neighbor : forall cfg P V ds n G D o c, call_ok cfg P V ds n G D o c ->
  forall w w' c', sc_clustering cfg P ds (Some o) (Some c) w = Ok ((ER_OK, Some c'), w') ->
  solid P V ds n w -> stable_nng cfg = true -> o_seed o <> SM_BATCHES ->
  o_pum o = UM_ANY_NEIGHBOR \/ (o_pum o = UM_CLOSEST_ASSIGNED /\ o_num_types o < 2) ->
  exists g ss, made_from cfg n G o c' g ss /\
    forall x, seedable o n G x -> (forall s, s ∈ ss -> x ∉ closed g s) ->
      exists i s y, ss !! i = Some s /\ y ∈ closed g s /\ y ∈ adj g x /\ x ∈ cluster c' i /\
        forall s' z, s' ∈ ss -> z ∈ closed g s' -> z ∈ adj g x -> y <= z.
Proof. exact claim_lowest. Qed.
Print Assumptions C65_lowest_neighbor.

(** C65. So SCC_UM_CLOSEST_ASSIGNED does not mean the closest assigned point: point 6
    is not in the cluster of a nearest point of a group, whatever graph and seeds the
    clusters are explained with. *)
Theorem C65_closest_assigned_refuted : exists c' w',
  call_ok stable_config builtin (builtin_view (line between) 7) (Some (line between)) 7 (eucl_geo (line between)) (eucl (line between)) o_between (new_clustering 7) /\
  solid builtin (builtin_view (line between) 7) (Some (line between)) 7 world0 /\ o_pum o_between = UM_CLOSEST_ASSIGNED /\
  sc_clustering stable_config builtin (Some (line between)) (Some o_between) (Some (new_clustering 7)) world0 = Ok ((ER_OK, Some c'), w') /\
  forall g ss, made_from stable_config 7 (eucl_geo (line between)) o_between c' g ss ->
    (forall s, s ∈ ss -> 6 ∉ closed g s) /\ ~ at_nearest_assigned (eucl_geo (line between)) c' g ss (srad_of o_between) 6.
Proof. exact between_refuted. Qed.
Print Assumptions C65_closest_assigned_refuted.

(** ** Concrete cases *)

(** Point 6 is added through its neighbours 2 and 3; it joins 2 with the macro and
    the nearer 3 without. *)
Example ex_lowest : clustered_in stable_config between o_between 2 [0; 0; 0; 1; 1; 1; 0]%Z.
Proof. exact between_stable. Qed.
Example ex_closest : clustered between o_between 2 [0; 0; 0; 1; 1; 1; 1]%Z.
Proof. exact between_default. Qed.

(** Meets C64: five vertices; 0 and 2 are equally good once 1 is taken. *)
Definition ties : list (list nat) := [[2]; [4]; [0]; [4]; [0]].
Definition ties_dg : digraph :=
  DG 5 5 (Some (Arr 1 [Some 2; Some 4; Some 0; Some 4; Some 0])) (Some (Arr 0 [Some 0; Some 1; Some 2; Some 3; Some 4; Some 5])).
Example ex_ties : dg_rep stable_config ties_dg ties /\ Forall (@NoDup nat) ties /\ (N.of_nat (length ties) <= pi_max stable_config)%N.
Proof.
  split; [|split; [repeat constructor; set_solver|by vm_compute]]. constructor.
  - reflexivity.
  - eexists 0, _. split; [reflexivity|]. split; [reflexivity|]. intros k Hk. do 6 (destruct k as [|k]; [reflexivity|]). simpl in Hk. lia.
  - simpl. splits; [reflexivity|lia|]. exists []. reflexivity.
  - repeat constructor.
  - reflexivity.
Qed.

Definition seeds_in (cfg : config) (sm : seed_method) : option (ecode * list (R nat)) :=
  match find_seeds cfg ties_dg sm (SR 1 0 None) (World (fun _ => false) 2 [1; 0] no_errst 0 0) with
  | Ok ((ec, sr), _) => Some (ec, (fun i => aget (sr_seeds sr) i) <$> seq 0 (sr_count sr))
  | Bad _ => None
  end.
Example ex_ties_inwards : seeds_in stable_config SM_INWARDS_UPDATING = Some (ER_OK, [Ok 1; Ok 0]) /\
  seeds_in default_config SM_INWARDS_UPDATING = Some (ER_OK, [Ok 1; Ok 2]).
Proof. split; vm_compute; reflexivity. Qed.
Example ex_ties_exclusion : seeds_in stable_config SM_EXCLUSION_UPDATING = Some (ER_OK, [Ok 0; Ok 1]) /\
  seeds_in default_config SM_EXCLUSION_UPDATING = Some (ER_OK, [Ok 0; Ok 3]).
Proof. split; vm_compute; reflexivity. Qed.
