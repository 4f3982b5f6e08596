(** Properties C11 and C12: the seeds. *)

From stdpp Require Import prelude list sorting.
From Coq Require Import NArith ZArith.
From Verif Require Import Base World Mem Digraph DigraphRep Options GraphSpec SeedSpec Seeds SeedsExcl SeedsTies.

(** C11. Whatever allocations fail, seeds that are returned are independent and
    maximal. *)
Theorem C11_independent_maximal : forall cfg dg g sm cap w sr w',
  dg_rep cfg dg g -> Forall (@NoDup nat) g -> (N.of_nat (length g) <= pi_max cfg)%N -> g <> [] ->
  is_nng_method sm ->
  find_seeds cfg dg sm (SR cap 0 None) w = Ok ((ER_OK, sr), w') ->
  exists ss, lists_seeds sr ss /\ independent_maximal g ss.
Proof. exact find_seeds_independent. Qed.
Print Assumptions C11_independent_maximal.

(** C11. Without allocation failures and within the index ranges, all methods
    return, without undefined behaviour, and succeed. *)
Theorem C11_seeds_found : forall cfg dg g sm cap w,
  dg_rep cfg dg g -> Forall (@NoDup nat) g -> (N.of_nat (length g) <= pi_max cfg)%N ->
  is_nng_method sm -> no_fail w -> (N.of_nat (length g) <= cl_max cfg)%N ->
  (is_exclusion sm -> too_many_arcs cfg (length g * length g) = false) ->
  exists sr w', find_seeds cfg dg sm (SR cap 0 None) w = Ok ((ER_OK, sr), w').
Proof. exact find_seeds_succeeds. Qed.
Print Assumptions C11_seeds_found.

(** C12. Each method's visiting order; the seeds are the greedy choice along it. *)
Theorem C12_lexical : forall cfg dg g cap w sr w',
  dg_rep cfg dg g -> Forall (@NoDup nat) g -> (N.of_nat (length g) <= pi_max cfg)%N -> g <> [] ->
  find_seeds cfg dg SM_LEXICAL (SR cap 0 None) w = Ok ((ER_OK, sr), w') ->
  exists ss, lists_seeds sr ss /\ ss = greedy g [] (seq 0 (length g)).
Proof.
  exact (fun cfg dg g cap w sr w' H1 H2 H3 H4 =>
    find_seeds_spec cfg dg g SM_LEXICAL cap w sr w' H1 H2 H3 H4 (or_introl eq_refl)).
Qed.
Print Assumptions C12_lexical.

Theorem C12_inwards_order : forall cfg dg g cap w sr w',
  dg_rep cfg dg g -> Forall (@NoDup nat) g -> (N.of_nat (length g) <= pi_max cfg)%N -> g <> [] ->
  find_seeds cfg dg SM_INWARDS_ORDER (SR cap 0 None) w = Ok ((ER_OK, sr), w') ->
  exists ss, lists_seeds sr ss /\
    exists ord, ordered_by (length g) (indegree g) ord /\ ss = greedy g [] ord.
Proof.
  exact (fun cfg dg g cap w sr w' H1 H2 H3 H4 =>
    find_seeds_spec cfg dg g SM_INWARDS_ORDER cap w sr w' H1 H2 H3 H4 (or_intror (or_introl eq_refl))).
Qed.
Print Assumptions C12_inwards_order.

Theorem C12_inwards_updating : forall cfg dg g cap w sr w',
  dg_rep cfg dg g -> Forall (@NoDup nat) g -> (N.of_nat (length g) <= pi_max cfg)%N -> g <> [] ->
  find_seeds cfg dg SM_INWARDS_UPDATING (SR cap 0 None) w = Ok ((ER_OK, sr), w') ->
  exists ss, lists_seeds sr ss /\
    exists ord, visits_smallest (length g) (inwards_elig g) (inwards_key g) ord /\ ss = greedy g [] ord.
Proof.
  exact find_inwards_updating.
Qed.
Print Assumptions C12_inwards_updating.

Theorem C12_exclusion_order : forall cfg dg g cap w sr w',
  dg_rep cfg dg g -> Forall (@NoDup nat) g -> (N.of_nat (length g) <= pi_max cfg)%N -> g <> [] ->
  find_seeds cfg dg SM_EXCLUSION_ORDER (SR cap 0 None) w = Ok ((ER_OK, sr), w') ->
  exists ss, lists_seeds sr ss /\
    exists ord, ordered_by (length g) (conflicts_from (fun _ => true) g) ord /\ ss = greedy g [] ord.
Proof.
  exact (fun cfg dg g cap w sr w' H1 H2 H3 H4 =>
    find_seeds_spec cfg dg g SM_EXCLUSION_ORDER cap w sr w' H1 H2 H3 H4
      (or_intror (or_intror (or_intror (or_introl eq_refl))))).
Qed.
Print Assumptions C12_exclusion_order.

Theorem C12_exclusion_updating : forall cfg dg g cap w sr w',
  dg_rep cfg dg g -> Forall (@NoDup nat) g -> (N.of_nat (length g) <= pi_max cfg)%N -> g <> [] ->
  find_seeds cfg dg SM_EXCLUSION_UPDATING (SR cap 0 None) w = Ok ((ER_OK, sr), w') ->
  exists ss, lists_seeds sr ss /\
    exists ord, visits_smallest (length g) (exclusion_elig g) (exclusion_key g) ord /\ ss = greedy g [] ord.
Proof.
  exact find_exclusion_updating.
Qed.
Print Assumptions C12_exclusion_updating.

(** ** Concrete cases *)

(** Eight vertices with out-degree one or two; vertex 7 has no arcs. *)
Definition ex_g : list (list nat) := [[1]; [0; 2]; [1]; [2]; [5]; [3]; [5; 4]; []].
Definition ex_dg : digraph :=
  DG 8 9 (Some (Arr 1 [Some 1; Some 0; Some 2; Some 1; Some 2; Some 5; Some 3; Some 5; Some 4]))
         (Some (Arr 0 [Some 0; Some 1; Some 3; Some 4; Some 5; Some 6; Some 7; Some 9; Some 9])).
Definition ex_world (fails : list nat) : world :=
  World (fun i => bool_decide (i ∈ fails)) 2 [1; 0] no_errst 0 0.

Example ex_dg_rep : dg_rep default_config ex_dg ex_g.
Proof.
  constructor.
  - reflexivity.
  - eexists 0, _. split; [reflexivity|]. split; [reflexivity|].
    intros k Hk. do 9 (destruct k as [|k]; [reflexivity|]). simpl in Hk. lia.
  - simpl. splits; [reflexivity|lia|]. exists []. reflexivity.
  - repeat constructor.
  - reflexivity.
Qed.

Example ex_g_nodup : Forall (@NoDup nat) ex_g.
Proof. repeat constructor; set_solver. Qed.

Definition seeds_of (r : R ((ecode * seed_result) * world)) :=
  match r with
  | Ok ((ec, sr), w) => Some (ec, (fun i => aget (sr_seeds sr) i) <$> seq 0 (sr_count sr), length (w_live w))
  | Bad _ => None
  end.

Example ex_lexical : seeds_of (find_seeds default_config ex_dg SM_LEXICAL (SR 2 0 None) (ex_world [])) =
  Some (ER_OK, [Ok 0; Ok 3; Ok 4], 3).
Proof. vm_compute. reflexivity. Qed.
Example ex_inwards : seeds_of (find_seeds default_config ex_dg SM_INWARDS_ORDER (SR 2 0 None) (ex_world [])) =
  Some (ER_OK, [Ok 6; Ok 0; Ok 3], 3).
Proof. vm_compute. reflexivity. Qed.
Example ex_inwards_updating :
  seeds_of (find_seeds default_config ex_dg SM_INWARDS_UPDATING (SR 2 0 None) (ex_world [])) =
  Some (ER_OK, [Ok 6; Ok 3; Ok 0], 3).
Proof. vm_compute. reflexivity. Qed.
Example ex_exclusion : seeds_of (find_seeds default_config ex_dg SM_EXCLUSION_ORDER (SR 2 0 None) (ex_world [])) =
  Some (ER_OK, [Ok 0; Ok 4; Ok 3], 3).
Proof. vm_compute. reflexivity. Qed.
Example ex_exclusion_updating :
  seeds_of (find_seeds default_config ex_dg SM_EXCLUSION_UPDATING (SR 2 0 None) (ex_world [])) =
  Some (ER_OK, [Ok 0; Ok 3; Ok 6], 3).
Proof. vm_compute. reflexivity. Qed.
