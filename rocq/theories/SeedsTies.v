(** Ties between vertices in the updating seed methods. *)

From stdpp Require Import prelude list.
From Coq Require Import NArith.
From Verif Require Import Base World Mem Digraph DigraphRep GraphSpec SeedSpec Options Seeds SeedsProof SeedsExcl.

Section Ties.
Context (cfg : config) (dg : digraph) (g : list (list nat)) (cap : nat) (w : world) (sr : seed_result) (w' : world).
Hypothesis (H1 : dg_rep cfg dg g) (H2 : Forall (@NoDup nat) g) (H3 : (N.of_nat (length g) <= pi_max cfg)%N) (H4 : g <> []).

Lemma find_inwards_updating : find_seeds cfg dg SM_INWARDS_UPDATING (SR cap 0 None) w = Ok ((ER_OK, sr), w') ->
  exists ss, lists_seeds sr ss /\ exists ord, visits_smallest (length g) (inwards_elig g) (inwards_key g) ord /\ ss = greedy g [] ord.
Proof.
  intros E. destruct (find_seeds_spec cfg dg g SM_INWARDS_UPDATING cap w sr w' H1 H2 H3 H4) as (ss & Hl & ord & Ho & ->); [|done|].
  { right; right; by left. }
  exists (greedy g [] ord). split; [done|]. exists ord. split; [by eapply visits_is_smallest|done].
Qed.

Lemma find_exclusion_updating : find_seeds cfg dg SM_EXCLUSION_UPDATING (SR cap 0 None) w = Ok ((ER_OK, sr), w') ->
  exists ss, lists_seeds sr ss /\ exists ord, visits_smallest (length g) (exclusion_elig g) (exclusion_key g) ord /\ ss = greedy g [] ord.
Proof.
  intros E. destruct (find_seeds_spec cfg dg g SM_EXCLUSION_UPDATING cap w sr w' H1 H2 H3 H4) as (ss & Hl & ord & Ho & ->); [|done|].
  { by do 4 right. }
  exists (greedy g [] ord). split; [done|]. exists ord. split; [by eapply visits_is_smallest|done].
Qed.

Lemma find_inwards_stable : stable_seeds cfg = true -> find_seeds cfg dg SM_INWARDS_UPDATING (SR cap 0 None) w = Ok ((ER_OK, sr), w') ->
  exists ss, lists_seeds sr ss /\ exists ord, visits_first (length g) (inwards_elig g) (inwards_key g) ord /\ ss = greedy g [] ord.
Proof.
  intros Es E. destruct (find_seeds_spec cfg dg g SM_INWARDS_UPDATING cap w sr w' H1 H2 H3 H4) as (ss & Hl & ord & Ho & ->); [|done|].
  { right; right; by left. }
  rewrite Es in Ho. exists (greedy g [] ord). split; [done|]. by exists ord.
Qed.

Lemma find_exclusion_stable : stable_seeds cfg = true -> find_seeds cfg dg SM_EXCLUSION_UPDATING (SR cap 0 None) w = Ok ((ER_OK, sr), w') ->
  exists ss, lists_seeds sr ss /\ exists ord, visits_first (length g) (exclusion_elig g) (exclusion_key g) ord /\ ss = greedy g [] ord.
Proof.
  intros Es E. destruct (find_seeds_spec cfg dg g SM_EXCLUSION_UPDATING cap w sr w' H1 H2 H3 H4) as (ss & Hl & ord & Ho & ->); [|done|].
  { by do 4 right. }
  rewrite Es in Ho. exists (greedy g [] ord). split; [done|]. by exists ord.
Qed.
End Ties.
