(** Calls compared with each other: C34, C72. *)

From stdpp Require Import prelude list sorting.
From Coq Require Import NArith ZArith.
From Verif Require Import Base World Mem Digraph DigraphRep Float Spi Dist Options Arrays GraphSpec SeedSpec AssignSpec SeedsExcl
  Nng NngGraph NngSize NngAssign NngStage TypeCount TypeRows Batch BatchSpec BatchProof OptionsProof NngClustering
  ScSpec ScProof ClusSpec ScFacts Approx ScClaims ScClaims2 DistProof Example1 Example2 FailClaims Report Same SameClaims.

(** C72. Two calls with the same data and options, whatever has happened before and
    whatever the label arrays hold. *)
Theorem C72_repeatable : forall cfg P V ds n G D o m c1 c2 w1 w2, repeatable P ->
  call_ok cfg P V ds n G D o c1 -> call_ok cfg P V ds n G D o c2 -> unused cfg m c1 -> unused cfg m c2 -> no_fail w1 -> no_fail w2 ->
  exists ec d1 w1' d2 w2', sc_clustering cfg P ds (Some o) (Some c1) w1 = Ok ((ec, Some d1), w1') /\ sc_clustering cfg P ds (Some o) (Some c2) w2 = Ok ((ec, Some d2), w2') /\
    (ec = ER_OK -> c_k d1 = c_k d2 /\ cells d1 = cells d2).
Proof. exact claim_repeat. Qed.
Print Assumptions C72_repeatable.
Theorem C72_builtin : repeatable builtin.
Proof. exact builtin_repeatable. Qed.
Print Assumptions C72_builtin.
Example ex_repeat : callable pts excl_options /\ callable_old excl_options /\ unused default_config 12 (new_clustering 12) /\ unused default_config 12 old_clustering /\
  no_fail world0 /\ no_fail world_used /\
  ends (cluster_line pts excl_options world0) ER_OK 2 [1; 0; 1; 1; 0; 0; 0; 1; 0; 0; 0; 1]%Z 1 /\
  ends (run_old excl_options world_used) ER_OK 2 [1; 0; 1; 1; 0; 0; 0; 1; 0; 0; 0; 1]%Z 3.
Proof.
  assert (callable pts excl_options) as H by (apply callable_by; by vm_compute).
  splits; try assumption; try exact unused_new; try exact unused_old; try (by intros ? ?); [by apply callable_old_by|apply ends_by; by vm_compute|apply ends_by; by vm_compute].
Qed.

(** C34. With these options the call returns whatever allocations fail, ... *)
Theorem C34_null_checked_partial : forall cfg P V ds n G D o c, call_ok cfg P V ds n G D o c -> null_checked o ->
  forall w, exists ec c' w', sc_clustering cfg P ds (Some o) (Some c) w = Ok ((ec, Some c'), w').
Proof. exact claim_checked. Qed.
Print Assumptions C34_null_checked_partial.
(** ... and with these success means that the clusters are those of a call in which
    none fails. *)
Theorem C34_reported_partial : forall cfg P V ds n G D o m c1 c2 w1 w1' d1 w2, repeatable P ->
  call_ok cfg P V ds n G D o c1 -> call_ok cfg P V ds n G D o c2 -> unused cfg m c1 -> unused cfg m c2 -> reports_all o -> no_fail w2 ->
  sc_clustering cfg P ds (Some o) (Some c1) w1 = Ok ((ER_OK, Some d1), w1') ->
  exists d2 w2', sc_clustering cfg P ds (Some o) (Some c2) w2 = Ok ((ER_OK, Some d2), w2') /\ c_k d1 = c_k d2 /\ cells d1 = cells d2.
Proof. exact claim_survives. Qed.
Print Assumptions C34_reported_partial.
Example ex_null_checked : callable pts plain_options /\ null_checked plain_options /\
  ends (cluster_line pts plain_options (world_fail 12)) ER_OK 3 [0; 1; 0; 4294967295; 1; 2; 1; 4294967295; 2; 2; 4294967295; 0]%Z 1 /\
  exists c' w', cluster_line pts plain_options (world_fail 11) = Ok ((ER_NO_MEMORY, Some c'), w').
Proof.
  splits; [apply callable_by; by vm_compute|right; splits; try done; [by intros [|]|by left]|apply ends_by; by vm_compute|eexists _, _; vm_compute; reflexivity].
Qed.
Example ex_reported : callable pts survive_options /\ reports_all survive_options /\
  ends (cluster_line pts survive_options (world_fail 13)) ER_OK 3 [0; 1; 0; 0; 1; 2; 1; 1; 2; 2; 2; 0]%Z 1.
Proof.
  splits; [apply callable_by; by vm_compute|right; splits; try done; simpl; lia|apply ends_by; by vm_compute].
Qed.
