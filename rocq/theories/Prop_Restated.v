(** C83: ways to write the same request. *)

From stdpp Require Import prelude list sorting.
From Coq Require Import NArith ZArith.
From Verif Require Import Base World Mem Float Spi Dist Options OptionsProof NngClustering ScSpec ScProof ClusSpec ScClaims ScClaims2 ScDet DistProof Example1 Reach Restated.

(** C83. [eligible o n x]: no list of primary points is given or [x] is in it. *)
Theorem C83_primary : forall cfg n G D o len p P1 V1 ds1 c1 w1 c1' w1' P2 V2 ds2 c2 w2 c2' w2',
  (forall x, x < n -> eligible o n x <-> eligible (other_primary o len p) n x) ->
  call_ok cfg P1 V1 ds1 n G D o c1 -> call_ok cfg P2 V2 ds2 n G D (other_primary o len p) c2 -> solid P1 V1 ds1 n w1 -> solid P2 V2 ds2 n w2 ->
  no_ties n G -> fixed_order cfg (o_seed o) ->
  sc_clustering cfg P1 ds1 (Some o) (Some c1) w1 = Ok ((ER_OK, Some c1'), w1') ->
  sc_clustering cfg P2 ds2 (Some (other_primary o len p)) (Some c2) w2 = Ok ((ER_OK, Some c2'), w2') ->
  c_k c1' = c_k c2' /\ forall x, x < n -> label_of c1' x = label_of c2' x.
Proof. exact claim_primary. Qed.
Print Assumptions C83_primary.

(** The secondary stage treats all points that are left, primary points included:
    [both_stages o] uses its method and radius in the primary stage as well. *)
Theorem C83_secondary : forall cfg n G D o P1 V1 ds1 c1 w1 c1' w1' P2 V2 ds2 c2 w2 c2' w2',
  o_pum o = UM_IGNORE -> o_sum o = UM_CLOSEST_SEED \/ (o_sum o = UM_CLOSEST_ASSIGNED /\ 2 <= o_num_types o) ->
  call_ok cfg P1 V1 ds1 n G D o c1 -> call_ok cfg P2 V2 ds2 n G D (both_stages o) c2 -> solid P1 V1 ds1 n w1 -> solid P2 V2 ds2 n w2 ->
  no_ties n G -> fixed_order cfg (o_seed o) ->
  sc_clustering cfg P1 ds1 (Some o) (Some c1) w1 = Ok ((ER_OK, Some c1'), w1') ->
  sc_clustering cfg P2 ds2 (Some (both_stages o)) (Some c2) w2 = Ok ((ER_OK, Some c2'), w2') ->
  c_k c1' = c_k c2' /\ forall x, x < n -> label_of c1' x = label_of c2' x.
Proof. exact claim_both. Qed.
Print Assumptions C83_secondary.

Notation NA := 4294967295%Z.
Example ex_primary : no_ties 8 (eucl_geo (line mark)) /\ (forall x, x < 8 -> eligible o_any 8 x <-> eligible (other_primary o_any 8 (Some [0; 1; 2; 3; 4; 5; 6; 7])) 8 x) /\
  clustered mark o_any 2 [0; 0; 1; 0; 0; 1; 1; 1]%Z /\ clustered mark (other_primary o_any 8 (Some [0; 1; 2; 3; 4; 5; 6; 7])) 2 [0; 0; 1; 0; 0; 1; 1; 1]%Z.
Proof. split; [exact mark_no_ties|]. split; [exact mark_eligible|]. split; apply clustered_by; by vm_compute. Qed.
(** Point 5 is primary and assigned by the secondary method. *)
Example ex_secondary : clustered mark (o_second UM_CLOSEST_SEED) 2 [0; 0; 1; 0; 1; 1; 1; NA]%Z /\ clustered mark (both_stages (o_second UM_CLOSEST_SEED)) 2 [0; 0; 1; 0; 1; 1; 1; NA]%Z /\
  clustered mark (o_second UM_IGNORE) 2 [0; 0; 1; 0; 1; NA; 1; NA]%Z /\ eligible (o_second UM_CLOSEST_SEED) 8 5.
Proof. split; [|split; [|split]]; try (apply clustered_by; by vm_compute). exists 3. by split; [vm_compute; lia|]. Qed.
