(** C82: the labels of types are mere names. *)

From stdpp Require Import prelude list sorting.
From Coq Require Import NArith ZArith.
From Verif Require Import Base World Mem Float Spi Dist Options GraphSpec TypeCount TypeRows OptionsProof NngClustering ScSpec ScProof ClusSpec ScClaims ScClaims2 ScDet ScStable DistProof
  Example1 Reach Renamed.

(** C82. [same_types n f o o']: the options differ in the types only, and [f] takes
    the types with a constraint of [o] to those of [o']. They have to be in the same
    order, or SCC_STABLE_NNG defined. *)
Theorem C82_renamed : forall cfg n G D f o o' P1 V1 ds1 c1 w1 c1' w1' P2 V2 ds2 c2 w2 c2' w2', same_types n f o o' -> stable_nng cfg = true \/ f <$> used o = used o' ->
  call_ok cfg P1 V1 ds1 n G D o c1 -> call_ok cfg P2 V2 ds2 n G D o' c2 -> solid P1 V1 ds1 n w1 -> solid P2 V2 ds2 n w2 ->
  no_ties n G -> fixed_order cfg (o_seed o) ->
  sc_clustering cfg P1 ds1 (Some o) (Some c1) w1 = Ok ((ER_OK, Some c1'), w1') ->
  sc_clustering cfg P2 ds2 (Some o') (Some c2) w2 = Ok ((ER_OK, Some c2'), w2') ->
  c_k c1' = c_k c2' /\ forall x, x < n -> label_of c1' x = label_of c2' x.
Proof. exact claim_renamed. Qed.
Print Assumptions C82_renamed.

(** Success of the one call implies success of the other, whatever the order. *)
Theorem C82_renamed_succeeds : forall cfg n G D f o o' P1 V1 ds1 c1 w1 c1' w1' P2 V2 ds2 c2 w2, same_types n f o o' ->
  call_ok cfg P1 V1 ds1 n G D o c1 -> call_ok cfg P2 V2 ds2 n G D o' c2 -> solid P1 V1 ds1 n w1 -> solid P2 V2 ds2 n w2 ->
  sc_clustering cfg P1 ds1 (Some o) (Some c1) w1 = Ok ((ER_OK, Some c1'), w1') ->
  args_valid cfg n o' c2 -> fits cfg n o' -> no_estimate o' ->
  exists c2' w2', sc_clustering cfg P2 ds2 (Some o') (Some c2) w2 = Ok ((ER_OK, Some c2'), w2').
Proof. exact claim_renamed_ok. Qed.
Print Assumptions C82_renamed_succeeds.

(** The condition on the order is needed. *)
Theorem C82_exchanged_refuted : exists l o o' f k labels labels', no_ties (length l) (eucl_geo (line l)) /\ fixed_order default_config (o_seed o) /\ same_types (length l) f o o' /\
  clustered l o k labels /\ clustered l o' k labels' /\ labels <> labels'.
Proof. exact renamed_refuted. Qed.
Print Assumptions C82_exchanged_refuted.

(** A type without constraint is added. *)
Example ex_renamed : no_ties 8 (eucl_geo (line ruler)) /\ (same_types 8 (fun t => 2 * t) o_12 o_102 /\ (fun t => 2 * t) <$> used o_12 = used o_102) /\
  clustered ruler o_12 2 [0; 0; 1; 0; 1; 1; 1; 1]%Z /\ clustered ruler o_102 2 [0; 0; 1; 0; 1; 1; 1; 1]%Z.
Proof. split; [exact ruler_no_ties|]. split; [exact types_102|]. split; [exact ruler_12|exact ruler_102]. Qed.
(** Types are exchanged, with SCC_STABLE_NNG. *)
Example ex_exchanged : same_types 8 (fun t => 1 - t) o_12 o_21 /\ stable_nng stable_config = true /\
  clustered_in stable_config ruler o_12 2 [0; 0; 1; 0; 0; 1; 1; 1]%Z /\ clustered_in stable_config ruler o_21 2 [0; 0; 1; 0; 0; 1; 1; 1]%Z.
Proof. split; [exact types_21|]. split; [done|]. exact ruler_stable. Qed.
