(** C92: clusters are numbered in the order of their seeds. *)

From stdpp Require Import prelude list sorting.
From Coq Require Import NArith ZArith.
From Verif Require Import Base World Mem Float Spi Dist Options OptionsProof NngClustering ScSpec ScProof ClusSpec ScFacts ScClaims ScClaims2 DistProof Example1 SeedOrder.

(** C92. [seedable]: a primary point with enough points, also of each type, within the
    seed radius. *)
Theorem C92_order : forall cfg P V ds n G D o c w w' c', call_ok cfg P V ds n G D o c -> o_seed o = SM_LEXICAL \/ o_seed o = SM_BATCHES ->
  sc_clustering cfg P ds (Some o) (Some c) w = Ok ((ER_OK, Some c'), w') ->
  exists ss, length ss = c_k c' /\ StronglySorted lt ss /\ (forall i s, ss !! i = Some s -> seedable o n G s /\ s ∈ cluster c' i) /\
    (forall x, seedable o n G x -> exists s, ss !! 0 = Some s /\ s <= x).
Proof. exact claim_seed_order. Qed.
Print Assumptions C92_order.

Theorem C92_first : forall cfg P V ds n G D o c w w' c' x, call_ok cfg P V ds n G D o c -> o_seed o = SM_LEXICAL \/ o_seed o = SM_BATCHES ->
  sc_clustering cfg P ds (Some o) (Some c) w = Ok ((ER_OK, Some c'), w') ->
  seedable o n G x -> (forall y, y < x -> ~ seedable o n G y) -> label_of c' x = Some 0%Z.
Proof. exact claim_seed_first. Qed.
Print Assumptions C92_first.

Theorem C92_zero : forall cfg P V ds n G D o c w w' c', call_ok cfg P V ds n G D o c -> o_seed o = SM_LEXICAL \/ o_seed o = SM_BATCHES ->
  o_prim o = None -> o_srad o = RM_NO_RADIUS ->
  sc_clustering cfg P ds (Some o) (Some c) w = Ok ((ER_OK, Some c'), w') -> label_of c' 0 = Some 0%Z.
Proof. exact claim_seed_zero. Qed.
Print Assumptions C92_zero.

(** Other seed methods. *)
Theorem C92_other_refuted : exists l o k labels, o_seed o = SM_INWARDS_ORDER /\ clustered l o k labels /\
  seedable o (length l) (eucl_geo (line l)) 0 /\ labels !! 0 <> Some 0%Z.
Proof. exact seed_order_refuted. Qed.
Print Assumptions C92_other_refuted.

(** Point 0 is not primary, so point 1 is in cluster 0; the seeds are 1, 2, 3 and 7. *)
Example ex_ranks : (seedable (o_ranks SM_LEXICAL) 8 (eucl_geo (line ranks)) 1 /\ ~ seedable (o_ranks SM_LEXICAL) 8 (eucl_geo (line ranks)) 0) /\
  clustered ranks (o_ranks SM_LEXICAL) 4 [2; 0; 1; 2; 0; 1; 3; 3]%Z.
Proof. split; [apply ranks_seedable|]. apply clustered_by; by vm_compute. Qed.
Example ex_ranks_batches : (seedable (o_ranks SM_BATCHES) 8 (eucl_geo (line ranks)) 1 /\ ~ seedable (o_ranks SM_BATCHES) 8 (eucl_geo (line ranks)) 0) /\
  clustered ranks (o_ranks SM_BATCHES) 4 [2; 0; 1; 2; 0; 1; 3; 3]%Z.
Proof. split; [apply ranks_seedable|]. apply clustered_by; by vm_compute. Qed.
Example ex_ranks_zero : let o := with_methods SM_LEXICAL UM_IGNORE UM_CLOSEST_SEED (with_size 3 default_options) in o_prim o = None /\ o_srad o = RM_NO_RADIUS /\
  clustered ranks o 2 [0; 1; 1; 0; 1; 1; 0; 0]%Z.
Proof. split; [done|]. split; [done|]. apply clustered_by; by vm_compute. Qed.
