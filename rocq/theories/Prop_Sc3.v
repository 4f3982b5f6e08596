(** Clusterings by scc_sc_clustering with type constraints: C71. *)

From stdpp Require Import prelude list sorting.
From Coq Require Import NArith ZArith.
From Verif Require Import Base World Mem Float Spi Dist Options OptionsProof NngClustering TypeCount TypeRows ScSpec ClusSpec ScClaims ScClaims4 Example1.

(** C71. [tcon tcons t]: the constraint for type [t]. *)
Theorem C71_sizes : forall cfg P V ds n G D o c, call_ok cfg P V ds n G D o c ->
  forall w w' c', sc_clustering cfg P ds (Some o) (Some c) w = Ok ((ER_OK, Some c'), w') ->
  forall i, 2 <= o_num_types o -> o_pum o = UM_IGNORE -> o_sum o = UM_IGNORE -> i < c_k c' ->
  o_size o <= length (cluster c' i) <= S (o_size o) /\
  ((forall t, t < o_num_types o -> 0 < tcon (tcons_of o) t) -> length (cluster c' i) = o_size o).
Proof. exact claim_exact_types. Qed.
Print Assumptions C71_sizes.

(** C71. [of_type tlabels t l]: the points of type [t] in [l]. *)
Theorem C71_numbers : forall cfg P V ds n G D o c, call_ok cfg P V ds n G D o c ->
  forall w w' c', sc_clustering cfg P ds (Some o) (Some c) w = Ok ((ER_OK, Some c'), w') ->
  forall i, 2 <= o_num_types o -> o_pum o = UM_IGNORE -> o_sum o = UM_IGNORE -> i < c_k c' ->
  (forall t, t < o_num_types o -> 0 < tcon (tcons_of o) t) -> tsum (o_num_types o) (tcons_of o) = o_size o ->
  forall t, t < o_num_types o -> length (of_type (tlabels_of o) t (cluster c' i)) = tcon (tcons_of o) t.
Proof. exact claim_type_numbers. Qed.
Print Assumptions C71_numbers.

Local Notation na := 4294967295%Z.
Local Notation types := [0; 1; 0; 1; 0; 1; 0; 1; 0; 1; 0; 1].

(** One point of the first type and two of the second. *)
Example ex_C71 : clustered pts (with_methods SM_LEXICAL UM_IGNORE UM_IGNORE (with_types [1; 2] types (with_size 3 default_options))) 3 [0; 1; na; 0; na; 2; 1; 1; 2; 2; na; 0]%Z.
Proof. apply clustered_by. by vm_compute. Qed.
(** Three points of the second type: with a seed of the first type there are four. *)
Example ex_C71_more : clustered pts (with_methods SM_LEXICAL UM_IGNORE UM_IGNORE (with_types [0; 3] types (with_size 3 default_options))) 2 [0; 1; na; 0; na; 1; na; 0; na; 1; na; 0]%Z.
Proof. apply clustered_by. by vm_compute. Qed.
