(** More results that the project's own tests record, computed by the model: the
    graphs and assignments of src/nng_core.c, and the variants compiled with
    SCC_STABLE_NNG and SCC_STABLE_FINDSEED. See RepoTests.v. *)
From stdpp Require Import prelude list.
From Coq Require Import NArith ZArith.
From Verif Require Import Base World Mem Float Spi Dist Options Arrays Digraph Seeds Nng SortIdx ClusSpec Example1 HierClaims RepoTests.

Definition config_in (nng seeds : bool) : config := Config u32max u32max u32max (Z.of_N u32max) u64max nng seeds.

(** tests/assert_digraph.h 122-165: same vertices, room for arcs, arcs and order of
    the arcs. assert_equal_digraph leaves the order of the arcs of a vertex open. *)
Definition same_graph (d1 d2 : digraph) : bool :=
  bool_decide (dg_n d1 = dg_n d2) && bool_decide (dg_max d1 = dg_max d2) &&
  bool_decide (a_cells <$> dg_tail d1 = a_cells <$> dg_tail d2) && bool_decide (a_cells <$> dg_head d1 = a_cells <$> dg_head d2).
Definition graph_is (st : bool) (r : R (ecode * digraph * world)) (rows : list (list nat)) : bool :=
  match r with
  | Ok ((ER_OK, d), _) =>
      if st then same_graph d (rows_graph rows)
      else match sort_nng d with Ok d => same_graph d (rows_graph rows) | Bad _ => false end
  | _ => false
  end.
Definition code_is (r : R (ecode * digraph * world)) (ec : ecode) : bool :=
  match r with Ok ((ec', _), _) => bool_decide (ec' = ec) | Bad _ => false end.

Definition prim10 : list nat := [0; 1; 2; 3; 4; 10; 11; 12; 13; 14].
Definition size_nng (st : bool) := get_nng_with_size_constraint (config_in st false) builtin (Some small) 15.
Definition type_nng (st : bool) := get_nng_with_type_constraint (config_in st false) builtin (Some small) 15.

(** tests/test_nng_core.c. *)
Definition size_1 : unit := ltac:(holds (graph_is false (size_nng false 3 0 None None world0)
  [[7; 8]; [4; 7]; [10; 12]; [5; 9]; [13; 14]; [3; 9]; [12; 14]; [0; 1]; [0; 7]; [2; 3]; [6; 12]; [3; 5]; [6; 14]; [4; 14]; [6; 12]])).
Definition size_2 : unit := ltac:(holds (graph_is false (size_nng false 3 0 None (Some (SpecFloat.S754_finite false 7205759403792794 (-55))) world0)
  [[]; []; []; []; []; []; [12; 14]; []; []; []; [6; 12]; []; [6; 14]; []; [6; 12]])).
Definition size_3 : unit := ltac:(holds (graph_is false (size_nng false 3 10 (Some prim10) None world0)
  [[7; 8]; [4; 7]; [10; 12]; [5; 9]; [13; 14]; []; []; []; []; []; [6; 12]; [3; 5]; [6; 14]; [4; 14]; [6; 12]])).
Definition size_4 : unit := ltac:(holds (graph_is false (size_nng false 3 10 (Some prim10) (Some (SpecFloat.S754_finite false 7205759403792794 (-55))) world0)
  [[]; []; []; []; []; []; []; []; []; []; [6; 12]; []; [6; 14]; []; [6; 12]])).
Definition size_5 : unit := ltac:(holds (graph_is false (size_nng false 2 0 None None world0)
  [[8]; [7]; [10]; [5]; [13]; [3]; [12]; [1]; [0]; [3]; [12]; [5]; [6]; [4]; [6]])).
Definition size_6 : unit := ltac:(holds (graph_is false (size_nng false 2 0 None (Some (SpecFloat.S754_finite false 7205759403792794 (-55))) world0)
  [[8]; [7]; []; []; [13]; []; [12]; [1]; [0]; []; [12]; []; [6]; [4]; [6]])).
Definition size_7 : unit := ltac:(holds (graph_is false (size_nng false 2 10 (Some prim10) None world0)
  [[8]; [7]; [10]; [5]; [13]; []; []; []; []; []; [12]; [5]; [6]; [4]; [6]])).
Definition size_8 : unit := ltac:(holds (graph_is false (size_nng false 2 10 (Some prim10) (Some (SpecFloat.S754_finite false 7205759403792794 (-55))) world0)
  [[8]; [7]; []; []; [13]; []; []; []; []; []; [12]; []; [6]; [4]; [6]])).
Definition size_9 : unit := ltac:(holds (code_is (size_nng false 3 0 None (Some (SpecFloat.S754_finite false 5764607523034235 (-59))) world0) ER_NO_SOLUTION)).
Definition type_1 : unit := ltac:(holds (graph_is false (type_nng false 2 2 [1; 1] [0; 1; 0; 0; 1; 0; 0; 1; 1; 1; 1; 0; 0; 0; 1] 0 None None world0)
  [[8]; [13]; [10]; [9]; [13]; [9]; [14]; [0]; [0]; [3]; [12]; [9]; [14]; [4]; [6]])).
Definition type_2 : unit := ltac:(holds (graph_is false (type_nng false 2 2 [1; 1] [0; 1; 0; 0; 1; 0; 0; 1; 1; 1; 1; 0; 0; 0; 1] 0 None (Some (SpecFloat.S754_finite false 5404319552844595 (-54))) world0)
  [[8]; []; []; []; [13]; []; [14]; []; [0]; []; [12]; []; [14]; [4]; [6]])).
Definition type_3 : unit := ltac:(holds (graph_is false (type_nng false 2 2 [1; 1] [0; 1; 0; 0; 1; 0; 0; 1; 1; 1; 1; 0; 0; 0; 1] 10 (Some prim10) None world0)
  [[8]; [13]; [10]; [9]; [13]; []; []; []; []; []; [12]; [9]; [14]; [4]; [6]])).
Definition type_4 : unit := ltac:(holds (graph_is false (type_nng false 2 2 [1; 1] [0; 1; 0; 0; 1; 0; 0; 1; 1; 1; 1; 0; 0; 0; 1] 10 (Some prim10) (Some (SpecFloat.S754_finite false 5404319552844595 (-54))) world0)
  [[8]; []; []; []; [13]; []; []; []; []; []; [12]; []; [14]; [4]; [6]])).
Definition type_5 : unit := ltac:(holds (graph_is false (type_nng false 3 2 [1; 1] [0; 1; 0; 0; 1; 0; 0; 1; 1; 1; 1; 0; 0; 0; 1] 0 None None world0)
  [[7; 8]; [7; 13]; [10; 12]; [5; 9]; [13; 14]; [3; 9]; [12; 14]; [0; 1]; [0; 7]; [2; 3]; [6; 12]; [5; 9]; [6; 14]; [4; 14]; [6; 12]])).
Definition type_6 : unit := ltac:(holds (graph_is false (type_nng false 3 2 [1; 1] [0; 1; 0; 0; 1; 0; 0; 1; 1; 1; 1; 0; 0; 0; 1] 0 None (Some (SpecFloat.S754_finite false 5404319552844595 (-54))) world0)
  [[]; []; []; []; [13; 14]; []; [12; 14]; []; []; []; [6; 12]; []; [6; 14]; [4; 14]; [6; 12]])).
Definition type_7 : unit := ltac:(holds (graph_is false (type_nng false 3 2 [1; 1] [0; 1; 0; 0; 1; 0; 0; 1; 1; 1; 1; 0; 0; 0; 1] 10 (Some prim10) None world0)
  [[7; 8]; [7; 13]; [10; 12]; [5; 9]; [13; 14]; []; []; []; []; []; [6; 12]; [5; 9]; [6; 14]; [4; 14]; [6; 12]])).
Definition type_8 : unit := ltac:(holds (graph_is false (type_nng false 3 2 [1; 1] [0; 1; 0; 0; 1; 0; 0; 1; 1; 1; 1; 0; 0; 0; 1] 10 (Some prim10) (Some (SpecFloat.S754_finite false 5404319552844595 (-54))) world0)
  [[]; []; []; []; [13; 14]; []; []; []; []; []; [6; 12]; []; [6; 14]; [4; 14]; [6; 12]])).
Definition type_9 : unit := ltac:(holds (graph_is false (type_nng false 3 3 [2; 0; 1] [0; 1; 2; 2; 2; 0; 0; 1; 1; 1; 2; 2; 0; 0; 1] 0 None None world0)
  [[4; 13]; [0; 4; 13]; [6; 12]; [5; 12]; [6; 13]; [3; 12]; [10; 12]; [0; 4; 13]; [0; 4; 13]; [3; 5; 12]; [6; 12]; [5; 12]; [6; 10]; [4; 6]; [6; 10; 12]])).
Definition type_10 : unit := ltac:(holds (graph_is false (type_nng false 3 3 [2; 0; 1] [0; 1; 2; 2; 2; 0; 0; 1; 1; 1; 2; 2; 0; 0; 1] 0 None (Some (SpecFloat.S754_finite false 4503599627370496 (-53))) world0)
  [[]; []; [6; 12]; []; [6; 13]; []; [10; 12]; []; []; []; [6; 12]; []; [6; 10]; [4; 6]; [6; 10; 12]])).
Definition type_11 : unit := ltac:(holds (graph_is false (type_nng false 3 3 [2; 0; 1] [0; 1; 2; 2; 2; 0; 0; 1; 1; 1; 2; 2; 0; 0; 1] 10 (Some prim10) None world0)
  [[4; 13]; [0; 4; 13]; [6; 12]; [5; 12]; [6; 13]; []; []; []; []; []; [6; 12]; [5; 12]; [6; 10]; [4; 6]; [6; 10; 12]])).
Definition type_12 : unit := ltac:(holds (graph_is false (type_nng false 3 3 [2; 0; 1] [0; 1; 2; 2; 2; 0; 0; 1; 1; 1; 2; 2; 0; 0; 1] 10 (Some prim10) (Some (SpecFloat.S754_finite false 4503599627370496 (-53))) world0)
  [[]; []; [6; 12]; []; [6; 13]; []; []; []; []; []; [6; 12]; []; [6; 10]; [4; 6]; [6; 10; 12]])).
Definition type_13 : unit := ltac:(holds (graph_is false (type_nng false 4 3 [2; 0; 1] [0; 1; 2; 2; 2; 0; 0; 1; 1; 1; 2; 2; 0; 0; 1] 0 None None world0)
  [[4; 8; 13]; [0; 4; 13]; [6; 10; 12]; [5; 9; 12]; [6; 13; 14]; [3; 9; 12]; [10; 12; 14]; [0; 4; 13]; [0; 4; 13]; [3; 5; 12]; [6; 12; 14]; [3; 5; 12]; [6; 10; 14]; [4; 6; 14]; [6; 10; 12]])).
Definition type_14 : unit := ltac:(holds (graph_is false (type_nng false 4 3 [2; 0; 1] [0; 1; 2; 2; 2; 0; 0; 1; 1; 1; 2; 2; 0; 0; 1] 0 None (Some (SpecFloat.S754_finite false 4503599627370496 (-53))) world0)
  [[]; []; [6; 10; 12]; []; [6; 13; 14]; []; [10; 12; 14]; []; []; []; [6; 12; 14]; []; [6; 10; 14]; [4; 6; 14]; [6; 10; 12]])).
Definition type_15 : unit := ltac:(holds (graph_is false (type_nng false 4 3 [2; 0; 1] [0; 1; 2; 2; 2; 0; 0; 1; 1; 1; 2; 2; 0; 0; 1] 10 (Some prim10) None world0)
  [[4; 8; 13]; [0; 4; 13]; [6; 10; 12]; [5; 9; 12]; [6; 13; 14]; []; []; []; []; []; [6; 12; 14]; [3; 5; 12]; [6; 10; 14]; [4; 6; 14]; [6; 10; 12]])).
Definition type_16 : unit := ltac:(holds (graph_is false (type_nng false 4 3 [2; 0; 1] [0; 1; 2; 2; 2; 0; 0; 1; 1; 1; 2; 2; 0; 0; 1] 10 (Some prim10) (Some (SpecFloat.S754_finite false 4503599627370496 (-53))) world0)
  [[]; []; [6; 10; 12]; []; [6; 13; 14]; []; []; []; []; []; [6; 12; 14]; []; [6; 10; 14]; [4; 6; 14]; [6; 10; 12]])).
Definition type_17 : unit := ltac:(holds (code_is (type_nng false 2 2 [1; 1] [0; 1; 0; 0; 1; 0; 0; 1; 1; 1; 1; 0; 0; 0; 1] 0 None (Some (SpecFloat.S754_finite false 4503599627370496 (-52))) world0) ER_OK)).
Definition type_18 : unit := ltac:(holds (code_is (type_nng false 2 2 [1; 1] [0; 1; 0; 0; 1; 0; 0; 1; 1; 1; 1; 0; 0; 0; 1] 0 None (Some (SpecFloat.S754_finite false 5764607523034235 (-59))) world0) ER_NO_SOLUTION)).
Definition type_19 : unit := ltac:(holds (code_is (type_nng false 2 2 [1; 0] [0; 1; 0; 0; 1; 0; 0; 1; 1; 1; 1; 0; 0; 0; 1] 7 (Some [1; 4; 7; 8; 9; 10; 14]) (Some (SpecFloat.S754_finite false 5764607523034235 (-57))) world0) ER_OK)).
Definition type_20 : unit := ltac:(holds (code_is (type_nng false 2 2 [1; 0] [0; 1; 0; 0; 1; 0; 0; 1; 1; 1; 1; 0; 0; 0; 1] 7 (Some [1; 4; 7; 8; 9; 10; 14]) (Some (SpecFloat.S754_finite false 8646911284551352 (-58))) world0) ER_NO_SOLUTION)).
Definition type_21 : unit := ltac:(holds (code_is (type_nng false 3 2 [1; 0] [0; 1; 0; 0; 1; 0; 0; 1; 1; 1; 1; 0; 0; 0; 1] 7 (Some [1; 4; 7; 8; 9; 10; 14]) (Some (SpecFloat.S754_finite false 5764607523034235 (-57))) world0) ER_NO_SOLUTION)).
Definition type_22 : unit := ltac:(holds (code_is (type_nng false 3 2 [1; 0] [0; 1; 0; 0; 1; 0; 0; 1; 1; 1; 1; 0; 0; 0; 1] 7 (Some [1; 4; 7; 8; 9; 10; 14]) (Some (SpecFloat.S754_finite false 8646911284551352 (-57))) world0) ER_OK)).

(** tests/test_nng_core_stable.c. *)
Example sort_rows : match sort_nng (rows_graph [[0; 1]; [4; 2; 5; 3]; [4]; []]) with
  | Ok d => same_graph d (rows_graph [[0; 1]; [2; 3; 4; 5]; [4]; []]) | Bad _ => false end = true.
Proof. vm_compute. reflexivity. Qed.

Definition size_stable_1 : unit := ltac:(holds (graph_is true (size_nng true 3 0 None None world0)
  [[7; 8]; [4; 7]; [10; 12]; [5; 9]; [13; 14]; [3; 9]; [12; 14]; [0; 1]; [0; 7]; [2; 3]; [6; 12]; [3; 5]; [6; 14]; [4; 14]; [6; 12]])).
Definition size_stable_2 : unit := ltac:(holds (graph_is true (size_nng true 3 0 None (Some (SpecFloat.S754_finite false 7205759403792794 (-55))) world0)
  [[]; []; []; []; []; []; [12; 14]; []; []; []; [6; 12]; []; [6; 14]; []; [6; 12]])).
Definition size_stable_3 : unit := ltac:(holds (graph_is true (size_nng true 3 10 (Some prim10) None world0)
  [[7; 8]; [4; 7]; [10; 12]; [5; 9]; [13; 14]; []; []; []; []; []; [6; 12]; [3; 5]; [6; 14]; [4; 14]; [6; 12]])).
Definition size_stable_4 : unit := ltac:(holds (graph_is true (size_nng true 3 10 (Some prim10) (Some (SpecFloat.S754_finite false 7205759403792794 (-55))) world0)
  [[]; []; []; []; []; []; []; []; []; []; [6; 12]; []; [6; 14]; []; [6; 12]])).
Definition size_stable_5 : unit := ltac:(holds (graph_is true (size_nng true 2 0 None None world0)
  [[8]; [7]; [10]; [5]; [13]; [3]; [12]; [1]; [0]; [3]; [12]; [5]; [6]; [4]; [6]])).
Definition size_stable_6 : unit := ltac:(holds (graph_is true (size_nng true 2 0 None (Some (SpecFloat.S754_finite false 7205759403792794 (-55))) world0)
  [[8]; [7]; []; []; [13]; []; [12]; [1]; [0]; []; [12]; []; [6]; [4]; [6]])).
Definition size_stable_7 : unit := ltac:(holds (graph_is true (size_nng true 2 10 (Some prim10) None world0)
  [[8]; [7]; [10]; [5]; [13]; []; []; []; []; []; [12]; [5]; [6]; [4]; [6]])).
Definition size_stable_8 : unit := ltac:(holds (graph_is true (size_nng true 2 10 (Some prim10) (Some (SpecFloat.S754_finite false 7205759403792794 (-55))) world0)
  [[8]; [7]; []; []; [13]; []; []; []; []; []; [12]; []; [6]; [4]; [6]])).
Definition size_stable_9 : unit := ltac:(holds (code_is (size_nng true 3 0 None (Some (SpecFloat.S754_finite false 5764607523034235 (-59))) world0) ER_NO_SOLUTION)).
Definition type_stable_1 : unit := ltac:(holds (graph_is true (type_nng true 2 2 [1; 1] [0; 1; 0; 0; 1; 0; 0; 1; 1; 1; 1; 0; 0; 0; 1] 0 None None world0)
  [[8]; [13]; [10]; [9]; [13]; [9]; [14]; [0]; [0]; [3]; [12]; [9]; [14]; [4]; [6]])).
Definition type_stable_2 : unit := ltac:(holds (graph_is true (type_nng true 2 2 [1; 1] [0; 1; 0; 0; 1; 0; 0; 1; 1; 1; 1; 0; 0; 0; 1] 0 None (Some (SpecFloat.S754_finite false 5404319552844595 (-54))) world0)
  [[8]; []; []; []; [13]; []; [14]; []; [0]; []; [12]; []; [14]; [4]; [6]])).
Definition type_stable_3 : unit := ltac:(holds (graph_is true (type_nng true 2 2 [1; 1] [0; 1; 0; 0; 1; 0; 0; 1; 1; 1; 1; 0; 0; 0; 1] 10 (Some prim10) None world0)
  [[8]; [13]; [10]; [9]; [13]; []; []; []; []; []; [12]; [9]; [14]; [4]; [6]])).
Definition type_stable_4 : unit := ltac:(holds (graph_is true (type_nng true 2 2 [1; 1] [0; 1; 0; 0; 1; 0; 0; 1; 1; 1; 1; 0; 0; 0; 1] 10 (Some prim10) (Some (SpecFloat.S754_finite false 5404319552844595 (-54))) world0)
  [[8]; []; []; []; [13]; []; []; []; []; []; [12]; []; [14]; [4]; [6]])).
Definition type_stable_5 : unit := ltac:(holds (graph_is true (type_nng true 3 2 [1; 1] [0; 1; 0; 0; 1; 0; 0; 1; 1; 1; 1; 0; 0; 0; 1] 0 None None world0)
  [[7; 8]; [7; 13]; [10; 12]; [5; 9]; [13; 14]; [3; 9]; [12; 14]; [0; 1]; [0; 7]; [2; 3]; [6; 12]; [5; 9]; [6; 14]; [4; 14]; [6; 12]])).
Definition type_stable_6 : unit := ltac:(holds (graph_is true (type_nng true 3 2 [1; 1] [0; 1; 0; 0; 1; 0; 0; 1; 1; 1; 1; 0; 0; 0; 1] 0 None (Some (SpecFloat.S754_finite false 5404319552844595 (-54))) world0)
  [[]; []; []; []; [13; 14]; []; [12; 14]; []; []; []; [6; 12]; []; [6; 14]; [4; 14]; [6; 12]])).
Definition type_stable_7 : unit := ltac:(holds (graph_is true (type_nng true 3 2 [1; 1] [0; 1; 0; 0; 1; 0; 0; 1; 1; 1; 1; 0; 0; 0; 1] 10 (Some prim10) None world0)
  [[7; 8]; [7; 13]; [10; 12]; [5; 9]; [13; 14]; []; []; []; []; []; [6; 12]; [5; 9]; [6; 14]; [4; 14]; [6; 12]])).
Definition type_stable_8 : unit := ltac:(holds (graph_is true (type_nng true 3 2 [1; 1] [0; 1; 0; 0; 1; 0; 0; 1; 1; 1; 1; 0; 0; 0; 1] 10 (Some prim10) (Some (SpecFloat.S754_finite false 5404319552844595 (-54))) world0)
  [[]; []; []; []; [13; 14]; []; []; []; []; []; [6; 12]; []; [6; 14]; [4; 14]; [6; 12]])).
Definition type_stable_9 : unit := ltac:(holds (graph_is true (type_nng true 3 3 [2; 0; 1] [0; 1; 2; 2; 2; 0; 0; 1; 1; 1; 2; 2; 0; 0; 1] 0 None None world0)
  [[4; 13]; [0; 4; 13]; [6; 12]; [5; 12]; [6; 13]; [3; 12]; [10; 12]; [0; 4; 13]; [0; 4; 13]; [3; 5; 12]; [6; 12]; [5; 12]; [6; 10]; [4; 6]; [6; 10; 12]])).
Definition type_stable_10 : unit := ltac:(holds (graph_is true (type_nng true 3 3 [2; 0; 1] [0; 1; 2; 2; 2; 0; 0; 1; 1; 1; 2; 2; 0; 0; 1] 0 None (Some (SpecFloat.S754_finite false 4503599627370496 (-53))) world0)
  [[]; []; [6; 12]; []; [6; 13]; []; [10; 12]; []; []; []; [6; 12]; []; [6; 10]; [4; 6]; [6; 10; 12]])).
Definition type_stable_11 : unit := ltac:(holds (graph_is true (type_nng true 3 3 [2; 0; 1] [0; 1; 2; 2; 2; 0; 0; 1; 1; 1; 2; 2; 0; 0; 1] 10 (Some prim10) None world0)
  [[4; 13]; [0; 4; 13]; [6; 12]; [5; 12]; [6; 13]; []; []; []; []; []; [6; 12]; [5; 12]; [6; 10]; [4; 6]; [6; 10; 12]])).
Definition type_stable_12 : unit := ltac:(holds (graph_is true (type_nng true 3 3 [2; 0; 1] [0; 1; 2; 2; 2; 0; 0; 1; 1; 1; 2; 2; 0; 0; 1] 10 (Some prim10) (Some (SpecFloat.S754_finite false 4503599627370496 (-53))) world0)
  [[]; []; [6; 12]; []; [6; 13]; []; []; []; []; []; [6; 12]; []; [6; 10]; [4; 6]; [6; 10; 12]])).
Definition type_stable_13 : unit := ltac:(holds (graph_is true (type_nng true 4 3 [2; 0; 1] [0; 1; 2; 2; 2; 0; 0; 1; 1; 1; 2; 2; 0; 0; 1] 0 None None world0)
  [[4; 8; 13]; [0; 4; 13]; [6; 10; 12]; [5; 9; 12]; [6; 13; 14]; [3; 9; 12]; [10; 12; 14]; [0; 4; 13]; [0; 4; 13]; [3; 5; 12]; [6; 12; 14]; [3; 5; 12]; [6; 10; 14]; [4; 6; 14]; [6; 10; 12]])).
Definition type_stable_14 : unit := ltac:(holds (graph_is true (type_nng true 4 3 [2; 0; 1] [0; 1; 2; 2; 2; 0; 0; 1; 1; 1; 2; 2; 0; 0; 1] 0 None (Some (SpecFloat.S754_finite false 4503599627370496 (-53))) world0)
  [[]; []; [6; 10; 12]; []; [6; 13; 14]; []; [10; 12; 14]; []; []; []; [6; 12; 14]; []; [6; 10; 14]; [4; 6; 14]; [6; 10; 12]])).
Definition type_stable_15 : unit := ltac:(holds (graph_is true (type_nng true 4 3 [2; 0; 1] [0; 1; 2; 2; 2; 0; 0; 1; 1; 1; 2; 2; 0; 0; 1] 10 (Some prim10) None world0)
  [[4; 8; 13]; [0; 4; 13]; [6; 10; 12]; [5; 9; 12]; [6; 13; 14]; []; []; []; []; []; [6; 12; 14]; [3; 5; 12]; [6; 10; 14]; [4; 6; 14]; [6; 10; 12]])).
Definition type_stable_16 : unit := ltac:(holds (graph_is true (type_nng true 4 3 [2; 0; 1] [0; 1; 2; 2; 2; 0; 0; 1; 1; 1; 2; 2; 0; 0; 1] 10 (Some prim10) (Some (SpecFloat.S754_finite false 4503599627370496 (-53))) world0)
  [[]; []; [6; 10; 12]; []; [6; 13; 14]; []; []; []; []; []; [6; 12; 14]; []; [6; 10; 14]; [4; 6; 14]; [6; 10; 12]])).
Definition type_stable_17 : unit := ltac:(holds (code_is (type_nng true 2 2 [1; 1] [0; 1; 0; 0; 1; 0; 0; 1; 1; 1; 1; 0; 0; 0; 1] 0 None (Some (SpecFloat.S754_finite false 4503599627370496 (-52))) world0) ER_OK)).
Definition type_stable_18 : unit := ltac:(holds (code_is (type_nng true 2 2 [1; 1] [0; 1; 0; 0; 1; 0; 0; 1; 1; 1; 1; 0; 0; 0; 1] 0 None (Some (SpecFloat.S754_finite false 5764607523034235 (-59))) world0) ER_NO_SOLUTION)).
Definition type_stable_19 : unit := ltac:(holds (code_is (type_nng true 2 2 [1; 0] [0; 1; 0; 0; 1; 0; 0; 1; 1; 1; 1; 0; 0; 0; 1] 7 (Some [1; 4; 7; 8; 9; 10; 14]) (Some (SpecFloat.S754_finite false 5764607523034235 (-57))) world0) ER_OK)).
Definition type_stable_20 : unit := ltac:(holds (code_is (type_nng true 2 2 [1; 0] [0; 1; 0; 0; 1; 0; 0; 1; 1; 1; 1; 0; 0; 0; 1] 7 (Some [1; 4; 7; 8; 9; 10; 14]) (Some (SpecFloat.S754_finite false 8646911284551352 (-58))) world0) ER_NO_SOLUTION)).
Definition type_stable_21 : unit := ltac:(holds (code_is (type_nng true 3 2 [1; 0] [0; 1; 0; 0; 1; 0; 0; 1; 1; 1; 1; 0; 0; 0; 1] 7 (Some [1; 4; 7; 8; 9; 10; 14]) (Some (SpecFloat.S754_finite false 5764607523034235 (-57))) world0) ER_NO_SOLUTION)).
Definition type_stable_22 : unit := ltac:(holds (code_is (type_nng true 3 2 [1; 0] [0; 1; 0; 0; 1; 0; 0; 1; 1; 1; 1; 0; 0; 0; 1] 7 (Some [1; 4; 7; 8; 9; 10; 14]) (Some (SpecFloat.S754_finite false 8646911284551352 (-57))) world0) ER_OK)).

(** tests/test_nng_core.c, average distances; to within 0.000001 as there. *)
Definition blocks3 : world := World (fun _ => false) 3 [0; 1; 2] no_errst 0 0.
Definition avg_is (seeds : list nat) (rows : list (list nat)) (size : nat) (d : double) : bool :=
  match estimate_avg_seed_dist builtin (Some small) (SR (length seeds) (length seeds) (farr 2 seeds)) (rows_graph rows) size blocks3 with
  | Ok ((ER_OK, d'), _) => near d' d
  | _ => false
  end.
Definition avg_1 : unit := ltac:(holds (avg_is [0; 4; 7; 12]
  [[1; 5]; [2; 8; 13]; [2; 6; 11]; [1; 5; 8; 12; 14]; [2; 3]; [3; 6; 14]; [4; 8; 12]; [7; 8; 9]; [4; 8; 11]; [3; 9; 13]; [3; 4; 8; 10; 13]; [1; 2; 6; 11]; [10; 12; 13]; [1; 3; 5; 8; 12]; [2; 5; 6; 7; 12; 13]] 3 (SpecFloat.S754_finite false 8924661874442165 (-53)))).
Definition avg_2 : unit := ltac:(holds (avg_is [0; 4; 7; 12]
  [[1; 5; 6]; [2; 8; 13]; [2; 6; 11]; [1; 5; 8; 12; 14]; [2; 3; 14]; [3; 6; 14]; [4; 8; 12]; [7; 8; 9]; [4; 8; 11]; [3; 9; 13]; [3; 4; 8; 10; 13]; [1; 2; 6; 11]; [10; 12; 13]; [1; 3; 5; 8; 12]; [2; 5; 6; 7; 12; 13]] 3 (SpecFloat.S754_finite false 8090749062813541 (-53)))).

(** tests/test_nng_core.c, clusters from given seeds. *)
Definition blocks4 : world := World (fun _ => false) 4 [0; 1; 2; 3] no_errst 0 0.
Definition labels_are (seeds : list nat) (rows : list (list nat)) (ordered : bool) (um1 : unassigned_method) (rad1 : option double)
    (len_prim : nat) (prim : option (list nat)) (um2 : unassigned_method) (rad2 : option double) (k : nat) (l : list Z) : bool :=
  match make_nng_clusters_from_seeds default_config builtin (Clu clustering_version 15 0 (Some (Arr 3 (replicate 15 None))) true) (Some small)
      (SR (length seeds) (length seeds) (farr 2 seeds)) (rows_graph rows) ordered um1 rad1 len_prim prim um2 rad2 blocks4 with
  | Ok ((ER_OK, c', _), _) => bool_decide (c_k c' = k) && bool_decide (cells c' = Some <$> l)
  | _ => false
  end.
Notation NA := 4294967295%Z.

Definition clusters_1 : unit := ltac:(holds (labels_are [0; 1; 2; 3; 4]
  [[5; 6]; [7; 8]; [9; 10]; [11; 12]; [13; 14]; [1; 2; 8; 11]; [3; 7; 12]; [5; 6; 14]; [1; 7; 11]; [3; 12; 14]; [2; 4; 6; 9; 13]; [1; 5; 7; 11]; [2; 6; 11]; [3; 7; 13]; [1; 8; 12]]
  true UM_ANY_NEIGHBOR None 0 None UM_IGNORE None 5 [0; 1; 2; 3; 4; 0; 0; 1; 1; 2; 2; 3; 3; 4; 4]%Z)).
Definition clusters_2 : unit := ltac:(holds (labels_are [0; 2; 3; 4]
  [[5; 6]; [7; 8]; [9; 10]; [11; 12]; [13; 14]; [1; 2; 8; 11]; [3; 7; 12]; [5; 6; 14]; [1; 7; 11]; [3; 12; 14]; [2; 4; 6; 9; 13]; [1; 5; 7; 11]; [2; 6; 11]; [3; 7; 13]; [1; 8; 12]]
  true UM_IGNORE None 0 None UM_IGNORE None 4 [0; NA; 1; 2; 3; 0; 0; NA; NA; 1; 1; 2; 2; 3; 3]%Z)).
Definition clusters_3 : unit := ltac:(holds (labels_are [2; 5; 3; 8]
  [[1; 6]; [4; 8]; [0; 6]; [10; 13]; [8; 12]; [1; 12]; [4; 7]; [1; 10]; [9; 11]; [3; 7]; [2; 7]; [12; 14]; [7; 10]; [4; 7]; [5; 11]]
  true UM_ANY_NEIGHBOR None 0 None UM_IGNORE None 4 [0; 1; 0; 2; 3; 1; 0; 1; 3; 3; 2; 3; 1; 2; 1]%Z)).
Definition clusters_3a : unit := ltac:(holds (labels_are [2; 5; 3; 8]
  [[1; 6]; [4; 8]; [0; 6]; [10; 13]; [8; 12]; [1; 12]; [4; 7]; []; [9; 11]; [3; 7]; [2; 7]; [12; 14]; [7; 10]; [4; 7]; [4; 7]]
  true UM_ANY_NEIGHBOR None 0 None UM_IGNORE None 4 [0; 1; 0; 2; 3; 1; 0; NA; 3; 3; 2; 3; 1; 2; NA]%Z)).
Definition clusters_4 : unit := ltac:(holds (labels_are [2; 5; 3; 8]
  [[1; 6]; [4; 8]; [0; 6]; [10; 13]; [8; 12]; [1; 12]; [4; 7]; [1; 10]; [9; 11]; [3; 7]; [2; 7]; [12; 14]; [7; 10]; [4; 7]; [5; 11]]
  true UM_CLOSEST_ASSIGNED None 0 None UM_IGNORE None 4 [0; 1; 0; 2; 3; 1; 0; 1; 3; 3; 2; 3; 1; 2; 1]%Z)).
Definition clusters_4a : unit := ltac:(holds (labels_are [2; 5; 3; 8]
  [[1; 6]; [4; 8]; [0; 6]; [10; 13]; []; [1; 12]; [4; 7]; [1; 10]; [9; 11]; [3; 7]; [2; 7]; [12; 14]; [7; 10]; [4; 7]; [5; 11]]
  true UM_CLOSEST_ASSIGNED None 0 None UM_IGNORE None 4 [0; 1; 0; 2; 2; 1; 0; 1; 3; 3; 2; 3; 1; 2; 1]%Z)).
Definition clusters_5 : unit := ltac:(holds (labels_are [2; 5; 3; 8]
  [[1; 6]; [4; 8]; [0; 6]; [10; 13]; [8; 12]; [1; 12]; [4; 7]; [1; 10]; [9; 11]; [3; 7]; [2; 7]; [12; 14]; [7; 10]; [4; 7]; [5; 11]]
  false UM_CLOSEST_ASSIGNED None 0 None UM_IGNORE None 4 [0; 1; 0; 2; 2; 1; 0; 1; 3; 3; 2; 3; 1; 2; 0]%Z)).
Definition clusters_5a : unit := ltac:(holds (labels_are [2; 5; 3; 8]
  [[1; 6]; [4; 8]; [0; 6]; [10; 13]; [8; 12]; [1; 12]; [4; 7]; [1; 10]; [9; 11]; [3; 7]; [2; 7]; [12; 14]; [7; 10]; [4; 7]; [5; 11]]
  false UM_CLOSEST_ASSIGNED (Some (SpecFloat.S754_finite false 7205759403792794 (-56))) 0 None UM_IGNORE None 4 [0; 1; 0; 2; 2; 1; 0; NA; 3; 3; 2; 3; 1; 2; 0]%Z)).
Definition clusters_6 : unit := ltac:(holds (labels_are [2; 5; 3; 8]
  [[1; 6]; [4; 8]; [0; 6]; [10; 13]; [8; 12]; [1; 12]; [4; 7]; [1; 10]; [9; 11]; [3; 7]; [2; 7]; [12; 14]; [7; 10]; [4; 7]; [5; 11]]
  true UM_CLOSEST_SEED None 0 None UM_IGNORE None 4 [0; 1; 0; 2; 0; 1; 0; 3; 3; 3; 2; 3; 1; 2; 0]%Z)).
Definition clusters_7 : unit := ltac:(holds (labels_are [11; 0; 4]
  [[1; 6]; [4; 8]; [0; 6]; [10; 13]; [8; 12]; []; []; []; []; []; [2; 7]; [13; 14]; [7; 10]; [4; 7]; [5; 11]]
  true UM_IGNORE None 10 (Some prim10) UM_IGNORE None 3 [1; 1; NA; NA; 2; NA; 1; NA; 2; NA; NA; 0; 2; 0; 0]%Z)).
Definition clusters_7a : unit := ltac:(holds (labels_are [11; 0; 4]
  [[1; 6]; [4; 8]; [0; 6]; [10; 13]; [8; 12]; []; []; []; []; []; [2; 7]; [13; 14]; [7; 10]; [4; 7]; [5; 11]]
  true UM_IGNORE None 10 (Some prim10) UM_CLOSEST_ASSIGNED None 3 [1; 1; 2; 2; 2; 0; 1; 1; 2; 2; 2; 0; 2; 0; 0]%Z)).
Definition clusters_7b : unit := ltac:(holds (labels_are [11; 0; 4]
  [[1; 6]; [4; 8]; [0; 6]; [10; 13]; [8; 12]; []; []; []; []; []; [2; 7]; [13; 14]; [7; 10]; [4; 7]; [5; 11]]
  true UM_IGNORE None 10 (Some prim10) UM_CLOSEST_ASSIGNED (Some (SpecFloat.S754_finite false 6755399441055744 (-53))) 3 [1; 1; 2; NA; 2; NA; 1; 1; 2; 2; 2; 0; 2; 0; 0]%Z)).
Definition clusters_7c : unit := ltac:(holds (labels_are [11; 0; 4]
  [[1; 6]; [4; 8]; [0; 6]; [10; 13]; [8; 12]; []; []; []; []; []; [2; 7]; [13; 14]; [7; 10]; [4; 7]; [5; 11]]
  true UM_IGNORE None 10 (Some prim10) UM_CLOSEST_SEED None 3 [1; 1; 2; 0; 2; 0; 1; 1; 2; 2; 2; 0; 2; 0; 0]%Z)).
Definition clusters_7d : unit := ltac:(holds (labels_are [11; 0; 4]
  [[1; 6]; [4; 8]; [0; 6]; [10; 13]; [8; 12]; []; []; []; []; []; [2; 7]; [13; 14]; [7; 10]; [4; 7]; [5; 11]]
  true UM_IGNORE None 10 (Some prim10) UM_CLOSEST_SEED (Some (SpecFloat.S754_finite false 6755399441055744 (-53))) 3 [1; 1; 2; NA; 2; NA; 1; 1; 2; NA; 2; 0; 2; 0; 0]%Z)).
Definition clusters_8 : unit := ltac:(holds (labels_are [11; 0; 4]
  [[1; 6]; [4; 8]; [0; 6]; [10; 13]; [8; 12]; []; []; []; []; []; [2; 8]; [13; 14]; [7; 10]; [4; 7]; [5; 11]]
  true UM_ANY_NEIGHBOR None 10 (Some prim10) UM_IGNORE None 3 [1; 1; 1; 0; 2; NA; 1; NA; 2; NA; 2; 0; 2; 0; 0]%Z)).
Definition clusters_8a : unit := ltac:(holds (labels_are [11; 0; 4]
  [[1; 6]; [4; 8]; [0; 6]; [10; 13]; [8; 12]; []; []; []; []; []; [2; 8]; [13; 14]; [7; 10]; [4; 7]; [5; 11]]
  true UM_ANY_NEIGHBOR None 10 (Some prim10) UM_CLOSEST_ASSIGNED None 3 [1; 1; 1; 0; 2; 0; 1; 1; 2; 2; 2; 0; 2; 0; 0]%Z)).
Definition clusters_8b : unit := ltac:(holds (labels_are [11; 0; 4]
  [[1; 6]; [4; 8]; [0; 6]; [10; 13]; [8; 12]; []; []; []; []; []; [2; 8]; [13; 14]; [7; 10]; [4; 7]; [5; 11]]
  true UM_ANY_NEIGHBOR None 10 (Some prim10) UM_CLOSEST_ASSIGNED (Some (SpecFloat.S754_finite false 6755399441055744 (-53))) 3 [1; 1; 1; 0; 2; NA; 1; 1; 2; 2; 2; 0; 2; 0; 0]%Z)).
Definition clusters_8c : unit := ltac:(holds (labels_are [11; 0; 4]
  [[1; 6]; [4; 8]; [0; 6]; [10; 13]; [8; 12]; []; []; []; []; []; [2; 8]; [13; 14]; [7; 10]; [4; 7]; [5; 11]]
  true UM_ANY_NEIGHBOR None 10 (Some prim10) UM_CLOSEST_SEED None 3 [1; 1; 1; 0; 2; 0; 1; 1; 2; 2; 2; 0; 2; 0; 0]%Z)).
Definition clusters_8d : unit := ltac:(holds (labels_are [11; 0; 4]
  [[1; 6]; [4; 8]; [0; 6]; [10; 13]; [8; 12]; []; []; []; []; []; [2; 8]; [13; 14]; [7; 10]; [4; 7]; [5; 11]]
  true UM_ANY_NEIGHBOR None 10 (Some prim10) UM_CLOSEST_SEED (Some (SpecFloat.S754_finite false 6755399441055744 (-53))) 3 [1; 1; 1; 0; 2; NA; 1; 1; 2; NA; 2; 0; 2; 0; 0]%Z)).
Definition clusters_9 : unit := ltac:(holds (labels_are [11; 0; 4]
  [[1; 6]; [4; 8]; [0; 6]; [10; 13]; [8; 12]; []; []; []; []; []; [2; 8]; [13; 14]; [7; 10]; [4; 7]; [5; 11]]
  true UM_CLOSEST_ASSIGNED None 10 (Some prim10) UM_IGNORE None 3 [1; 1; 1; 0; 2; NA; 1; NA; 2; NA; 2; 0; 2; 0; 0]%Z)).
Definition clusters_9a : unit := ltac:(holds (labels_are [11; 0; 4]
  [[1; 6]; [4; 8]; [0; 6]; [10; 13]; [8; 12]; []; []; []; []; []; [2; 8]; [13; 14]; [7; 10]; [4; 7]; [5; 11]]
  true UM_CLOSEST_ASSIGNED None 10 (Some prim10) UM_CLOSEST_ASSIGNED None 3 [1; 1; 1; 0; 2; 0; 1; 1; 2; 2; 2; 0; 2; 0; 0]%Z)).
Definition clusters_9b : unit := ltac:(holds (labels_are [11; 0; 4]
  [[1; 6]; [4; 8]; [0; 6]; [10; 13]; [8; 12]; []; []; []; []; []; [2; 8]; [13; 14]; [7; 10]; [4; 7]; [5; 11]]
  true UM_CLOSEST_ASSIGNED None 10 (Some prim10) UM_CLOSEST_ASSIGNED (Some (SpecFloat.S754_finite false 6755399441055744 (-53))) 3 [1; 1; 1; 0; 2; NA; 1; 1; 2; 2; 2; 0; 2; 0; 0]%Z)).
Definition clusters_9c : unit := ltac:(holds (labels_are [11; 0; 4]
  [[1; 6]; [4; 8]; [0; 6]; [10; 13]; [8; 12]; []; []; []; []; []; [2; 8]; [13; 14]; [7; 10]; [4; 7]; [5; 11]]
  true UM_CLOSEST_ASSIGNED None 10 (Some prim10) UM_CLOSEST_SEED None 3 [1; 1; 1; 0; 2; 0; 1; 1; 2; 2; 2; 0; 2; 0; 0]%Z)).
Definition clusters_9d : unit := ltac:(holds (labels_are [11; 0; 4]
  [[1; 6]; [4; 8]; [0; 6]; [10; 13]; [8; 12]; []; []; []; []; []; [2; 8]; [13; 14]; [7; 10]; [4; 7]; [5; 11]]
  true UM_CLOSEST_ASSIGNED None 10 (Some prim10) UM_CLOSEST_SEED (Some (SpecFloat.S754_finite false 6755399441055744 (-53))) 3 [1; 1; 1; 0; 2; NA; 1; 1; 2; NA; 2; 0; 2; 0; 0]%Z)).
Definition clusters_10 : unit := ltac:(holds (labels_are [11; 0; 4]
  [[1; 6]; [4; 8]; [0; 6]; [10; 13]; [8; 12]; []; []; []; []; []; [2; 8]; [13; 14]; [7; 10]; [4; 7]; [5; 11]]
  false UM_CLOSEST_ASSIGNED None 10 (Some prim10) UM_IGNORE None 3 [1; 1; 2; 2; 2; NA; 1; NA; 2; NA; 2; 0; 2; 0; 0]%Z)).
Definition clusters_10a : unit := ltac:(holds (labels_are [11; 0; 4]
  [[1; 6]; [4; 8]; [0; 6]; [10; 13]; [8; 12]; []; []; []; []; []; [2; 8]; [13; 14]; [7; 10]; [4; 7]; [5; 11]]
  false UM_CLOSEST_ASSIGNED None 10 (Some prim10) UM_CLOSEST_ASSIGNED None 3 [1; 1; 2; 2; 2; 0; 1; 1; 2; 2; 2; 0; 2; 0; 0]%Z)).
Definition clusters_10b : unit := ltac:(holds (labels_are [11; 0; 4]
  [[1; 6]; [4; 8]; [0; 6]; [10; 13]; [8; 12]; []; []; []; []; []; [2; 8]; [13; 14]; [7; 10]; [4; 7]; [5; 11]]
  false UM_CLOSEST_ASSIGNED None 10 (Some prim10) UM_CLOSEST_ASSIGNED (Some (SpecFloat.S754_finite false 6755399441055744 (-53))) 3 [1; 1; 2; 2; 2; NA; 1; 1; 2; 2; 2; 0; 2; 0; 0]%Z)).
Definition clusters_10c : unit := ltac:(holds (labels_are [11; 0; 4]
  [[1; 6]; [4; 8]; [0; 6]; [10; 13]; [8; 12]; []; []; []; []; []; [2; 8]; [13; 14]; [7; 10]; [4; 7]; [5; 11]]
  false UM_CLOSEST_ASSIGNED None 10 (Some prim10) UM_CLOSEST_SEED None 3 [1; 1; 2; 2; 2; 0; 1; 1; 2; 2; 2; 0; 2; 0; 0]%Z)).
Definition clusters_10d : unit := ltac:(holds (labels_are [11; 0; 4]
  [[1; 6]; [4; 8]; [0; 6]; [10; 13]; [8; 12]; []; []; []; []; []; [2; 8]; [13; 14]; [7; 10]; [4; 7]; [5; 11]]
  false UM_CLOSEST_ASSIGNED None 10 (Some prim10) UM_CLOSEST_SEED (Some (SpecFloat.S754_finite false 6755399441055744 (-53))) 3 [1; 1; 2; 2; 2; NA; 1; 1; 2; NA; 2; 0; 2; 0; 0]%Z)).
Definition clusters_11 : unit := ltac:(holds (labels_are [11; 0; 4]
  [[1; 6]; [4; 8]; [0; 6]; [10; 13]; [8; 12]; []; []; []; []; []; [2; 8]; [13; 14]; [7; 10]; [4; 7]; [5; 11]]
  false UM_CLOSEST_ASSIGNED (Some (SpecFloat.S754_finite false 4503599627370496 (-53))) 10 (Some prim10) UM_IGNORE None 3 [1; 1; 2; NA; 2; NA; 1; NA; 2; NA; 2; 0; 2; 0; 0]%Z)).
Definition clusters_11a : unit := ltac:(holds (labels_are [11; 0; 4]
  [[1; 6]; [4; 8]; [0; 6]; [10; 13]; [8; 12]; []; []; []; []; []; [2; 8]; [13; 14]; [7; 10]; [4; 7]; [5; 11]]
  false UM_CLOSEST_ASSIGNED (Some (SpecFloat.S754_finite false 4503599627370496 (-53))) 10 (Some prim10) UM_CLOSEST_ASSIGNED None 3 [1; 1; 2; 2; 2; 0; 1; 1; 2; 2; 2; 0; 2; 0; 0]%Z)).
Definition clusters_11b : unit := ltac:(holds (labels_are [11; 0; 4]
  [[1; 6]; [4; 8]; [0; 6]; [10; 13]; [8; 12]; []; []; []; []; []; [2; 8]; [13; 14]; [7; 10]; [4; 7]; [5; 11]]
  false UM_CLOSEST_ASSIGNED (Some (SpecFloat.S754_finite false 4503599627370496 (-53))) 10 (Some prim10) UM_CLOSEST_ASSIGNED (Some (SpecFloat.S754_finite false 6755399441055744 (-53))) 3 [1; 1; 2; NA; 2; NA; 1; 1; 2; 2; 2; 0; 2; 0; 0]%Z)).
Definition clusters_11c : unit := ltac:(holds (labels_are [11; 0; 4]
  [[1; 6]; [4; 8]; [0; 6]; [10; 13]; [8; 12]; []; []; []; []; []; [2; 8]; [13; 14]; [7; 10]; [4; 7]; [5; 11]]
  false UM_CLOSEST_ASSIGNED (Some (SpecFloat.S754_finite false 4503599627370496 (-53))) 10 (Some prim10) UM_CLOSEST_SEED None 3 [1; 1; 2; 0; 2; 0; 1; 1; 2; 2; 2; 0; 2; 0; 0]%Z)).
Definition clusters_11d : unit := ltac:(holds (labels_are [11; 0; 4]
  [[1; 6]; [4; 8]; [0; 6]; [10; 13]; [8; 12]; []; []; []; []; []; [2; 8]; [13; 14]; [7; 10]; [4; 7]; [5; 11]]
  false UM_CLOSEST_ASSIGNED (Some (SpecFloat.S754_finite false 4503599627370496 (-53))) 10 (Some prim10) UM_CLOSEST_SEED (Some (SpecFloat.S754_finite false 6755399441055744 (-53))) 3 [1; 1; 2; NA; 2; NA; 1; 1; 2; NA; 2; 0; 2; 0; 0]%Z)).
Definition clusters_12 : unit := ltac:(holds (labels_are [11; 0; 4]
  [[1; 6]; [4; 8]; [0; 6]; [10; 13]; [8; 12]; []; []; []; []; []; [2; 8]; [13; 14]; [7; 10]; [4; 7]; [5; 11]]
  false UM_CLOSEST_SEED None 10 (Some prim10) UM_IGNORE None 3 [1; 1; 2; 0; 2; NA; 1; NA; 2; NA; 2; 0; 2; 0; 0]%Z)).
Definition clusters_12a : unit := ltac:(holds (labels_are [11; 0; 4]
  [[1; 6]; [4; 8]; [0; 6]; [10; 13]; [8; 12]; []; []; []; []; []; [2; 8]; [13; 14]; [7; 10]; [4; 7]; [5; 11]]
  false UM_CLOSEST_SEED None 10 (Some prim10) UM_CLOSEST_ASSIGNED None 3 [1; 1; 2; 0; 2; 0; 1; 1; 2; 2; 2; 0; 2; 0; 0]%Z)).
Definition clusters_12b : unit := ltac:(holds (labels_are [11; 0; 4]
  [[1; 6]; [4; 8]; [0; 6]; [10; 13]; [8; 12]; []; []; []; []; []; [2; 8]; [13; 14]; [7; 10]; [4; 7]; [5; 11]]
  false UM_CLOSEST_SEED None 10 (Some prim10) UM_CLOSEST_ASSIGNED (Some (SpecFloat.S754_finite false 6755399441055744 (-53))) 3 [1; 1; 2; 0; 2; NA; 1; 1; 2; 2; 2; 0; 2; 0; 0]%Z)).
Definition clusters_12c : unit := ltac:(holds (labels_are [11; 0; 4]
  [[1; 6]; [4; 8]; [0; 6]; [10; 13]; [8; 12]; []; []; []; []; []; [2; 8]; [13; 14]; [7; 10]; [4; 7]; [5; 11]]
  false UM_CLOSEST_SEED None 10 (Some prim10) UM_CLOSEST_SEED None 3 [1; 1; 2; 0; 2; 0; 1; 1; 2; 2; 2; 0; 2; 0; 0]%Z)).
Definition clusters_12d : unit := ltac:(holds (labels_are [11; 0; 4]
  [[1; 6]; [4; 8]; [0; 6]; [10; 13]; [8; 12]; []; []; []; []; []; [2; 8]; [13; 14]; [7; 10]; [4; 7]; [5; 11]]
  false UM_CLOSEST_SEED None 10 (Some prim10) UM_CLOSEST_SEED (Some (SpecFloat.S754_finite false 6755399441055744 (-53))) 3 [1; 1; 2; 0; 2; NA; 1; 1; 2; NA; 2; 0; 2; 0; 0]%Z)).
Definition clusters_13 : unit := ltac:(holds (labels_are [11; 0; 4]
  [[1; 6]; [4; 8]; [0; 6]; [10; 13]; [8; 12]; []; []; []; []; []; [2; 8]; [13; 14]; [7; 10]; [4; 7]; [5; 11]]
  false UM_CLOSEST_SEED (Some (SpecFloat.S754_finite false 4503599627370496 (-53))) 10 (Some prim10) UM_IGNORE None 3 [1; 1; NA; NA; 2; NA; 1; NA; 2; NA; 2; 0; 2; 0; 0]%Z)).
Definition clusters_13a : unit := ltac:(holds (labels_are [11; 0; 4]
  [[1; 6]; [4; 8]; [0; 6]; [10; 13]; [8; 12]; []; []; []; []; []; [2; 8]; [13; 14]; [7; 10]; [4; 7]; [5; 11]]
  false UM_CLOSEST_SEED (Some (SpecFloat.S754_finite false 4503599627370496 (-53))) 10 (Some prim10) UM_CLOSEST_ASSIGNED None 3 [1; 1; 2; 2; 2; 0; 1; 1; 2; 2; 2; 0; 2; 0; 0]%Z)).
Definition clusters_13b : unit := ltac:(holds (labels_are [11; 0; 4]
  [[1; 6]; [4; 8]; [0; 6]; [10; 13]; [8; 12]; []; []; []; []; []; [2; 8]; [13; 14]; [7; 10]; [4; 7]; [5; 11]]
  false UM_CLOSEST_SEED (Some (SpecFloat.S754_finite false 4503599627370496 (-53))) 10 (Some prim10) UM_CLOSEST_ASSIGNED (Some (SpecFloat.S754_finite false 6755399441055744 (-53))) 3 [1; 1; 2; NA; 2; NA; 1; 1; 2; 2; 2; 0; 2; 0; 0]%Z)).
Definition clusters_13c : unit := ltac:(holds (labels_are [11; 0; 4]
  [[1; 6]; [4; 8]; [0; 6]; [10; 13]; [8; 12]; []; []; []; []; []; [2; 8]; [13; 14]; [7; 10]; [4; 7]; [5; 11]]
  false UM_CLOSEST_SEED (Some (SpecFloat.S754_finite false 4503599627370496 (-53))) 10 (Some prim10) UM_CLOSEST_SEED None 3 [1; 1; 2; 0; 2; 0; 1; 1; 2; 2; 2; 0; 2; 0; 0]%Z)).
Definition clusters_13d : unit := ltac:(holds (labels_are [11; 0; 4]
  [[1; 6]; [4; 8]; [0; 6]; [10; 13]; [8; 12]; []; []; []; []; []; [2; 8]; [13; 14]; [7; 10]; [4; 7]; [5; 11]]
  false UM_CLOSEST_SEED (Some (SpecFloat.S754_finite false 4503599627370496 (-53))) 10 (Some prim10) UM_CLOSEST_SEED (Some (SpecFloat.S754_finite false 6755399441055744 (-53))) 3 [1; 1; 2; NA; 2; NA; 1; 1; 2; NA; 2; 0; 2; 0; 0]%Z)).

(** tests/test_nng_findseeds_stable.c 33-78. *)
Definition positions (l : list nat) : list nat := (fun v => default 0 (fst <$> list_find (fun x => x = v) l)) <$> seq 0 (length l).
Definition bucket_gives (l : list nat) (start pos : nat) (l' : list nat) : bool :=
  match bucket_sort start pos (farr 0 l) (farr 1 (positions l)) with
  | Ok (sv, vi) => bool_decide (a_cells <$> sv = Some (Some <$> l')) && bool_decide (a_cells <$> vi = Some (Some <$> positions l'))
  | Bad _ => false
  end.
Example bucket_1 : bucket_gives [1; 4; 3; 5; 6; 2; 0] 2 5 [1; 4; 2; 3; 5; 6; 0] = true.
Proof. vm_compute. reflexivity. Qed.
Example bucket_2 : bucket_gives [1; 4; 2; 5; 6; 3; 0] 2 5 [1; 4; 2; 3; 5; 6; 0] = true.
Proof. vm_compute. reflexivity. Qed.
Example bucket_3 : bucket_gives [1; 4; 2; 3; 5; 6; 0] 6 6 [1; 4; 2; 3; 5; 6; 0] = true.
Proof. vm_compute. reflexivity. Qed.

(** tests/test_nng_findseeds_stable.c; the graphs are those of RepoTests.v. *)
Definition stable_seeds_are (g : digraph) (sm : seed_method) (l : list nat) : bool :=
  match find_seeds (config_in false true) g sm (SR 1 0 None) two_blocks with
  | Ok ((ER_OK, sr), _) =>
      bool_decide (sr_count sr = length l) && bool_decide (sr_cap sr = length l) && bool_decide ((a_cells <$> sr_seeds sr) = Some (Some <$> l))
  | _ => false
  end.

Example stable_plain_1 : stable_seeds_are graph_plain SM_LEXICAL [0; 5; 6; 10; 12] = true.
Proof. vm_compute. reflexivity. Qed.
Example stable_plain_2 : stable_seeds_are graph_plain SM_INWARDS_ORDER [2; 6; 11; 12; 13] = true.
Proof. vm_compute. reflexivity. Qed.
Example stable_plain_3alt : stable_seeds_are graph_plain SM_INWARDS_UPDATING [2; 6; 8; 12; 13] = true.
Proof. vm_compute. reflexivity. Qed.
Example stable_plain_4 : stable_seeds_are graph_plain SM_EXCLUSION_ORDER [8; 15; 0; 13] = true.
Proof. vm_compute. reflexivity. Qed.
Example stable_plain_5 : stable_seeds_are graph_plain SM_EXCLUSION_UPDATING [8; 15; 17; 10; 0] = true.
Proof. vm_compute. reflexivity. Qed.
Example stable_diagonal_1 : stable_seeds_are graph_diagonal SM_LEXICAL [0; 5; 6; 10; 12] = true.
Proof. vm_compute. reflexivity. Qed.
Example stable_diagonal_2 : stable_seeds_are graph_diagonal SM_INWARDS_ORDER [2; 6; 11; 12; 13] = true.
Proof. vm_compute. reflexivity. Qed.
Example stable_diagonal_3alt : stable_seeds_are graph_diagonal SM_INWARDS_UPDATING [2; 6; 8; 12; 13] = true.
Proof. vm_compute. reflexivity. Qed.
Example stable_diagonal_4 : stable_seeds_are graph_diagonal SM_EXCLUSION_ORDER [8; 15; 0; 13] = true.
Proof. vm_compute. reflexivity. Qed.
Example stable_diagonal_5 : stable_seeds_are graph_diagonal SM_EXCLUSION_UPDATING [8; 15; 17; 10; 0] = true.
Proof. vm_compute. reflexivity. Qed.
