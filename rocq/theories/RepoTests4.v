(** The project's tests of the digraph functions (tests/test_digraph_core.c,
    tests/test_digraph_debug.c, tests/test_digraph_operations.c), run with the
    model. Evidence that the model is the program, not part of any claim. A
    failing assertion of a test is a run without result. *)
From Coq Require Import Strings.Ascii Strings.String.
From stdpp Require Import prelude list.
From Coq Require Import NArith ZArith.
From Verif Require Import Base World Digraph DigraphDebug Example1 RepoTests.
Open Scope string_scope. Open Scope list_scope. Open Scope nat_scope.

Notation cfg := default_config.
Notation chars s := (list_ascii_of_string s).

Definition ensure (b : bool) : M unit := if b then Mret tt else Mbad Arith.
Definition ok (m : M (ecode * digraph)) : M digraph :=
  let* r := m in let* _ := ensure (bool_decide (r.1 = ER_OK)) in Mret r.2.
(** The test ends, having released all memory. *)
Definition passes (m : M unit) : bool :=
  match m world0 with Ok (_, w) => match w_live w with [] => true | _ => false end | Bad _ => false end.

(** The macros of tests/assert_digraph.h. *)
Definition valid (dg : digraph) (n : nat) : M unit :=
  let* v := lift (digraph_is_valid cfg dg) in ensure (v && bool_decide (dg_n dg = n)).
Definition is_empty (dg : digraph) (n : nat) : M unit :=
  let* _ := valid dg n in let* e := lift (digraph_is_empty dg) in ensure e.
Definition balanced (dg : digraph) (n k : nat) : M unit :=
  let* b := lift (is_balanced_digraph cfg dg k) in ensure (b && bool_decide (dg_n dg = n)).
Definition equal (a b : digraph) : M unit := let* e := digraphs_equal a b in ensure e.
Definition unequal (a b : digraph) : M unit := let* e := digraphs_equal a b in ensure (negb e).
Definition same_cells (a b : option (arr nat)) : bool :=
  match a, b with
  | None, None => true
  | Some a, Some b => bool_decide (a_cells a = a_cells b)
  | _, _ => false
  end.
Definition identical (a b : digraph) : bool :=
  bool_decide (dg_max a = dg_max b) && bool_decide (dg_n a = dg_n b) && same_cells (dg_tail a) (dg_tail b) && same_cells (dg_head a) (dg_head b).
Definition release (dg : digraph) : M unit :=
  let* _ := ensure (digraph_is_initialized cfg dg) in let* _ := free_digraph dg in Mret tt.

(** The fields of a digraph; [None]: a null pointer. *)
Definition shape (dg : digraph) (n mx : nat) (tail : list nat) (head : option (list nat)) : bool :=
  bool_decide (dg_n dg = n) && bool_decide (dg_max dg = mx) && same_cells (dg_tail dg) (Some (Arr 0 (Some <$> tail))) &&
  same_cells (dg_head dg) ((fun h => Arr 0 (Some <$> h)) <$> head).

(** A digraph whose arrays belong to the test. *)
Definition own_dg (n mx : nat) (head : option (list nat)) (tail : list nat) : digraph :=
  DG n mx ((fun h => Arr 0 (Some <$> h)) <$> head) (Some (Arr 0 (Some <$> tail))).

(** ** tests/test_digraph_operations.c *)

(** scc_ut_delete_loops (tests/test_digraph_operations.c 31-97). *)
Definition t_delete_loops : M unit :=
  let* dg1 := ok (digraph_from_string cfg (chars "#####/#####/#####/#####/#####/")) in
  let* dg2 := ok (digraph_from_string cfg (chars "...../...../...../...../...../")) in
  let* dg3 := ok (digraph_from_string cfg (chars ".####/#.###/##.##/###.#/####./")) in
  let* dg4 := ok (digraph_from_string cfg (chars "#..../.#.../..#../...#./....#/")) in
  let* dg5 := ok (digraph_from_string cfg (chars "#.#../#..../#.#../##.../##..#/")) in
  let* dg6 := ok (empty_digraph cfg 5 0) in
  let* dg1 := ok (delete_loops cfg dg1) in
  let* dg2 := ok (delete_loops cfg dg2) in
  let* dg3 := ok (delete_loops cfg dg3) in
  let* dg4 := ok (delete_loops cfg dg4) in
  let* dg5 := ok (delete_loops cfg dg5) in
  let* dg6 := ok (delete_loops cfg dg6) in
  let* ref1 := ok (digraph_from_string cfg (chars ".####/#.###/##.##/###.#/####./")) in
  let* ref2 := ok (digraph_from_string cfg (chars "...../...../...../...../...../")) in
  let* ref3 := ok (digraph_from_string cfg (chars ".####/#.###/##.##/###.#/####./")) in
  let* ref4 := ok (digraph_from_string cfg (chars "...../...../...../...../...../")) in
  let* ref5 := ok (digraph_from_string cfg (chars "..#../#..../#..../##.../##.../")) in
  let* _ := ensure (identical dg1 ref1) in
  let* _ := ensure (identical dg2 ref2) in
  let* _ := ensure (identical dg3 ref3) in
  let* _ := ensure (identical dg4 ref4) in
  let* _ := ensure (identical dg5 ref5) in
  let* _ := ensure (shape dg6 5 0 [0; 0; 0; 0; 0; 0] None) in
  let* _ := release dg1 in
  let* _ := release dg2 in
  let* _ := release dg3 in
  let* _ := release dg4 in
  let* _ := release dg5 in
  let* _ := release dg6 in
  let* _ := release ref1 in
  let* _ := release ref2 in
  let* _ := release ref3 in
  let* _ := release ref4 in
  let* _ := release ref5 in
  Mret tt.
Definition run_t_delete_loops : unit := ltac:(holds (passes t_delete_loops)).

(** scc_ut_digraph_union_and_delete (tests/test_digraph_operations.c 100-248). *)
Definition t_digraph_union_and_delete : M unit :=
  let* ut_dg1 := ok (digraph_from_string cfg (chars "#..#/.#.#/..##/...#/")) in
  let* ut_dg2 := ok (digraph_from_string cfg (chars "...#/..#./.#../#.../")) in
  let* ut_dg3 := ok (digraph_from_string cfg (chars "#.../#.../#.../#.../")) in
  let* ut_make12_a := ok (digraph_union_and_delete cfg [ut_dg1; ut_dg2] None false) in
  let* ut_make12_a_ttk := ok (digraph_union_and_delete cfg [ut_dg1; ut_dg2] (Some [0; 1]) false) in
  let* _ := valid ut_make12_a 4 in
  let* _ := valid ut_make12_a_ttk 4 in
  let* ut_control12 := ok (digraph_from_string cfg (chars "...#/..##/.#.#/#.../")) in
  let* ut_control12_ttk := ok (digraph_from_string cfg (chars "...#/..##/..../..../")) in
  let* _ := equal ut_make12_a ut_control12 in
  let* _ := equal ut_make12_a_ttk ut_control12_ttk in
  let* ut_control13 := ok (digraph_from_string cfg (chars "...#/#..#/#..#/#.../")) in
  let* ut_make13_a := ok (digraph_union_and_delete cfg [ut_dg1; ut_dg3] None false) in
  let* ut_make13_a_ttk := ok (digraph_union_and_delete cfg [ut_dg1; ut_dg3] (Some [0; 2]) false) in
  let* _ := valid ut_make13_a 4 in
  let* _ := valid ut_make13_a_ttk 4 in
  let* ut_control13_ttk := ok (digraph_from_string cfg (chars "...#/..../#..#/..../")) in
  let* _ := equal ut_make13_a ut_control13 in
  let* _ := equal ut_make13_a_ttk ut_control13_ttk in
  let* ut_make31_a := ok (digraph_union_and_delete cfg [ut_dg3; ut_dg1] None false) in
  let* ut_make31_a_ttk := ok (digraph_union_and_delete cfg [ut_dg3; ut_dg1] (Some [2; 3]) false) in
  let* _ := valid ut_make31_a 4 in
  let* _ := valid ut_make31_a_ttk 4 in
  let* ut_control31_ttk := ok (digraph_from_string cfg (chars "..../..../#..#/#.../")) in
  let* _ := equal ut_make31_a ut_control13 in
  let* _ := equal ut_make31_a_ttk ut_control31_ttk in
  let* ut_control123 := ok (digraph_from_string cfg (chars "...#/#.##/##.#/#.../")) in
  let* ut_make123 := ok (digraph_union_and_delete cfg [ut_dg1; ut_dg2; ut_dg3] None false) in
  let* ut_make123_ttk := ok (digraph_union_and_delete cfg [ut_dg1; ut_dg2; ut_dg3] (Some [0; 1]) false) in
  let* _ := valid ut_make123 4 in
  let* _ := valid ut_make123_ttk 4 in
  let* ut_control123_ttk := ok (digraph_from_string cfg (chars "...#/#.##/..../..../")) in
  let* _ := equal ut_make123 ut_control123 in
  let* _ := equal ut_make123_ttk ut_control123_ttk in
  let* ut_make132 := ok (digraph_union_and_delete cfg [ut_dg1; ut_dg3; ut_dg2] None false) in
  let* ut_make132_ttk := ok (digraph_union_and_delete cfg [ut_dg1; ut_dg3; ut_dg2] (Some [0; 2]) false) in
  let* _ := valid ut_make132 4 in
  let* _ := valid ut_make132_ttk 4 in
  let* ut_control132_ttk := ok (digraph_from_string cfg (chars "...#/..../##.#/..../")) in
  let* _ := equal ut_make132 ut_control123 in
  let* _ := equal ut_make132_ttk ut_control132_ttk in
  let* ut_make213 := ok (digraph_union_and_delete cfg [ut_dg2; ut_dg1; ut_dg3] None false) in
  let* ut_make213_ttk := ok (digraph_union_and_delete cfg [ut_dg2; ut_dg1; ut_dg3] (Some [2; 3]) false) in
  let* _ := valid ut_make213 4 in
  let* _ := valid ut_make213_ttk 4 in
  let* ut_control213_ttk := ok (digraph_from_string cfg (chars "..../..../##.#/#.../")) in
  let* _ := equal ut_make213 ut_control123 in
  let* _ := equal ut_make213_ttk ut_control213_ttk in
  let* ut_make321 := ok (digraph_union_and_delete cfg [ut_dg3; ut_dg2; ut_dg1] None false) in
  let* ut_make321_ttk := ok (digraph_union_and_delete cfg [ut_dg3; ut_dg2; ut_dg1] (Some [0; 1]) false) in
  let* _ := valid ut_make321 4 in
  let* _ := valid ut_make321_ttk 4 in
  let* ut_control321_ttk := ok (digraph_from_string cfg (chars "...#/#.##/..../..../")) in
  let* _ := equal ut_make321 ut_control123 in
  let* _ := equal ut_make321_ttk ut_control321_ttk in
  let* _ := release ut_dg1 in
  let* _ := release ut_dg2 in
  let* _ := release ut_dg3 in
  let* _ := release ut_make12_a in
  let* _ := release ut_make12_a_ttk in
  let* _ := release ut_make13_a in
  let* _ := release ut_make13_a_ttk in
  let* _ := release ut_make31_a in
  let* _ := release ut_make31_a_ttk in
  let* _ := release ut_make123 in
  let* _ := release ut_make123_ttk in
  let* _ := release ut_make132 in
  let* _ := release ut_make132_ttk in
  let* _ := release ut_make213 in
  let* _ := release ut_make213_ttk in
  let* _ := release ut_make321 in
  let* _ := release ut_make321_ttk in
  let* _ := release ut_control12 in
  let* _ := release ut_control12_ttk in
  let* _ := release ut_control13 in
  let* _ := release ut_control13_ttk in
  let* _ := release ut_control31_ttk in
  let* _ := release ut_control123 in
  let* _ := release ut_control123_ttk in
  let* _ := release ut_control132_ttk in
  let* _ := release ut_control213_ttk in
  let* _ := release ut_control321_ttk in
  Mret tt.
Definition run_t_digraph_union_and_delete : unit := ltac:(holds (passes t_digraph_union_and_delete)).

(** scc_ut_digraph_union_and_delete_empty (tests/test_digraph_operations.c 251-426). *)
Definition t_digraph_union_and_delete_empty : M unit :=
  let* ut_dg4 := ok (digraph_from_string cfg (chars "#..#/.#.#/..##/...#/")) in
  let* ut_dg5 := ok (digraph_from_string cfg (chars "..../..../..../..../")) in
  let* ut_dg6 := ok (empty_digraph cfg 4 0) in
  let* ut_make45 := ok (digraph_union_and_delete cfg [ut_dg4; ut_dg5] None false) in
  let* ut_make45_ttk := ok (digraph_union_and_delete cfg [ut_dg4; ut_dg5] (Some [0; 1]) false) in
  let* _ := valid ut_make45 4 in
  let* _ := valid ut_make45_ttk 4 in
  let* ut_control45 := ok (digraph_from_string cfg (chars "...#/...#/...#/..../")) in
  let* ut_control45_ttk := ok (digraph_from_string cfg (chars "...#/...#/..../..../")) in
  let* _ := equal ut_make45 ut_control45 in
  let* _ := equal ut_make45_ttk ut_control45_ttk in
  let* ut_make46 := ok (digraph_union_and_delete cfg [ut_dg4; ut_dg6] None false) in
  let* ut_make46_ttk := ok (digraph_union_and_delete cfg [ut_dg4; ut_dg6] (Some [0; 1]) false) in
  let* _ := valid ut_make46 4 in
  let* _ := valid ut_make46_ttk 4 in
  let* ut_control46 := ok (digraph_from_string cfg (chars "...#/...#/...#/..../")) in
  let* ut_control46_ttk := ok (digraph_from_string cfg (chars "...#/...#/..../..../")) in
  let* _ := equal ut_make46 ut_control46 in
  let* _ := equal ut_make46_ttk ut_control46_ttk in
  let* ut_make54 := ok (digraph_union_and_delete cfg [ut_dg5; ut_dg4] None false) in
  let* ut_make54_ttk := ok (digraph_union_and_delete cfg [ut_dg5; ut_dg4] (Some [0; 1]) false) in
  let* _ := valid ut_make54 4 in
  let* _ := valid ut_make54_ttk 4 in
  let* ut_control54 := ok (digraph_from_string cfg (chars "...#/...#/...#/..../")) in
  let* ut_control54_ttk := ok (digraph_from_string cfg (chars "...#/...#/..../..../")) in
  let* _ := equal ut_make54 ut_control54 in
  let* _ := equal ut_make54_ttk ut_control54_ttk in
  let* ut_make64 := ok (digraph_union_and_delete cfg [ut_dg6; ut_dg4] None false) in
  let* ut_make64_ttk := ok (digraph_union_and_delete cfg [ut_dg6; ut_dg4] (Some [0; 1]) false) in
  let* _ := valid ut_make64 4 in
  let* _ := valid ut_make64_ttk 4 in
  let* ut_control64 := ok (digraph_from_string cfg (chars "...#/...#/...#/..../")) in
  let* ut_control64_ttk := ok (digraph_from_string cfg (chars "...#/...#/..../..../")) in
  let* _ := equal ut_make64 ut_control64 in
  let* _ := equal ut_make64_ttk ut_control64_ttk in
  let* ut_make56 := ok (digraph_union_and_delete cfg [ut_dg5; ut_dg6] None false) in
  let* ut_make56_ttk := ok (digraph_union_and_delete cfg [ut_dg5; ut_dg6] (Some [0; 1]) false) in
  let* _ := valid ut_make56 4 in
  let* _ := valid ut_make56_ttk 4 in
  let* ut_control56 := ok (digraph_from_string cfg (chars "..../..../..../..../")) in
  let* ut_control56_ttk := ok (digraph_from_string cfg (chars "..../..../..../..../")) in
  let* _ := equal ut_make56 ut_control56 in
  let* _ := equal ut_make56_ttk ut_control56_ttk in
  let* ut_make65 := ok (digraph_union_and_delete cfg [ut_dg6; ut_dg5] None false) in
  let* ut_make65_ttk := ok (digraph_union_and_delete cfg [ut_dg6; ut_dg5] (Some [0; 1]) false) in
  let* _ := valid ut_make65 4 in
  let* _ := valid ut_make65_ttk 4 in
  let* ut_control65 := ok (digraph_from_string cfg (chars "..../..../..../..../")) in
  let* ut_control65_ttk := ok (digraph_from_string cfg (chars "..../..../..../..../")) in
  let* _ := equal ut_make65 ut_control65 in
  let* _ := equal ut_make65_ttk ut_control65_ttk in
  let* ut_make55 := ok (digraph_union_and_delete cfg [ut_dg5; ut_dg5] None false) in
  let* ut_make55_ttk := ok (digraph_union_and_delete cfg [ut_dg5; ut_dg5] (Some [0; 1]) false) in
  let* _ := valid ut_make55 4 in
  let* _ := valid ut_make55_ttk 4 in
  let* ut_control55 := ok (digraph_from_string cfg (chars "..../..../..../..../")) in
  let* ut_control55_ttk := ok (digraph_from_string cfg (chars "..../..../..../..../")) in
  let* _ := equal ut_make55 ut_control55 in
  let* _ := equal ut_make55_ttk ut_control55_ttk in
  let* ut_make66 := ok (digraph_union_and_delete cfg [ut_dg6; ut_dg6] None false) in
  let* ut_make66_ttk := ok (digraph_union_and_delete cfg [ut_dg6; ut_dg6] (Some [0; 1]) false) in
  let* _ := valid ut_make66 4 in
  let* _ := valid ut_make66_ttk 4 in
  let* ut_control66 := ok (digraph_from_string cfg (chars "..../..../..../..../")) in
  let* ut_control66_ttk := ok (digraph_from_string cfg (chars "..../..../..../..../")) in
  let* _ := equal ut_make66 ut_control66 in
  let* _ := equal ut_make66_ttk ut_control66_ttk in
  let* _ := release ut_dg4 in
  let* _ := release ut_dg5 in
  let* _ := release ut_dg6 in
  let* _ := release ut_make45 in
  let* _ := release ut_make45_ttk in
  let* _ := release ut_make46 in
  let* _ := release ut_make46_ttk in
  let* _ := release ut_make54 in
  let* _ := release ut_make54_ttk in
  let* _ := release ut_make64 in
  let* _ := release ut_make64_ttk in
  let* _ := release ut_make56 in
  let* _ := release ut_make56_ttk in
  let* _ := release ut_make65 in
  let* _ := release ut_make65_ttk in
  let* _ := release ut_make55 in
  let* _ := release ut_make55_ttk in
  let* _ := release ut_make66 in
  let* _ := release ut_make66_ttk in
  let* _ := release ut_control45 in
  let* _ := release ut_control45_ttk in
  let* _ := release ut_control46 in
  let* _ := release ut_control46_ttk in
  let* _ := release ut_control54 in
  let* _ := release ut_control54_ttk in
  let* _ := release ut_control64 in
  let* _ := release ut_control64_ttk in
  let* _ := release ut_control56 in
  let* _ := release ut_control56_ttk in
  let* _ := release ut_control65 in
  let* _ := release ut_control65_ttk in
  let* _ := release ut_control55 in
  let* _ := release ut_control55_ttk in
  let* _ := release ut_control66 in
  let* _ := release ut_control66_ttk in
  Mret tt.
Definition run_t_digraph_union_and_delete_empty : unit := ltac:(holds (passes t_digraph_union_and_delete_empty)).

(** scc_ut_digraph_union_and_delete_single (tests/test_digraph_operations.c 429-458). *)
Definition t_digraph_union_and_delete_single : M unit :=
  let* ut_dg7 := ok (digraph_from_string cfg (chars "#..#/.#.#/..##/...#/")) in
  let* ut_make7 := ok (digraph_union_and_delete cfg [ut_dg7] None false) in
  let* ut_make7_ttk := ok (digraph_union_and_delete cfg [ut_dg7] (Some [0; 1]) false) in
  let* _ := valid ut_make7 4 in
  let* _ := valid ut_make7_ttk 4 in
  let* ut_control7 := ok (digraph_from_string cfg (chars "...#/...#/...#/..../")) in
  let* ut_control7_ttk := ok (digraph_from_string cfg (chars "...#/...#/..../..../")) in
  let* _ := equal ut_make7 ut_control7 in
  let* _ := equal ut_make7_ttk ut_control7_ttk in
  let* _ := release ut_dg7 in
  let* _ := release ut_make7 in
  let* _ := release ut_make7_ttk in
  let* _ := release ut_control7 in
  let* _ := release ut_control7_ttk in
  Mret tt.
Definition run_t_digraph_union_and_delete_single : unit := ltac:(holds (passes t_digraph_union_and_delete_single)).

(** scc_ut_digraph_union_and_delete_keep_loops (tests/test_digraph_operations.c 461-609). *)
Definition t_digraph_union_and_delete_keep_loops : M unit :=
  let* ut_dg1 := ok (digraph_from_string cfg (chars "#..#/.#.#/..##/...#/")) in
  let* ut_dg2 := ok (digraph_from_string cfg (chars "...#/..#./.#../#.../")) in
  let* ut_dg3 := ok (digraph_from_string cfg (chars "#.../#.../#.../#.../")) in
  let* ut_make12_a := ok (digraph_union_and_delete cfg [ut_dg1; ut_dg2] None true) in
  let* ut_make12_a_ttk := ok (digraph_union_and_delete cfg [ut_dg1; ut_dg2] (Some [0; 1]) true) in
  let* _ := valid ut_make12_a 4 in
  let* _ := valid ut_make12_a_ttk 4 in
  let* ut_control12 := ok (digraph_from_string cfg (chars "#..#/.###/.###/#..#/")) in
  let* ut_control12_ttk := ok (digraph_from_string cfg (chars "#..#/.###/..../..../")) in
  let* _ := equal ut_make12_a ut_control12 in
  let* _ := equal ut_make12_a_ttk ut_control12_ttk in
  let* ut_control13 := ok (digraph_from_string cfg (chars "#..#/##.#/#.##/#..#/")) in
  let* ut_make13_a := ok (digraph_union_and_delete cfg [ut_dg1; ut_dg3] None true) in
  let* ut_make13_a_ttk := ok (digraph_union_and_delete cfg [ut_dg1; ut_dg3] (Some [0; 2]) true) in
  let* _ := valid ut_make13_a 4 in
  let* _ := valid ut_make13_a_ttk 4 in
  let* ut_control13_ttk := ok (digraph_from_string cfg (chars "#..#/..../#.##/..../")) in
  let* _ := equal ut_make13_a ut_control13 in
  let* _ := equal ut_make13_a_ttk ut_control13_ttk in
  let* ut_make31_a := ok (digraph_union_and_delete cfg [ut_dg3; ut_dg1] None true) in
  let* ut_make31_a_ttk := ok (digraph_union_and_delete cfg [ut_dg3; ut_dg1] (Some [2; 3]) true) in
  let* _ := valid ut_make31_a 4 in
  let* _ := valid ut_make31_a_ttk 4 in
  let* ut_control31_ttk := ok (digraph_from_string cfg (chars "..../..../#.##/#..#/")) in
  let* _ := equal ut_make31_a ut_control13 in
  let* _ := equal ut_make31_a_ttk ut_control31_ttk in
  let* ut_control123 := ok (digraph_from_string cfg (chars "#..#/####/####/#..#/")) in
  let* ut_make123 := ok (digraph_union_and_delete cfg [ut_dg1; ut_dg2; ut_dg3] None true) in
  let* ut_make123_ttk := ok (digraph_union_and_delete cfg [ut_dg1; ut_dg2; ut_dg3] (Some [0; 1]) true) in
  let* _ := valid ut_make123 4 in
  let* _ := valid ut_make123_ttk 4 in
  let* ut_control123_ttk := ok (digraph_from_string cfg (chars "#..#/####/..../..../")) in
  let* _ := equal ut_make123 ut_control123 in
  let* _ := equal ut_make123_ttk ut_control123_ttk in
  let* ut_make132 := ok (digraph_union_and_delete cfg [ut_dg1; ut_dg3; ut_dg2] None true) in
  let* ut_make132_ttk := ok (digraph_union_and_delete cfg [ut_dg1; ut_dg3; ut_dg2] (Some [0; 2]) true) in
  let* _ := valid ut_make132 4 in
  let* _ := valid ut_make132_ttk 4 in
  let* ut_control132_ttk := ok (digraph_from_string cfg (chars "#..#/..../####/..../")) in
  let* _ := equal ut_make132 ut_control123 in
  let* _ := equal ut_make132_ttk ut_control132_ttk in
  let* ut_make213 := ok (digraph_union_and_delete cfg [ut_dg2; ut_dg1; ut_dg3] None true) in
  let* ut_make213_ttk := ok (digraph_union_and_delete cfg [ut_dg2; ut_dg1; ut_dg3] (Some [2; 3]) true) in
  let* _ := valid ut_make213 4 in
  let* _ := valid ut_make213_ttk 4 in
  let* ut_control213_ttk := ok (digraph_from_string cfg (chars "..../..../####/#..#/")) in
  let* _ := equal ut_make213 ut_control123 in
  let* _ := equal ut_make213_ttk ut_control213_ttk in
  let* ut_make321 := ok (digraph_union_and_delete cfg [ut_dg3; ut_dg2; ut_dg1] None true) in
  let* ut_make321_ttk := ok (digraph_union_and_delete cfg [ut_dg3; ut_dg2; ut_dg1] (Some [0; 1]) true) in
  let* _ := valid ut_make321 4 in
  let* _ := valid ut_make321_ttk 4 in
  let* ut_control321_ttk := ok (digraph_from_string cfg (chars "#..#/####/..../..../")) in
  let* _ := equal ut_make321 ut_control123 in
  let* _ := equal ut_make321_ttk ut_control321_ttk in
  let* _ := release ut_dg1 in
  let* _ := release ut_dg2 in
  let* _ := release ut_dg3 in
  let* _ := release ut_make12_a in
  let* _ := release ut_make12_a_ttk in
  let* _ := release ut_make13_a in
  let* _ := release ut_make13_a_ttk in
  let* _ := release ut_make31_a in
  let* _ := release ut_make31_a_ttk in
  let* _ := release ut_make123 in
  let* _ := release ut_make123_ttk in
  let* _ := release ut_make132 in
  let* _ := release ut_make132_ttk in
  let* _ := release ut_make213 in
  let* _ := release ut_make213_ttk in
  let* _ := release ut_make321 in
  let* _ := release ut_make321_ttk in
  let* _ := release ut_control12 in
  let* _ := release ut_control12_ttk in
  let* _ := release ut_control13 in
  let* _ := release ut_control13_ttk in
  let* _ := release ut_control31_ttk in
  let* _ := release ut_control123 in
  let* _ := release ut_control123_ttk in
  let* _ := release ut_control132_ttk in
  let* _ := release ut_control213_ttk in
  let* _ := release ut_control321_ttk in
  Mret tt.
Definition run_t_digraph_union_and_delete_keep_loops : unit := ltac:(holds (passes t_digraph_union_and_delete_keep_loops)).

(** scc_ut_digraph_union_and_delete_keep_loops_empty (tests/test_digraph_operations.c 612-787). *)
Definition t_digraph_union_and_delete_keep_loops_empty : M unit :=
  let* ut_dg4 := ok (digraph_from_string cfg (chars "#..#/.#.#/..##/...#/")) in
  let* ut_dg5 := ok (digraph_from_string cfg (chars "..../..../..../..../")) in
  let* ut_dg6 := ok (empty_digraph cfg 4 0) in
  let* ut_make45 := ok (digraph_union_and_delete cfg [ut_dg4; ut_dg5] None true) in
  let* ut_make45_ttk := ok (digraph_union_and_delete cfg [ut_dg4; ut_dg5] (Some [0; 1]) true) in
  let* _ := valid ut_make45 4 in
  let* _ := valid ut_make45_ttk 4 in
  let* ut_control45 := ok (digraph_from_string cfg (chars "#..#/.#.#/..##/...#/")) in
  let* ut_control45_ttk := ok (digraph_from_string cfg (chars "#..#/.#.#/..../..../")) in
  let* _ := equal ut_make45 ut_control45 in
  let* _ := equal ut_make45_ttk ut_control45_ttk in
  let* ut_make46 := ok (digraph_union_and_delete cfg [ut_dg4; ut_dg6] None true) in
  let* ut_make46_ttk := ok (digraph_union_and_delete cfg [ut_dg4; ut_dg6] (Some [0; 1]) true) in
  let* _ := valid ut_make46 4 in
  let* _ := valid ut_make46_ttk 4 in
  let* ut_control46 := ok (digraph_from_string cfg (chars "#..#/.#.#/..##/...#/")) in
  let* ut_control46_ttk := ok (digraph_from_string cfg (chars "#..#/.#.#/..../..../")) in
  let* _ := equal ut_make46 ut_control46 in
  let* _ := equal ut_make46_ttk ut_control46_ttk in
  let* ut_make54 := ok (digraph_union_and_delete cfg [ut_dg5; ut_dg4] None true) in
  let* ut_make54_ttk := ok (digraph_union_and_delete cfg [ut_dg5; ut_dg4] (Some [0; 1]) true) in
  let* _ := valid ut_make54 4 in
  let* _ := valid ut_make54_ttk 4 in
  let* ut_control54 := ok (digraph_from_string cfg (chars "#..#/.#.#/..##/...#/")) in
  let* ut_control54_ttk := ok (digraph_from_string cfg (chars "#..#/.#.#/..../..../")) in
  let* _ := equal ut_make54 ut_control54 in
  let* _ := equal ut_make54_ttk ut_control54_ttk in
  let* ut_make64 := ok (digraph_union_and_delete cfg [ut_dg6; ut_dg4] None true) in
  let* ut_make64_ttk := ok (digraph_union_and_delete cfg [ut_dg6; ut_dg4] (Some [0; 1]) true) in
  let* _ := valid ut_make64 4 in
  let* _ := valid ut_make64_ttk 4 in
  let* ut_control64 := ok (digraph_from_string cfg (chars "#..#/.#.#/..##/...#/")) in
  let* ut_control64_ttk := ok (digraph_from_string cfg (chars "#..#/.#.#/..../..../")) in
  let* _ := equal ut_make64 ut_control64 in
  let* _ := equal ut_make64_ttk ut_control64_ttk in
  let* ut_make56 := ok (digraph_union_and_delete cfg [ut_dg5; ut_dg6] None true) in
  let* ut_make56_ttk := ok (digraph_union_and_delete cfg [ut_dg5; ut_dg6] (Some [0; 1]) true) in
  let* _ := valid ut_make56 4 in
  let* _ := valid ut_make56_ttk 4 in
  let* ut_control56 := ok (digraph_from_string cfg (chars "..../..../..../..../")) in
  let* ut_control56_ttk := ok (digraph_from_string cfg (chars "..../..../..../..../")) in
  let* _ := equal ut_make56 ut_control56 in
  let* _ := equal ut_make56_ttk ut_control56_ttk in
  let* ut_make65 := ok (digraph_union_and_delete cfg [ut_dg6; ut_dg5] None true) in
  let* ut_make65_ttk := ok (digraph_union_and_delete cfg [ut_dg6; ut_dg5] (Some [0; 1]) true) in
  let* _ := valid ut_make65 4 in
  let* _ := valid ut_make65_ttk 4 in
  let* ut_control65 := ok (digraph_from_string cfg (chars "..../..../..../..../")) in
  let* ut_control65_ttk := ok (digraph_from_string cfg (chars "..../..../..../..../")) in
  let* _ := equal ut_make65 ut_control65 in
  let* _ := equal ut_make65_ttk ut_control65_ttk in
  let* ut_make55 := ok (digraph_union_and_delete cfg [ut_dg5; ut_dg5] None true) in
  let* ut_make55_ttk := ok (digraph_union_and_delete cfg [ut_dg5; ut_dg5] (Some [0; 1]) true) in
  let* _ := valid ut_make55 4 in
  let* _ := valid ut_make55_ttk 4 in
  let* ut_control55 := ok (digraph_from_string cfg (chars "..../..../..../..../")) in
  let* ut_control55_ttk := ok (digraph_from_string cfg (chars "..../..../..../..../")) in
  let* _ := equal ut_make55 ut_control55 in
  let* _ := equal ut_make55_ttk ut_control55_ttk in
  let* ut_make66 := ok (digraph_union_and_delete cfg [ut_dg6; ut_dg6] None true) in
  let* ut_make66_ttk := ok (digraph_union_and_delete cfg [ut_dg6; ut_dg6] (Some [0; 1]) true) in
  let* _ := valid ut_make66 4 in
  let* _ := valid ut_make66_ttk 4 in
  let* ut_control66 := ok (digraph_from_string cfg (chars "..../..../..../..../")) in
  let* ut_control66_ttk := ok (digraph_from_string cfg (chars "..../..../..../..../")) in
  let* _ := equal ut_make66 ut_control66 in
  let* _ := equal ut_make66_ttk ut_control66_ttk in
  let* _ := release ut_dg4 in
  let* _ := release ut_dg5 in
  let* _ := release ut_dg6 in
  let* _ := release ut_make45 in
  let* _ := release ut_make45_ttk in
  let* _ := release ut_make46 in
  let* _ := release ut_make46_ttk in
  let* _ := release ut_make54 in
  let* _ := release ut_make54_ttk in
  let* _ := release ut_make64 in
  let* _ := release ut_make64_ttk in
  let* _ := release ut_make56 in
  let* _ := release ut_make56_ttk in
  let* _ := release ut_make65 in
  let* _ := release ut_make65_ttk in
  let* _ := release ut_make55 in
  let* _ := release ut_make55_ttk in
  let* _ := release ut_make66 in
  let* _ := release ut_make66_ttk in
  let* _ := release ut_control45 in
  let* _ := release ut_control45_ttk in
  let* _ := release ut_control46 in
  let* _ := release ut_control46_ttk in
  let* _ := release ut_control54 in
  let* _ := release ut_control54_ttk in
  let* _ := release ut_control64 in
  let* _ := release ut_control64_ttk in
  let* _ := release ut_control56 in
  let* _ := release ut_control56_ttk in
  let* _ := release ut_control65 in
  let* _ := release ut_control65_ttk in
  let* _ := release ut_control55 in
  let* _ := release ut_control55_ttk in
  let* _ := release ut_control66 in
  let* _ := release ut_control66_ttk in
  Mret tt.
Definition run_t_digraph_union_and_delete_keep_loops_empty : unit := ltac:(holds (passes t_digraph_union_and_delete_keep_loops_empty)).

(** scc_ut_digraph_union_and_delete_keep_loops_single (tests/test_digraph_operations.c 790-819). *)
Definition t_digraph_union_and_delete_keep_loops_single : M unit :=
  let* ut_dg7 := ok (digraph_from_string cfg (chars "#..#/.#.#/..##/...#/")) in
  let* ut_make7 := ok (digraph_union_and_delete cfg [ut_dg7] None true) in
  let* ut_make7_ttk := ok (digraph_union_and_delete cfg [ut_dg7] (Some [0; 1]) true) in
  let* _ := valid ut_make7 4 in
  let* _ := valid ut_make7_ttk 4 in
  let* ut_control7 := ok (digraph_from_string cfg (chars "#..#/.#.#/..##/...#/")) in
  let* ut_control7_ttk := ok (digraph_from_string cfg (chars "#..#/.#.#/..../..../")) in
  let* _ := equal ut_make7 ut_control7 in
  let* _ := equal ut_make7_ttk ut_control7_ttk in
  let* _ := release ut_dg7 in
  let* _ := release ut_make7 in
  let* _ := release ut_make7_ttk in
  let* _ := release ut_control7 in
  let* _ := release ut_control7_ttk in
  Mret tt.
Definition run_t_digraph_union_and_delete_keep_loops_single : unit := ltac:(holds (passes t_digraph_union_and_delete_keep_loops_single)).

(** scc_ut_digraph_difference (tests/test_digraph_operations.c 822-1053). *)
Definition t_digraph_difference : M unit :=
  let* minuend_dg1 := ok (digraph_from_string cfg (chars "#####/#####/#####/#####/#####/")) in
  let* subtrahend_dg1 := ok (digraph_from_string cfg (chars "#####/#####/#####/#####/#####/")) in
  let* ref_dg1 := ok (digraph_from_string cfg (chars "...../...../...../...../...../")) in
  let* minuend_dg1 := ok (digraph_difference cfg minuend_dg1 subtrahend_dg1 5) in
  let* _ := equal minuend_dg1 ref_dg1 in
  let* minuend_dg2 := ok (digraph_from_string cfg (chars "#####/#####/#####/#####/#####/")) in
  let* subtrahend_dg2 := ok (digraph_from_string cfg (chars "...##/##..#/.#.#./#.#.#/..#../")) in
  let* ref_dg2 := ok (digraph_from_string cfg (chars "###../..##./#.#.#/.#.#./##.##/")) in
  let* minuend_dg2 := ok (digraph_difference cfg minuend_dg2 subtrahend_dg2 5) in
  let* _ := equal minuend_dg2 ref_dg2 in
  let* minuend_dg2b := ok (digraph_from_string cfg (chars "#####/#####/#####/#####/#####/")) in
  let* subtrahend_dg2b := ok (digraph_from_string cfg (chars "...##/##..#/.#.#./#.#.#/..#../")) in
  let* ref_dg2b := ok (digraph_from_string cfg (chars "##.../..##./#.#../.#.#./##.../")) in
  let* minuend_dg2b := ok (digraph_difference cfg minuend_dg2b subtrahend_dg2b 2) in
  let* _ := equal minuend_dg2b ref_dg2b in
  let* minuend_dg3 := ok (digraph_from_string cfg (chars "#.#../#.##./#.#../##.../##..#/")) in
  let* subtrahend_dg3 := ok (digraph_from_string cfg (chars "#####/#####/#####/#####/#####/")) in
  let* ref_dg3 := ok (digraph_from_string cfg (chars "...../...../...../...../...../")) in
  let* minuend_dg3 := ok (digraph_difference cfg minuend_dg3 subtrahend_dg3 5) in
  let* _ := equal minuend_dg3 ref_dg3 in
  let* minuend_dg4 := ok (digraph_from_string cfg (chars "#.#../#.##./#.#../##.../##..#/")) in
  let* subtrahend_dg4 := ok (digraph_from_string cfg (chars "...../...../...../...../...../")) in
  let* ref_dg4 := ok (digraph_from_string cfg (chars "#.#../#.##./#.#../##.../##..#/")) in
  let* minuend_dg4 := ok (digraph_difference cfg minuend_dg4 subtrahend_dg4 5) in
  let* _ := equal minuend_dg4 ref_dg4 in
  let* minuend_dg5 := ok (digraph_from_string cfg (chars "#.#../#.##./#.#../##.../##..#/")) in
  let* subtrahend_dg5 := ok (digraph_from_string cfg (chars "...##/##..#/.#.#./#.#.#/..#../")) in
  let* ref_dg5 := ok (digraph_from_string cfg (chars "#.#../..##./#.#../.#.../##..#/")) in
  let* minuend_dg5 := ok (digraph_difference cfg minuend_dg5 subtrahend_dg5 5) in
  let* _ := equal minuend_dg5 ref_dg5 in
  let* minuend_dg5b := ok (digraph_from_string cfg (chars "#.#../#.##./#.#../##.../##..#/")) in
  let* subtrahend_dg5b := ok (digraph_from_string cfg (chars "...##/##..#/.#.#./#.#.#/..#../")) in
  let* ref_dg5b := ok (digraph_from_string cfg (chars "#..../..#../#..../.#.../#..../")) in
  let* minuend_dg5b := ok (digraph_difference cfg minuend_dg5b subtrahend_dg5b 1) in
  let* _ := equal minuend_dg5b ref_dg5b in
  let* _ := release minuend_dg1 in
  let* _ := release subtrahend_dg1 in
  let* _ := release ref_dg1 in
  let* _ := release minuend_dg2 in
  let* _ := release subtrahend_dg2 in
  let* _ := release ref_dg2 in
  let* _ := release minuend_dg2b in
  let* _ := release subtrahend_dg2b in
  let* _ := release ref_dg2b in
  let* _ := release minuend_dg3 in
  let* _ := release subtrahend_dg3 in
  let* _ := release ref_dg3 in
  let* _ := release minuend_dg4 in
  let* _ := release subtrahend_dg4 in
  let* _ := release ref_dg4 in
  let* _ := release minuend_dg5 in
  let* _ := release subtrahend_dg5 in
  let* _ := release ref_dg5 in
  let* _ := release minuend_dg5b in
  let* _ := release subtrahend_dg5b in
  let* _ := release ref_dg5b in
  let* minuend_dg6 := ok (digraph_from_string cfg (chars "...../...../...../...../...../")) in
  let* subtrahend_dg6 := ok (digraph_from_string cfg (chars "...##/##..#/.#.#./#.#.#/..#../")) in
  let* ref_dg6 := ok (digraph_from_string cfg (chars "...../...../...../...../...../")) in
  let* minuend_dg6 := ok (digraph_difference cfg minuend_dg6 subtrahend_dg6 5) in
  let* _ := equal minuend_dg6 ref_dg6 in
  let* _ := release minuend_dg6 in
  let* _ := release subtrahend_dg6 in
  let* _ := release ref_dg6 in
  let* minuend_dg7 := ok (digraph_from_string cfg (chars "...##/##..#/.#.#./#.#.#/..#../")) in
  let* subtrahend_dg7 := ok (digraph_from_string cfg (chars "...../...../...../...../...../")) in
  let* ref_dg7 := ok (digraph_from_string cfg (chars "...##/##..#/.#.#./#.#.#/..#../")) in
  let* minuend_dg7 := ok (digraph_difference cfg minuend_dg7 subtrahend_dg7 5) in
  let* _ := equal minuend_dg7 ref_dg7 in
  let* _ := release minuend_dg7 in
  let* _ := release subtrahend_dg7 in
  let* _ := release ref_dg7 in
  let* minuend_dg8 := ok (empty_digraph cfg 5 0) in
  let* subtrahend_dg8 := ok (digraph_from_string cfg (chars "...##/##..#/.#.#./#.#.#/..#../")) in
  let* minuend_dg8 := ok (digraph_difference cfg minuend_dg8 subtrahend_dg8 5) in
  let* _ := ensure (shape minuend_dg8 5 0 [0; 0; 0; 0; 0; 0] None) in
  let* _ := release minuend_dg8 in
  let* _ := release subtrahend_dg8 in
  let* minuend_dg9 := ok (digraph_from_string cfg (chars "...##/##..#/.#.#./#.#.#/..#../")) in
  let* subtrahend_dg9 := ok (empty_digraph cfg 5 0) in
  let* ref_dg9 := ok (digraph_from_string cfg (chars "...##/##..#/.#.#./#.#.#/..#../")) in
  let* minuend_dg9 := ok (digraph_difference cfg minuend_dg9 subtrahend_dg9 5) in
  let* _ := equal minuend_dg9 ref_dg9 in
  let* _ := release minuend_dg9 in
  let* _ := release subtrahend_dg9 in
  let* _ := release ref_dg9 in
  let* minuend_dg10 := ok (digraph_from_string cfg (chars "...##/##..#/.#.#./#.#.#/..#../")) in
  let* subtrahend_dg10 := ok (empty_digraph cfg 5 0) in
  let* ref_dg10 := ok (digraph_from_string cfg (chars "...#./#..../.#.../#..../..#../")) in
  let* minuend_dg10 := ok (digraph_difference cfg minuend_dg10 subtrahend_dg10 1) in
  let* _ := equal minuend_dg10 ref_dg10 in
  let* _ := release minuend_dg10 in
  let* _ := release subtrahend_dg10 in
  let* _ := release ref_dg10 in
  let* minuend_dg10a := ok (digraph_from_string cfg (chars "...##/##..#/.#.#./#.#.#/..#../")) in
  let* subtrahend_dg10a := ok (digraph_from_string cfg (chars "...../...../...../...../...../")) in
  let* ref_dg10a := ok (digraph_from_string cfg (chars "...#./#..../.#.../#..../..#../")) in
  let* minuend_dg10a := ok (digraph_difference cfg minuend_dg10a subtrahend_dg10a 1) in
  let* _ := equal minuend_dg10a ref_dg10a in
  let* _ := release minuend_dg10a in
  let* _ := release subtrahend_dg10a in
  let* _ := release ref_dg10a in
  let* minuend_dg11 := ok (digraph_from_string cfg (chars "...../...../...../...../...../")) in
  let* subtrahend_dg11 := ok (digraph_from_string cfg (chars "...../...../...../...../...../")) in
  let* ref_dg11 := ok (digraph_from_string cfg (chars "...../...../...../...../...../")) in
  let* minuend_dg11 := ok (digraph_difference cfg minuend_dg11 subtrahend_dg11 5) in
  let* _ := equal minuend_dg11 ref_dg11 in
  let* _ := release minuend_dg11 in
  let* _ := release subtrahend_dg11 in
  let* _ := release ref_dg11 in
  let* minuend_dg12 := ok (digraph_from_string cfg (chars "...../...../...../...../...../")) in
  let* subtrahend_dg12 := ok (empty_digraph cfg 5 0) in
  let* ref_dg12 := ok (digraph_from_string cfg (chars "...../...../...../...../...../")) in
  let* minuend_dg12 := ok (digraph_difference cfg minuend_dg12 subtrahend_dg12 5) in
  let* _ := equal minuend_dg12 ref_dg12 in
  let* _ := release minuend_dg12 in
  let* _ := release subtrahend_dg12 in
  let* _ := release ref_dg12 in
  let* minuend_dg13 := ok (empty_digraph cfg 5 0) in
  let* subtrahend_dg13 := ok (digraph_from_string cfg (chars "...../...../...../...../...../")) in
  let* minuend_dg13 := ok (digraph_difference cfg minuend_dg13 subtrahend_dg13 5) in
  let* _ := ensure (shape minuend_dg13 5 0 [0; 0; 0; 0; 0; 0] None) in
  let* _ := release minuend_dg13 in
  let* _ := release subtrahend_dg13 in
  let* minuend_dg14 := ok (empty_digraph cfg 5 0) in
  let* subtrahend_dg14 := ok (empty_digraph cfg 5 0) in
  let* minuend_dg14 := ok (digraph_difference cfg minuend_dg14 subtrahend_dg14 5) in
  let* _ := ensure (shape minuend_dg14 5 0 [0; 0; 0; 0; 0; 0] None) in
  let* _ := release minuend_dg14 in
  let* _ := release subtrahend_dg14 in
  Mret tt.
Definition run_t_digraph_difference : unit := ltac:(holds (passes t_digraph_difference)).

(** scc_ut_digraph_transpose (tests/test_digraph_operations.c 1056-1138). *)
Definition t_digraph_transpose : M unit :=
  let* ut_dg1 := ok (digraph_from_string cfg (chars "#.../.#../..#./...#/")) in
  let* ut_dg2 := ok (digraph_from_string cfg (chars "####/..#./####/#.../")) in
  let* ut_dg3 := ok (digraph_from_string cfg (chars "#.../#.../#.../#.../")) in
  let* ut_dg4 := ok (digraph_from_string cfg (chars "..../..../..../..../")) in
  let* ut_dg5 := ok (digraph_from_string cfg (chars "##.#/..#./.###/#.../")) in
  let* ut_dg6 := ok (empty_digraph cfg 4 0) in
  let* control1 := ok (digraph_from_string cfg (chars "#.../.#../..#./...#/")) in
  let* control2 := ok (digraph_from_string cfg (chars "#.##/#.#./###./#.#./")) in
  let* control3 := ok (digraph_from_string cfg (chars "####/..../..../..../")) in
  let* control4 := ok (empty_digraph cfg 4 0) in
  let* control5 := ok (digraph_from_string cfg (chars "#..#/#.#./.##./#.#./")) in
  let* control6 := ok (empty_digraph cfg 4 0) in
  let* res1 := ok (digraph_transpose cfg ut_dg1) in
  let* res2 := ok (digraph_transpose cfg ut_dg2) in
  let* res3 := ok (digraph_transpose cfg ut_dg3) in
  let* res4 := ok (digraph_transpose cfg ut_dg4) in
  let* res5 := ok (digraph_transpose cfg ut_dg5) in
  let* res6 := ok (digraph_transpose cfg ut_dg6) in
  let* _ := valid res1 4 in
  let* _ := valid res2 4 in
  let* _ := valid res3 4 in
  let* _ := valid res4 4 in
  let* _ := valid res5 4 in
  let* _ := valid res6 4 in
  let* _ := equal res1 control1 in
  let* _ := equal res2 control2 in
  let* _ := equal res3 control3 in
  let* _ := equal res4 control4 in
  let* _ := equal res5 control5 in
  let* _ := equal res6 control6 in
  let* _ := release ut_dg1 in
  let* _ := release ut_dg2 in
  let* _ := release ut_dg3 in
  let* _ := release ut_dg4 in
  let* _ := release ut_dg5 in
  let* _ := release ut_dg6 in
  let* _ := release control1 in
  let* _ := release control2 in
  let* _ := release control3 in
  let* _ := release control4 in
  let* _ := release control5 in
  let* _ := release control6 in
  let* _ := release res1 in
  let* _ := release res2 in
  let* _ := release res3 in
  let* _ := release res4 in
  let* _ := release res5 in
  let* _ := release res6 in
  Mret tt.
Definition run_t_digraph_transpose : unit := ltac:(holds (passes t_digraph_transpose)).

(** scc_ut_adjacency_product (tests/test_digraph_operations.c 1141-1262). *)
Definition t_adjacency_product : M unit :=
  let* dg1 := ok (digraph_from_string cfg (chars "##.../...#./.#.../..#../...#./")) in
  let* dg1_f := ok (digraph_from_string cfg (chars "##.../.#.#./.##../..##./...##/")) in
  let* dg2 := ok (digraph_from_string cfg (chars "..#../..##./...../..#../#.#../")) in
  let* dg2_f := ok (digraph_from_string cfg (chars "#.#../.###./..#../..##./#.#.#/")) in
  let* control1 := ok (digraph_from_string cfg (chars ".#.#./..#../...#./.#.../..#../")) in
  let* prod1 := ok (adjacency_product cfg dg1 dg1 false) in
  let* _ := valid prod1 5 in
  let* _ := equal prod1 control1 in
  let* control2 := ok (digraph_from_string cfg (chars ".#.#./..##./.#.#./.##../..##./")) in
  let* prod2 := ok (adjacency_product cfg dg1 dg1 true) in
  let* prod2alt := ok (adjacency_product cfg dg1_f dg1 false) in
  let* _ := valid prod2 5 in
  let* _ := valid prod2alt 5 in
  let* _ := equal prod2 control2 in
  let* _ := equal prod2alt control2 in
  let* control3 := ok (digraph_from_string cfg (chars ".###./..#../...#./.#.../.##../")) in
  let* prod3 := ok (adjacency_product cfg dg1 prod2 false) in
  let* _ := valid prod3 5 in
  let* _ := equal prod3 control3 in
  let* control4 := ok (digraph_from_string cfg (chars ".###./..##./.#.#./.##../.###./")) in
  let* prod4 := ok (adjacency_product cfg dg1 prod2 true) in
  let* prod4alt := ok (adjacency_product cfg dg1_f prod2 false) in
  let* _ := valid prod4 5 in
  let* _ := valid prod4alt 5 in
  let* _ := equal prod4 control4 in
  let* _ := equal prod4alt control4 in
  let* control5 := ok (digraph_from_string cfg (chars "..##./..#../...#./...../..#../")) in
  let* prod5 := ok (adjacency_product cfg dg1 dg2 false) in
  let* _ := valid prod5 5 in
  let* _ := equal prod5 control5 in
  let* control6 := ok (digraph_from_string cfg (chars "..##./..##./...#./..#../#.#../")) in
  let* prod6 := ok (adjacency_product cfg dg1 dg2 true) in
  let* prod6alt := ok (adjacency_product cfg dg1_f dg2 false) in
  let* _ := valid prod6 5 in
  let* _ := valid prod6alt 5 in
  let* _ := equal prod6 control6 in
  let* _ := equal prod6alt control6 in
  let* control7 := ok (digraph_from_string cfg (chars ".#.../..#../...../.#.../##.../")) in
  let* prod7 := ok (adjacency_product cfg dg2 dg1 false) in
  let* _ := valid prod7 5 in
  let* _ := equal prod7 control7 in
  let* control8 := ok (digraph_from_string cfg (chars ".#.../..##./.#.../.##../##.#./")) in
  let* prod8 := ok (adjacency_product cfg dg2 dg1 true) in
  let* prod8alt := ok (adjacency_product cfg dg2_f dg1 false) in
  let* _ := valid prod8 5 in
  let* _ := valid prod8alt 5 in
  let* _ := equal prod8 control8 in
  let* _ := equal prod8alt control8 in
  let* _ := release dg1 in
  let* _ := release dg1_f in
  let* _ := release dg2 in
  let* _ := release dg2_f in
  let* _ := release control1 in
  let* _ := release prod1 in
  let* _ := release control2 in
  let* _ := release prod2 in
  let* _ := release prod2alt in
  let* _ := release control3 in
  let* _ := release prod3 in
  let* _ := release control4 in
  let* _ := release prod4 in
  let* _ := release prod4alt in
  let* _ := release control5 in
  let* _ := release prod5 in
  let* _ := release control6 in
  let* _ := release prod6 in
  let* _ := release prod6alt in
  let* _ := release control7 in
  let* _ := release prod7 in
  let* _ := release control8 in
  let* _ := release prod8 in
  let* _ := release prod8alt in
  Mret tt.
Definition run_t_adjacency_product : unit := ltac:(holds (passes t_adjacency_product)).
(** ** tests/test_digraph_debug.c *)

Definition yes (r : R bool) : M unit := let* b := lift r in ensure b.
Definition no (r : R bool) : M unit := let* b := lift r in ensure (negb b).

(** scc_ut_is_balanced_digraph (29-66). *)
Definition t_balanced : M unit :=
  let dg1 := own_dg 4 4 (Some [0; 1; 2; 3]) [0; 1; 2; 3; 4] in
  let dg2 := own_dg 4 4 (Some [0; 1; 2; 3]) [0; 2; 2; 3; 4] in
  let dg3 := own_dg 4 4 (Some [123; 124; 125; 126]) [0; 0; 0; 0; 0] in
  let* _ := yes (is_balanced_digraph cfg dg1 1) in
  let* _ := no (is_balanced_digraph cfg dg1 2) in
  let* _ := no (is_balanced_digraph cfg dg2 1) in
  let* _ := no (is_balanced_digraph cfg dg2 2) in
  let* _ := yes (is_balanced_digraph cfg dg3 0) in
  no (is_balanced_digraph cfg dg3 1).
Definition run_t_balanced : unit := ltac:(holds (passes t_balanced)).

(** scc_ut_digraphs_equal (69-158). *)
Definition t_equal : M unit :=
  let dg1 := own_dg 4 4 (Some [1; 0; 2; 2]) [0; 2; 2; 4; 4] in
  let dg2 := own_dg 4 3 (Some [0; 1; 2]) [0; 2; 2; 3; 3] in
  let dg3 := own_dg 4 3 (Some [0; 3; 2]) [0; 2; 2; 3; 3] in
  let dg4 := own_dg 4 4 (Some [1; 0; 2; 3]) [0; 2; 2; 4; 4] in
  let dg5 := own_dg 3 3 (Some [0; 1; 2]) [0; 2; 2; 3] in
  let dg6 := own_dg 4 0 None [0; 0; 0; 0; 0] in
  let dg7 := own_dg 4 1 (Some [0]) [0; 0; 0; 0; 0] in
  let* _ := equal dg1 dg1 in
  let* _ := equal dg1 dg2 in
  let* _ := equal dg2 dg1 in
  let* _ := equal dg6 dg7 in
  let* _ := equal dg7 dg6 in
  let* _ := unequal dg1 dg3 in
  let* _ := unequal dg3 dg1 in
  let* _ := unequal dg1 dg4 in
  let* _ := unequal dg4 dg1 in
  let* _ := unequal dg1 dg5 in
  let* _ := unequal dg5 dg1 in
  let* _ := unequal dg1 dg6 in
  let* _ := unequal dg6 dg1 in
  let* _ := unequal dg1 dg7 in
  unequal dg7 dg1.
Definition run_t_equal : unit := ltac:(holds (passes t_equal)).

Definition nats (l : list nat) : option (arr nat) := Some (Arr 0 (Some <$> l)).

(** scc_ut_digraph_from_pieces (161-182). *)
Definition t_pieces : M unit :=
  let* dg := ok (digraph_from_pieces cfg 4 3 (nats [0; 2; 2; 3; 3]) (nats [1; 0; 2; 4; 6; 2])) in
  let* _ := ensure (shape dg 4 3 [0; 2; 2; 3; 3] (Some [1; 0; 2])) in
  let* _ := free_digraph dg in Mret tt.
Definition run_t_pieces : unit := ltac:(holds (passes t_pieces)).

(** scc_ut_digraph_from_string (185-283). *)
Definition t_string : M unit :=
  let headA := [0; 1; 1; 1; 3; 2; 3] in let tailA := [0; 2; 3; 5; 7] in
  let tailB := [0; 0; 0; 0; 0] in
  let headC := [0; 1; 2; 3] in let tailC := [0; 1; 2; 3; 4] in
  let* dg1 := ok (digraph_from_pieces cfg 4 7 (nats tailA) (nats headA)) in
  let* dg2 := ok (digraph_from_string cfg (chars "##../.#../.#.#/..##/")) in
  let* dg3 := ok (digraph_from_string cfg (chars "##../.#../.#.#/..##")) in
  let* dg4 := ok (digraph_from_pieces cfg 4 7 (nats tailB) (nats headA)) in
  let* dg5 := ok (digraph_from_string cfg (chars "..../..../..../....")) in
  let* empty := ok (empty_digraph cfg 4 0) in
  let* dg6 := ok (digraph_from_pieces cfg 4 4 (nats tailC) (nats headC)) in
  let* dg7 := ok (digraph_from_string cfg (chars "#.../.#../..#./...#")) in
  let* dg8 := ok (digraph_from_string cfg (chars "a#.../e fdgtthhh.#..t/2..#.5/7..   .#")) in
  let* _ := valid dg1 4 in let* _ := valid dg2 4 in let* _ := valid dg3 4 in let* _ := valid dg4 4 in
  let* _ := valid dg5 4 in let* _ := valid dg6 4 in let* _ := valid dg7 4 in let* _ := valid dg8 4 in
  let* _ := ensure (shape dg1 4 7 tailA (Some headA)) in
  let* _ := ensure (shape dg2 4 7 tailA (Some headA)) in
  let* _ := ensure (shape dg3 4 7 tailA (Some headA)) in
  let* _ := ensure (shape dg4 4 7 tailB (Some headA)) in
  let* _ := ensure (shape dg5 4 0 tailB None) in
  let* _ := ensure (shape dg6 4 4 tailC (Some headC)) in
  let* _ := ensure (shape dg7 4 4 tailC (Some headC)) in
  let* _ := ensure (shape dg8 4 4 tailC (Some headC)) in
  let* _ := equal dg1 dg2 in let* _ := equal dg1 dg3 in let* _ := equal dg4 dg5 in
  let* _ := equal dg4 empty in let* _ := equal dg6 dg7 in let* _ := equal dg6 dg8 in
  let* _ := unequal dg1 dg5 in
  let* _ := ensure (identical dg1 dg2 && identical dg1 dg3 && identical dg6 dg7 && identical dg6 dg8) in
  let* _ := free_digraph dg1 in let* _ := free_digraph dg2 in let* _ := free_digraph dg3 in
  let* _ := free_digraph dg4 in let* _ := free_digraph dg5 in let* _ := free_digraph dg6 in
  let* _ := free_digraph dg7 in let* _ := free_digraph dg8 in let* _ := free_digraph empty in
  Mret tt.
Definition run_t_string : unit := ltac:(holds (passes t_string)).

(** scc_ut_copy_digraph (286-312). *)
Definition t_copy : M unit :=
  let* dg1 := ok (digraph_from_string cfg (chars "####/..#./####/#.../")) in
  let* dg2 := ok (empty_digraph cfg 2 0) in
  let* res1 := ok (copy_digraph cfg dg1) in
  let* res2 := ok (copy_digraph cfg dg2) in
  let* _ := valid res1 4 in let* _ := valid res2 2 in
  let* _ := equal res1 dg1 in let* _ := equal res2 dg2 in
  let* _ := release dg1 in let* _ := release dg2 in let* _ := release res1 in release res2.
Definition run_t_copy : unit := ltac:(holds (passes t_copy)).

(** ** tests/test_digraph_core.c *)

(** scc_ut_digraph_is_initialized (82-133), without the variants that depend on
    integers wider than those of the default configuration. *)
Definition init_of (d : digraph) : bool := digraph_is_initialized cfg d.
Definition run_t_initialized : unit := ltac:(holds (
  let heads := Some (Arr 0 (replicate 100 None)) in let tails := Some (Arr 1 (replicate 11 None)) in
  negb (init_of dg_null) && init_of (DG 10 100 heads tails) && init_of (DG 10 0 None tails) &&
  negb (init_of (DG 10 100 heads None)) && negb (init_of (DG 10 0 heads tails)) && negb (init_of (DG 10 100 None tails)))).

(** scc_ut_digraph_is_valid (136-196). *)
Definition t_valid : M unit :=
  let dg h t := own_dg 4 4 (Some h) t in
  let* _ := yes (digraph_is_valid cfg (dg [0; 1; 2; 3] [0; 1; 2; 3; 4])) in
  let* _ := no (digraph_is_valid cfg (dg [0; 1; 2; 3] [10; 1; 2; 3; 4])) in
  let* _ := no (digraph_is_valid cfg (dg [0; 1; 2; 3] [0; 1; 2; 3; 10])) in
  let* _ := no (digraph_is_valid cfg (dg [0; 1; 2; 3] [0; 1; 2; 4; 3])) in
  let* _ := no (digraph_is_valid cfg (dg [10; 1; 2; 3] [0; 1; 2; 3; 4])) in
  let* _ := yes (digraph_is_valid cfg (dg [123; 124; 125; 126] [0; 0; 0; 0; 0])) in
  yes (digraph_is_valid cfg (own_dg 4 0 None [0; 0; 0; 0; 0])).
Definition run_t_valid : unit := ltac:(holds (passes t_valid)).

(** scc_ut_digraph_is_empty (199-223). *)
Definition t_empty : M unit :=
  let* _ := no (digraph_is_empty (own_dg 4 4 (Some [0; 1; 2; 3]) [0; 1; 2; 3; 4])) in
  yes (digraph_is_empty (own_dg 4 4 (Some [123; 124; 125; 126]) [0; 0; 0; 0; 0])).
Definition run_t_empty : unit := ltac:(holds (passes t_empty)).

(** scc_ut_free_digraph, scc_ut_init_digraph, scc_ut_empty_digraph (30-79,
    226-303). *)
Definition fields (dg : digraph) (n mx : nat) (head : bool) : bool :=
  init_of dg && bool_decide (dg_n dg = n) && bool_decide (dg_max dg = mx) &&
  (if head then bool_decide ((fun a => length (a_cells a)) <$> dg_head dg = Some mx) else match dg_head dg with None => true | _ => false end) &&
  bool_decide ((fun a => length (a_cells a)) <$> dg_tail dg = Some (n + 1)).
Definition is_null (d : digraph) : bool :=
  match d with DG 0 0 None None => true | _ => false end.
Definition t_init : M unit :=
  let* dg3 := ok (init_digraph cfg 100 1000) in
  let* _ := ensure (fields dg3 100 1000 true) in
  let* dg4 := ok (init_digraph cfg 100 0) in
  let* _ := ensure (fields dg4 100 0 false) in
  let* dg5 := ok (empty_digraph cfg 100 1000) in
  let* _ := ensure (fields dg5 100 1000 true && same_cells (dg_tail dg5) (nats (replicate 101 0))) in
  let* dg6 := ok (empty_digraph cfg 100 0) in
  let* _ := ensure (fields dg6 100 0 false && same_cells (dg_tail dg6) (nats (replicate 101 0))) in
  let* dg3 := free_digraph dg3 in let* dg4 := free_digraph dg4 in
  let* dg5 := free_digraph dg5 in let* dg6 := free_digraph dg6 in
  let* dg7 := free_digraph dg_null in
  ensure (is_null dg3 && is_null dg4 && is_null dg5 && is_null dg6 && is_null dg7).
Definition run_t_init : unit := ltac:(holds (passes t_init)).

(** scc_ut_change_arc_storage (306-392), where the tail arrays are on the stack:
    block 0 of the arrays [tails] is never released. *)
Definition set_head (dg : digraph) (i : nat) (x : nat) : M digraph :=
  let* h := lift (aset (dg_head dg) i x) in Mret (DG (dg_n dg) (dg_max dg) h (dg_tail dg)).
Definition t_storage : M unit :=
  let tails := [0; 1; 2; 3; 4; 5] in let zero := [0; 0; 0; 0; 0; 0] in
  let* h := malloc_arr nat 10 in
  let dg := DG 5 10 h (nats tails) in
  let* _ := ensure (fields dg 5 10 true) in
  let* dg := ok (change_arc_storage cfg dg 10) in
  let* _ := ensure (fields dg 5 10 true && same_cells (dg_tail dg) (nats tails)) in
  let* dg := ok (change_arc_storage cfg dg 100) in
  let* dg := set_head dg 99 1234 in
  let* _ := ensure (fields dg 5 100 true && same_cells (dg_tail dg) (nats tails)) in
  let dg := DG (dg_n dg) (dg_max dg) (dg_head dg) (nats zero) in
  let* dg := ok (change_arc_storage cfg dg 0) in
  let* _ := ensure (fields dg 5 0 false && same_cells (dg_tail dg) (nats zero)) in
  let dg2 := DG 5 0 None (nats zero) in
  let* dg2 := ok (change_arc_storage cfg dg2 0) in
  let* _ := ensure (fields dg2 5 0 false && same_cells (dg_tail dg2) (nats zero)) in
  let* dg2 := ok (change_arc_storage cfg dg2 10) in
  let* dg2 := set_head dg2 9 1234 in
  let* _ := ensure (fields dg2 5 10 true && same_cells (dg_tail dg2) (nats zero)) in
  free_arr (dg_head dg2).
Definition run_t_storage : unit := ltac:(holds (passes t_storage)).
