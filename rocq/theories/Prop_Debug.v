(** Property C73: the debugging functions for graphs. *)

From Coq Require Import Strings.Ascii Strings.String.
From stdpp Require Import prelude list.
From Coq Require Import NArith ZArith.
From Verif Require Import Base World Mem Digraph DigraphRep GraphSpec DigraphDebug DebugProof Example1.
Open Scope string_scope. Open Scope list_scope. Open Scope nat_scope.

(** C73. A text that describes a square matrix gives the graph with the arcs of the
    matrix. *)
Theorem C73_from_string : forall cfg m cs w, square m -> describes cs m -> (N.of_nat (length m) <= pi_max cfg)%N ->
  makes_graph cfg (length m) (matrix_arcs m) (digraph_from_string cfg cs) w.
Proof. exact claim_from_string. Qed.
Print Assumptions C73_from_string.

(** C73. Copies. *)
Theorem C73_copy : forall cfg dg g w, dg_rep cfg dg g -> g <> [] ->
  makes_graph cfg (length g) (adj g) (copy_digraph cfg dg) w.
Proof. exact claim_copy_digraph. Qed.
Print Assumptions C73_copy.

(** C73. Graphs from arrays. *)
Theorem C73_from_pieces : forall cfg g tb tc hb hc w, pieces g tc hc -> hc <> [] ->
  exists ec dg w', digraph_from_pieces cfg (length g) (length hc) (Some (Arr tb tc)) (Some (Arr hb hc)) w = Ok ((ec, dg), w') /\
    (ec = ER_OK -> is_graph cfg dg (length g) (adj g) /\ dg_max dg = length hc /\ mem_plus w' (dg_blocks dg) w) /\
    (ec <> ER_OK -> mem_plus w' [] w /\ e_code (w_err w') = ec /\
       (ec = ER_NO_MEMORY /\ ~ no_fail w \/ ec = ER_TOO_LARGE_PROBLEM /\ too_many_arcs cfg (length hc) = true)).
Proof. exact claim_from_pieces. Qed.
Print Assumptions C73_from_pieces.

(** C73. Comparison: same vertices and same arcs, disregarding order and repetition. *)
Theorem C73_equal : forall cfg dga dgb ga gb w, dg_rep cfg dga ga -> dg_rep cfg dgb gb -> no_fail w ->
  exists r w', digraphs_equal dga dgb w = Ok (r, w') /\ mem_plus w' [] w /\ w_err w' = w_err w /\
    (r = true <-> length ga = length gb /\ forall v x, x ∈ adj ga v <-> x ∈ adj gb v).
Proof. exact claim_equal. Qed.
Print Assumptions C73_equal.

(** C73. The balance check. *)
Theorem C73_balanced : forall cfg dg g k, config_ok cfg -> dg_rep cfg dg g ->
  (N.of_nat (length g) <= pi_max cfg)%N -> (N.of_nat k <= ai_max cfg)%N ->
  exists r, is_balanced_digraph cfg dg k = Ok r /\ (r = true <-> forall v, v < length g -> length (adj g v) = k).
Proof. exact claim_balanced. Qed.
Print Assumptions C73_balanced.

(** C73. What is printed; [matrix_of g] is the matrix of [g]. *)
Theorem C73_print : forall cfg dg g w, dg_rep cfg dg g -> g <> [] -> no_fail w ->
  exists w', print_digraph dg w = Ok (text c_newline (matrix_of g) ++ [c_newline], w') /\ mem_plus w' [] w /\ w_err w' = w_err w.
Proof. exact claim_print. Qed.
Print Assumptions C73_print.

Theorem C73_matrix : forall g v x, v < length g -> Forall (Forall (fun x => x < length g)) g ->
  x ∈ matrix_arcs (matrix_of g) v <-> x ∈ adj g v.
Proof. exact matrix_of_arcs. Qed.
Print Assumptions C73_matrix.

(** ** Concrete cases *)

Notation chars := list_ascii_of_string.

(** The example of src/digraph_debug.h 84. *)
Definition doc_matrix : list (list bool) :=
  [[false; true; true; false]; [false; false; true; false]; [false; false; false; true]; [true; false; false; true]].

Example ex_describes : square doc_matrix /\ describes (chars ".##./ ..#./ ...# / #..#/") doc_matrix /\
  describes (chars ".##./..#./...#/#..#") doc_matrix /\ matrix_arcs doc_matrix <$> seq 0 4 = [[1; 2]; [2]; [3]; [0; 3]].
Proof.
  splits.
  - split; [done|]. repeat constructor.
  - left. by vm_compute.
  - right. split; [simpl; lia|]. by vm_compute.
  - by vm_compute.
Qed.

(** Printing it, and parsing what was printed with other end marks. *)
Example ex_print : match digraph_from_string default_config (chars ".##./..#./...#/#..#/") world0 with
  | Ok ((ER_OK, dg), w) =>
      match print_digraph dg w with
      | Ok (out, _) => out = chars ".##." ++ [c_newline] ++ chars "..#." ++ [c_newline] ++ chars "...#" ++ [c_newline] ++ chars "#..#" ++ [c_newline; c_newline]
      | _ => False
      end
  | _ => False
  end.
Proof. by vm_compute. Qed.

(** Meets C73_from_pieces, C73_equal and C73_balanced: two arcs from 0, none from 1;
    room for one more arc. *)
Example ex_pieces : pieces [[1; 0]; []] (Some <$> [0; 2; 2]) (Some <$> [1; 0; 7]).
Proof.
  unfold pieces. splits.
  - done.
  - intros k Hk. do 3 (destruct k as [|k]; [done|]). simpl in Hk. lia.
  - intros j x Hj. do 2 (destruct j as [|j]; [simpl in Hj; simplify_eq; done|]). done.
  - simpl. lia.
  - repeat constructor.
Qed.

(** ** Outside the hypotheses *)

(** iscc_digraphs_equal does not check its allocation (src/digraph_debug.c 60). *)
Theorem C73_equal_unchecked_refuted : exists cfg dga dgb ga gb w, dg_rep cfg dga ga /\ dg_rep cfg dgb gb /\ digraphs_equal dga dgb w = Bad NullPtr.
Proof.
  set (dg := DG 1 1 (Some (Arr 0 [Some 0])) (Some (Arr 1 [Some 0; Some 1]))).
  assert (dg_rep default_config dg [[0]]) as H.
  { constructor; simpl.
    - done.
    - eexists _, _. split; [reflexivity|]. split; [done|]. intros k Hk. do 2 (destruct k as [|k]; [done|]). simpl in Hk. lia.
    - splits; [done|lia|]. by exists [].
    - repeat constructor.
    - by vm_compute. }
  exists default_config, dg, dg, [[0]], [[0]], (World (fun _ => true) 2 [0; 1] no_errst 0 0). splits; [done|done|]. by vm_compute.
Qed.
Print Assumptions C73_equal_unchecked_refuted.

(** Texts that describe no square matrix: an end mark at the beginning leads to a
    division by zero, superfluous end marks to a write outside the array, and a single
    entry without end mark to a graph without vertices. *)
Example ex_bad_texts :
  digraph_from_string default_config (chars "/#") world0 = Bad Arith /\
  digraph_from_string default_config (chars "#/#/") world0 = Bad Oob /\
  match digraph_from_string default_config (chars "#") world0 with Ok ((ER_OK, dg), _) => dg_n dg = 0 | _ => False end.
Proof. splits; by vm_compute. Qed.

(** scc_get_compiled_version writes the variables it is given. *)
Example ex_version : get_compiled_version (Some 7%N) None (Some 9%N) = (Some 0%N, None, Some 1%N).
Proof. done. Qed.
