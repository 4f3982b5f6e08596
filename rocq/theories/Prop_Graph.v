(** Properties C30 and C31: the graph operations. *)

From stdpp Require Import prelude list sorting.
From Coq Require Import NArith ZArith.
From Verif Require Import Base World Mem Digraph DigraphRep GraphSpec.

(** C30. Loop deletion. *)
Theorem C30_delete_loops : forall cfg dg g w,
  dg_rep cfg dg g -> dg_live w dg ->
  changes_graph cfg (length g) (spec_no_loops g) dg (delete_loops cfg dg) w.
Proof. exact changes_delete_loops. Qed.
Print Assumptions C30_delete_loops.

(** C30. Union of graphs with selection of tails. *)
Theorem C30_union : forall cfg dgs gs n tails keep w,
  Forall2 (dg_rep cfg) dgs gs -> dgs <> [] -> Forall (fun g => length g = n) gs ->
  match tails with None => True | Some ts => StronglySorted lt ts /\ Forall (fun t => t < n) ts end ->
  makes_graph cfg n (spec_union keep tails gs) (digraph_union_and_delete cfg dgs tails keep) w.
Proof. exact makes_union. Qed.
Print Assumptions C30_union.

(** C30. Difference with a cap on the out-degree. *)
Theorem C30_difference : forall cfg dg sub g h k w,
  dg_rep cfg dg g -> dg_rep cfg sub h -> length h = length g -> dg_live w dg ->
  changes_graph cfg (length g) (spec_difference k g h) dg (digraph_difference cfg dg sub k) w.
Proof. exact changes_difference. Qed.
Print Assumptions C30_difference.

(** C30. Transpose. *)
Theorem C30_transpose : forall cfg dg g w, dg_rep cfg dg g ->
  makes_graph cfg (length g) (spec_transpose g) (digraph_transpose cfg dg) w.
Proof. exact makes_transpose. Qed.
Print Assumptions C30_transpose.

(** C30. Adjacency product. *)
Theorem C30_product : forall cfg dga dgb a b force w,
  dg_rep cfg dga a -> dg_rep cfg dgb b -> length a = length b ->
  makes_graph cfg (length a) (spec_product force a b) (adjacency_product cfg dga dgb force) w.
Proof. exact makes_product. Qed.
Print Assumptions C30_product.

(** C30. The results are duplicate free. *)
Theorem C30_nub : forall l, NoDup (nub l) /\ forall x, x ∈ nub l <-> x ∈ l.
Proof. exact (fun l => conj (NoDup_nub l) (elem_of_nub l)). Qed.
Print Assumptions C30_nub.

(** C30. The graphs meant above are those the library's own check accepts. *)
Theorem C30_valid : forall cfg dg g, dg_rep cfg dg g -> (N.of_nat (dg_n dg) <= pi_max cfg)%N ->
  digraph_is_valid cfg dg = Ok true.
Proof. exact rep_valid. Qed.
Print Assumptions C30_valid.

Theorem C30_valid_converse : forall cfg dg tb tc,
  digraph_is_valid cfg dg = Ok true ->
  match dg_head dg with Some a => length (a_cells a) = dg_max dg | None => True end ->
  dg_tail dg = Some (Arr tb tc) -> length tc = S (dg_n dg) ->
  (N.of_nat (dg_max dg) <= u64max)%N ->
  exists g, dg_rep cfg dg g.
Proof. exact valid_rep. Qed.
Print Assumptions C30_valid_converse.

(** C31. Two successful calls give the same graph, whatever allocations failed
    in each; the latest error is the one before the call or none. *)
Theorem C31_union : forall cfg dgs gs n tails keep w1 d1 w1' w2 d2 w2',
  Forall2 (dg_rep cfg) dgs gs -> dgs <> [] -> Forall (fun g => length g = n) gs ->
  match tails with None => True | Some ts => StronglySorted lt ts /\ Forall (fun t => t < n) ts end ->
  digraph_union_and_delete cfg dgs tails keep w1 = Ok ((ER_OK, d1), w1') ->
  digraph_union_and_delete cfg dgs tails keep w2 = Ok ((ER_OK, d2), w2') ->
  same_graph d1 d2 /\ (w_err w2' = w_err w2 \/ w_err w2' = no_errst).
Proof. exact retry_union. Qed.
Print Assumptions C31_union.

Theorem C31_product : forall cfg dga dgb a b force w1 d1 w1' w2 d2 w2',
  dg_rep cfg dga a -> dg_rep cfg dgb b -> length a = length b ->
  adjacency_product cfg dga dgb force w1 = Ok ((ER_OK, d1), w1') ->
  adjacency_product cfg dga dgb force w2 = Ok ((ER_OK, d2), w2') ->
  same_graph d1 d2 /\ (w_err w2' = w_err w2 \/ w_err w2' = no_errst).
Proof. exact retry_product. Qed.
Print Assumptions C31_product.

(** ** Concrete cases *)

(** Three vertices: 0 -> 0,1,1; 1 -> 2; 2 -> 2,0. *)
Definition ex_rows : list (list nat) := [[0; 1; 1]; [2]; [2; 0]].
Definition ex_dg : digraph :=
  DG 3 7 (Some (Arr 1 [Some 0; Some 1; Some 1; Some 2; Some 2; Some 0; None]))
         (Some (Arr 0 [Some 0; Some 3; Some 4; Some 6])).
Definition ex_world (fails : list nat) : world :=
  World (fun i => bool_decide (i ∈ fails)) 2 [1; 0] no_errst 0 0.

Example ex_dg_rep : dg_rep default_config ex_dg ex_rows.
Proof.
  constructor.
  - reflexivity.
  - exists 0, [Some 0; Some 3; Some 4; Some 6]. split; [reflexivity|]. split; [reflexivity|].
    intros k Hk. do 4 (destruct k as [|k]; [reflexivity|]). simpl in Hk. lia.
  - simpl. splits; [reflexivity|lia|]. exists [None]. reflexivity.
  - repeat constructor.
  - reflexivity.
Qed.

Example ex_valid : digraph_is_valid default_config ex_dg = Ok true.
Proof. vm_compute. reflexivity. Qed.

Definition result_rows (r : R ((ecode * digraph) * world)) :=
  match r with
  | Ok ((ec, dg), w) => Some (ec, (fun v => for_arcs dg v [] (fun x l => Ok (l ++ [x]))) <$> seq 0 (dg_n dg),
                              length (w_live w), e_code (w_err w))
  | Bad _ => None
  end.

Example ex_delete_loops : result_rows (delete_loops default_config ex_dg (ex_world [])) =
  Some (ER_OK, [Ok [1; 1]; Ok [2]; Ok [0]], 2, ER_OK).
Proof. vm_compute. reflexivity. Qed.

Example ex_union_spec : spec_union false (Some [0; 2]) [ex_rows; [[2]; []; [1]]] <$> seq 0 3 = [[1; 2]; []; [0; 1]].
Proof. vm_compute. reflexivity. Qed.

(** The first large allocation of the union (the fourth request from here on)
    fails, the second attempt succeeds and gives the same graph. *)
Example ex_union_retry :
  result_rows (digraph_union_and_delete default_config [ex_dg; ex_dg] None true (ex_world [4])) =
    Some (ER_OK, [Ok [0; 1]; Ok [2]; Ok [2; 0]], 4, ER_OK) /\
  result_rows (digraph_union_and_delete default_config [ex_dg; ex_dg] None true (ex_world [])) =
    Some (ER_OK, [Ok [0; 1]; Ok [2]; Ok [2; 0]], 4, ER_OK).
Proof. vm_compute. auto. Qed.

Example ex_product_retry :
  result_rows (adjacency_product default_config ex_dg ex_dg true (ex_world [4])) =
    Some (ER_OK, [Ok [1; 2]; Ok [2; 0]; Ok [0; 1]], 4, ER_OK) /\
  result_rows (adjacency_product default_config ex_dg ex_dg true (ex_world [])) =
    Some (ER_OK, [Ok [1; 2]; Ok [2; 0]; Ok [0; 1]], 4, ER_OK).
Proof. vm_compute. auto. Qed.

Example ex_transpose : result_rows (digraph_transpose default_config ex_dg (ex_world [])) =
  Some (ER_OK, [Ok [2; 0]; Ok [0; 0]; Ok [2; 1]], 4, ER_OK).
Proof. vm_compute. reflexivity. Qed.

Example ex_difference :
  result_rows (digraph_difference default_config ex_dg
     (DG 3 3 (Some (Arr 8 [Some 0; Some 0; Some 2])) (Some (Arr 7 [Some 0; Some 1; Some 2; Some 3]))) 1
     (ex_world [])) = Some (ER_OK, [Ok [1]; Ok [2]; Ok [0]], 2, ER_OK).
Proof. vm_compute. reflexivity. Qed.
