(** Properties of the built-in distance functions: C27-C29. *)

From stdpp Require Import prelude list sorting.
From Coq Require Import NArith ZArith.
From Verif Require Import Base World Mem Float FloatFacts Spi Arrays Dist DistProof DistClaims Example1.

(** C27. *)
Theorem C27_nearest_neighbours : forall d n, data_ok d n -> forall b s q k rad w,
  search_set n s -> query_list n q -> 0 < k -> k <= length (il_list s) -> b ∈ w_live w ->
  exists r w', imp_nn_search (SObj b (Some d) s) q k rad w = Ok (r, w') /\ w_live w' ≡ₚ w_live w /\ w_err w' = w_err w /\
    match r with
    | None => ~ no_fail w
    | Some (ok, nn) => ok = filter (fun v => k <= length (filter (in_radius d rad v) (il_list s))) (il_list q) /\
        exists cs, nn = concat cs /\ Forall2 (fun v c => first_k d (il_list s) k rad v c) ok cs
    end.
Proof. exact search_exact. Qed.
Print Assumptions C27_nearest_neighbours.

(** C28. *)
Theorem C28_farthest : forall d n, data_ok d n -> forall b s q w, search_set n s -> query_list n q -> b ∈ w_live w ->
  exists is ds, imp_max_get (SObj b (Some d) s) q w = Ok (Some (is, ds), w) /\
    Forall2 (first_farthest d (il_list s)) (il_list q) is /\ ds = zip_with (fun v x => d_sqrt (sqd d v x)) (il_list q) is.
Proof. exact max_exact. Qed.
Print Assumptions C28_farthest.

(** C29. *)
Theorem C29_distances : forall d n i j, data_ok d n -> i < n -> j < n -> exists v,
  sq_dist d i j = Ok v /\ sq_dist d j i = Ok v /\ d_nonneg v /\ (i = j -> v = d_zero).
Proof. exact sq_dist_exact. Qed.
Print Assumptions C29_distances.
(** [sqd d i j] is the value of [sq_dist d i j]. *)
Theorem C29_value : forall d n, data_ok d n -> forall i j, i < n -> j < n -> sq_dist d i j = Ok (sqd d i j).
Proof. exact sq_dist_ok. Qed.
Print Assumptions C29_value.
Theorem C29_matrix : forall d n q w, data_ok d n -> query_list n q -> exists m,
  imp_matrix (Some d) q w = Ok (Some m, w) /\ imp_rows (Some d) q q w = Ok (Some (concat ((fun x => eucl d x <$> il_list q) <$> il_list q)), w) /\
  m = (fun xy => eucl d xy.1 xy.2) <$> pairs (il_list q).
Proof. exact matrix_exact. Qed.
Print Assumptions C29_matrix.

(** Concrete cases. *)
Example ex_data : data_ok (line pts) 12.
Proof. apply line_data; done. Qed.
Example ex_search_set : search_set 12 (5, Some [0; 2; 3; 4; 7]) /\ query_list 12 (3, Some [1; 1; 11]).
Proof.
  split; (split; [done|]; split; [done|]).
  - split; [repeat constructor|]. apply (bool_decide_eq_true_1 (NoDup _)). by vm_compute.
  - repeat constructor.
Qed.
Definition world1 : world := World (fun _ => false) 1 [0] no_errst 0 0.
(** Point 1 is at 10, point 11 at 2; within 2 of the former is 4 (at 12) only. *)
Example ex_search : match imp_nn_search (SObj 0 (Some (line pts)) (5, Some [0; 2; 3; 4; 7])) (3, Some [1; 1; 11]) 2 (Some (d_of_Z 2)) world1 with
  | Ok (Some r, _) => r = ([11], [2; 3]) | _ => False end.
Proof. by vm_compute. Qed.
Example ex_search_all : match imp_nn_search (SObj 0 (Some (line pts)) (5, Some [0; 2; 3; 4; 7])) (3, Some [1; 1; 11]) 2 None world1 with
  | Ok (Some r, _) => r = ([1; 1; 11], [4; 7; 4; 7; 2; 3]) | _ => False end.
Proof. by vm_compute. Qed.
Example ex_max : match imp_max_get (SObj 0 (Some (line pts)) (5, Some [0; 2; 3; 4; 7])) (3, Some [1; 1; 11]) world1 with
  | Ok (Some r, _) => r = ([0; 0; 4], [d_of_Z 10; d_of_Z 10; d_of_Z 10]) | _ => False end.
Proof. by vm_compute. Qed.
