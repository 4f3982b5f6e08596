(** What a user sees of a clustering. *)

From stdpp Require Import prelude list.
From Coq Require Import NArith ZArith.
From Verif Require Import Base World Mem Digraph Options.

(** Content of the label array: an element per point, [None] if it has never been
    written. *)
Definition cells (c : clustering) : list (option Z) :=
  match c_label c with Some a => a_cells a | None => [] end.

(** Label of point [x]; [None] if there is none or it was never written. *)
Definition label_of (c : clustering) (x : nat) : option Z := default None (cells c !! x).

(** Points of cluster [i]. *)
Definition cluster (c : clustering) (i : nat) : list nat :=
  filter (fun x => label_of c x = Some (Z.of_nat i)) (seq 0 (c_n c)).

Definition unlabelled (cfg : config) (c : clustering) (x : nat) : Prop := label_of c x = Some (cl_na cfg).

(** Point [x] is in one of the clusters. *)
Definition in_cluster (c : clustering) (x : nat) : Prop := exists i, i < c_k c /\ x ∈ cluster c i.
