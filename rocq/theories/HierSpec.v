(** What hierarchical clustering must achieve, independent of the algorithm. *)

From stdpp Require Import prelude list sorting.
From Verif Require Import Base Float FloatFacts Spi.

(** [news] refines the clusters [olds]: the same points, no empty cluster, and every
    new cluster is a small old one, or a part of legal size of a large old one. *)
Record refined (k : nat) (olds news : list (list nat)) : Prop := {
  rf_cover : concat news ≡ₚ concat olds;
  rf_nonempty : Forall (fun d => d <> []) news;
  rf_origin : Forall (fun d => exists o, o ∈ olds /\
     ((d ≡ₚ o /\ length o < 2 * k) \/ ((forall x, x ∈ d -> x ∈ o) /\ 2 * k <= length o /\ k <= length d < 2 * k))) news
}.

(** The members of the [i]-th cluster have the label [i]. *)
Definition labelled (L : list (option Z)) (cs : list (list nat)) : Prop :=
  forall i d x, cs !! i = Some d -> x ∈ d -> L !! x = Some (Some (Z.of_nat i)).

(** No point has [m] or more points at distance zero, itself included. *)
Definition few_duplicates (n : nat) (D : dist_fun) (m : nat) : Prop :=
  forall a l, a < n -> NoDup l -> Forall (fun y => y < n /\ D a y = d_zero) l -> length l < m.

(** ** How a cluster is divided *)

(** [x] is not farther away than [y], by the distances [f] from some point. *)
Definition ord (f : nat -> double) (x y : nat) : Prop := d_gt (f x) (f y) = false.

(** [a] are the elements of [U] closest by [f], in this order; [U'] are the others. *)
Definition closest (f : nat -> double) (U a U' : list nat) : Prop :=
  U ≡ₚ a ++ U' /\ StronglySorted (ord f) a /\ forall x y, x ∈ a -> y ∈ U' -> ord f x y.

(** The distance of the last of [a]. *)
Definition reach (f : nat -> double) (a : list nat) : double := match last a with Some y => f y | None => d_zero end.

(** Each of two centers gets the [k1] points closest to it, first the one to which this
    matters more. [f1] and [f2] are the distances from the centers; [U] are the
    points to distribute, [U'] those that remain. *)
Inductive first_parts (k1 : nat) (f1 f2 : nat -> double) (U : list nat) : list nat -> list nat -> list nat -> Prop :=
| fp_one a1 U1 b U2 a2 U' :
    closest f1 U a1 U1 -> length a1 = k1 -> closest f2 U b U2 -> length b = k1 ->
    d_ge (reach f1 a1) (reach f2 b) = true ->
    closest f2 U1 a2 U' -> length a2 = k1 -> first_parts k1 f1 f2 U a1 a2 U'
| fp_two a1 U1 b U2 a2 U' :
    closest f1 U b U1 -> length b = k1 -> closest f2 U a2 U2 -> length a2 = k1 ->
    d_ge (reach f1 b) (reach f2 a2) = false ->
    closest f1 U2 a1 U' -> length a1 = k1 -> first_parts k1 f1 f2 U a1 a2 U'.

(** The remaining [num] points are distributed [nb] at a time; each time the center
    that has them closer gets its closest ones. [a1], [a2]: the points of the centers
    so far; [b1], [b2]: in the end. *)
Inductive rest_parts (nb : nat) (f1 f2 : nat -> double) : nat -> list nat -> list nat -> list nat -> list nat -> list nat -> Prop :=
| rp_end a1 a2 U : rest_parts nb f1 f2 0 a1 a2 U a1 a2
| rp_one num a1 a2 U l1 U1 l2 U2 b1 b2 : 0 < num ->
    closest f1 U l1 U1 -> length l1 = Nat.min nb num -> closest f2 U l2 U2 -> length l2 = Nat.min nb num ->
    d_le (reach f1 l1) (reach f2 l2) = true ->
    rest_parts nb f1 f2 (num - Nat.min nb num) (a1 ++ l1) a2 U1 b1 b2 -> rest_parts nb f1 f2 num a1 a2 U b1 b2
| rp_two num a1 a2 U l1 U1 l2 U2 b1 b2 : 0 < num ->
    closest f1 U l1 U1 -> length l1 = Nat.min nb num -> closest f2 U l2 U2 -> length l2 = Nat.min nb num ->
    d_le (reach f1 l1) (reach f2 l2) = false ->
    rest_parts nb f1 f2 (num - Nat.min nb num) a1 (a2 ++ l2) U2 b1 b2 -> rest_parts nb f1 f2 num a1 a2 U b1 b2.

(** The cluster [ms] with centers [c1] and [c2] is divided in [ms1] and [ms2]. *)
Definition divided (k nb : nat) (f1 f2 : nat -> double) (ms : list nat) (c1 c2 : nat) (ms1 ms2 : list nat) : Prop :=
  exists a1 a2 U b1 b2, first_parts (k - 1) f1 f2 (filter (fun x => x <> c1 /\ x <> c2) ms) a1 a2 U /\
    rest_parts nb f1 f2 (length ms - 2 * k) a1 a2 U b1 b2 /\ ms1 = c1 :: b1 /\ ms2 = rev b2 ++ [c2].

(** The points to start the search for centers with: every [step]-th, 100 at most. *)
Definition start_points (ms : list nat) : list nat :=
  let step := Nat.max 2 (length ms / 100) in
  omap (fun i => ms !! (i * step)) (seq 0 100).

(** The search for centers goes from a point to one farthest from it, and keeps the pair
    with the largest distance. [todo] are the points to look at, [seen] all points met. *)
Inductive seek (G : geometry) (D : dist_fun) (ms : list nat) : list nat -> list nat -> option (nat * nat) -> option (nat * nat) -> Prop :=
| seek_end seen best : seek G D ms [] seen best best
| seek_next q x todo seen best r :
    x ∈ ms -> (forall y, y ∈ ms -> nearer G q y x = true) ->
    seek G D ms (todo ++ (if decide (x ∈ seen) then [] else [x])) (if decide (x ∈ seen) then seen else x :: seen)
      (match best with Some (a, b) => if d_gt (D q x) (D a b) then Some (q, x) else best | None => Some (q, x) end) r ->
    seek G D ms (q :: todo) seen best r.

Definition centers (G : geometry) (D : dist_fun) (ms : list nat) (c1 c2 : nat) : Prop :=
  seek G D ms (start_points ms) (start_points ms) None (Some (c1, c2)).

(** Clusters of [2 * k] points or more are divided until there are none. The clusters are
    listed in the order of their labels. *)
Inductive hier_tree (k nb : nat) (G : geometry) (D : dist_fun) : list nat -> list (list nat) -> Prop :=
| ht_none : hier_tree k nb G D [] []
| ht_small ms : ms <> [] -> length ms < 2 * k -> hier_tree k nb G D ms [ms]
| ht_split ms c1 c2 ms1 ms2 r1 r2 : 2 * k <= length ms -> centers G D ms c1 c2 -> divided k nb (D c1) (D c2) ms c1 c2 ms1 ms2 ->
    hier_tree k nb G D ms2 r2 -> hier_tree k nb G D ms1 r1 -> hier_tree k nb G D ms (r2 ++ r1).

(** The same for a list of clusters. *)
Definition hier_forest (k nb : nat) (G : geometry) (D : dist_fun) (starts news : list (list nat)) : Prop :=
  exists rs, Forall2 (hier_tree k nb G D) starts rs /\ news = concat rs.

(** The last cluster a point is in gives its label; [L0] are the labels before. *)
Definition painted (L0 L : list (option Z)) (news : list (list nat)) : Prop :=
  forall x, x < length L0 -> (x ∉ concat news /\ L !! x = L0 !! x) \/
    exists i d, news !! i = Some d /\ x ∈ d /\ x ∉ concat (drop (S i) news) /\ L !! x = Some (Some (Z.of_nat i)).

(** [qsort] sorts by distance. *)
Definition sorts {A} (qs : A -> list (nat * double) -> list (nat * double)) : Prop :=
  forall w l, Forall (fun x => d_nonneg x.2) l -> StronglySorted (fun a b => d_gt a.2 b.2 = false) (qs w l).
