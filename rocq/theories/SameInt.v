(** Distances of points with integer coordinates are exact. *)

From stdpp Require Import prelude list sorting.
From Coq Require Import NArith ZArith Floats.SpecFloat.
From Verif Require Import Base World Mem Float FloatFacts FloatInt Spi Dist Options GraphSpec NngClustering Hier ClusSpec ScClaims DistProof Example1 FailClaims
  HierSpec HierFind HierDiv HierRun HierTop HierClaims Same SameClaims SameHier SameDist SameOrder.

(** Sum of the squared differences of the first [m] coordinates. *)
Fixpoint zdist (a b : nat -> Z) (m : nat) : Z :=
  match m with 0 => 0%Z | S m => (zdist a b m + (a m - b m) * (a m - b m))%Z end.
(** The coordinates are the integers [z i t], all of them and the squared distances
    below 2^53. *)
Record lattice (d : dataset) (n : nat) (z : nat -> nat -> Z) : Prop := {
  la_coord : forall i t, i < n -> t < ds_dim d -> coord d i t = d_of_Z (z i t) /\ (Z.abs (z i t) < 2 ^ 53)%Z;
  la_dist : forall i j, i < n -> j < n -> (zdist (z i) (z j) (ds_dim d) < 2 ^ 53)%Z
}.

Lemma zdist_nonneg a b m : (0 <= zdist a b m)%Z.
Proof. induction m as [|m IH]; cbn [zdist]; [done|]. pose proof (Z.square_nonneg (a m - b m)); lia. Qed.
Lemma zdist_le a b k m : k <= m -> (zdist a b k <= zdist a b m)%Z.
Proof. induction 1 as [|m H IH]; [done|]. cbn [zdist]. pose proof (Z.square_nonneg (a m - b m)); lia. Qed.
Lemma zdist_ext a b a' b' m : (forall t, t < m -> (a t - b t = a' t - b' t)%Z) -> zdist a b m = zdist a' b' m.
Proof. induction m as [|m IH]; intros H; cbn [zdist]; [done|]. rewrite IH by (intros; apply H; lia). by rewrite (H m) by lia. Qed.
Lemma zdist_scale k a b m : zdist (fun t => (k * a t)%Z) (fun t => (k * b t)%Z) m = (k * k * zdist a b m)%Z.
Proof. induction m as [|m IH]; cbn [zdist]; [lia|]. rewrite IH. ring. Qed.

Lemma sqd_int d n z i j : lattice d n z -> i < n -> j < n -> sqd d i j = d_of_Z (zdist (z i) (z j) (ds_dim d)).
Proof.
  intros H Hi Hj. unfold sqd. assert (forall m, m <= ds_dim d ->
    foldl (fun acc t => d_add acc (d_mul (d_sub (coord d i t) (coord d j t)) (d_sub (coord d i t) (coord d j t)))) d_zero (seq 0 m) = d_of_Z (zdist (z i) (z j) m)) as Hm; [|by apply Hm].
  induction m as [|m IH]; intros Hm; [done|]. rewrite seq_S, foldl_app, IH by lia. cbn [foldl Nat.add zdist].
  pose proof (la_dist _ _ _ H i j Hi Hj) as Hd. pose proof (zdist_le (z i) (z j) (S m) (ds_dim d) Hm) as Hl. cbn [zdist] in Hl. pose proof (zdist_nonneg (z i) (z j) m) as Hn.
  destruct (la_coord _ _ _ H i m) as [-> Bi]; [done|lia|]. destruct (la_coord _ _ _ H j m) as [-> Bj]; [done|lia|].
  set (x := (z i m - z j m)%Z) in *. assert (small (x * x)) as Hs by (unfold small; nia). pose proof (small_square x Hs) as Hx.
  rewrite d_sub_int by (try done; exact Hx). fold x. rewrite d_square_int by done. apply d_add_int; [unfold small; nia|done|unfold small; nia].
Qed.

Lemma sq_dist_int d n z i j : data_ok d n -> lattice d n z -> i < n -> j < n -> sq_dist d i j = Ok (d_of_Z (zdist (z i) (z j) (ds_dim d))).
Proof. intros Hd H Hi Hj. rewrite (sq_dist_ok d n Hd) by done. by rewrite (sqd_int d n z). Qed.

(** The same integer distances. *)
Definition isometric (n m m' : nat) (z z' : nat -> nat -> Z) : Prop := forall i j, i < n -> j < n -> zdist (z i) (z j) m = zdist (z' i) (z' j) m'.
Lemma isometric_same d d' n z z' : lattice d n z -> lattice d' n z' -> isometric n (ds_dim d) (ds_dim d') z z' -> same_distances d d' n.
Proof. intros H H' Hi i j Ii Ij. rewrite (sqd_int d n z), (sqd_int d' n z') by done. by rewrite Hi. Qed.

Lemma moved_isometric n m v z : isometric n m m z (fun i t => (z i t + v t)%Z).
Proof. intros i j _ _. apply zdist_ext. intros. lia. Qed.
(** Another order of the coordinates. *)
Lemma foldr_start l y : foldr Z.add y l = (foldr Z.add 0 l + y)%Z.
Proof. induction l as [|x l IH]; cbn [foldr]; [done|]. rewrite IH. lia. Qed.
Lemma zdist_sum a b m : zdist a b m = foldr Z.add 0%Z ((fun t => ((a t - b t) * (a t - b t))%Z) <$> seq 0 m).
Proof.
  induction m as [|m IH]; [done|]. rewrite seq_S, fmap_app, foldr_app, foldr_start. cbn [zdist]. rewrite IH. f_equal. rewrite list_fmap_singleton. cbn [foldr Nat.add]. lia.
Qed.
Lemma permuted_isometric n m p z : p <$> seq 0 m ≡ₚ seq 0 m -> isometric n m m z (fun i t => z i (p t)).
Proof.
  intros Hp i j _ _. rewrite !zdist_sum. set (f := fun t => ((z i t - z j t) * (z i t - z j t))%Z). change (fun t => _) with (f ∘ p) at 1. rewrite list_fmap_compose.
  assert (f <$> (p <$> seq 0 m) ≡ₚ f <$> seq 0 m) as H by (by apply fmap_Permutation). revert H. generalize (f <$> (p <$> seq 0 m)), (f <$> seq 0 m). clear.
  intros l l' H. symmetry. induction H as [|x l l' _ IH|x y l|l l' l'' _ IH1 _ IH2]; cbn [foldr]; lia.
Qed.

(** Multiples. *)
Definition multiple (k : Z) (z : nat -> nat -> Z) : nat -> nat -> Z := fun i t => (k * z i t)%Z.
Lemma small_dist d n z i j : lattice d n z -> i < n -> j < n -> (0 <= zdist (z i) (z j) (ds_dim d))%Z /\ small (zdist (z i) (z j) (ds_dim d)).
Proof. intros H Hi Hj. pose proof (zdist_nonneg (z i) (z j) (ds_dim d)). pose proof (la_dist _ _ _ H i j Hi Hj). split; [done|]. unfold small. lia. Qed.
Lemma multiple_order d d' n z k : lattice d n z -> lattice d' n (multiple k z) -> ds_dim d' = ds_dim d -> k <> 0%Z -> same_order d d' n.
Proof.
  intros H H' Hdim Hk q x y Hq Hx Hy. rewrite !(sqd_int d n z), !(sqd_int d' n (multiple k z)) by done. rewrite !d_le_int by (by eapply small_dist).
  unfold multiple. rewrite !zdist_scale, Hdim. apply eq_true_iff_eq. rewrite !Z.leb_le. nia.
Qed.
Lemma multiple_within d d' n z k r : lattice d n z -> lattice d' n (multiple k z) -> ds_dim d' = ds_dim d -> (0 < k)%Z -> (0 < r)%Z -> (k * r * (k * r) < 2 ^ 53)%Z ->
  same_within d d' n (d_of_Z r) (d_of_Z (k * r)).
Proof.
  intros H H' Hdim Hk Hr Hs. assert (small (k * r * (k * r))) as S2 by (unfold small; nia). assert (small (r * r)) as S1 by (unfold small in *; nia). split.
  - change d_zero with (d_of_Z 0). rewrite !d_le_int; try nia; try done; try (by apply small_square).
  - intros q x Hq Hx. rewrite (sqd_int d n z), (sqd_int d' n (multiple k z)) by done. rewrite !d_square_int by done. change (d_gt ?a ?b) with (d_lt b a).
    rewrite !d_lt_int by (try (by eapply small_dist); try done; nia). unfold multiple. rewrite zdist_scale, Hdim. apply eq_true_iff_eq. rewrite !Z.ltb_lt. nia.
Qed.

(** ** Clusterings *)

Section Clusters.
Context (cfg : config) (d d' : dataset) (n : nat) (Hd : data_ok d n) (Hd' : data_ok d' n).
Lemma int_repeat z z' o m c1 c2 w1 w2 : lattice d n z -> lattice d' n z' -> isometric n (ds_dim d) (ds_dim d') z z' ->
  data_call cfg d n o c1 -> data_call cfg d' n o c2 -> unused cfg m c1 -> unused cfg m c2 -> no_fail w1 -> no_fail w2 ->
  exists ec e1 w1' e2 w2', sc_clustering cfg builtin (Some d) (Some o) (Some c1) w1 = Ok ((ec, Some e1), w1') /\ sc_clustering cfg builtin (Some d') (Some o) (Some c2) w2 = Ok ((ec, Some e2), w2') /\
    (ec = ER_OK -> c_k e1 = c_k e2 /\ cells e1 = cells e2).
Proof. intros H H' Hi. apply dist_repeat; try done. by eapply isometric_same. Qed.
Lemma int_hier z z' qs log2cap k batch c1 c2 w1 w2 : lattice d n z -> lattice d' n z' -> isometric n (ds_dim d) (ds_dim d') z z' ->
  qsort_repeatable qs -> data_hier cfg d n qs k c1 -> data_hier cfg d' n qs k c2 -> same_start c1 c2 ->
  (c_k c1 = 0 -> few_duplicates n (eucl d) (2 * k)) -> no_fail w1 -> no_fail w2 ->
  exists ec e1 w1' e2 w2', hierarchical_clustering cfg builtin qs log2cap (Some d) k batch (Some c1) w1 = Ok ((ec, Some e1), w1') /\
    hierarchical_clustering cfg builtin qs log2cap (Some d') k batch (Some c2) w2 = Ok ((ec, Some e2), w2') /\ (ec = ER_OK -> c_k e1 = c_k e2 /\ cells e1 = cells e2).
Proof. intros H H' Hi. apply dist_hier; try done. by eapply isometric_same. Qed.

(** Supplied radii are integers [r], in the other call [k] times as large. *)
Definition radius_times (k : Z) (x y : double) : Prop := exists r, x = d_of_Z r /\ y = d_of_Z (k * r) /\ (0 < r)%Z /\ (k * r * (k * r) < 2 ^ 53)%Z.
Lemma int_multiple z k o x y u m c1 c2 w1 w2 : lattice d n z -> lattice d' n (multiple k z) -> ds_dim d' = ds_dim d -> (0 < k)%Z -> no_estimate o ->
  (o_srad o = RM_USE_SUPPLIED -> radius_times k (o_srad_val o) x) -> (o_prad o = RM_USE_SUPPLIED -> radius_times k (o_prad_val o) y) -> (o_2rad o = RM_USE_SUPPLIED -> radius_times k (o_2rad_val o) u) ->
  data_call cfg d n o c1 -> data_call cfg d' n (set_radii o x y u) c2 -> unused cfg m c1 -> unused cfg m c2 -> no_fail w1 -> no_fail w2 ->
  exists ec e1 w1' e2 w2', sc_clustering cfg builtin (Some d) (Some o) (Some c1) w1 = Ok ((ec, Some e1), w1') /\
    sc_clustering cfg builtin (Some d') (Some (set_radii o x y u)) (Some c2) w2 = Ok ((ec, Some e2), w2') /\ (ec = ER_OK -> c_k e1 = c_k e2 /\ cells e1 = cells e2).
Proof.
  intros H H' Hdim Hk He X Y U. assert (forall a b, radius_times k a b -> same_within d d' n a b) as Hw by (intros a b (r & -> & -> & H1 & H2); by eapply multiple_within).
  apply order_repeat; auto. eapply multiple_order; try done. lia.
Qed.
End Clusters.

(** ** Example: a quarter turn with a shift, and a multiple *)

Definition flat (l : list (Z * Z)) (i t : nat) : Z := let p := default (0, 0)%Z (l !! i) in match t with 0 => p.1 | _ => p.2 end.
Definition spread : list (Z * Z) := [(0, 0); (10, 1); (1, 2); (3, 0); (12, 3); (60, 40); (9, 2); (4, 3); (61, 42); (65, 40); (14, 0); (2, 2)]%Z.
Definition turned : list (Z * Z) := (fun p => (1000 - p.2, 5 + p.1)%Z) <$> spread.
Definition threefold : list (Z * Z) := (fun p => (3 * p.1, 3 * p.2)%Z) <$> spread.
Lemma lattice_plane l : length l = 12 -> forallb (fun p => (Z.abs p.1 <? 2 ^ 53)%Z && (Z.abs p.2 <? 2 ^ 53)%Z)%bool l = true ->
  forallb (fun i => forallb (fun j => zdist (flat l i) (flat l j) 2 <? 2 ^ 53)%Z (seq 0 12)) (seq 0 12) = true -> lattice (plane l) 12 (flat l).
Proof.
  intros Hl Hb Hz. constructor.
  - intros i t Hi Ht. cbn [plane ds_dim] in Ht. rewrite <- Hl in Hi. apply lookup_lt_is_Some in Hi as [p Hp]. unfold coord, flat. cbn [plane ds_matrix ds_dim]. rewrite Hp. cbn [default].
    assert (concat ((fun p => [d_of_Z p.1; d_of_Z p.2]) <$> l) !! (i * 2 + t) = Some (match t with 0 => d_of_Z p.1 | _ => d_of_Z p.2 end)) as ->.
    { clear Hl Hb Hz. revert i Hp. induction l as [|q l IH]; intros i Hp; [done|]. destruct i as [|i]; [injection Hp as ->; destruct t as [|[|t]]; [done|done|lia]|]. apply (IH i Hp). }
    rewrite forallb_forall in Hb. specialize (Hb p (proj1 (elem_of_list_In _ _) (elem_of_list_lookup_2 _ _ _ Hp))). apply andb_prop in Hb as [B1%Z.ltb_lt B2%Z.ltb_lt]. by destruct t.
  - intros i j Hi Hj. apply Z.ltb_lt. apply (all_12 _ (all_12 _ Hz i Hi) j Hj).
Qed.
Definition threefold_options : options := set_radii excl_options (d_of_Z 9) (d_of_Z 6) d_zero.
Lemma turned_isometric : isometric 12 2 2 (flat spread) (flat turned).
Proof. intros i j Hi Hj. do 12 (destruct i as [|i]; [do 12 (destruct j as [|j]; [by vm_compute|]); lia|]). lia. Qed.
Lemma flat_examples : lattice (plane spread) 12 (flat spread) /\ lattice (plane turned) 12 (flat turned) /\ lattice (plane threefold) 12 (multiple 3 (flat spread)).
Proof.
  split; [apply lattice_plane; by vm_compute|]. split; [apply lattice_plane; by vm_compute|].
  assert (lattice (plane threefold) 12 (flat threefold)) as [H1 H2] by (apply lattice_plane; by vm_compute).
  assert (forall i t, i < 12 -> t < 2 -> flat threefold i t = multiple 3 (flat spread) i t) as He.
  { intros i t Hi Ht. destruct t as [|[|t]]; [| |lia]; do 12 (destruct i as [|i]; [by vm_compute|]); lia. }
  constructor; [intros i t Hi Ht; rewrite <- He by done; by apply H1|]. intros i j Hi Hj. rewrite <- (zdist_ext (flat threefold i) (flat threefold j)); [by apply H2|]. intros t Ht. by rewrite !He.
Qed.
Lemma flat_data : data_ok (plane spread) 12 /\ data_ok (plane turned) 12 /\ data_ok (plane threefold) 12.
Proof. split; [|split]; apply plane_data; by vm_compute. Qed.
Lemma int_example : lattice (plane spread) 12 (flat spread) /\ lattice (plane turned) 12 (flat turned) /\ isometric 12 2 2 (flat spread) (flat turned) /\
  data_call default_config (plane spread) 12 excl_options (new_clustering 12) /\ data_call default_config (plane turned) 12 excl_options (new_clustering 12) /\
  ends (run_on (plane spread) excl_options) ER_OK 2 [1; 0; 1; 1; 0; 0; 0; 1; 0; 0; 0; 1]%Z 1 /\ ends (run_on (plane turned) excl_options) ER_OK 2 [1; 0; 1; 1; 0; 0; 0; 1; 0; 0; 0; 1]%Z 1.
Proof.
  destruct flat_examples as (F1 & F2 & _). destruct flat_data as (D1 & D2 & _). assert (callable pts excl_options) as Hc by (apply callable_by; by vm_compute).
  split; [done|]. split; [done|]. split; [exact turned_isometric|]. do 2 (split; [by apply data_call_on|]). split; apply ends_by; by vm_compute.
Qed.
Lemma int_hier_example : data_hier default_config (plane spread) 12 sort_edges 2 (new_clustering 12) /\ data_hier default_config (plane turned) 12 sort_edges 2 (new_clustering 12) /\
  few_duplicates 12 (eucl (plane spread)) (2 * 2) /\ qsort_repeatable sort_edges /\
  ends (hier_on (plane spread) 2) ER_OK 5 [4; 2; 4; 4; 1; 0; 2; 3; 0; 0; 1; 3]%Z 1 /\ ends (hier_on (plane turned) 2) ER_OK 5 [4; 2; 4; 4; 1; 0; 2; 3; 0; 0; 1; 3]%Z 1.
Proof.
  destruct flat_data as (D1 & D2 & _). do 2 (split; [by apply data_hier_on|]). split; [apply few_duplicates_by; by vm_compute|]. split; [done|]. split; apply ends_by; by vm_compute.
Qed.
Lemma multiple_example : lattice (plane spread) 12 (flat spread) /\ lattice (plane threefold) 12 (multiple 3 (flat spread)) /\ no_estimate excl_options /\
  o_srad excl_options = RM_USE_SUPPLIED /\ radius_times 3 (o_srad_val excl_options) (d_of_Z 9) /\ o_prad excl_options = RM_USE_SUPPLIED /\ radius_times 3 (o_prad_val excl_options) (d_of_Z 6) /\ o_2rad excl_options <> RM_USE_SUPPLIED /\
  data_call default_config (plane threefold) 12 threefold_options (new_clustering 12) /\ ends (run_on (plane threefold) threefold_options) ER_OK 2 [1; 0; 1; 1; 0; 0; 0; 1; 0; 0; 0; 1]%Z 1.
Proof.
  destruct flat_examples as (F1 & _ & F3). destruct flat_data as (_ & _ & D3). assert (callable pts threefold_options) as Hc by (apply callable_by; by vm_compute).
  split; [done|]. split; [done|]. split; [done|]. split; [done|]. split; [by exists 3%Z|]. split; [done|]. split; [by exists 2%Z|]. split; [done|]. split; [by apply data_call_on|]. apply ends_by; by vm_compute.
Qed.
