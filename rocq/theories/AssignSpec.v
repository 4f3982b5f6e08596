(** What the assignment stages are to compute, on label lists. *)

From stdpp Require Import prelude list sorting.
From Verif Require Import Float Spi Options GraphSpec SeedSpec.

(** A label per point; [None] is SCC_CLABEL_NA. *)
Notation labels := (list (option nat)).

Definition lab (L : labels) (x : nat) : option nat := default None (L !! x).

Lemma lab_lookup L x : x < length L -> L !! x = Some (lab L x).
Proof. intros [o Ho]%lookup_lt_is_Some_2. unfold lab. by rewrite Ho. Qed.

Lemma lab_ge L x : length L <= x -> lab L x = None.
Proof. intros H. unfold lab. by rewrite lookup_ge_None_2. Qed.

Lemma lab_lt L x i : lab L x = Some i -> x < length L.
Proof. intros H. destruct (decide (x < length L)); [done|]. rewrite lab_ge in H by lia. done. Qed.

Lemma labels_ext (L L' : labels) : length L = length L' -> (forall x, x < length L -> lab L x = lab L' x) -> L = L'.
Proof.
  intros Hl H. apply list_eq. intros x. destruct (decide (x < length L)) as [Hx|Hx].
  - rewrite !lab_lookup by lia. f_equal. auto.
  - rewrite !lookup_ge_None_2 by lia. done.
Qed.

Definition assigned (L : labels) (x : nat) : Prop := lab L x <> None.
Global Instance assigned_dec L x : Decision (assigned L x).
Proof. unfold assigned. apply _. Defined.

(** Seed [i] and its neighbours carry label [i]. *)
Definition seed_label (g : list (list nat)) (ss : list nat) (x : nat) : option nat :=
  fst <$> list_find (fun s => x ∈ closed g s) ss.
Definition seed_labels (g : list (list nat)) (ss : list nat) (n : nat) : labels := seed_label g ss <$> seq 0 n.

(** Label of the first assigned neighbour. *)
Definition neighbor_label (g : list (list nat)) (L : labels) (x : nat) : option nat :=
  match list_find (assigned L) (adj g x) with Some (_, y) => lab L y | None => None end.
Definition by_neighbors (g : list (list nat)) (L : labels) : labels :=
  imap (fun x o => match o with Some i => Some i | None => neighbor_label g L x end) L.

(** Enough points of [S] within the radius. *)
Definition feasible (G : geometry) (S : list nat) (k : nat) (rad : option double) (q : nat) : Prop :=
  k <= length (filter (fun x => within_opt G rad q x = true) S).
Global Instance feasible_dec G S k rad q : Decision (feasible G S k rad q) := decide (_ <= _).

(** Unassigned points of [T] with a point of [S] within the radius get the label
    of a nearest one. *)
Definition by_search (G : geometry) (S T : list nat) (rad : option double) (L L' : labels) : Prop :=
  length L' = length L /\
  forall x, x < length L ->
    if decide (x ∈ T /\ ~ assigned L x /\ feasible G S 1 rad x)
    then exists y, nearest G S 1 x [y] /\ within_opt G rad x y = true /\ lab L' x = lab L y
    else lab L' x = lab L x.

(** A stage with method [um]: [Sa] are the points assigned as seeds or
    neighbours, [Ss] the seeds, [T] the candidates. *)
Definition stage (G : geometry) (um : unassigned_method) (Sa Ss T : list nat) (rad : option double) (L L' : labels) : Prop :=
  match um with
  | UM_CLOSEST_ASSIGNED => by_search G Sa T rad L L'
  | UM_CLOSEST_SEED => by_search G Ss T rad L L'
  | _ => L' = L
  end.

(** Labels [L'] of all points given the seeds [ss] in the graph [g]: first the
    seeds and their neighbours; then, if [nng], the points with an assigned
    neighbour; then the other points of [T] by search with the primary method,
    and the other points by search with the secondary method. Under [skip]
    stages may be left out. *)
Definition assignment (skip : Prop) (G : geometry) (n : nat) (g : list (list nat)) (ss : list nat) (nng : bool)
    (um1 : unassigned_method) (rad1 : option double) (T : list nat)
    (um2 : unassigned_method) (rad2 : option double) (L' : labels) : Prop :=
  let L0 := seed_labels g ss n in
  let Sa := filter (assigned L0) (seq 0 n) in
  exists L1 L2,
    (L1 = (if nng then by_neighbors g L0 else L0) \/ (skip /\ L1 = L0)) /\
    (stage G um1 Sa ss T rad1 L1 L2 \/ (skip /\ L2 = L1)) /\
    (stage G um2 Sa ss (seq 0 n) rad2 L2 L' \/ (skip /\ L' = L2)).

(** Estimated average distance between seeds and their neighbours, from every
    [step]-th seed if there are more than 1000. *)
Definition est_step (count : nat) : nat := if decide (1000 < count) then count / 1000 else 1.
Definition est_sample (ss : list nat) : list nat :=
  let step := est_step (length ss) in
  (fun i => default 0 (ss !! (i * step))) <$> seq 0 ((length ss + step - 1) / step).
Definition avg_dist (D : dist_fun) (g : list (list nat)) (s : nat) : double :=
  let r := filter (fun x => x <> s) (adj g s) in
  d_div (foldl d_add d_zero (D s <$> r)) (d_of_nat (length r)).
Definition est_dist (D : dist_fun) (g : list (list nat)) (ss : list nat) : double :=
  let sm := est_sample ss in d_div (foldl d_add d_zero (avg_dist D g <$> sm)) (d_of_nat (length sm)).

(** ** Facts *)

Lemma seed_label_app g ss s x : seed_label g (ss ++ [s]) x =
  match seed_label g ss x with Some i => Some i | None => if decide (x ∈ closed g s) then Some (length ss) else None end.
Proof.
  unfold seed_label. destruct (list_find (fun s => x ∈ closed g s) ss) as [[i s']|] eqn:E.
  - erewrite list_find_app_l by done. done.
  - rewrite list_find_app_r by done. cbn [list_find]. destruct (decide (x ∈ closed g s)); done.
Qed.

Lemma seed_label_Some g ss x i : seed_label g ss x = Some i -> exists s, ss !! i = Some s /\ x ∈ closed g s.
Proof.
  unfold seed_label. intros H. apply fmap_Some in H as ([j s] & H & ->). apply list_find_Some in H as (? & ? & _). eauto.
Qed.

Lemma seed_label_None g ss x : seed_label g ss x = None <-> ~ covered g ss x.
Proof.
  unfold seed_label. rewrite fmap_None, list_find_None, Forall_forall. unfold covered. naive_solver.
Qed.

Lemma seed_labels_length g ss n : length (seed_labels g ss n) = n.
Proof. unfold seed_labels. by rewrite fmap_length, seq_length. Qed.

Lemma seed_labels_lab g ss n x : x < n -> lab (seed_labels g ss n) x = seed_label g ss x.
Proof. intros H. unfold lab, seed_labels. by rewrite list_lookup_fmap, lookup_seq_lt. Qed.

Lemma by_neighbors_length g L : length (by_neighbors g L) = length L.
Proof. apply imap_length. Qed.

Lemma by_neighbors_lab g L x : x < length L ->
  lab (by_neighbors g L) x = match lab L x with Some i => Some i | None => neighbor_label g L x end.
Proof. intros H. unfold lab at 1, by_neighbors. rewrite list_lookup_imap, (lab_lookup _ _ H). done. Qed.

Lemma neighbor_label_Some g L x i : neighbor_label g L x = Some i -> exists y, y ∈ adj g x /\ lab L y = Some i.
Proof.
  unfold neighbor_label. destruct (list_find (assigned L) (adj g x)) as [[j y]|] eqn:E; [|done].
  apply list_find_Some in E as (Hy & _). intros ?. exists y. split; [|done]. by eapply elem_of_list_lookup_2.
Qed.

Lemma neighbor_label_None g L x : neighbor_label g L x = None <-> Forall (fun y => ~ assigned L y) (adj g x).
Proof.
  unfold neighbor_label. destruct (list_find (assigned L) (adj g x)) as [[j y]|] eqn:E.
  - apply list_find_Some in E as (Hy & Ha & _). split; [done|]. intros Hf. exfalso. eapply Forall_lookup_1 in Hf; [|exact Hy]. done.
  - apply list_find_None in E. done.
Qed.
