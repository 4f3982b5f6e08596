(** What the seed finding methods are to compute, on adjacency lists. *)

From stdpp Require Import prelude list.
From Verif Require Import GraphSpec.

(** Closed neighbourhood of a vertex. *)
Definition closed (g : list (list nat)) (v : nat) : list nat := v :: adj g v.

(** [u] is a seed or a neighbour of a seed. *)
Definition covered (g : list (list nat)) (seeds : list nat) (u : nat) : Prop :=
  exists s, s ∈ seeds /\ u ∈ closed g s.

Global Instance covered_dec g seeds u : Decision (covered g seeds u).
Proof.
  refine (cast_if (decide (Exists (fun s => u ∈ closed g s) seeds))); unfold covered;
    rewrite Exists_exists in *; done.
Defined.

(** [v] can be added to [seeds]: it has neighbours, and none of its closed
    neighbourhood is covered. *)
Definition addable (g : list (list nat)) (seeds : list nat) (v : nat) : Prop :=
  adj g v <> [] /\ Forall (fun u => ~ covered g seeds u) (closed g v).

Global Instance addable_dec g seeds v : Decision (addable g seeds v).
Proof. unfold addable. apply _. Defined.

(** Seeds picked when the vertices are visited in the order [ord]. *)
Fixpoint greedy (g : list (list nat)) (acc ord : list nat) : list nat :=
  match ord with
  | [] => acc
  | v :: ord' => greedy g (if decide (addable g acc v) then acc ++ [v] else acc) ord'
  end.

(** Independent and maximal: the seeds are different vertices with neighbours,
    no two of which share a point of their closed neighbourhoods, and each vertex
    with neighbours shares a point with some seed (possibly itself). *)
Definition independent_maximal (g : list (list nat)) (seeds : list nat) : Prop :=
  Forall (fun s => s < length g /\ adj g s <> []) seeds /\
  (forall i j s t, seeds !! i = Some s -> seeds !! j = Some t -> i <> j ->
     forall u, u ∈ closed g s -> u ∈ closed g t -> False) /\
  (forall v, v < length g -> adj g v <> [] -> exists s u, s ∈ seeds /\ u ∈ closed g s /\ u ∈ closed g v).

(** Number of vertices that satisfy [P] and have an arc to [v]. *)
Definition arcs_from (P : nat -> bool) (g : list (list nat)) (v : nat) : nat :=
  length (filter (fun x => P x = true /\ v ∈ adj g x) (seq 0 (length g))).

Definition indegree (g : list (list nat)) (v : nat) : nat := arcs_from (fun _ => true) g v.

(** [x] and [v] cannot both be seeds. *)
Definition conflict (g : list (list nat)) (x v : nat) : Prop :=
  x <> v /\ Exists (fun u => u ∈ closed g v) (closed g x).
Global Instance conflict_dec g x v : Decision (conflict g x v).
Proof. unfold conflict. apply _. Defined.

(** Number of vertices with neighbours satisfying [P] that conflict with [v]. *)
Definition conflicts_from (P : nat -> bool) (g : list (list nat)) (v : nat) : nat :=
  length (filter (fun x => P x = true /\ adj g x <> [] /\ conflict g x v) (seq 0 (length g))).

(** [ord] lists all vertices in ascending order of [key], ties by index. *)
Definition ordered_by (n : nat) (key : nat -> nat) (ord : list nat) : Prop :=
  ord ≡ₚ seq 0 n /\
  forall i j u v, i < j -> ord !! i = Some u -> ord !! j = Some v ->
    key u < key v \/ (key u = key v /\ u < v).

(** A visiting order of all vertices in which every vertex that, when its turn
    comes, is [elig]ible given the vertices visited before, has the smallest
    [key] among the eligible ones still to come. *)
Definition visits_smallest (n : nat) (elig : list nat -> nat -> Prop)
    (key : list nat -> nat -> nat) (ord : list nat) : Prop :=
  ord ≡ₚ seq 0 n /\
  forall pre v post u, ord = pre ++ v :: post -> elig pre v -> u ∈ post -> elig pre u ->
    key pre v <= key pre u.

(** The same with equal keys taken in the order of the indices. *)
Definition visits_first (n : nat) (elig : list nat -> nat -> Prop)
    (key : list nat -> nat -> nat) (ord : list nat) : Prop :=
  ord ≡ₚ seq 0 n /\
  forall pre v post u, ord = pre ++ v :: post -> elig pre v -> u ∈ post -> elig pre u ->
    key pre v < key pre u \/ (key pre v = key pre u /\ v < u).

(** [stable]: whether equal keys are taken in the order of the indices. *)
Definition visits (stable : bool) (n : nat) (elig : list nat -> nat -> Prop)
    (key : list nat -> nat -> nat) (ord : list nat) : Prop :=
  if stable then visits_first n elig key ord else visits_smallest n elig key ord.

Lemma visits_is_smallest st n elig key ord : visits st n elig key ord -> visits_smallest n elig key ord.
Proof.
  destruct st; [|done]. intros [Hp H]. split; [done|]. intros pre v post u E Hv Hu Hu'.
  destruct (H pre v post u E Hv Hu Hu'); lia.
Qed.

(** Inwards updating: eligible are the vertices with neighbours not covered by
    the seeds found so far; the key is the number of arcs from vertices that are
    neither visited nor covered. *)
Definition inwards_elig (g : list (list nat)) (pre : list nat) (v : nat) : Prop :=
  adj g v <> [] /\ ~ covered g (greedy g [] pre) v.
Definition inwards_key (g : list (list nat)) (pre : list nat) (v : nat) : nat :=
  arcs_from (fun x => bool_decide (x ∉ pre /\ ~ covered g (greedy g [] pre) x)) g v.

(** Exclusion updating: eligible are the vertices that can still become seeds;
    the key is the number of other such vertices in conflict with the vertex. *)
Definition exclusion_elig (g : list (list nat)) (pre : list nat) (v : nat) : Prop :=
  addable g (greedy g [] pre) v.
Definition exclusion_key (g : list (list nat)) (pre : list nat) (v : nat) : nat :=
  conflicts_from (fun x => bool_decide (addable g (greedy g [] pre) x)) g v.

(** ** Facts about the specification *)

Lemma greedy_app g acc l1 l2 : greedy g acc (l1 ++ l2) = greedy g (greedy g acc l1) l2.
Proof. revert acc. induction l1 as [|v l1 IH]; intros acc; simpl; auto. Qed.

Lemma greedy_snoc g acc l v :
  greedy g acc (l ++ [v]) =
    if decide (addable g (greedy g acc l) v) then greedy g acc l ++ [v] else greedy g acc l.
Proof. rewrite greedy_app. done. Qed.

Lemma covered_app g s1 s2 u : covered g (s1 ++ s2) u <-> covered g s1 u \/ covered g s2 u.
Proof.
  unfold covered. setoid_rewrite elem_of_app. naive_solver.
Qed.

Lemma covered_single g s u : covered g [s] u <-> u ∈ closed g s.
Proof. unfold covered. setoid_rewrite elem_of_list_singleton. naive_solver. Qed.

Lemma greedy_incl g acc ord : exists more, greedy g acc ord = acc ++ more /\ more ⊆ ord.
Proof.
  revert acc. induction ord as [|v ord IH]; intros acc; simpl.
  - exists []. rewrite app_nil_r. done.
  - destruct (IH (if decide (addable g acc v) then acc ++ [v] else acc)) as (m & -> & Hm).
    destruct (decide (addable g acc v)).
    + exists (v :: m). rewrite <- app_assoc. split; [done|]. intros x. rewrite !elem_of_cons. naive_solver.
    + exists m. split; [done|]. intros x. rewrite elem_of_cons. naive_solver.
Qed.

(** Every greedy choice over all vertices is independent and maximal. *)
Lemma greedy_independent g ord : Forall (fun v => v < length g) ord ->
  let ss := greedy g [] ord in
  Forall (fun s => s < length g /\ adj g s <> []) ss /\
  (forall i j s t, ss !! i = Some s -> ss !! j = Some t -> i <> j ->
     forall u, u ∈ closed g s -> u ∈ closed g t -> False) /\
  (forall v, v ∈ ord -> adj g v <> [] -> exists s u, s ∈ ss /\ u ∈ closed g s /\ u ∈ closed g v).
Proof.
  induction ord as [|v ord IH] using rev_ind; intros Hlt; simpl.
  { split; [done|]. split; [done|]. intros v Hv. by apply elem_of_nil in Hv. }
  apply Forall_app in Hlt as [Hlt Hv]. inversion Hv as [|? ? Hv' _]; subst.
  specialize (IH Hlt) as (I1 & I2 & I3). simpl in *.
  rewrite greedy_snoc. set (ss := greedy g [] ord) in *.
  destruct (decide (addable g ss v)) as [[Ha Hf]|Hna].
  - split; [apply Forall_app; split; [done|by constructor]|]. split.
    + assert (forall s u, s ∈ ss -> u ∈ closed g s -> u ∈ closed g v -> False) as Hd.
      { intros s u Hs Hu Huv. rewrite Forall_forall in Hf. apply (Hf u Huv). by exists s. }
      intros i j s t Hi Hj Hij u Hus Hut.
      apply lookup_app_Some in Hi as [Hi|[Hi1 Hi]]; apply lookup_app_Some in Hj as [Hj|[Hj1 Hj]].
      * eauto.
      * apply list_lookup_singleton_Some in Hj as [? <-]. apply elem_of_list_lookup_2 in Hi. eauto.
      * apply list_lookup_singleton_Some in Hi as [? <-]. apply elem_of_list_lookup_2 in Hj. eauto.
      * apply list_lookup_singleton_Some in Hi as [? <-]. apply list_lookup_singleton_Some in Hj as [? <-]. lia.
    + intros x Hx Hax. apply elem_of_app in Hx as [Hx|Hx].
      * destruct (I3 x Hx Hax) as (s & u & ? & ? & ?). exists s, u. rewrite elem_of_app. auto.
      * apply elem_of_list_singleton in Hx as ->. exists v, v. rewrite elem_of_app, elem_of_list_singleton.
        unfold closed. rewrite elem_of_cons. auto.
  - split; [done|]. split; [done|].
    intros x Hx Hax. apply elem_of_app in Hx as [Hx|Hx]; [eauto|].
    apply elem_of_list_singleton in Hx as ->.
    assert (Exists (fun u => covered g ss u) (closed g v)) as He.
    { destruct (decide (Exists (fun u => covered g ss u) (closed g v))) as [|Hn]; [done|].
      exfalso. apply Hna. split; [done|]. by apply Forall_Exists_neg. }
    apply Exists_exists in He as (u & Hu & s & Hs & Hus). eauto.
Qed.

Lemma greedy_independent_maximal g ord : ord ≡ₚ seq 0 (length g) ->
  independent_maximal g (greedy g [] ord).
Proof.
  intros Hp. destruct (greedy_independent g ord) as (H1 & H2 & H3).
  { apply Forall_forall. intros x. rewrite Hp. rewrite elem_of_seq. lia. }
  split; [done|]. split; [done|]. intros v Hv. apply H3. rewrite Hp. rewrite elem_of_seq. lia.
Qed.
