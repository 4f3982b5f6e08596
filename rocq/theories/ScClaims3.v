(** Consequences for users of calls that return SCC_ER_OK: what is computed, and
    where points outside the groups of the seeds go. *)

From stdpp Require Import prelude list sorting.
From Coq Require Import NArith ZArith.
From Verif Require Import Base SortIdx World Mem Digraph DigraphRep DigraphDiff Float Spi Options Arrays GraphSpec SeedSpec AssignSpec SeedsExcl
  Nng NngGraph NngSize NngAssign NngStage TypeCount TypeRows Batch BatchSpec BatchProof OptionsProof NngClustering
  ScSpec ScProof ClusSpec ScFacts Approx ScClaims ScClaims2.

(** ** Order of the rows of the graph *)

Lemma sorted_of_lookup {A} (R : A -> A -> Prop) l :
  (forall i j x y, i < j -> l !! i = Some x -> l !! j = Some y -> R x y) -> StronglySorted R l.
Proof.
  induction l as [|a l IH]; intros H; constructor.
  - apply IH. intros i j x y Hij Hi Hj. apply (H (S i) (S j)); [lia|done|done].
  - apply Forall_forall. intros y Hy. apply elem_of_list_lookup in Hy as [j Hj]. apply (H 0 (S j)); [lia|done|done].
Qed.

Lemma sorted_lookup {A} (R : A -> A -> Prop) l i j x y : StronglySorted R l -> i < j -> l !! i = Some x -> l !! j = Some y -> R x y.
Proof.
  intros H. revert i j. induction H as [|a l Hs IH Hf]; intros i j Hij Hi Hj; [done|]. destruct j as [|j]; [lia|]. destruct i as [|i]; simpl in *.
  - injection Hi as <-. eapply Forall_lookup_1; eauto.
  - eapply (IH i j); eauto. lia.
Qed.

Lemma sorted_filter {A} (R : A -> A -> Prop) (P : A -> Prop) `{forall x, Decision (P x)} l : StronglySorted R l -> StronglySorted R (filter P l).
Proof.
  induction 1 as [|a l Hs IH Hf]; [constructor|]. rewrite filter_cons. destruct (decide (P a)); [|done]. constructor; [done|].
  apply Forall_forall. intros y [_ Hy]%elem_of_list_filter. rewrite Forall_forall in Hf. auto.
Qed.

Lemma nearest_row_sorted G S k v c i j x y : nearest G S k v c ->
  filter (fun x => x <> v) (self_row v c) !! i = Some x -> filter (fun x => x <> v) (self_row v c) !! j = Some y -> i < j -> nearer G v x y = true.
Proof.
  intros Hc Hi Hj Hij.
  assert (StronglySorted (fun x y => nearer G v x y = true \/ x = v \/ y = v) (self_row v c)) as Hs.
  { apply sorted_of_lookup. intros i' j' x' y' Hlt Hi' Hj'. unfold self_row in Hi', Hj'. destruct (decide (c = [] \/ v ∈ c)).
    - left. by eapply (nst_sorted _ _ _ _ _ Hc i' j').
    - apply list_lookup_insert_Some in Hi' as [(_ & <- & _)|[_ Hi']]; [auto|]. apply list_lookup_insert_Some in Hj' as [(_ & <- & _)|[_ Hj']]; [auto|].
      left. by eapply (nst_sorted _ _ _ _ _ Hc i' j'). }
  pose proof (sorted_lookup _ _ _ _ _ _ (sorted_filter _ (fun x => x <> v) _ Hs) Hij Hi Hj) as [?|[-> | ->]]; [done| |].
  - apply elem_of_list_lookup_2, elem_of_list_filter in Hi. tauto.
  - apply elem_of_list_lookup_2, elem_of_list_filter in Hj. tauto.
Qed.

(** ** Points that join the group of an assigned point *)

Section Result.
Context {cfg : config} (skip : Prop) (o : options) (n : nat) (G : geometry) (D : dist_fun) (g : list (list nat)) (ss : list nat) (L : labels) (m : nat).
Hypothesis (Hv : options_valid o n) (Hs : options_sane o n) (HR : sc_result cfg skip o n G D g ss L m).
Notation L0 := (seed_labels g ss n).
Notation Sa := (filter (assigned L0) (seq 0 n)).
Notation in_group := (in_group g ss).
Notation rad1 := (radius_of (o_pum o) (o_prad o) (o_prad_val o) (srad_of o) (est_dist D g ss)).
Notation rad2 := (radius_of (o_sum o) (o_2rad o) (o_2rad_val o) (srad_of o) (est_dist D g ss)).

Lemma group_lab i y : lab L0 y = Some i <-> exists s, ss !! i = Some s /\ y ∈ closed g s.
Proof.
  split.
  - intros H. pose proof (lab_lt _ _ _ H) as Hy. rewrite seed_labels_length in Hy. rewrite seed_labels_lab in H by done. by apply seed_label_Some.
  - intros (s & Hi & Hy). pose proof (elem_of_list_lookup_2 _ _ _ Hi) as Hin. destruct (res_closed _ _ _ _ _ _ _ _ _ Hv Hs HR s Hin) as (_ & Hlt & _).
    rewrite Forall_forall in Hlt. rewrite seed_labels_lab by auto. pose proof HR as [_ _ Him _ _ _]. by eapply seed_label_group.
Qed.

Lemma group_lt y : in_group y -> y < n.
Proof.
  intros (s & Hin & Hy). destruct (res_closed _ _ _ _ _ _ _ _ _ Hv Hs HR s Hin) as (_ & Hlt & _). rewrite Forall_forall in Hlt. auto.
Qed.

Lemma group_assigned y : assigned L0 y <-> in_group y.
Proof.
  unfold assigned. destruct (lab L0 y) as [i|] eqn:E.
  - split; [|done]. intros _. apply group_lab in E as (s & Hi & Hy). exists s. split; [by eapply elem_of_list_lookup_2|done].
  - split; [done|]. intros (s & Hin & Hy). exfalso. apply elem_of_list_lookup in Hin as [i Hi].
    assert (lab L0 y = Some i) by (apply group_lab; eauto). congruence.
Qed.

Lemma elem_of_Sa y : y ∈ Sa <-> in_group y.
Proof.
  rewrite elem_of_list_filter, group_assigned, elem_of_seq. split; [tauto|]. intros H. split; [done|]. pose proof (group_lt y H). lia.
Qed.

(** [x] has the label of a point in a group that is nearest to it. *)
Definition joins (rad : option double) (x : nat) (o : option nat) : Prop :=
  exists i s y, o = Some i /\ ss !! i = Some s /\ y ∈ closed g s /\ within_opt G rad x y = true /\
    forall z, in_group z -> z <> y -> nearer G x y z = true.

Lemma closest_assigned_stage L1 L2 T rad x : by_search G Sa T rad L1 L2 -> (forall y i, lab L0 y = Some i -> lab L1 y = Some i) ->
  x < length L1 -> lab L1 x = None -> x ∈ T ->
  joins rad x (lab L2 x) \/ (lab L2 x = None /\ forall y, in_group y -> within_opt G rad x y = false).
Proof.
  intros [Hl H] Hsd Hx HN HT. specialize (H x Hx). destruct (decide (x ∈ T /\ ~ assigned L1 x /\ feasible G Sa 1 rad x)) as [Hd|Hd].
  - left. destruct H as (y & Hy & Hw & Hlab). destruct (nearest_one _ _ _ _ Hy) as [Hin Hz]; [apply NoDup_filter, NoDup_seq|].
    apply elem_of_list_filter in Hin as [Ha _]. unfold assigned in Ha. destruct (lab L0 y) as [i|] eqn:E; [|done].
    pose proof (proj1 (group_lab _ _) E) as (s & Hi & Hys). exists i, s, y. splits; auto.
    + rewrite Hlab. auto.
    + intros z Hzg Hne. destruct (Hz z); [by apply elem_of_Sa|done|congruence].
  - right. rewrite H. split; [done|]. intros y Hy. destruct (within_opt G rad x y) eqn:E; [|done]. exfalso. apply Hd. split; [done|]. split; [intros Hn; by apply Hn|].
    unfold feasible. destruct (filter (fun y => within_opt G rad x y = true) Sa) eqn:Ef; [|simpl; lia].
    assert (y ∈ filter (fun y => within_opt G rad x y = true) Sa) as Hs' by (apply elem_of_list_filter; split; [done|by apply elem_of_Sa]).
    rewrite Ef in Hs'. by apply elem_of_nil in Hs'.
Qed.

(** The first assigned neighbour is a nearest assigned point. *)
Lemma first_neighbor x i : stable_nng cfg = false -> o_num_types o < 2 -> x < n -> ~ in_group x -> neighbor_label g L0 x = Some i -> seedable o n G x /\ joins (srad_of o) x (Some i).
Proof.
  intros Hst Ht Hx Hng H. unfold neighbor_label in H. destruct (list_find (assigned L0) (adj g x)) as [[j y]|] eqn:E; [|done].
  apply list_find_Some in E as (Hj & Hy & Hbefore). pose proof HR as [Hg _ _ _ _ _].
  assert (seedable o n G x) as Hsd. { apply (nng_graph_seedable o n G Hv Hs g x Hg). intros En. by rewrite En in Hj. }
  split; [done|]. destruct Hsd as [Hp Hf]. rewrite decide_True in Hf by done. unfold nng_graph in Hg. rewrite decide_True in Hg by done. pose proof (ov_size _ _ Hv) as Hsz.
  pose proof (proj1 (group_lab _ _) H) as (s & Hi & Hys). exists i, s, y. splits; auto.
  - eapply (size_row_nearest _ n G _ _ _ g x y 0 Hg Hp Hf); [lia|by eapply elem_of_list_lookup_2].
  - intros z Hz Hne. destruct (decide (z ∈ adj g x)) as [Hzin|Hzin].
    + apply elem_of_list_lookup in Hzin as [j' Hj']. assert (j < j') as Hlt.
      { destruct (decide (j' = j)) as [-> |]; [congruence|]. destruct (decide (j' < j)); [|lia]. exfalso. apply (Hbefore j' z); [done|lia|]. by apply group_assigned. }
      destruct (sg_row _ _ _ _ _ _ _ Hg x Hp Hf) as (c & Hc & _ & E). rewrite Hst in E. cbn [arrange] in E. rewrite E in Hj, Hj'. by eapply nearest_row_sorted.
    + eapply (size_row_nearest _ n G _ _ _ g x y z Hg Hp Hf); [lia|by eapply elem_of_list_lookup_2|by apply group_lt|].
      intros [-> |?]%elem_of_cons; done.
Qed.

(** Nothing changes in the stages for a point with a label. *)
Lemma stages_keep L1 L2 x i : (stage G (o_pum o) Sa ss (primary o n) rad1 L1 L2 \/ skip /\ L2 = L1) ->
  (stage G (o_sum o) Sa ss (seq 0 n) rad2 L2 L \/ skip /\ L = L2) -> lab L1 x = Some i -> lab L2 x = Some i /\ lab L x = Some i.
Proof.
  intros H2 H3 H. assert (lab L2 x = Some i) as E2. { destruct H2 as [H2|[_ ->]]; [by eapply stage_keeps|done]. }
  split; [done|]. destruct H3 as [H3|[_ ->]]; [by eapply stage_keeps|done].
Qed.

(** Primary points, closest assigned. *)
Lemma res_assigned_primary x : ~ skip -> o_pum o = UM_CLOSEST_ASSIGNED -> x ∈ primary o n -> ~ in_group x ->
  if decide (o_num_types o < 2 /\ seedable o n G x)
  then (exists i s y, lab L x = Some i /\ ss !! i = Some s /\ y ∈ closed g s /\ y ∈ adj g x) /\ (stable_nng cfg = false -> joins (srad_of o) x (lab L x))
  else joins rad1 x (lab L x) \/ ((forall y, in_group y -> within_opt G rad1 x y = false) /\ (o_sum o = UM_IGNORE -> lab L x = None)).
Proof.
  intros Hsk Hum Hp Hng. pose proof (primary_lt o n Hv Hs x Hp) as Hx. pose proof HR as [Hg _ _ _ _ (L1 & L2 & H1 & H2 & H3)].
  pose proof (not_in_group n g ss x Hx Hng) as HN. destruct H1 as [H1|[? _]]; [|done].
  assert (forall y i, lab L0 y = Some i -> lab L1 y = Some i) as Hk1.
  { intros y i Hy. rewrite H1. destruct (uses_nng _ _); [by apply by_neighbors_keeps|done]. }
  assert (length L1 = n) as Hl1. { rewrite H1. destruct (uses_nng _ _); rewrite ?by_neighbors_length; apply seed_labels_length. }
  destruct (decide (o_num_types o < 2 /\ seedable o n G x)) as [[Ht Hsd]|Hd].
  - rewrite bool_decide_eq_true_2 in H1 by done. unfold uses_nng in H1. rewrite Hum, bool_decide_eq_true_2 in H1 by naive_solver.
    assert (adj g x <> []) as Hadj by (by apply (nng_graph_seedable o n G Hv Hs g x Hg)).
    destruct (res_near _ _ _ _ _ _ _ _ _ Hv Hs HR x Hx Hadj) as (u & i & Hu & Hui & _).
    assert (is_Some (neighbor_label g L0 x)) as [j Hj].
    { destruct (neighbor_label g L0 x) eqn:E; [eauto|]. exfalso. apply neighbor_label_None in E. rewrite Forall_forall in E.
      apply elem_of_cons in Hu as [-> |Hu]; [congruence|]. apply (E u Hu). unfold assigned. congruence. }
    assert (lab L1 x = Some j) as E1. { rewrite H1, by_neighbors_lab by (by rewrite seed_labels_length). by rewrite HN. }
    destruct (stages_keep L1 L2 x j H2 H3 E1) as [_ ->]. split.
    + destruct (neighbor_label_Some _ _ _ _ Hj) as (y & Hy & Hly). apply group_lab in Hly as (s & Hi & Hys). exists j, s, y. splits; auto.
    + intros Hst. by apply first_neighbor.
  - assert (lab L1 x = None) as E1.
    { rewrite H1. destruct (uses_nng _ _) eqn:Eu; [|done]. unfold uses_nng in Eu. apply bool_decide_eq_true in Eu. rewrite Hum in Eu.
      destruct Eu as [?|[Ht _]]; [done|]. apply bool_decide_eq_true in Ht. rewrite by_neighbors_lab by (by rewrite seed_labels_length). rewrite HN.
      apply neighbor_label_None. destruct (adj g x) eqn:Ea; [done|]. exfalso. apply Hd. split; [done|]. apply (nng_graph_seedable o n G Hv Hs g x Hg). by rewrite Ea. }
    destruct H2 as [H2|[? _]]; [|done]. pose proof H2 as H2'. rewrite Hum in H2'. simpl in H2'.
    eapply closest_assigned_stage in H2' as [HJ|[HN2 Hw]]; eauto; [left|right|by rewrite Hl1].
    + destruct HJ as (i & s & y & Hi & HJ). destruct H3 as [H3|[? _]]; [|done]. rewrite (stage_keeps _ _ _ _ _ _ _ _ _ _ H3 Hi).
      exists i, s, y. rewrite Hum. split; [done|]. done.
    + split; [by rewrite Hum|]. intros Hi. rewrite Hi in H3. simpl in H3. destruct H3 as [-> |[? _]]; done.
Qed.

(** Other points, and all points if the primary method is to ignore them. *)
Lemma res_assigned_secondary x : ~ skip -> o_sum o = UM_CLOSEST_ASSIGNED -> x < n -> (o_pum o = UM_IGNORE \/ x ∉ primary o n) -> ~ in_group x ->
  joins rad2 x (lab L x) \/ ((forall y, in_group y -> within_opt G rad2 x y = false) /\ lab L x = None).
Proof.
  intros Hsk Hum Hx Hp Hng. pose proof HR as [Hg _ _ _ _ (L1 & L2 & H1 & H2 & H3)].
  pose proof (not_in_group n g ss x Hx Hng) as HN. destruct H1 as [H1|[? _]]; [|done].
  assert (forall y i, lab L0 y = Some i -> lab L1 y = Some i) as Hk1.
  { intros y i Hy. rewrite H1. destruct (uses_nng _ _); [by apply by_neighbors_keeps|done]. }
  assert (length L1 = n) as Hl1. { rewrite H1. destruct (uses_nng _ _); rewrite ?by_neighbors_length; apply seed_labels_length. }
  assert (lab L1 x = None) as E1.
  { rewrite H1. destruct (uses_nng _ _) eqn:Eu; [|done]. rewrite by_neighbors_lab by (by rewrite seed_labels_length). rewrite HN.
    apply neighbor_label_None. destruct (adj g x) eqn:Ea; [done|]. exfalso. destruct Hp as [Hp|Hp].
    - rewrite Hp in Eu. unfold uses_nng in Eu. apply bool_decide_eq_true in Eu. naive_solver.
    - apply Hp. assert (seedable o n G x) as [? _]; [|done]. apply (nng_graph_seedable o n G Hv Hs g x Hg). by rewrite Ea. }
  destruct H2 as [H2|[? _]]; [|done]. destruct H3 as [H3|[? _]]; [|done].
  assert (lab L2 x = None) as E2.
  { destruct (o_pum o) eqn:Eo; simpl in H2; try congruence.
    - destruct Hp as [?|Hp]; [done|]. destruct H2 as [_ H2]. specialize (H2 x ltac:(lia)). rewrite decide_False in H2 by tauto. congruence.
    - destruct Hp as [?|Hp]; [done|]. destruct H2 as [_ H2]. specialize (H2 x ltac:(lia)). rewrite decide_False in H2 by tauto. congruence. }
  pose proof H3 as H3'. rewrite Hum in H3'. simpl in H3'. eapply closest_assigned_stage in H3' as [HJ|[HN2 Hw]]; eauto.
  - left. by rewrite Hum.
  - right. by rewrite Hum.
  - intros y i Hy. eapply stage_keeps; eauto.
  - rewrite (stage_length _ _ _ _ _ _ _ _ H2). lia.
  - apply elem_of_seq. lia.
Qed.

(** Primary points, any neighbour. *)
Lemma res_any_primary x : ~ skip -> o_pum o = UM_ANY_NEIGHBOR -> x ∈ primary o n -> ~ in_group x ->
  if decide (seedable o n G x)
  then (exists i s y, lab L x = Some i /\ ss !! i = Some s /\ y ∈ closed g s /\ y ∈ adj g x) /\
       (stable_nng cfg = false -> o_num_types o < 2 -> joins (srad_of o) x (lab L x))
  else o_sum o = UM_IGNORE -> lab L x = None.
Proof.
  intros Hsk Hum Hp Hng. pose proof (primary_lt o n Hv Hs x Hp) as Hx. pose proof HR as [Hg _ _ _ _ (L1 & L2 & H1 & H2 & H3)].
  pose proof (not_in_group n g ss x Hx Hng) as HN. destruct H1 as [H1|[? _]]; [|done].
  unfold uses_nng in H1. rewrite Hum, bool_decide_eq_true_2 in H1 by naive_solver.
  assert (lab L1 x = neighbor_label g L0 x) as E1. { rewrite H1, by_neighbors_lab by (by rewrite seed_labels_length). by rewrite HN. }
  destruct (decide (seedable o n G x)) as [Hsd|Hsd].
  - assert (adj g x <> []) as Hadj by (by apply (nng_graph_seedable o n G Hv Hs g x Hg)).
    destruct (res_near _ _ _ _ _ _ _ _ _ Hv Hs HR x Hx Hadj) as (u & i & Hu & Hui & _).
    assert (is_Some (neighbor_label g L0 x)) as [j Hj].
    { destruct (neighbor_label g L0 x) eqn:E; [eauto|]. exfalso. apply neighbor_label_None in E. rewrite Forall_forall in E.
      apply elem_of_cons in Hu as [-> |Hu]; [congruence|]. apply (E u Hu). unfold assigned. congruence. }
    rewrite Hj in E1. destruct (stages_keep L1 L2 x j H2 H3 E1) as [_ ->]. split.
    + destruct (neighbor_label_Some _ _ _ _ Hj) as (y & Hy & Hly). apply group_lab in Hly as (s & Hi & Hys). exists j, s, y. splits; auto.
    + intros Hst Ht. by apply first_neighbor.
  - intros Hi. destruct (adj g x) eqn:Ea. 2:{ exfalso. apply Hsd. apply (nng_graph_seedable o n G Hv Hs g x Hg). by rewrite Ea. }
    assert (neighbor_label g L0 x = None) as En by (apply neighbor_label_None; by rewrite Ea). rewrite En in E1.
    rewrite Hum in H2. rewrite Hi in H3. simpl in H2, H3. destruct H2 as [-> |[? _]]; [|done]. destruct H3 as [-> |[? _]]; done.
Qed.
End Result.

(** ** Groups *)

Lemma self_row_nearest G (S : list nat) k rad v c x y : NoDup S -> nearest G S k v c -> Forall (fun x => within_opt G rad v x = true) c ->
  x ∈ self_row v c -> x <> v -> within_opt G rad v x = true /\ (y ∈ S -> y ∉ self_row v c -> nearer G v x y = true).
Proof.
  intros HS Hc Hw Hx Hxv. rewrite Forall_forall in Hw. unfold self_row in *. destruct (decide (c = [] \/ v ∈ c)) as [Hd|Hd].
  - split; [by apply Hw|]. intros Hy Hyn. by eapply nearest_rest.
  - apply elem_of_list_lookup in Hx as [j Hj]. apply list_lookup_insert_Some in Hj as [(_ & -> & _)|[Hjn Hj]]; [done|].
    pose proof (lookup_lt_Some _ _ _ Hj) as Hjl. split; [apply Hw; by eapply elem_of_list_lookup_2|]. intros Hy Hyn.
    destruct (decide (y ∈ c)) as [Hyc|Hyc].
    + apply elem_of_list_lookup in Hyc as [i Hi]. pose proof (lookup_lt_Some _ _ _ Hi).
      destruct (decide (i = length c - 1)) as [-> |Hin]; [eapply (nst_sorted _ _ _ _ _ Hc j (length c - 1)); eauto; lia|].
      exfalso. apply Hyn. apply (elem_of_list_lookup_2 _ i). by rewrite list_lookup_insert_ne.
    + eapply nearest_rest; [exact HS|exact Hc|by eapply elem_of_list_lookup_2|done|done].
Qed.

(** [x] is of type [t]. *)
Definition has_type (o : options) (n t x : nat) : Prop := x < n /\ tlabels_of o !! x = Some t.

(** [r] are as many points of type [t] as required, [s] included if it is of
    type [t]: those nearest to [s]. *)
Record type_group (o : options) (n : nat) (G : geometry) (s t : nat) (r : list nat) : Prop := {
  yg_len : length r = tcon (tcons_of o) t;
  yg_nodup : NoDup r;
  yg_type : forall x, x ∈ r -> has_type o n t x;
  yg_self : has_type o n t s -> 0 < tcon (tcons_of o) t -> s ∈ r;
  yg_within : forall x, x ∈ r -> x <> s -> within_opt G (srad_of o) s x = true;
  yg_nearest : forall x y, x ∈ r -> x <> s -> has_type o n t y -> y ∉ r -> nearer G s x y = true
}.

Lemma res_type_groups {cfg} skip o n G D g ss L m i t : options_valid o n -> options_sane o n -> sc_result cfg skip o n G D g ss L m ->
  2 <= o_num_types o -> i < m -> exists s, ss !! i = Some s /\ s ∈ primary o n /\ (t < o_num_types o ->
    exists r, type_group o n G s t r /\ forall x, x ∈ r -> x ∈ closed g s).
Proof.
  intros Hv Hs HR Hty Hi. destruct (res_seed_of _ _ _ _ _ _ _ _ _ HR i Hi) as [s Hsi]. pose proof (elem_of_list_lookup_2 _ _ _ Hsi) as Hin.
  pose proof (res_seed _ _ _ _ _ _ _ _ _ Hv Hs HR s Hin) as [Hp Hok]. exists s. split; [done|]. split; [done|]. intros Ht.
  rewrite decide_False in Hok by lia. pose proof (sr_graph _ _ _ _ _ _ _ _ _ HR) as Hg. unfold nng_graph in Hg.
  rewrite decide_False in Hg by lia. destruct Hg as [Hg Hsum]. destruct (tg_row _ _ _ _ _ _ _ _ _ _ Hg s Hp Hok) as (cs & e & Hcs & He & Ea).
  destruct (decide (0 < tcon (tcons_of o) t)) as [Htc|Htc].
  2:{ exists []. split; [|intros x Hx; by apply elem_of_nil in Hx]. constructor; simpl; try lia; try (intros x Hx; by apply elem_of_nil in Hx); [constructor|].
      intros x y Hx. by apply elem_of_nil in Hx. }
  assert (t ∈ used_types (tcons_of o) (o_num_types o)) as Hu by (by apply elem_of_used_types). apply elem_of_list_lookup in Hu as [j Hj].
  destruct (Forall2_lookup_l _ _ _ _ _ Hcs Hj) as (c & Hcj & Hrow). pose proof Hrow as Hrow'. destruct (type_row_facts _ _ _ _ _ s t c Htc Hrow) as (R1 & R2 & R3 & R4).
  rewrite Forall_forall in R3. exists c. split.
  - assert (forall x, x ∈ group (tlabels_of o) n t <-> has_type o n t x) as Hgr by (intros; apply elem_of_group).
    destruct Hrow as (c0 & Hc0 & Hw & E).
    assert (forall x y, x ∈ c -> x <> s -> within_opt G (srad_of o) s x = true /\ (y ∈ group (tlabels_of o) n t -> y ∉ c -> nearer G s x y = true)) as Hfacts.
    { intros x y Hx Hne. destruct (decide (s ∈ group (tlabels_of o) n t)).
      - rewrite E in *. eapply self_row_nearest; eauto. apply group_NoDup.
      - rewrite E in *. rewrite Forall_forall in Hw. split; [auto|]. intros Hy Hyn. eapply (nearest_rest G (group (tlabels_of o) n t)); eauto. apply group_NoDup. }
    constructor; auto.
    + intros x Hx. by apply Hgr, R3.
    + intros Hst _. by apply R4, Hgr.
    + intros x Hx Hne. by apply (Hfacts x 0).
    + intros x y Hx Hne Hy Hyn. apply (Hfacts x y); auto. by apply Hgr.
  - intros x Hx. unfold closed. destruct (decide (x = s)) as [-> |Hne]; [left|right]. rewrite Ea. apply elem_of_arrange, elem_of_list_filter. split; [done|].
    apply elem_of_app. left. apply elem_of_concat. exists c. split; [done|]. by eapply elem_of_list_lookup_2.
Qed.

(** Clusters made in batches. *)
Section Batches.
Context (ign : bool) (k n : nat) (N : nat -> list nat -> Prop).
Hypothesis (Hk : 0 < k).
Hypothesis (HN : forall v c, v < n -> N v c -> NoDup c /\ length c = k /\ Forall (fun x => x < n) c).

(** Every cluster so far was made around one of [vs]. *)
Definition around (vs : list nat) (s : bstate) : Prop :=
  forall i, i < s.2 -> exists v c, v ∈ vs /\ N v c /\ forall x, x ∈ members k v c -> x ∈ s.1.1 /\ lab s.1.2 x = Some i.

Lemma around_step v vs s s' : v < n -> v ∈ vs -> batch_step ign k N v s s' -> binv k n s -> around vs s -> around vs s'.
Proof.
  intros Hv Hvs Hst Hb Ha i Hi.
  assert (forall x, x ∈ s.1.1 -> x ∈ s'.1.1 /\ lab s'.1.2 x = lab s.1.2 x) as Hkeep.
  { intros x Hx. split; [by eapply batch_step_mono|]. by eapply batch_step_keeps. }
  assert (i < s.2 -> exists v c, v ∈ vs /\ N v c /\ forall x, x ∈ members k v c -> x ∈ s'.1.1 /\ lab s'.1.2 x = Some i) as Hold.
  { intros Hlt. destruct (Ha i Hlt) as (u & c & Hu & Hc & Hm). exists u, c. splits; auto. intros x Hx. destruct (Hm x Hx) as [H1 H2]. destruct (Hkeep x H1) as [? ->]. done. }
  pose proof Hb as [I1 I2 _ _ _ _ _].
  destruct Hst as [A L m HA|A L m c HA Hc Hno|A L m c j x HA Hc Hf]; simpl in *; auto.
  destruct (decide (i < m)) as [Hlt|Hlt]; [auto|]. assert (i = m) as -> by lia. exists v, c. splits; auto. intros x Hx.
  destruct (members_facts k n N Hk HN v c Hv Hc) as (_ & _ & _ & M4 & _). rewrite Forall_forall in M4.
  split; [apply elem_of_app; by left|]. rewrite lab_give by (rewrite I1; auto). by rewrite decide_True.
Qed.

Lemma around_run vs ws s s' : Forall (fun v => v < n) ws -> (forall v, v ∈ ws -> v ∈ vs) -> batch_run ign k N ws s s' -> binv k n s -> around vs s -> around vs s'.
Proof.
  intros Hlt Hsub Hr. induction Hr as [|v ws s t s' Hst Hr IH]; [done|]. inversion_clear Hlt. intros Hb Ha. apply IH; [done|set_solver|by eapply batch_step_inv|].
  eapply around_step; eauto. apply Hsub. left.
Qed.
End Batches.

(** No point is nearer to a point than the point itself. *)
Definition own_nearest (G : geometry) : Prop := geometry_ok G /\ forall v x, nearer G v v x = true.

(** The neighbours of a batch cluster's point. *)
Lemma batch_members_nearest G n st k rad v c x y : (st = false \/ own_nearest G) -> v < n -> 0 < k ->
  nearest G (seq 0 n) k v c -> Forall (fun x => within_opt G rad v x = true) c ->
  x ∈ members k v (arrange st c) -> x <> v ->
  within_opt G rad v x = true /\ (y < n -> y ∉ members k v (arrange st c) -> nearer G v x y = true).
Proof.
  intros Hst Hvn Hk Hc Hw Hx Hne. pose proof (nst_len _ _ _ _ _ Hc) as Hl. rewrite Forall_forall in Hw.
  assert (forall z, z ∈ arrange st c <-> z ∈ c) as Hp by (intros; apply elem_of_arrange). assert (length (arrange st c) = k) as Hla by (by rewrite arrange_length).
  assert (x ∈ c /\ (y ∈ c -> y ∉ members k v (arrange st c) -> v ∉ take (k - 1) (arrange st c))) as [Hxc Hyc].
  { unfold members in *. destruct (decide (v ∈ take (k - 1) (arrange st c))) as [Hd|Hd]; [split; [by apply Hp|intros Hyi Hyo; exfalso; by apply Hyo, Hp]|].
    split; [|done]. apply Hp. apply elem_of_app in Hx as [Hx|Hx]; [by apply in_take in Hx|]. by apply elem_of_list_singleton in Hx. }
  split; [auto|]. intros Hy Hyn. destruct (decide (y ∈ c)) as [Hyin|Hyin]; [|by eapply (nearest_rest G (seq 0 n)); eauto; [apply NoDup_seq|apply elem_of_seq; lia]].
  specialize (Hyc Hyin Hyn). unfold members in Hx, Hyn. rewrite decide_False in Hx, Hyn by done.
  apply elem_of_app in Hx as [Hx|Hx]; [|by apply elem_of_list_singleton in Hx].
  destruct (exists_last (l := arrange st c)) as (c1 & z & Ec); [intros E; rewrite E in Hla; simpl in *; lia|].
  assert (k - 1 = length c1) as Ek. { rewrite Ec, app_length in Hla. simpl in Hla. lia. }
  rewrite Ec, Ek, take_app in Hx, Hyn, Hyc. apply Hp in Hyin. rewrite Ec in Hyin. apply elem_of_app in Hyin as [Hyin|Hyin]; [exfalso; apply Hyn, elem_of_app; by left|].
  apply elem_of_list_singleton in Hyin as ->. assert (z <> v) as Hzv by (intros ->; apply Hyn, elem_of_app; right; left).
  destruct Hst as [-> |[HG Hself]].
  - cbn [arrange] in Ec. subst c. apply elem_of_list_lookup in Hx as [i Hi]. pose proof (lookup_lt_Some _ _ _ Hi).
    eapply (nst_sorted _ _ _ _ _ Hc i (length c1)); [|by rewrite lookup_app_l|by rewrite list_lookup_middle]. done.
  - apply (near_trans _ HG v x v z); [|apply Hself]. assert (v ∉ c) as Hvc.
    { intros Hvc%Hp. rewrite Ec in Hvc. apply elem_of_app in Hvc as [?|Hz]; [done|]. by apply elem_of_list_singleton in Hz. }
    eapply (nearest_rest G (seq 0 n)); eauto; [apply NoDup_seq|apply elem_of_seq; lia].
Qed.

Lemma bres_around {cfg} o n G E A L m i : options_valid o n -> options_sane o n -> batch_result cfg o n G E A L m -> i < m ->
  exists v c, v ∈ primary o n /\ nearest G (seq 0 n) (o_size o) v c /\ Forall (fun x => within_opt G (srad_of o) v x = true) c /\
    forall x, x ∈ members (o_size o) v (arrange (stable_nng cfg) c) -> lab L x = Some i.
Proof.
  intros Hv Hs HR Hi. pose proof HR as [_ Hrun _ _]. pose proof (ov_size _ _ Hv) as Hsz. assert (0 < o_size o) as Hk0 by lia.
  pose proof (around_run _ (o_size o) n _ Hk0 (bres_ok _ _ _ _ Hv) _ _ _ _ (cands_lt _ _ _) (fun v H => H) Hrun) as Ha.
  feed specialize Ha; [by apply binv_init|intros j Hj; simpl in *; lia|].
  destruct (Ha i Hi) as (v & c & Hvc & (c0 & (Hn & Hw & _) & ->) & Hm). exists v, c0. apply elem_of_list_filter in Hvc as [[Hp _] _]. splits; auto.
  intros x Hx. by apply Hm.
Qed.


(** ** Claims *)

Lemma sc_result_solid {cfg} (skip : Prop) o n G D g ss L m : ~ skip -> sc_result cfg skip o n G D g ss L m -> sc_result cfg False o n G D g ss L m.
Proof.
  intros Hn [H1 H2 H3 H4 H5 (L1 & L2 & A1 & A2 & A3)]. constructor; auto. exists L1, L2.
  splits; [destruct A1 as [?|[? _]]|destruct A2 as [?|[? _]]|destruct A3 as [?|[? _]]]; auto; done.
Qed.

(** The labels of the clustering are [L]. *)
Definition shows (cfg : config) (c : clustering) (n : nat) (L : labels) : Prop :=
  length L = n /\ forall x, x < n -> match lab L x with Some i => label_of c x = Some (Z.of_nat i) | None => unlabelled cfg c x end.

Lemma holds_shows cfg c L m n : holds cfg c L m -> length L = n -> shows cfg c n L.
Proof.
  intros Hh <-. split; [done|]. intros x Hx. pose proof (holds_label_of cfg c L m x Hh Hx) as H. unfold enc in H. destruct (lab L x); done.
Qed.

Section Claims.
Context (cfg : config) (P : provider) (V : pview P) (ds : p_ds P) (n : nat) (G : geometry) (D : dist_fun) (o : options) (c : clustering).
Hypothesis (Hc : call_ok cfg P V ds n G D o c).
Context (w w' : world) (c' : clustering).
Hypothesis (Hrun : sc_clustering cfg P ds (Some o) (Some c) w = Ok ((ER_OK, Some c'), w')).
Notation solid := (solid P V ds n).

Lemma claim_procedure : solid w -> o_seed o <> SM_BATCHES ->
  exists g ss L, sc_result cfg False o n G D g ss L (c_k c') /\ shows cfg c' n L.
Proof.
  intros Hsol Hb. destruct (run_plain _ _ _ _ _ _ _ _ _ Hc w w' c' Hrun Hb) as (Hv & Hs & Hn & L & m & g & ss & Hh & Hm & Hr).
  pose proof Hh as [_ ->]. exists g, ss, L. split; [by eapply sc_result_solid; [|exact Hr]; tauto|]. eapply holds_shows; [exact Hh|]. by eapply res_len.
Qed.

(** Batches: the points that may be seeds are considered in order. The neighbours
    of a point are listed nearest first, or by index if SCC_STABLE_NNG is defined. *)
Definition batch_neighbors (v : nat) (r : list nat) : Prop :=
  exists r0, nearest G (seq 0 n) (o_size o) v r0 /\ Forall (fun x => within_opt G (srad_of o) v x = true) r0 /\
    r = arrange (stable_nng cfg) r0.

Lemma batch_run_mono_N ign k (N N' : nat -> list nat -> Prop) vs s s' : (forall v c, N v c -> N' v c) -> batch_run ign k N vs s s' -> batch_run ign k N' vs s s'.
Proof.
  intros H. induction 1 as [|v vs s t s' Hst Hr IH]; [constructor|]. econstructor; [|exact IH]. destruct Hst; [by constructor|by constructor; auto|by econstructor; eauto].
Qed.

Lemma claim_procedure_batches : o_seed o = SM_BATCHES -> (o_pum o = UM_IGNORE \/ o_pum o = UM_ANY_NEIGHBOR) /\
  exists A L, batch_run (bool_decide (o_pum o = UM_IGNORE)) (o_size o) batch_neighbors
      (filter (seedable o n G) (seq 0 n)) ([], replicate n None, 0) (A, L, c_k c') /\ shows cfg c' n L.
Proof.
  intros Hb. destruct (run_batches _ _ _ _ _ _ _ _ _ Hc w w' c' Hrun Hb) as (Hv & Hs & Hn & L & m & A & Hh & Hm & Hr).
  pose proof Hr as [Hmeth Hbr _ _]. split; [done|]. exists A, L. split.
  - pose proof Hh as [_ ->]. eapply batch_run_mono_N in Hbr; [|intros v r (r0 & (H1 & H2 & _) & E); exact (ex_intro _ r0 (conj H1 (conj H2 E)))].
    assert (filter (seedable o n G) (seq 0 n) = candidates n G (o_size o) (srad_of o) (primary o n) (seq 0 n)) as ->; [|exact Hbr].
    unfold candidates. apply list_filter_iff. intros v. unfold seedable. destruct (ov_batches _ _ Hv Hb) as (H1 & _).
    rewrite decide_True by lia. done.
  - eapply holds_shows; [exact Hh|]. by eapply bres_len.
Qed.

Lemma in_group_of g ss x : ~ (forall s, s ∈ ss -> x ∉ closed g s) -> in_group g ss x.
Proof.
  intros H. destruct (decide (Exists (fun s => x ∈ closed g s) ss)) as [He|He]; [by apply Exists_exists in He|]. exfalso. apply H. intros s Hs Hx. apply He.
  apply Exists_exists. eauto.
Qed.

(** [x] is in the cluster of a point [y] that is nearest to it among the seeds and
    their neighbours, and within [rad]. *)
Definition at_nearest_assigned (g : list (list nat)) (ss : list nat) (rad : option double) (x : nat) : Prop :=
  exists i s y, ss !! i = Some s /\ y ∈ closed g s /\ x ∈ cluster c' i /\ within_opt G rad x y = true /\
    forall s' z, s' ∈ ss -> z ∈ closed g s' -> z <> y -> nearer G x y z = true.

Definition none_within (g : list (list nat)) (ss : list nat) (rad : option double) (x : nat) : Prop :=
  forall s y, s ∈ ss -> y ∈ closed g s -> within_opt G rad x y = false.

Lemma joins_at L m g ss rad x : options_valid o n -> options_sane o n -> holds cfg c' L m -> (N.of_nat m <= cl_max cfg)%N -> c_n c' = n ->
  sc_result cfg (~ solid w) o n G D g ss L m -> joins G g ss rad x (lab L x) -> at_nearest_assigned g ss rad x.
Proof.
  intros Hv Hs Hh Hm Hn Hr (i & s & y & Hi & Hsi & Hy & Hw & Hz). pose proof (res_len _ _ _ _ _ _ _ _ _ Hr) as Hl. pose proof (res_lt _ _ _ _ _ _ _ _ _ Hr) as Hlt.
  exists i, s, y. splits; auto.
  - rewrite (lab_cluster _ _ _ _ _ _ _ _ _ Hc c' L m); auto. by eapply Hlt.
  - intros s' z Hs' Hzs Hne. apply Hz; [|done]. by exists s'.
Qed.

Lemma claim_assigned_primary : solid w -> o_seed o <> SM_BATCHES -> o_pum o = UM_CLOSEST_ASSIGNED ->
  exists g ss, made_from cfg n G o c' g ss /\ let rad := radius_of (o_pum o) (o_prad o) (o_prad_val o) (srad_of o) (est_dist D g ss) in
    forall x, x ∈ primary o n -> (forall s, s ∈ ss -> x ∉ closed g s) ->
      if decide (o_num_types o < 2 /\ seedable o n G x)
      then (exists i s y, ss !! i = Some s /\ y ∈ closed g s /\ y ∈ adj g x /\ x ∈ cluster c' i) /\ (stable_nng cfg = false -> at_nearest_assigned g ss (srad_of o) x)
      else at_nearest_assigned g ss rad x \/ (none_within g ss rad x /\ (o_sum o = UM_IGNORE -> unlabelled cfg c' x)).
Proof.
  intros Hsol Hb Hum. destruct (run_plain _ _ _ _ _ _ _ _ _ Hc w w' c' Hrun Hb) as (Hv & Hs & Hn & L & m & g & ss & Hh & Hm & Hr). exists g, ss.
  split; [by eapply made_from_of|]. cbv zeta. intros x Hx Hng. pose proof (primary_lt o n Hv Hs x Hx) as Hxn.
  pose proof (res_len _ _ _ _ _ _ _ _ _ Hr) as Hl. pose proof (res_lt _ _ _ _ _ _ _ _ _ Hr) as Hlt.
  pose proof (res_assigned_primary _ _ _ _ _ _ _ _ _ Hv Hs Hr x ltac:(tauto) Hum Hx) as H. feed specialize H; [intros (s & ? & ?); by apply (Hng s)|].
  destruct (decide (o_num_types o < 2 /\ seedable o n G x)).
  { destruct H as [(i & s1 & y & H1 & H2 & H3 & H4) H5]. split.
    - exists i, s1, y. splits; auto. rewrite (lab_cluster _ _ _ _ _ _ _ _ _ Hc c' L m); auto. by eapply Hlt.
    - intros Hst. eapply joins_at; eauto. }
  destruct H as [H|[H1 H2]]; [left; by eapply joins_at|right].
  split; [intros s y Hs1 Hy; apply H1; by exists s|]. intros Hi. apply (holds_unlabelled cfg (co_cfg _ _ _ _ _ _ _ _ _ Hc) c' L m x); auto. lia.
Qed.

Lemma claim_assigned_secondary : solid w -> o_seed o <> SM_BATCHES -> o_sum o = UM_CLOSEST_ASSIGNED ->
  exists g ss, made_from cfg n G o c' g ss /\ let rad := radius_of (o_sum o) (o_2rad o) (o_2rad_val o) (srad_of o) (est_dist D g ss) in
    forall x, x < n -> (o_pum o = UM_IGNORE \/ x ∉ primary o n) -> (forall s, s ∈ ss -> x ∉ closed g s) ->
      at_nearest_assigned g ss rad x \/ (none_within g ss rad x /\ unlabelled cfg c' x).
Proof.
  intros Hsol Hb Hum. destruct (run_plain _ _ _ _ _ _ _ _ _ Hc w w' c' Hrun Hb) as (Hv & Hs & Hn & L & m & g & ss & Hh & Hm & Hr). exists g, ss.
  split; [by eapply made_from_of|]. cbv zeta. intros x Hxn Hp Hng.
  pose proof (res_len _ _ _ _ _ _ _ _ _ Hr) as Hl. pose proof (res_lt _ _ _ _ _ _ _ _ _ Hr) as Hlt.
  pose proof (res_assigned_secondary _ _ _ _ _ _ _ _ _ Hv Hs Hr x ltac:(tauto) Hum Hxn Hp) as H. feed specialize H; [intros (s & ? & ?); by apply (Hng s)|].
  destruct H as [H|[H1 H2]]; [left; by eapply joins_at|right].
  split; [intros s y Hs1 Hy; apply H1; by exists s|]. apply (holds_unlabelled cfg (co_cfg _ _ _ _ _ _ _ _ _ Hc) c' L m x); auto. lia.
Qed.

Lemma claim_any_radius : solid w -> o_seed o <> SM_BATCHES -> o_pum o = UM_ANY_NEIGHBOR ->
  exists g ss, made_from cfg n G o c' g ss /\
    forall x, x ∈ primary o n -> (forall s, s ∈ ss -> x ∉ closed g s) ->
      if decide (seedable o n G x)
      then (exists i s y, ss !! i = Some s /\ y ∈ closed g s /\ y ∈ adj g x /\ x ∈ cluster c' i) /\
           (stable_nng cfg = false -> o_num_types o < 2 -> at_nearest_assigned g ss (srad_of o) x)
      else o_sum o = UM_IGNORE -> unlabelled cfg c' x.
Proof.
  intros Hsol Hb Hum. destruct (run_plain _ _ _ _ _ _ _ _ _ Hc w w' c' Hrun Hb) as (Hv & Hs & Hn & L & m & g & ss & Hh & Hm & Hr). exists g, ss.
  split; [by eapply made_from_of|]. intros x Hx Hng. pose proof (primary_lt o n Hv Hs x Hx) as Hxn.
  pose proof (res_len _ _ _ _ _ _ _ _ _ Hr) as Hl. pose proof (res_lt _ _ _ _ _ _ _ _ _ Hr) as Hlt.
  pose proof (res_any_primary _ _ _ _ _ _ _ _ _ Hv Hs Hr x ltac:(tauto) Hum Hx) as H. feed specialize H; [intros (s & ? & ?); by apply (Hng s)|].
  destruct (decide (seedable o n G x)).
  - destruct H as [(i & s1 & y & H1 & H2 & H3 & H4) H5]. split.
    + exists i, s1, y. splits; auto. rewrite (lab_cluster _ _ _ _ _ _ _ _ _ Hc c' L m); auto. by eapply Hlt.
    + intros Hst Ht. eapply joins_at; eauto.
  - intros Hi. apply (holds_unlabelled cfg (co_cfg _ _ _ _ _ _ _ _ _ Hc) c' L m x); auto. lia.
Qed.

Lemma claim_type_groups i : 2 <= o_num_types o -> i < c_k c' -> exists s, s ∈ primary o n /\ s ∈ cluster c' i /\
  forall t, t < o_num_types o -> exists r, type_group o n G s t r /\ forall x, x ∈ r -> x ∈ cluster c' i.
Proof.
  intros Ht Hi. assert (o_seed o <> SM_BATCHES) as Hb.
  { intros Hb. destruct (run_batches _ _ _ _ _ _ _ _ _ Hc w w' c' Hrun Hb) as (Hv & _). destruct (ov_batches _ _ Hv Hb). lia. }
  destruct (run_plain _ _ _ _ _ _ _ _ _ Hc w w' c' Hrun Hb) as (Hv & Hs & Hn & L & m & g & ss & Hh & Hm & Hr). pose proof Hh as [_ Hk]. rewrite Hk in Hi.
  pose proof (made_from_of _ _ _ _ _ _ _ _ _ Hc w c' L m g ss Hv Hs Hh Hm Hn Hr) as (_ & _ & _ & _ & Hmem).
  destruct (res_seed_of _ _ _ _ _ _ _ _ _ Hr i Hi) as [s Hsi]. pose proof (elem_of_list_lookup_2 _ _ _ Hsi) as Hin.
  exists s. split; [by eapply res_seed|]. split; [eapply Hmem; [done|left]|]. intros t Htt.
  destruct (res_type_groups _ _ _ _ _ _ _ _ _ i t Hv Hs Hr Ht Hi) as (s' & Hs' & _ & H). assert (s' = s) as -> by congruence.
  destruct (H Htt) as (r & Hr1 & Hr2). exists r. split; [done|]. intros x Hx. eapply Hmem; eauto.
Qed.

Lemma claim_seed_batches i : stable_nng cfg = false \/ own_nearest G -> o_seed o = SM_BATCHES -> i < c_k c' -> exists s r,
  s ∈ primary o n /\ NoDup (s :: r) /\ S (length r) = o_size o /\ (forall x, x ∈ s :: r -> x ∈ cluster c' i) /\
  (forall x, x ∈ r -> within_opt G (srad_of o) s x = true) /\
  (forall x y, x ∈ r -> y < n -> y ∉ s :: r -> nearer G s x y = true).
Proof.
  intros Hst Hb Hi. destruct (run_batches _ _ _ _ _ _ _ _ _ Hc w w' c' Hrun Hb) as (Hv & Hs & Hn & L & m & A & Hh & Hm & Hr). pose proof Hh as [_ Hk]. rewrite Hk in Hi.
  pose proof (ov_size _ _ Hv) as Hsz. destruct (bres_around _ _ _ _ _ _ _ i Hv Hs Hr Hi) as (v & r0 & Hp & Hnr & Hw & Hlab).
  pose proof (primary_lt o n Hv Hs v Hp) as Hvn.
  assert (0 < o_size o) as Hk0 by lia. set (mm := members (o_size o) v (arrange (stable_nng cfg) r0)) in *.
  assert (v ∈ mm /\ NoDup mm /\ length mm = o_size o) as (Hvin & Hnd & Hlen).
  { destruct (members_facts (o_size o) n (neighbours cfg n G (o_size o) (srad_of o) (fun _ _ => True)) Hk0 (bres_ok _ _ _ _ Hv) v (arrange (stable_nng cfg) r0)) as (M1 & M2 & M3 & _); [done| |done].
    exists r0. split; [|done]. by split. }
  exists v, (filter (fun x => x <> v) mm).
  assert (mm ≡ₚ v :: filter (fun x => x <> v) mm) as Hperm.
  { apply NoDup_Permutation; [done|constructor; [rewrite elem_of_list_filter; tauto|by apply NoDup_filter]|]. intros x. rewrite elem_of_cons, elem_of_list_filter.
    destruct (decide (x = v)) as [-> |]; tauto. }
  splits.
  - done.
  - by rewrite <- Hperm.
  - pose proof (Permutation_length Hperm) as E. simpl in E. lia.
  - intros x Hx. rewrite <- Hperm in Hx. rewrite (lab_cluster _ _ _ _ _ _ _ _ _ Hc c' L m); auto; [by eapply bres_lt|by eapply bres_len].
  - intros x [Hx1 Hx]%elem_of_list_filter. by eapply (batch_members_nearest G n (stable_nng cfg) (o_size o) (srad_of o) v r0 x 0).
  - intros x y [Hx1 Hx]%elem_of_list_filter Hy Hyn. rewrite <- Hperm in Hyn. by eapply (batch_members_nearest G n (stable_nng cfg) (o_size o) (srad_of o) v r0 x y).
Qed.

(** Arcs of the graph are within the seed radius. *)
Lemma nng_graph_within g x y : options_valid o n -> options_sane o n -> nng_graph cfg o n G g -> y ∈ adj g x -> within_opt G (srad_of o) x y = true.
Proof.
  intros Hv Hs Hg Hy. assert (seedable o n G x) as [Hp Hf]. { apply (nng_graph_seedable o n G Hv Hs g x Hg). intros E. rewrite E in Hy. by apply elem_of_nil in Hy. }
  pose proof (ov_size _ _ Hv) as Hsz. unfold nng_graph in Hg. destruct (decide (o_num_types o < 2)) as [Ht|Ht].
  - eapply (size_row_nearest _ n G _ _ _ g x y 0 Hg Hp Hf); [lia|done].
  - destruct Hg as [Hg _]. destruct (tg_row _ _ _ _ _ _ _ _ _ _ Hg x Hp Hf) as (cs & e & Hcs & He & E). rewrite E in Hy.
    apply elem_of_arrange, elem_of_list_filter in Hy as [Hne Hy]. apply elem_of_app in Hy as [Hy|Hy].
    + apply elem_of_concat in Hy as (r & Hyr & Hr). apply elem_of_list_lookup in Hr as [j Hj]. destruct (Forall2_lookup_r _ _ _ _ _ Hcs Hj) as (t & _ & (c0 & Hc0 & Hw & E0)).
      destruct (decide (x ∈ group (tlabels_of o) n t)).
      * rewrite E0 in Hyr. eapply (self_row_nearest G (group (tlabels_of o) n t) _ _ x c0 y 0); eauto. apply group_NoDup.
      * rewrite E0 in Hyr. rewrite Forall_forall in Hw. auto.
    + destruct (decide (tsum (o_num_types o) (tcons_of o) < o_size o)); [|subst e; by apply elem_of_nil in Hy].
      destruct He as (call & _ & Hw & ->). unfold extra_row in Hy. apply in_take in Hy. apply elem_of_list_filter in Hy as [_ Hy]. rewrite Forall_forall in Hw. auto.
Qed.

(** The primary radius, if the seed radius is no larger. *)
Lemma claim_primary_radius : solid w -> o_seed o <> SM_BATCHES -> o_prad o = RM_USE_SUPPLIED -> o_sum o = UM_IGNORE ->
  (forall q x, within_opt G (srad_of o) q x = true -> within G (o_prad_val o) q x = true) ->
  exists g ss, made_from cfg n G o c' g ss /\ forall x i, x ∈ primary o n -> (forall s, s ∈ ss -> x ∉ closed g s) -> i < c_k c' -> x ∈ cluster c' i ->
    exists s y, ss !! i = Some s /\ y ∈ closed g s /\ within G (o_prad_val o) x y = true.
Proof.
  intros Hsol Hb Hpr Hsum Hle. destruct (run_plain _ _ _ _ _ _ _ _ _ Hc w w' c' Hrun Hb) as (Hv & Hs & Hn & L & m & g & ss & Hh & Hm & Hr). exists g, ss.
  split; [by eapply made_from_of|]. intros x i Hx Hng Hi Hxi. pose proof (primary_lt o n Hv Hs x Hx) as Hxn. pose proof Hh as [_ Hk]. rewrite Hk in Hi.
  pose proof (res_len _ _ _ _ _ _ _ _ _ Hr) as Hl. pose proof (res_lt _ _ _ _ _ _ _ _ _ Hr) as Hlt.
  rewrite (lab_cluster _ _ _ _ _ _ _ _ _ Hc c' L m) in Hxi by auto.
  assert (~ in_group g ss x) as Hng' by (intros (s & ? & ?); by apply (Hng s)).
  assert (o_pum o <> UM_IGNORE -> radius_of (o_pum o) (o_prad o) (o_prad_val o) (srad_of o) (est_dist D g ss) = Some (o_prad_val o)) as Hrad.
  { intros Hne. unfold radius_of. rewrite Hpr. by destruct (o_pum o). }
  assert (~ ~ ScClaims.solid P V ds n w) as Hsk by tauto.
  destruct (o_pum o) eqn:Hum.
  - exfalso. pose proof (res_ignore _ _ _ _ _ _ _ _ _ Hr Hum Hsum) as E. rewrite E in Hxi. by rewrite (not_in_group n g ss x Hxn Hng') in Hxi.
  - pose proof (res_any_primary _ _ _ _ _ _ _ _ _ Hv Hs Hr x Hsk Hum Hx Hng') as H. destruct (decide (seedable o n G x)) as [Hse|Hse]; [|by rewrite (H Hsum) in Hxi].
    destruct H as [(j & s & y & H1 & H2 & H3 & H4) _]. assert (j = i) as -> by congruence. exists s, y. splits; auto. apply Hle. eapply nng_graph_within; eauto. apply Hr.
  - pose proof (res_assigned_primary _ _ _ _ _ _ _ _ _ Hv Hs Hr x Hsk Hum Hx Hng') as H. rewrite Hum, Hrad in H by done.
    destruct (decide (o_num_types o < 2 /\ seedable o n G x)).
    { destruct H as [(j & s & y & H1 & H2 & H3 & H4) _]. assert (j = i) as -> by congruence. exists s, y. splits; auto. apply Hle. eapply nng_graph_within; eauto. apply Hr. }
    destruct H as [(j & s & y & H1 & H2 & H3 & H4 & _)|[_ H]]; [|by rewrite (H Hsum) in Hxi]. assert (j = i) as -> by congruence; exists s, y; splits; auto.
  - destruct (res_closest_primary _ _ _ _ _ _ _ _ _ Hv Hs Hr x Hum Hx Hng') as [(j & s & H1 & H2 & H3 & _)|[_ H]]; [|by rewrite (H Hsum) in Hxi].
    assert (j = i) as -> by congruence. exists s, s. rewrite Hum, Hrad in H3 by done. splits; auto. left.
  - by destruct (ov_pum _ _ Hv).
Qed.
End Claims.
