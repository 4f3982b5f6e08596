(** scc_sc_clustering in a library compiled with SCC_STABLE_NNG. *)

From stdpp Require Import prelude list sorting.
From Coq Require Import NArith ZArith.
From Verif Require Import Base SortIdx World Mem Digraph DigraphRep Float Spi Dist Options Arrays GraphSpec SeedSpec AssignSpec SeedsExcl
  Nng NngGraph NngSize NngAssign NngStage TypeCount TypeRows Batch BatchSpec BatchProof OptionsProof NngClustering
  ScSpec ScProof ClusSpec ScFacts Approx ScClaims ScClaims2 ScClaims3 DistProof Example1.

(** The rows of the graph are sorted by index. *)
Lemma nng_graph_sorted cfg o n G g v : stable_nng cfg = true -> nng_graph cfg o n G g -> StronglySorted (≤) (adj g v).
Proof.
  intros Hst Hg. unfold nng_graph in Hg. destruct (decide (o_num_types o < 2)) as [Ht|Ht]; [|destruct Hg as [Hg _]]; destruct Hg as [_ Hrow Hno]; rewrite Hst in *.
  - destruct (decide (v ∈ primary o n /\ feasible G (seq 0 n) (o_size o) (srad_of o) v)) as [[H1 H2]|H]; [|rewrite (Hno v H); constructor].
    destruct (Hrow v H1 H2) as (c & _ & _ & ->). apply arrange_sorted.
  - destruct (decide (v ∈ primary o n)) as [H1|H1]; [|rewrite (Hno v); [constructor|tauto]].
    destruct (adj g v) as [|a r] eqn:E; [constructor|]. rewrite <- E.
    destruct (decide (typed_ok n (tlabels_of o) (tcons_of o) G (srad_of o) (o_num_types o) (o_size o) v)) as [H2|H2].
    + destruct (Hrow v H1 H2) as (cs & e & _ & _ & ->). apply arrange_sorted.
    + rewrite (Hno v); [constructor|tauto].
Qed.

Section Lowest.
Context (cfg : config) (P : provider) (V : pview P) (ds : p_ds P) (n : nat) (G : geometry) (D : dist_fun) (o : options) (c : clustering).
Hypothesis (Hc : call_ok cfg P V ds n G D o c).
Context (w w' : world) (c' : clustering).
Hypothesis (Hrun : sc_clustering cfg P ds (Some o) (Some c) w = Ok ((ER_OK, Some c'), w')).

Lemma claim_lowest : solid P V ds n w -> stable_nng cfg = true -> o_seed o <> SM_BATCHES ->
  o_pum o = UM_ANY_NEIGHBOR \/ (o_pum o = UM_CLOSEST_ASSIGNED /\ o_num_types o < 2) ->
  exists g ss, made_from cfg n G o c' g ss /\
    forall x, seedable o n G x -> (forall s, s ∈ ss -> x ∉ closed g s) ->
      exists i s y, ss !! i = Some s /\ y ∈ closed g s /\ y ∈ adj g x /\ x ∈ cluster c' i /\
        forall s' z, s' ∈ ss -> z ∈ closed g s' -> z ∈ adj g x -> y <= z.
Proof.
  intros Hsol Hst Hb Hum. destruct (run_plain _ _ _ _ _ _ _ _ _ Hc w w' c' Hrun Hb) as (Hv & Hs & Hn & L & m & g & ss & Hh & Hm & Hr). exists g, ss.
  split; [by eapply made_from_of|]. intros x Hsd Hng. pose proof Hsd as [Hp _]. pose proof (primary_lt o n Hv Hs x Hp) as Hx.
  pose proof (res_len _ _ _ _ _ _ _ _ _ Hr) as Hl. pose proof (res_lt _ _ _ _ _ _ _ _ _ Hr) as Hlt.
  assert (~ in_group g ss x) as Hng' by (intros (s & ? & ?); by apply (Hng s)).
  pose proof Hr as [Hg _ _ _ _ (L1 & L2 & H1 & H2 & H3)]. pose proof (not_in_group n g ss x Hx Hng') as HN. destruct H1 as [H1|[? _]]; [|done].
  assert (uses_nng (bool_decide (o_num_types o < 2)) (o_pum o) = true) as Eu.
  { unfold uses_nng. apply bool_decide_eq_true_2. destruct Hum as [-> |[-> Ht]]; [by left|right]. rewrite bool_decide_eq_true_2 by done. auto. }
  rewrite Eu in H1.
  assert (adj g x <> []) as Hadj by (by apply (nng_graph_seedable o n G Hv Hs g x Hg)).
  destruct (res_near _ _ _ _ _ _ _ _ _ Hv Hs Hr x Hx Hadj) as (u & i & Hu & Hui & _).
  assert (is_Some (neighbor_label g (seed_labels g ss n) x)) as [j Hj].
  { destruct (neighbor_label g (seed_labels g ss n) x) eqn:E; [eauto|]. exfalso. apply neighbor_label_None in E. rewrite Forall_forall in E.
    apply elem_of_cons in Hu as [-> |Hu]; [congruence|]. apply (E u Hu). unfold assigned. congruence. }
  assert (lab L1 x = Some j) as E1. { rewrite H1, by_neighbors_lab by (by rewrite seed_labels_length). by rewrite HN. }
  destruct (stages_keep _ _ _ _ _ _ _ _ _ Hr _ _ _ _ H2 H3 E1) as [_ EL].
  unfold neighbor_label in Hj. destruct (list_find (assigned (seed_labels g ss n)) (adj g x)) as [[k y]|] eqn:E; [|done].
  apply list_find_Some in E as (Hk & Hy & Hbefore).
  pose proof (proj1 (group_lab _ _ _ _ _ _ _ _ _ Hv Hs Hr _ _) Hj) as (s & Hsi & Hys).
  exists j, s, y. splits; auto.
  - by eapply elem_of_list_lookup_2.
  - rewrite (lab_cluster _ _ _ _ _ _ _ _ _ Hc c' L m); auto. by eapply Hlt.
  - intros s' z Hs' Hz Hza. apply elem_of_list_lookup in Hza as [k' Hk']. destruct (decide (k' = k)) as [-> |Hne]; [replace z with y by congruence; lia|].
    destruct (decide (k' < k)).
    + exfalso. apply (Hbefore k' z); [done|lia|]. apply (group_assigned _ _ _ _ _ _ _ _ _ Hv Hs Hr). by exists s'.
    + apply (sorted_lookup _ _ k k' y z (nng_graph_sorted cfg o n G g x Hst Hg)); [lia|done|done].
Qed.
End Lowest.

(** ** A concrete call *)

(** Both macros defined. *)
Definition stable_config : config := Config u32max u32max u32max (Z.of_N u32max) u64max true true.

Lemma stable_config_ok : config_ok stable_config.
Proof. repeat split; simpl; auto; vm_compute; congruence. Qed.

(** [clustered] of Example1.v for any configuration. *)
Definition clustered_in (cfg : config) (l : list Z) (o : options) (k : nat) (labels : list Z) : Prop :=
  call_ok cfg builtin (builtin_view (line l) (length l)) (Some (line l)) (length l) (eucl_geo (line l)) (eucl (line l)) o (new_clustering (length l)) /\
  solid builtin (builtin_view (line l) (length l)) (Some (line l)) (length l) world0 /\
  exists c' w', sc_clustering cfg builtin (Some (line l)) (Some o) (Some (new_clustering (length l))) world0 = Ok ((ER_OK, Some c'), w') /\
    c_k c' = k /\ cells c' = Some <$> labels.

Definition clustered_in_b (cfg : config) (l : list Z) (o : options) (k : nat) (labels : list Z) : bool :=
  match l with [] => false | _ => true end && finite_b l && sane_b o (length l) &&
  match sc_clustering cfg builtin (Some (line l)) (Some o) (Some (new_clustering (length l))) world0 with
  | Ok ((ER_OK, Some c'), _) => bool_decide (c_k c' = k) && bool_decide (cells c' = Some <$> labels)
  | _ => false
  end.

Lemma clustered_in_by cfg l o k labels : config_ok cfg -> clustered_in_b cfg l o k labels = true -> clustered_in cfg l o k labels.
Proof.
  intros Hcfg. unfold clustered_in_b. rewrite !andb_true_iff. intros (((H1 & H2) & H3) & H4). assert (l <> []) as Hl by by destruct l.
  split; [apply line_call; auto; done|]. split; [by apply solid_line|].
  destruct (sc_clustering cfg builtin (Some (line l)) (Some o) (Some (new_clustering (length l))) world0) as [[[[] [c'|]] w']|] eqn:E; try done.
  apply andb_true_iff in H4 as [H4%bool_decide_eq_true_1 H5%bool_decide_eq_true_1]. eauto 10.
Qed.

(** Point 6 (at 46) is 24 from point 3 and 26 from point 2. *)
Definition between : list Z := [0; 10; 20; 70; 80; 90; 46]%Z.
Definition o_between : options := with_methods SM_LEXICAL UM_CLOSEST_ASSIGNED UM_IGNORE (with_size 3 default_options).

Lemma between_stable : clustered_in stable_config between o_between 2 [0; 0; 0; 1; 1; 1; 0]%Z.
Proof. apply clustered_in_by; [apply stable_config_ok|]. by vm_compute. Qed.

Lemma between_default : clustered between o_between 2 [0; 0; 0; 1; 1; 1; 1]%Z.
Proof. apply clustered_by. by vm_compute. Qed.

Lemma in4 (x a b c d : nat) : x ∈ [a; b; c; d] <-> x = a \/ x = b \/ x = c \/ x = d.
Proof. rewrite !elem_of_cons, elem_of_nil. tauto. Qed.
Lemma in3 (x a b c : nat) : x ∈ [a; b; c] <-> x = a \/ x = b \/ x = c.
Proof. rewrite !elem_of_cons, elem_of_nil. tauto. Qed.
Lemma nodup3 (a b c : nat) : NoDup [a; b; c] -> a <> b /\ a <> c /\ b <> c.
Proof. rewrite !NoDup_cons, !elem_of_cons, elem_of_nil. intuition. Qed.

Notation Gb := (eucl_geo (line between)).

(** Whatever graph and seeds the result comes from, point 6 is outside all groups and
    not with the nearest point of a group. *)
Lemma between_far c' w' g ss :
  sc_clustering stable_config builtin (Some (line between)) (Some o_between) (Some (new_clustering 7)) world0 = Ok ((ER_OK, Some c'), w') ->
  made_from stable_config 7 Gb o_between c' g ss ->
  (forall s, s ∈ ss -> 6 ∉ closed g s) /\ ~ at_nearest_assigned Gb c' g ss (srad_of o_between) 6.
Proof.
  intros Hrun (Hg & _ & _ & Hlen & Hmem).
  destruct between_stable as (Hcall & _ & c1 & w1 & E1 & Hk & Hcells).
  change (length between) with 7 in *. rewrite Hrun in E1. injection E1 as <- <-.
  destruct (run_plain _ _ _ _ _ _ _ _ _ Hcall world0 w' c' Hrun) as (Hv & Hs & Hn & _); [discriminate|]. clear Hrun Hcall.
  assert (cluster c' 0 = [0; 1; 2; 6] /\ cluster c' 1 = [3; 4; 5]) as [Hc0 Hc1].
  { unfold cluster, label_of. rewrite Hn, Hcells. split; reflexivity. }
  assert (forall s, s ∈ ss -> exists i, i < 2 /\ forall x, x ∈ closed g s -> x ∈ cluster c' i) as Hin.
  { intros s [i Hi]%elem_of_list_lookup. exists i. split; [apply lookup_lt_Some in Hi; lia|]. intros x Hx. by eapply Hmem. }
  assert (forall v, v < 7 -> seedable o_between 7 Gb v) as Hsd.
  { intros v Hlt. split; [change (v ∈ seq 0 7); apply elem_of_seq; lia|]. rewrite decide_True by (simpl; lia). unfold feasible. simpl. lia. }
  assert (forall s y z, s < 7 -> y ∈ adj g s -> z < 7 -> z ∉ s :: adj g s -> nearer Gb s y z = true) as Hnear.
  { intros s y z Hs7 Hy Hz Hzn. unfold nng_graph in Hg. rewrite decide_True in Hg by (simpl; lia). destruct (Hsd s Hs7) as [H1 H2]. rewrite decide_True in H2 by (simpl; lia).
    eapply (size_row_nearest _ 7 Gb _ _ _ g s y z Hg H1 H2); [simpl; lia|done|done|done]. }
  assert (forall s, s < 7 -> NoDup (s :: adj g s) /\ length (adj g s) = 2) as Hrow.
  { intros s Hs7. unfold nng_graph in Hg. rewrite decide_True in Hg by (simpl; lia). destruct (Hsd s Hs7) as [H1 H2]. rewrite decide_True in H2 by (simpl; lia).
    destruct (size_graph_row 7 Gb _ _ _ _ g s Hg) as (G1 & G2 & G3 & G4); auto; [simpl; lia|]. split; [by constructor|]. change (o_size o_between) with 3 in G2. lia. }
  assert (forall s, s ∈ ss -> 6 ∉ closed g s) as Hout.
  { intros s Hss H6. destruct (Hin s Hss) as (i & Hi & Hall).
    assert (i = 0) as ->.
    { destruct i as [|[|]]; [done| |lia]. apply Hall in H6. rewrite Hc1, in3 in H6. lia. }
    rewrite Hc0 in Hall.
    assert (s = 0 \/ s = 1 \/ s = 2 \/ s = 6) as Hs4 by (apply in4, Hall; left).
    assert (s < 7) as Hs7 by lia. destruct (Hrow s Hs7) as [Hnd Hl2]. specialize (Hnear s). unfold closed in *.
    destruct (adj g s) as [|a [|b [|]]] eqn:Ea; try done.
    assert (a = 0 \/ a = 1 \/ a = 2 \/ a = 6) as Ha by (apply in4, Hall; right; left).
    assert (b = 0 \/ b = 1 \/ b = 2 \/ b = 6) as Hb by (apply in4, Hall; right; right; left).
    apply nodup3 in Hnd as (N1 & N2 & N3). rewrite in3 in H6.
    assert (forall y z, y = a \/ y = b -> z < 7 -> z <> s -> z <> a -> z <> b -> nearer Gb s y z = true) as Hne.
    { intros y z Hy Hz Z1 Z2 Z3. apply Hnear; [done| |done|rewrite in3; tauto]. destruct Hy as [-> | ->]; [left|right; left]. }
    clear - H6 Hs4 Ha Hb N1 N2 N3 Hne.
    destruct (decide (s = 6)) as [-> |N6].
    - assert (nearer Gb 6 a 3 = true) as Hf by (apply Hne; lia).
      assert (a = 0 \/ a = 1 \/ a = 2) as [-> |[-> | ->]] by lia; vm_compute in Hf; done.
    - assert (exists z, (z = 0 \/ z = 1 \/ z = 2) /\ z <> s /\ z <> a /\ z <> b) as (z & Hz & Z1 & Z2 & Z3).
      { destruct (decide (0 <> s /\ 0 <> a /\ 0 <> b)); [exists 0; lia|]. destruct (decide (1 <> s /\ 1 <> a /\ 1 <> b)); [exists 1; lia|].
        exists 2. lia. }
      assert (nearer Gb s 6 z = true) as Hf by (apply Hne; lia).
      assert (s = 0 \/ s = 1 \/ s = 2) as Hs3 by lia.
      destruct Hs3 as [-> |[-> | ->]], Hz as [-> |[-> | ->]]; try done; vm_compute in Hf; done. }
  split; [done|]. intros (i & s & y & Hi & Hy & Hx & _ & Hz).
  pose proof (elem_of_list_lookup_2 _ _ _ Hi) as Hss. apply lookup_lt_Some in Hi as Hi2.
  assert (i = 0) as ->. { destruct i as [|[|]]; [done| |lia]. rewrite Hc1, in3 in Hx. lia. }
  assert (y = 0 \/ y = 1 \/ y = 2 \/ y = 6) as Hy4 by (apply in4; rewrite <- Hc0; by eapply Hmem).
  assert (y <> 6) as Hy6 by (intros ->; by apply (Hout s)).
  assert (exists s1, ss !! 1 = Some s1) as [s1 Hs1] by (apply lookup_lt_is_Some_2; lia).
  assert (3 ∈ closed g s1) as H3.
  { assert (forall x, x ∈ closed g s1 -> x = 3 \/ x = 4 \/ x = 5) as Hsub by (intros x Hx1; apply in3; rewrite <- Hc1; by eapply Hmem).
    assert (s1 = 3 \/ s1 = 4 \/ s1 = 5) as H1 by (apply Hsub; left). assert (s1 < 7) as H17 by lia.
    destruct (Hrow s1 H17) as [Hnd Hl2]. unfold closed in *. destruct (adj g s1) as [|a [|b [|]]] eqn:Ea; try done.
    assert (a = 3 \/ a = 4 \/ a = 5) as Ha by (apply Hsub; right; left). assert (b = 3 \/ b = 4 \/ b = 5) as Hb by (apply Hsub; right; right; left).
    apply nodup3 in Hnd as (N1 & N2 & N3). rewrite in3. clear - H1 Ha Hb N1 N2 N3. lia. }
  assert (nearer Gb 6 y 3 = true) as Hf by (apply (Hz s1 3); [by eapply elem_of_list_lookup_2|done|lia]).
  clear - Hy4 Hy6 Hf. assert (y = 0 \/ y = 1 \/ y = 2) as [-> |[-> | ->]] by lia; vm_compute in Hf; done.
Qed.

Lemma between_refuted : exists c' w',
  call_ok stable_config builtin (builtin_view (line between) 7) (Some (line between)) 7 Gb (eucl (line between)) o_between (new_clustering 7) /\
  solid builtin (builtin_view (line between) 7) (Some (line between)) 7 world0 /\ o_pum o_between = UM_CLOSEST_ASSIGNED /\
  sc_clustering stable_config builtin (Some (line between)) (Some o_between) (Some (new_clustering 7)) world0 = Ok ((ER_OK, Some c'), w') /\
  forall g ss, made_from stable_config 7 Gb o_between c' g ss ->
    (forall s, s ∈ ss -> 6 ∉ closed g s) /\ ~ at_nearest_assigned Gb c' g ss (srad_of o_between) 6.
Proof.
  destruct between_stable as (H1 & H2 & c' & w' & E & _). exists c', w'. split; [exact H1|]. split; [exact H2|]. split; [reflexivity|].
  split; [exact E|]. intros g ss. exact (between_far c' w' g ss E).
Qed.
