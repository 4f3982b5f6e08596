(** Consequences of the specification of scc_sc_clustering. *)

From stdpp Require Import prelude list sorting.
From Coq Require Import NArith ZArith.
From Verif Require Import Base SortIdx World Mem Digraph DigraphRep DigraphOps Float Spi Options Arrays GraphSpec SeedSpec AssignSpec Seeds SeedsProof SeedsExcl
  Nng NngGraph NngSize NngAssign NngStage NngEst TypeCount TypeRows NngType Batch BatchSpec BatchProof OptionsProof NngClustering ScSpec ScProof ClusSpec.

(** ** Lists *)

Lemma filter_ext_in {A} (P1 P2 : A -> Prop) `{forall x, Decision (P1 x)} `{forall x, Decision (P2 x)} (l : list A) :
  (forall x, x ∈ l -> P1 x <-> P2 x) -> filter P1 l = filter P2 l.
Proof.
  induction l as [|a l IH]; intros HP; [done|]. rewrite !filter_cons, IH by (intros; apply HP; by right).
  assert (P1 a <-> P2 a) as Ha by (apply HP; left). destruct (decide (P1 a)), (decide (P2 a)); tauto.
Qed.

Lemma filter_split_length {A} (P1 P2 : A -> Prop) `{forall x, Decision (P1 x)} `{forall x, Decision (P2 x)} (P3 : A -> Prop) `{forall x, Decision (P3 x)} (l : list A) :
  (forall x, P3 x <-> P1 x \/ P2 x) -> (forall x, P1 x -> P2 x -> False) ->
  length (filter P3 l) = length (filter P1 l) + length (filter P2 l).
Proof.
  intros H3 H12. induction l as [|a l IH]; [done|]. rewrite !filter_cons.
  specialize (H3 a). specialize (H12 a). destruct (decide (P1 a)), (decide (P2 a)), (decide (P3 a)); try tauto; simpl; lia.
Qed.

Lemma filter_submseteq {A} (Q : A -> Prop) `{forall x, Decision (Q x)} (l k : list A) : l ⊆+ k -> filter Q l ⊆+ filter Q k.
Proof. intros [k' ->]%submseteq_Permutation. rewrite filter_app. by apply submseteq_inserts_r. Qed.

(** [m] disjoint sets of at least [k] elements. *)
Lemma classes_bound (f : nat -> option nat) (l : list nat) k m :
  (forall i, i < m -> k <= length (filter (fun x => f x = Some i) l)) -> m * k <= length l.
Proof.
  intros Hk. assert (m * k <= length (filter (fun x => is_Some (f x) /\ default 0 (f x) < m) l)) as H.
  { induction m as [|m IH]; [simpl; lia|].
    rewrite (filter_split_length (fun x => is_Some (f x) /\ default 0 (f x) < m) (fun x => f x = Some m)).
    - pose proof (Hk m ltac:(lia)). assert (m * k <= length (filter (fun x => is_Some (f x) /\ default 0 (f x) < m) l)) by (apply IH; intros; apply Hk; lia).
      simpl. lia.
    - intros x. destruct (f x) as [j|]; simpl; [|split; [by intros [[? ?] _]|by intros [[[? ?] _]|?]]]. split.
      + intros [_ ?]. destruct (decide (j = m)); [subst; auto|left; split; [eauto|lia]].
      + intros [[_ ?]|[= ->]]; (split; [eauto|lia]).
    - intros x [_ H1] H2. rewrite H2 in H1. simpl in H1. lia. }
  etransitivity; [exact H|]. apply filter_length.
Qed.

(** ** Labels and what the user sees *)

Definition lab_members (L : labels) (i : nat) : list nat := filter (fun x => lab L x = Some i) (seq 0 (length L)).

Section View.
Context (cfg : config) (Hcfg : config_ok cfg).

Lemma holds_label_of c L m x : holds cfg c L m -> x < length L -> label_of c x = Some (enc cfg (lab L x)).
Proof.
  intros [(lb & Hl) _] Hx. unfold label_of, cells. rewrite Hl. simpl. rewrite !list_lookup_fmap, (lab_lookup _ _ Hx). done.
Qed.

Lemma enc_label L m x i : (N.of_nat m <= cl_max cfg)%N -> labels_lt m L -> i < m -> enc cfg (lab L x) = Z.of_nat i <-> lab L x = Some i.
Proof.
  intros Hm Hlt Hi. destruct (lab L x) as [j|] eqn:E; simpl.
  - split; [intros H|by intros [= ->]]. f_equal. lia.
  - split; [|done]. intros H. exfalso. pose proof (enc_na cfg Hcfg m (Some i) Hm) as [Hna _]; [by intros ? [= ->]|]. simpl in Hna. rewrite <- H in Hna. specialize (Hna eq_refl). done.
Qed.

Lemma holds_cluster c L m i : holds cfg c L m -> c_n c = length L -> (N.of_nat m <= cl_max cfg)%N -> labels_lt m L -> i < m ->
  cluster c i = lab_members L i.
Proof.
  intros Hh Hn Hm Hlt Hi. unfold cluster, lab_members. rewrite Hn. apply filter_ext_in. intros x Hx%elem_of_seq.
  rewrite (holds_label_of c L m x Hh) by lia. rewrite <- (enc_label L m x i Hm Hlt Hi). split; [intros [= ?]; done|by intros ->].
Qed.

Lemma holds_unlabelled c L m x : holds cfg c L m -> (N.of_nat m <= cl_max cfg)%N -> labels_lt m L -> x < length L ->
  unlabelled cfg c x <-> lab L x = None.
Proof.
  intros Hh Hm Hlt Hx. unfold unlabelled. rewrite (holds_label_of c L m x Hh Hx).
  rewrite <- (enc_na cfg Hcfg m (lab L x) Hm) by (intros i Hi; by eapply Hlt). split; [intros [= ?]; done|by intros ->].
Qed.

Lemma holds_in_cluster c L m x : holds cfg c L m -> c_n c = length L -> (N.of_nat m <= cl_max cfg)%N -> labels_lt m L ->
  in_cluster c x <-> assigned L x.
Proof.
  intros Hh Hn Hm Hlt. pose proof Hh as [_ Hk]. unfold in_cluster, assigned. rewrite Hk. split.
  - intros (i & Hi & Hx). rewrite (holds_cluster c L m i) in Hx by done. apply elem_of_list_filter in Hx as [-> _]. done.
  - destruct (lab L x) as [i|] eqn:E; [|done]. intros _. exists i. split; [by eapply Hlt|]. rewrite (holds_cluster c L m i) by (auto; by eapply Hlt).
    apply elem_of_list_filter. split; [done|]. apply elem_of_seq. apply lab_lt in E. lia.
Qed.
End View.

(** ** Stages keep labels *)

Lemma by_search_keeps G S T rad L L' x i : by_search G S T rad L L' -> lab L x = Some i -> lab L' x = Some i.
Proof.
  intros [Hl H] Hx. pose proof (lab_lt _ _ _ Hx) as Hxl. specialize (H x Hxl).
  rewrite decide_False in H by (intros (_ & Hn & _); apply Hn; unfold assigned; congruence). congruence.
Qed.

Lemma stage_keeps G um Sa Ss T rad L L' x i : stage G um Sa Ss T rad L L' -> lab L x = Some i -> lab L' x = Some i.
Proof. destruct um; simpl; try (by intros ->); apply by_search_keeps. Qed.

Lemma by_neighbors_keeps g L x i : lab L x = Some i -> lab (by_neighbors g L) x = Some i.
Proof. intros Hx. rewrite by_neighbors_lab by (by eapply lab_lt). by rewrite Hx. Qed.

Lemma stage_length G um Sa Ss T rad L L' : stage G um Sa Ss T rad L L' -> length L' = length L.
Proof. intros Hst. destruct um; simpl in Hst; try (by subst); by destruct Hst. Qed.

Lemma assignment_keeps skip G n g ss nng um1 rad1 T um2 rad2 L x i : assignment skip G n g ss nng um1 rad1 T um2 rad2 L ->
  lab (seed_labels g ss n) x = Some i -> lab L x = Some i.
Proof.
  intros (L1 & L2 & H1 & H2 & H3) Hx.
  assert (lab L1 x = Some i) as Hx1. { destruct H1 as [-> |[_ ->]]; [|done]. destruct nng; [by apply by_neighbors_keeps|done]. }
  assert (lab L2 x = Some i) as Hx2. { destruct H2 as [H2|[_ ->]]; [|done]. by eapply stage_keeps. }
  destruct H3 as [H3|[_ ->]]; [|done]. by eapply stage_keeps.
Qed.

Lemma assignment_length skip G n g ss nng um1 rad1 T um2 rad2 L : assignment skip G n g ss nng um1 rad1 T um2 rad2 L -> length L = n.
Proof.
  intros (L1 & L2 & H1 & H2 & H3).
  assert (length L1 = n) as Hx1. { destruct H1 as [-> |[_ ->]]; [|apply seed_labels_length]. destruct nng; rewrite ?by_neighbors_length; apply seed_labels_length. }
  assert (length L2 = n) as Hx2. { destruct H2 as [H2|[_ ->]]; [|done]. by erewrite stage_length. }
  destruct H3 as [H3|[_ ->]]; [|done]. by erewrite stage_length.
Qed.

Lemma stage_lt G um Sa Ss T rad L L' k : stage G um Sa Ss T rad L L' -> labels_lt k L -> labels_lt k L'.
Proof. intros Hst. destruct um; simpl in Hst; try (by subst); intros; by eapply by_search_lt. Qed.

Lemma assignment_lt skip G n g ss nng um1 rad1 T um2 rad2 L : assignment skip G n g ss nng um1 rad1 T um2 rad2 L -> labels_lt (length ss) L.
Proof.
  intros (L1 & L2 & H1 & H2 & H3).
  assert (labels_lt (length ss) L1) as Hx1. { destruct H1 as [-> |[_ ->]]; [|apply seed_labels_lt]. destruct nng; [apply by_neighbors_lt|]; apply seed_labels_lt. }
  assert (labels_lt (length ss) L2) as Hx2. { destruct H2 as [H2|[_ ->]]; [|done]. by eapply stage_lt. }
  destruct H3 as [H3|[_ ->]]; [|done]. by eapply stage_lt.
Qed.

Lemma seed_label_group g ss i s x : independent_maximal g ss -> ss !! i = Some s -> x ∈ closed g s -> seed_label g ss x = Some i.
Proof.
  intros (_ & Hi & _) Hs Hx. destruct (seed_label g ss x) as [j|] eqn:E.
  - apply seed_label_Some in E as (t & Ht & Hxt). f_equal. destruct (decide (j = i)); [done|]. exfalso. by eapply (Hi j i).
  - apply seed_label_None in E. exfalso. apply E. exists s. split; [by eapply elem_of_list_lookup_2|done].
Qed.

(** ** Results of the non-batch methods *)

Lemma nearest_rest G (S : list nat) k v c x y : NoDup S -> nearest G S k v c -> x ∈ c -> y ∈ S -> y ∉ c -> nearer G v x y = true.
Proof.
  intros HS Hc Hx Hy Hyc. pose proof (nst_sub _ _ _ _ _ Hc) as Hsub. apply submseteq_Permutation in Hsub as [r Hr].
  eapply (nst_rest _ _ _ _ _ Hc r); [by rewrite Hr|done|]. rewrite Hr in Hy. by apply elem_of_app in Hy as [?|?].
Qed.

(** A row of the graph: nobody outside is nearer. *)
Lemma size_row_nearest st n G k rad Q g v x y : size_graph n G st k rad Q g -> v ∈ Q -> feasible G (seq 0 n) k rad v -> 0 < k ->
  x ∈ adj g v -> within_opt G rad v x = true /\ (y < n -> y ∉ v :: adj g v -> nearer G v x y = true).
Proof.
  intros Hg Hv Hf Hk Hx. destruct (sg_row _ _ _ _ _ _ _ Hg v Hv Hf) as (c & Hc & Hw & E). pose proof (nst_len _ _ _ _ _ Hc) as Hl.
  rewrite E in Hx. apply elem_of_arrange, elem_of_list_filter in Hx as [Hxv Hx]. rewrite Forall_forall in Hw.
  destruct (decide (c = [] \/ v ∈ c)) as [Hd|Hd].
  - assert (self_row v c = c) as Es by (unfold self_row; by rewrite decide_True). rewrite Es in *. split; [by apply Hw|].
    intros Hy Hyn. eapply nearest_rest; [apply NoDup_seq|exact Hc|done|apply elem_of_seq; lia|]. intros Hyc. apply Hyn. rewrite E.
    destruct (decide (y = v)) as [-> |Hne]; [left|right]. apply elem_of_arrange, elem_of_list_filter. done.
  - assert (self_row v c = <[length c - 1 := v]> c) as Es by (unfold self_row; by rewrite decide_False). rewrite Es in *.
    apply elem_of_list_lookup in Hx as [j Hj]. apply list_lookup_insert_Some in Hj as [(_ & -> & _)|[Hjn Hj]]; [done|].
    pose proof (lookup_lt_Some _ _ _ Hj) as Hjl. split; [apply Hw; by eapply elem_of_list_lookup_2|]. intros Hy Hyn.
    destruct (decide (y ∈ c)) as [Hyc|Hyc].
    + apply elem_of_list_lookup in Hyc as [i Hi]. pose proof (lookup_lt_Some _ _ _ Hi).
      destruct (decide (i = length c - 1)) as [-> |Hin]; [eapply (nst_sorted _ _ _ _ _ Hc j (length c - 1)); eauto; lia|].
      exfalso. apply Hyn. rewrite E. destruct (decide (y = v)) as [-> |Hne]; [left|right]. apply elem_of_arrange, elem_of_list_filter. split; [done|].
      apply (elem_of_list_lookup_2 _ i). by rewrite list_lookup_insert_ne.
    + eapply nearest_rest; [apply NoDup_seq|exact Hc|by eapply elem_of_list_lookup_2|apply elem_of_seq; lia|done].
Qed.

Section Result.
Context {cfg : config} (skip : Prop) (o : options) (n : nat) (G : geometry) (D : dist_fun) (g : list (list nat)) (ss : list nat) (L : labels) (m : nat).
Hypothesis (Hv : options_valid o n) (Hs : options_sane o n) (HR : sc_result cfg skip o n G D g ss L m).

Lemma res_len : length L = n.
Proof. pose proof HR as []. by eapply assignment_length. Qed.

Lemma res_lt : labels_lt m L.
Proof. pose proof HR as [_ _ _ _ -> Ha]. by eapply assignment_lt. Qed.

Lemma res_seed s : s ∈ ss -> seedable o n G s.
Proof.
  intros Hin. pose proof HR as [Hg _ (H1 & _) _ _ _]. rewrite Forall_forall in H1. destruct (H1 s Hin) as [_ Hadj].
  by apply (nng_graph_seedable o n G Hv Hs g s Hg).
Qed.

Lemma res_closed s : s ∈ ss -> NoDup (closed g s) /\ Forall (fun x => x < n) (closed g s) /\ o_size o <= length (closed g s).
Proof.
  intros Hin. pose proof (res_seed s Hin) as Hsd. pose proof HR as [Hg _ _ _ _ _].
  destruct (nng_graph_row o n G Hv Hs g s Hg Hsd) as (H1 & H2 & H3). unfold closed. splits; auto; [|simpl; lia].
  constructor; [|done]. destruct Hsd as [Hp _]. by apply (primary_lt o n Hv Hs).
Qed.

Lemma res_group i s x : ss !! i = Some s -> x ∈ closed g s -> lab L x = Some i.
Proof.
  intros Hi Hx. pose proof (elem_of_list_lookup_2 _ _ _ Hi) as Hin. destruct (res_closed s Hin) as (_ & Hlt & _). rewrite Forall_forall in Hlt.
  pose proof HR as [_ _ Him _ _ Ha]. eapply assignment_keeps; [exact Ha|]. rewrite seed_labels_lab by auto. by eapply seed_label_group.
Qed.

Lemma res_sub i s : ss !! i = Some s -> closed g s ⊆+ lab_members L i.
Proof.
  intros Hi. pose proof (elem_of_list_lookup_2 _ _ _ Hi) as Hin. destruct (res_closed s Hin) as (H1 & H2 & _).
  apply NoDup_submseteq; [done|]. intros x Hx. apply elem_of_list_filter. split; [by eapply res_group|]. rewrite Forall_forall in H2.
  apply elem_of_seq. rewrite res_len. specialize (H2 x Hx). lia.
Qed.

Lemma res_seed_of i : i < m -> exists s, ss !! i = Some s.
Proof. intros Hi. pose proof HR as [_ _ _ _ -> _]. by apply lookup_lt_is_Some_2. Qed.

Lemma res_size i : i < m -> o_size o <= length (lab_members L i).
Proof.
  intros Hi. destruct (res_seed_of i Hi) as [s Hsi]. destruct (res_closed s) as (_ & _ & H); [by eapply elem_of_list_lookup_2|].
  etransitivity; [exact H|]. by apply submseteq_length, res_sub.
Qed.

Lemma res_some : m <> 0.
Proof. pose proof HR as [_ _ _ Hne -> _]. by destruct ss. Qed.

Lemma res_bound : m * o_size o <= n.
Proof.
  rewrite <- res_len. rewrite <- (seq_length (length L) 0). apply (classes_bound (lab L)). intros i Hi. by apply res_size.
Qed.

(** Types. *)
Lemma res_types i t : 2 <= o_num_types o -> i < m -> t < o_num_types o ->
  tcon (tcons_of o) t <= length (of_type (tlabels_of o) t (lab_members L i)).
Proof.
  intros Hty Hi Ht. destruct (res_seed_of i Hi) as [s Hsi]. pose proof (elem_of_list_lookup_2 _ _ _ Hsi) as Hin.
  pose proof (res_seed s Hin) as [Hp Hok]. rewrite decide_False in Hok by lia. pose proof (sr_graph _ _ _ _ _ _ _ _ _ HR) as Hg. unfold nng_graph in Hg.
  rewrite decide_False in Hg by lia. destruct Hg as [Hg Hsum]. pose proof (tg_row _ _ _ _ _ _ _ _ _ _ Hg s Hp Hok) as Hr.
  assert (o_num_types o <= length (tcons_of o)) as Hnt. { destruct (types_ok_options o n Hv Hs) as (_ & H1 & _); [lia|done]. }
  destruct (typed_adj_facts _ _ _ _ _ _ _ _ _ _ Hnt Hsum (primary_lt o n Hv Hs s Hp) Hr) as (_ & _ & _ & H4).
  etransitivity; [by apply (H4 t)|]. apply submseteq_length. unfold of_type. apply filter_submseteq. by apply (res_sub i s).
Qed.

(** Ignored points. *)
Lemma res_ignore : o_pum o = UM_IGNORE -> o_sum o = UM_IGNORE -> L = seed_labels g ss n.
Proof.
  intros H1 H2. pose proof HR as [_ _ _ _ _ (L1 & L2 & H3 & H4 & H5)]. rewrite H1, H2 in *. simpl in H4, H5.
  assert (L1 = seed_labels g ss n) as -> by (unfold uses_nng in H3; rewrite bool_decide_eq_false_2 in H3 by naive_solver; tauto).
  destruct H4 as [-> |[_ ->]]; destruct H5 as [-> |[_ ->]]; done.
Qed.

Lemma res_exact i : o_num_types o < 2 -> o_pum o = UM_IGNORE -> o_sum o = UM_IGNORE -> i < m -> length (lab_members L i) = o_size o.
Proof.
  intros Ht H1 H2 Hi. destruct (res_seed_of i Hi) as [s Hsi]. pose proof (elem_of_list_lookup_2 _ _ _ Hsi) as Hin.
  assert (length (closed g s) = o_size o) as <-.
  { pose proof (res_seed s Hin) as [Hp Hf]. rewrite decide_True in Hf by done. pose proof (sr_graph _ _ _ _ _ _ _ _ _ HR) as Hg. unfold nng_graph in Hg.
    rewrite decide_True in Hg by done. pose proof (ov_size _ _ Hv).
    destruct (size_graph_row n G _ _ _ _ g s Hg) as (_ & H4 & _); auto; [lia|by apply (primary_lt o n Hv Hs)|]. unfold closed. simpl. lia. }
  apply Permutation_length. apply NoDup_Permutation; [apply NoDup_filter, NoDup_seq|by apply res_closed|]. intros x. unfold lab_members. rewrite elem_of_list_filter. split.
  - intros [Hx Hxs]. apply elem_of_seq in Hxs. rewrite res_len in Hxs. rewrite (res_ignore H1 H2), seed_labels_lab in Hx by lia.
    apply seed_label_Some in Hx as (s' & Hs' & Hx). by simplify_eq.
  - intros Hx. split; [by eapply res_group|]. destruct (res_closed s Hin) as (_ & Hlt & _). rewrite Forall_forall in Hlt. apply elem_of_seq. rewrite res_len. specialize (Hlt x Hx). lia.
Qed.

(** Coverage. *)
Lemma feasible_norad S k v v' : feasible G S k None v -> feasible G S k None v'.
Proof. done. Qed.

Lemma res_seedable v : srad_of o = None -> v ∈ primary o n -> seedable o n G v.
Proof.
  intros Hr Hp. pose proof HR as [_ _ _ Hne _ _]. assert (exists s, s ∈ ss) as [s Hin] by (destruct ss; [done|eexists; left]).
  assert (seedable o n G s) as [_ Hsd] by (by apply res_seed).
  split; [done|]. rewrite Hr in *. destruct (decide (o_num_types o < 2)); [done|]. unfold typed_ok, type_feasible in *.
  destruct Hsd as [H1 H2]. split; [|done]. eapply Forall_impl; [exact H1|]. done.
Qed.

Lemma res_near v : v < n -> adj g v <> [] -> exists u i, u ∈ closed g v /\ lab (seed_labels g ss n) u = Some i /\ lab L u = Some i.
Proof.
  intros Hvn Hadj. pose proof HR as [Hg _ Him _ _ _]. pose proof Him as (_ & _ & Hm). destruct (Hm v) as (s & u & Hsin & Hu & Huv); [by rewrite (nng_graph_len o n G g Hg)|done|].
  pose proof Hsin as Hsin'. apply elem_of_list_lookup in Hsin as [i Hi]. exists u, i. splits; auto; [|by eapply res_group].
  destruct (res_closed s Hsin') as (_ & Hlt & _). rewrite Forall_forall in Hlt. rewrite seed_labels_lab by auto. by eapply seed_label_group.
Qed.

Lemma res_any_neighbor v : ~ skip -> o_pum o = UM_ANY_NEIGHBOR -> v < n -> adj g v <> [] -> assigned L v.
Proof.
  intros Hsk Hum Hvn Hadj. destruct (res_near v Hvn Hadj) as (u & i & Hu & Hui & HLu). pose proof HR as [_ _ _ _ _ Ha].
  destruct Ha as (L1 & L2 & H1 & H2 & H3).
  assert (exists j, lab L1 v = Some j) as [j Hj].
  { destruct H1 as [-> |[? _]]; [|done]. unfold uses_nng. rewrite Hum, bool_decide_eq_true_2 by naive_solver.
    rewrite by_neighbors_lab by (by rewrite seed_labels_length). destruct (lab (seed_labels g ss n) v) as [j|] eqn:Ev; [eauto|].
    apply elem_of_cons in Hu as [-> |Hu]; [congruence|]. destruct (neighbor_label g (seed_labels g ss n) v) as [j|] eqn:E; [eauto|].
    apply neighbor_label_None in E. rewrite Forall_forall in E. exfalso. apply (E u Hu). unfold assigned. congruence. }
  assert (lab L2 v = Some j) as H2'. { destruct H2 as [H2|[_ ->]]; [|done]. by eapply stage_keeps. }
  assert (lab L v = Some j) as H3'. { destruct H3 as [H3|[_ ->]]; [|done]. by eapply stage_keeps. }
  unfold assigned. congruence.
Qed.

(** The points found by a search without radius. *)
Lemma by_search_covers S T L1 L2 x : by_search G S T None L1 L2 -> S <> [] -> (forall y, y ∈ S -> assigned L1 y) -> x < length L1 -> x ∈ T -> assigned L2 x.
Proof.
  intros [Hl H] Hne HS Hx HT. specialize (H x Hx).
  destruct (decide (x ∈ T /\ ~ assigned L1 x /\ feasible G S 1 None x)) as [Hd|Hd].
  - destruct H as (y & Hy & _ & Hl'). unfold assigned. rewrite Hl'. apply HS. eapply elem_of_submseteq; [|apply Hy]. by left.
  - unfold assigned. rewrite H. destruct (decide (assigned L1 x)) as [|Hna]; [done|]. exfalso. apply Hd. splits; auto.
    unfold feasible. rewrite filter_keep by (by apply Forall_forall). destruct S; [done|simpl; lia].
Qed.

Definition is_closest (um : unassigned_method) : Prop := um = UM_CLOSEST_ASSIGNED \/ um = UM_CLOSEST_SEED.

Lemma stage_covers um T L1 L2 x : is_closest um -> length L1 = n -> (forall y, assigned (seed_labels g ss n) y -> assigned L1 y) ->
  stage G um (filter (assigned (seed_labels g ss n)) (seq 0 n)) ss T None L1 L2 -> x < n -> x ∈ T -> assigned L2 x.
Proof.
  intros Hum Hl HL1 Hst Hx HT. pose proof HR as [_ _ Him Hne _ _].
  assert (forall s, s ∈ ss -> s < n /\ assigned (seed_labels g ss n) s) as Hss.
  { intros s Hin. destruct (res_closed s Hin) as (_ & Hlt & _). apply Forall_cons in Hlt as [Hsn _]. split; [done|]. unfold assigned. rewrite seed_labels_lab by done.
    intros E. apply seed_label_None in E. apply E. exists s. split; [done|left]. }
  destruct Hum as [-> | ->]; simpl in Hst; eapply by_search_covers; eauto; try (by rewrite Hl).
  - assert (exists s, s ∈ ss) as [s Hin0] by (destruct ss; [done|eexists; left]). destruct (Hss s Hin0) as [H1 H2]. intros E.
    assert (s ∈ filter (assigned (seed_labels g ss n)) (seq 0 n)) as Hin. { apply elem_of_list_filter. split; [done|]. apply elem_of_seq. lia. }
    rewrite E in Hin. by apply elem_of_nil in Hin.
  - intros y [Hy _]%elem_of_list_filter. auto.
  - intros y Hy. apply HL1. by apply Hss.
Qed.

Lemma res_primary v : ~ skip -> is_closest (o_pum o) -> radius_of (o_pum o) (o_prad o) (o_prad_val o) (srad_of o) (est_dist D g ss) = None ->
  v ∈ primary o n -> assigned L v.
Proof.
  intros Hsk Hum Hr Hp. pose proof (primary_lt o n Hv Hs v Hp) as Hvn. pose proof HR as [_ _ _ _ _ (L1 & L2 & H1 & H2 & H3)].
  assert (length L1 = n /\ forall y, assigned (seed_labels g ss n) y -> assigned L1 y) as [Hl1 Hk1].
  { destruct H1 as [-> |[? _]]; [|done]. destruct (uses_nng _ _); rewrite ?by_neighbors_length, seed_labels_length; [|done]. split; [done|].
    intros y Hy. unfold assigned in *. destruct (lab (seed_labels g ss n) y) as [i|] eqn:E; [|done]. by rewrite (by_neighbors_keeps _ _ _ _ E). }
  destruct H2 as [H2|[? _]]; [|done]. rewrite Hr in H2. assert (assigned L2 v) as Hv2 by (by eapply stage_covers).
  destruct H3 as [H3|[? _]]; [|done]. unfold assigned in *. destruct (lab L2 v) as [i|] eqn:E; [|done]. by rewrite (stage_keeps _ _ _ _ _ _ _ _ _ _ H3 E).
Qed.

Lemma res_secondary v : ~ skip -> is_closest (o_sum o) -> radius_of (o_sum o) (o_2rad o) (o_2rad_val o) (srad_of o) (est_dist D g ss) = None ->
  v < n -> assigned L v.
Proof.
  intros Hsk Hum Hr Hvn. pose proof HR as [_ _ _ _ _ (L1 & L2 & H1 & H2 & H3)].
  assert (length L1 = n /\ forall y, assigned (seed_labels g ss n) y -> assigned L1 y) as [Hl1 Hk1].
  { destruct H1 as [-> |[? _]]; [|done]. destruct (uses_nng _ _); rewrite ?by_neighbors_length, seed_labels_length; [|done]. split; [done|].
    intros y Hy. unfold assigned in *. destruct (lab (seed_labels g ss n) y) as [i|] eqn:E; [|done]. by rewrite (by_neighbors_keeps _ _ _ _ E). }
  destruct H2 as [H2|[? _]]; [|done]. destruct H3 as [H3|[? _]]; [|done]. rewrite Hr in H3. eapply stage_covers; [done| | |exact H3|done|].
  - by rewrite (stage_length _ _ _ _ _ _ _ _ H2).
  - intros y Hy%Hk1. unfold assigned in *. destruct (lab L1 y) as [i|] eqn:E; [|done]. by rewrite (stage_keeps _ _ _ _ _ _ _ _ _ _ H2 E).
  - apply elem_of_seq. lia.
Qed.

(** Seeds and their nearest neighbours. *)
Lemma res_nearest i : o_num_types o < 2 -> i < m -> exists s r, ss !! i = Some s /\ closed g s = s :: r /\ length r = o_size o - 1 /\
  Forall (fun x => within_opt G (srad_of o) s x = true) r /\ forall x y, x ∈ r -> y < n -> y ∉ s :: r -> nearer G s x y = true.
Proof.
  intros Ht Hi. destruct (res_seed_of i Hi) as [s Hsi]. pose proof (elem_of_list_lookup_2 _ _ _ Hsi) as Hin. exists s, (adj g s).
  pose proof (res_seed s Hin) as [Hp Hf]. rewrite decide_True in Hf by done. pose proof (sr_graph _ _ _ _ _ _ _ _ _ HR) as Hg. unfold nng_graph in Hg.
  rewrite decide_True in Hg by done. pose proof (ov_size _ _ Hv).
  destruct (size_graph_row n G _ _ _ _ g s Hg) as (_ & H4 & _); auto; [lia|by apply (primary_lt o n Hv Hs)|]. splits; auto.
  - apply Forall_forall. intros x Hx. eapply (size_row_nearest _ n G _ _ _ g s x 0); eauto. lia.
  - intros x y Hx Hy Hyn. eapply (size_row_nearest _ n G _ _ _ g s x y); eauto. lia.
Qed.

(** Points assigned to the closest seed. *)
Lemma nearest_one S x y : nearest G S 1 x [y] -> NoDup S -> y ∈ S /\ forall z, z ∈ S -> nearer G x y z = true \/ z = y.
Proof.
  intros Hn HS. split; [eapply elem_of_submseteq; [|apply Hn]; left|]. intros z Hz. destruct (decide (z = y)) as [?|Hne]; [by right|left].
  eapply nearest_rest; eauto; [left|]. intros Hc%elem_of_list_singleton. done.
Qed.

Definition in_group (x : nat) : Prop := exists s, s ∈ ss /\ x ∈ closed g s.

Lemma ss_NoDup : NoDup ss.
Proof.
  pose proof HR as [_ _ (_ & Hi & _) _ _ _]. apply NoDup_alt. intros i j s H1 H2. destruct (decide (i = j)); [done|]. exfalso.
  eapply (Hi i j s s H1 H2 n0 s); left.
Qed.

Lemma closest_seed_stage L1 L2 T rad x : by_search G ss T rad L1 L2 -> (forall i s, ss !! i = Some s -> lab L1 s = Some i) -> x < length L1 -> lab L1 x = None -> x ∈ T ->
  (exists i s, lab L2 x = Some i /\ ss !! i = Some s /\ within_opt G rad x s = true /\ forall s', s' ∈ ss -> nearer G x s s' = true \/ s' = s) \/
  (lab L2 x = None /\ forall s, s ∈ ss -> within_opt G rad x s = false).
Proof.
  intros [Hl H] Hsd Hx HN HT. specialize (H x Hx). destruct (decide (x ∈ T /\ ~ assigned L1 x /\ feasible G ss 1 rad x)) as [Hd|Hd].
  - left. destruct H as (y & Hy & Hw & Hlab). destruct (nearest_one _ _ _ Hy ss_NoDup) as [Hin Hz]. apply elem_of_list_lookup in Hin as [i Hi].
    exists i, y. rewrite Hlab. splits; auto.
  - right. rewrite H. split; [done|]. intros s Hin. destruct (within_opt G rad x s) eqn:E; [|done]. exfalso. apply Hd. split; [done|]. split; [intros Hn; by apply Hn|].
    unfold feasible. destruct (filter (fun y => within_opt G rad x y = true) ss) eqn:Ef; [|simpl; lia].
    assert (s ∈ filter (fun y => within_opt G rad x y = true) ss) as Hs' by (by apply elem_of_list_filter). rewrite Ef in Hs'. by apply elem_of_nil in Hs'.
Qed.

Lemma seeds_labelled i s : ss !! i = Some s -> lab (seed_labels g ss n) s = Some i.
Proof.
  intros Hi. pose proof (elem_of_list_lookup_2 _ _ _ Hi) as Hin. destruct (res_closed s Hin) as (_ & Hlt & _). apply Forall_cons in Hlt as [Hsn _].
  rewrite seed_labels_lab by done. pose proof HR as [_ _ Him _ _ _]. eapply seed_label_group; [done|done|left].
Qed.

Lemma not_in_group x : x < n -> ~ in_group x -> lab (seed_labels g ss n) x = None.
Proof. intros Hx Hn. rewrite seed_labels_lab by done. apply seed_label_None. intros (s & H1 & H2). apply Hn. by exists s. Qed.

Notation rad1 := (radius_of (o_pum o) (o_prad o) (o_prad_val o) (srad_of o) (est_dist D g ss)).
Notation rad2 := (radius_of (o_sum o) (o_2rad o) (o_2rad_val o) (srad_of o) (est_dist D g ss)).

Lemma res_closest_primary x : o_pum o = UM_CLOSEST_SEED -> x ∈ primary o n -> ~ in_group x ->
  (exists i s, lab L x = Some i /\ ss !! i = Some s /\ within_opt G rad1 x s = true /\ forall s', s' ∈ ss -> nearer G x s s' = true \/ s' = s) \/
  ((skip \/ forall s, s ∈ ss -> within_opt G rad1 x s = false) /\ (o_sum o = UM_IGNORE -> lab L x = None)).
Proof.
  intros Hum Hp Hng. pose proof (primary_lt o n Hv Hs x Hp) as Hx. pose proof HR as [_ _ _ _ _ (L1 & L2 & H1 & H2 & H3)].
  assert (L1 = seed_labels g ss n) as ->. { rewrite Hum in H1. unfold uses_nng in H1. rewrite bool_decide_eq_false_2 in H1 by naive_solver. tauto. }
  pose proof (not_in_group x Hx Hng) as HN.
  assert (lab L2 x = None -> o_sum o = UM_IGNORE -> lab L x = None) as Hlast.
  { intros H Hi. rewrite Hi in H3. simpl in H3. destruct H3 as [-> |[_ ->]]; done. }
  destruct H2 as [H2|[Hsk ->]].
  - rewrite Hum in H2. simpl in H2. eapply closest_seed_stage in H2 as [(i & s & H4 & H5 & H6)|[H4 H5]]; eauto; [left|right| |].
    + exists i, s. rewrite Hum. split; [|by split]. destruct H3 as [H3|[_ ->]]; [|done]. by eapply stage_keeps.
    + rewrite Hum. auto.
    + intros. by apply seeds_labelled.
    + by rewrite seed_labels_length.
  - right. auto.
Qed.

Lemma res_closest_secondary x : o_sum o = UM_CLOSEST_SEED -> x < n -> ~ in_group x ->
  (o_pum o = UM_IGNORE \/ ((o_pum o = UM_CLOSEST_SEED \/ (o_pum o = UM_CLOSEST_ASSIGNED /\ 2 <= o_num_types o)) /\ x ∉ primary o n)) ->
  (exists i s, lab L x = Some i /\ ss !! i = Some s /\ within_opt G rad2 x s = true /\ forall s', s' ∈ ss -> nearer G x s s' = true \/ s' = s) \/
  ((skip \/ forall s, s ∈ ss -> within_opt G rad2 x s = false) /\ lab L x = None).
Proof.
  intros Hum Hx Hng Hp. pose proof HR as [_ _ _ _ _ (L1 & L2 & H1 & H2 & H3)].
  assert (L1 = seed_labels g ss n) as ->.
  { unfold uses_nng in H1. rewrite bool_decide_eq_false_2 in H1; [tauto|]. intros [E|[Ht E]].
    - destruct Hp as [?|[[?|[? ?]] _]]; congruence.
    - apply bool_decide_eq_true in Ht. destruct Hp as [?|[[?|[? ?]] _]]; try congruence. lia. }
  pose proof (not_in_group x Hx Hng) as HN.
  assert (lab L2 x = None /\ length L2 = n /\ forall i s, ss !! i = Some s -> lab L2 s = Some i) as (HN2 & Hl2 & Hsd).
  { destruct H2 as [H2|[_ ->]]; [|rewrite seed_labels_length; splits; auto; intros; by apply seeds_labelled]. splits.
    - destruct Hp as [E|[_ Hp]]; [rewrite E in H2; simpl in H2; congruence|].
      destruct (o_pum o); simpl in H2; try congruence; destruct H2 as [_ H2]; specialize (H2 x); rewrite seed_labels_length in H2; specialize (H2 Hx);
        rewrite decide_False in H2 by tauto; congruence.
    - by rewrite (stage_length _ _ _ _ _ _ _ _ H2), seed_labels_length.
    - intros i s Hi. eapply stage_keeps; [exact H2|]. by apply seeds_labelled. }
  destruct H3 as [H3|[Hsk ->]]; [|by right; auto]. rewrite Hum in H3. simpl in H3.
  eapply closest_seed_stage in H3 as [H3|[H4 H5]]; eauto; [left|right|by rewrite Hl2|apply elem_of_seq; lia].
  - by rewrite Hum.
  - rewrite Hum. auto.
Qed.
End Result.

(** ** Results of batch clustering *)

Section BatchResult.
Context {cfg : config} (o : options) (n : nat) (G : geometry) (E : nat -> list nat -> Prop) (A : list nat) (L : labels) (m : nat).
Hypothesis (Hv : options_valid o n) (Hs : options_sane o n) (HR : batch_result cfg o n G E A L m).

Lemma bres_len : length L = n.
Proof. pose proof HR as [_ _ [H _ _ _ _ _ _] _]. exact H. Qed.

Lemma bres_lt : labels_lt m L.
Proof. pose proof HR as [_ _ [_ _ _ _ H _ _] _]. exact H. Qed.

Lemma bres_sub i : filter (fun x => lab L x = Some i) A ⊆+ lab_members L i.
Proof.
  pose proof HR as [_ _ [H1 H2 H3 _ _ _ _] _]. simpl in *. apply NoDup_submseteq; [by apply NoDup_filter|]. intros x [Hx HA]%elem_of_list_filter.
  apply elem_of_list_filter. split; [done|]. apply lab_lt in Hx. apply elem_of_seq. lia.
Qed.

Lemma bres_size i : i < m -> o_size o <= length (lab_members L i).
Proof. intros Hi. pose proof HR as [_ _ [_ _ _ _ _ H _] _]. rewrite <- (H i Hi). apply submseteq_length, bres_sub. Qed.

Lemma bres_bound : m * o_size o <= n.
Proof. pose proof HR as [_ _ [_ H1 H2 _ _ _ H3] _]. simpl in *. by eapply batch_run_nodup_members. Qed.

Notation cands := (candidates n G (o_size o) (srad_of o) (primary o n) (seq 0 n)).

Lemma cands_lt : Forall (fun v => v < n) cands.
Proof. apply Forall_forall. intros v [_ H]%elem_of_list_filter. apply elem_of_seq in H. lia. Qed.

Lemma bres_ok v c : v < n -> neighbours cfg n G (o_size o) (srad_of o) E v c -> NoDup c /\ length c = o_size o /\ Forall (fun x => x < n) c.
Proof. intros _. apply (neighbours_facts cfg n G (o_size o) (srad_of o) E). all: pose proof (ov_size _ _ Hv); lia. Qed.

Lemma bres_exact i : o_pum o = UM_IGNORE -> i < m -> length (lab_members L i) = o_size o.
Proof.
  intros Hum Hi. pose proof HR as [_ Hrun [I1 I2 I3 _ _ H _] _]. rewrite <- (H i Hi). pose proof (ov_size _ _ Hv).
  apply Permutation_length. apply NoDup_Permutation; [apply NoDup_filter, NoDup_seq|by apply NoDup_filter|]. intros x. unfold lab_members. rewrite !elem_of_list_filter. split.
  - intros [Hx _]. split; [done|].
    assert (0 < o_size o) as Hk0 by lia.
    pose proof (batch_run_only _ _ n _ Hk0 bres_ok _ _ _ (bool_decide_eq_true_2 _ Hum) cands_lt Hrun) as Ho. apply Ho; [by apply binv_init| |simpl; eauto].
    intros y [j Hy]. simpl in Hy. unfold lab in Hy. destruct (replicate n None !! y) as [z|] eqn:Ez; [|done]. apply lookup_replicate in Ez as [-> _]. done.
  - intros [Hx HA]. simpl in Hx. split; [done|]. apply lab_lt in Hx. apply elem_of_seq. lia.
Qed.

Lemma bres_any_neighbor v : o_pum o = UM_ANY_NEIGHBOR -> v ∈ primary o n -> feasible G (seq 0 n) (o_size o) (srad_of o) v -> assigned L v.
Proof.
  intros Hum Hp Hf. pose proof HR as [_ Hrun _ _]. pose proof (ov_size _ _ Hv).
  assert (0 < o_size o) as Hk0 by lia.
  destruct (batch_run_done _ _ n _ Hk0 bres_ok _ _ _ v cands_lt Hrun) as [[i Hi]|[Hi _]].
  - by apply binv_init.
  - unfold candidates. apply elem_of_list_filter. split; [done|]. apply elem_of_seq. pose proof (primary_lt o n Hv Hs v Hp). lia.
  - unfold assigned. simpl in Hi. by rewrite Hi.
  - apply bool_decide_eq_true in Hi. congruence.
Qed.

Lemma bres_no_radius v : srad_of o = None -> feasible G (seq 0 n) (o_size o) (srad_of o) v.
Proof. intros ->. unfold feasible. rewrite filter_keep by (by apply Forall_forall). rewrite seq_length. pose proof (ov_size _ _ Hv); lia. Qed.
End BatchResult.
