(** Distances within clusters: consequences of the specification of
    scc_sc_clustering for SCC_UM_ANY_NEIGHBOR. *)

From stdpp Require Import prelude list sorting.
From Coq Require Import NArith ZArith.
From Verif Require Import Base SortIdx World Mem Digraph Float Spi Options Arrays GraphSpec SeedSpec AssignSpec SeedsExcl
  Nng NngGraph NngSize NngAssign NngStage TypeCount TypeRows OptionsProof DigraphDiff ScSpec ScProof ScFacts.

(** ** Lists *)

Lemma pick_outside (C c : list nat) x : NoDup C -> length c <= length C -> x ∈ c -> x ∉ C -> NoDup c -> exists y, y ∈ C /\ y ∉ c.
Proof.
  intros HC Hl Hx HxC Hc. destruct (decide (Exists (fun y => y ∉ c) C)) as [He|He].
  - by apply Exists_exists in He.
  - exfalso. assert (forall y, y ∈ C -> y ∈ c) as Hsub.
    { intros y Hy. destruct (decide (y ∈ c)); [done|]. exfalso. apply He. apply Exists_exists. eauto. }
    assert (C ⊆+ c) as Hs by (by apply NoDup_submseteq). apply submseteq_Permutation_length_le in Hs; [|done]. apply HxC. by rewrite Hs.
Qed.

Lemma in_split (x : nat) l : x ∈ l -> exists l1 l2, l = l1 ++ x :: l2.
Proof. apply elem_of_list_split. Qed.

(** ** Points assigned through a neighbour *)

Section Any.
Context {cfg : config} (skip : Prop) (o : options) (n : nat) (G : geometry) (D : dist_fun) (g : list (list nat)) (ss : list nat) (L : labels) (m : nat).
Hypothesis (Hv : options_valid o n) (Hs : options_sane o n) (HR : sc_result cfg skip o n G D g ss L m).
Hypothesis (Hany : o_pum o = UM_ANY_NEIGHBOR).
Hypothesis (Hsec : o_sum o = UM_IGNORE \/ (~ skip /\ srad_of o = None /\ o_prim o = None)).

Lemma primary_all v : o_prim o = None -> v < n -> v ∈ primary o n.
Proof. intros E H. unfold primary, prim_list. rewrite E. apply elem_of_seq. lia. Qed.

Lemma any_final x i : lab L x = Some i -> exists s, ss !! i = Some s /\
  (x ∈ closed g s \/ (~ in_group g ss x /\ exists u, u ∈ adj g x /\ u ∈ closed g s)).
Proof.
  intros Hx. pose proof (lab_lt _ _ _ Hx) as Hxn. rewrite (res_len _ _ _ _ _ _ _ _ _ HR) in Hxn.
  pose proof HR as [Hg _ Him _ _ (L1 & L2 & H1 & H2 & H3)]. rewrite Hany in H2. simpl in H2. assert (L2 = L1) as -> by (destruct H2 as [?|[_ ?]]; done). clear H2.
  assert (lab L1 x = Some i) as Hx1.
  { destruct Hsec as [E|(Hsk & Hr & Hp)].
    - rewrite E in H3. simpl in H3. destruct H3 as [-> |[_ ->]]; done.
    - destruct H1 as [-> |[? _]]; [|done]. destruct H3 as [H3|[? _]]; [|done]. unfold uses_nng in *. rewrite Hany, bool_decide_eq_true_2 in * by naive_solver.
      assert (assigned (by_neighbors g (seed_labels g ss n)) x) as Ha.
      { destruct (res_near skip o n G D g ss L m Hv Hs HR x Hxn) as (u & j & Hu & Hui & _).
        { apply (nng_graph_seedable o n G Hv Hs g x Hg). apply (res_seedable skip o n G D g ss L m Hv Hs HR); [done|by apply primary_all]. }
        unfold assigned. rewrite by_neighbors_lab by (by rewrite seed_labels_length). destruct (lab (seed_labels g ss n) x) as [q|] eqn:Eq; [done|].
        apply elem_of_cons in Hu as [-> |Hu]; [congruence|]. intros E. apply neighbor_label_None in E. rewrite Forall_forall in E. apply (E u Hu). unfold assigned. congruence. }
      unfold assigned in Ha. destruct (lab (by_neighbors g (seed_labels g ss n)) x) as [j|] eqn:Ej; [|done].
      pose proof (stage_keeps _ _ _ _ _ _ _ _ _ _ H3 Ej) as Hk. congruence. }
  assert (lab (seed_labels g ss n) x = Some i \/ (lab (seed_labels g ss n) x = None /\ exists u, u ∈ adj g x /\ lab (seed_labels g ss n) u = Some i)) as Hd.
  { destruct H1 as [-> |[_ ->]]; [|by left]. destruct (uses_nng _ _); [|by left]. rewrite by_neighbors_lab in Hx1 by (by rewrite seed_labels_length).
    destruct (lab (seed_labels g ss n) x) as [q|]; [left; congruence|]. right. split; [done|]. by apply neighbor_label_Some in Hx1. }
  destruct Hd as [Hd|[Hd (u & Hu & Hui)]].
  - rewrite seed_labels_lab in Hd by done. apply seed_label_Some in Hd as (s & Hsi & Hxs). eauto.
  - pose proof (lab_lt _ _ _ Hui) as Hun. rewrite seed_labels_length in Hun. rewrite seed_labels_lab in Hui by done. apply seed_label_Some in Hui as (s & Hsi & Hus).
    exists s. split; [done|]. right. split; [|eauto]. rewrite seed_labels_lab in Hd by done. apply seed_label_None in Hd. intros (s' & ? & ?). apply Hd. by exists s'.
Qed.
End Any.

(** ** Four times the best bottleneck *)

(** A metric with values in an ordered set with addition. *)
Record metric {T : Type} (le : T -> T -> Prop) (add : T -> T -> T) (d : nat -> nat -> T) : Prop := {
  mt_refl : forall a, le a a;
  mt_trans : forall a b c, le a b -> le b c -> le a c;
  mt_add : forall a b c e, le a b -> le c e -> le (add a c) (add b e);
  mt_self : forall x y z, le (d x x) (d y z);                (* [d x x] is zero *)
  mt_pos : forall a x y, le a (add a (d x y));               (* distances are not negative *)
  mt_sym : forall x y, d x y = d y x;
  mt_tri : forall x y z, le (d x z) (add (d x y) (d y z))
}.

(** Points other than [v] in its row of nearest neighbours: none outside is
    nearer. *)
Lemma self_row_nearest G (S : list nat) k v c x y : NoDup S -> nearest G S k v c -> x ∈ self_row v c -> x <> v -> y ∈ S -> y ∉ self_row v c -> nearer G v x y = true.
Proof.
  intros HS Hc Hx Hxv Hy Hyn. unfold self_row in *. destruct (decide (c = [] \/ v ∈ c)) as [Hd|Hd].
  - by eapply nearest_rest.
  - apply elem_of_list_lookup in Hx as [j Hj]. apply list_lookup_insert_Some in Hj as [(_ & -> & _)|[Hjn Hj]]; [done|]. pose proof (lookup_lt_Some _ _ _ Hj) as Hjl.
    destruct (decide (y ∈ c)) as [Hyc|Hyc].
    + apply elem_of_list_lookup in Hyc as [i Hi]. pose proof (lookup_lt_Some _ _ _ Hi).
      destruct (decide (i = length c - 1)) as [-> |Hin]; [eapply (nst_sorted _ _ _ _ _ Hc j (length c - 1)); eauto; lia|].
      exfalso. apply Hyn. apply (elem_of_list_lookup_2 _ i). by rewrite list_lookup_insert_ne.
    + eapply nearest_rest; [exact HS|exact Hc|by eapply elem_of_list_lookup_2|done|done].
Qed.

(** The cluster of [v] in another clustering [f] of the points. *)
Definition alt_cluster (n : nat) (f : nat -> nat) (v : nat) : list nat := filter (fun y => f y = f v) (seq 0 n).

(** Another clustering that satisfies the constraints. *)
Definition alt_ok (o : options) (n : nat) (f : nat -> nat) : Prop :=
  forall v, v < n -> o_size o <= length (alt_cluster n f v) /\
    (2 <= o_num_types o -> forall t, t < o_num_types o -> tcon (tcons_of o) t <= length (of_type (tlabels_of o) t (alt_cluster n f v))).

Section Four.
Context {T : Type} (le : T -> T -> Prop) (add : T -> T -> T) (d : nat -> nat -> T).
Hypothesis (HM : metric le add d).
Context {cfg : config} (o : options) (n : nat) (G : geometry).
Hypothesis (Hv : options_valid o n) (Hs : options_sane o n).
Hypothesis (Hnear : forall q x y, q < n -> x < n -> y < n -> nearer G q x y = true -> le (d q x) (d q y)).
Context (f : nat -> nat) (lam : T).
Hypothesis (Hf : alt_ok o n f).
Hypothesis (Hlam : forall x y, x < n -> y < n -> f x = f y -> le (d x y) lam).

Lemma alt_NoDup v : NoDup (alt_cluster n f v).
Proof. apply NoDup_filter, NoDup_seq. Qed.

Lemma elem_of_alt v y : y ∈ alt_cluster n f v <-> y < n /\ f y = f v.
Proof. unfold alt_cluster. rewrite elem_of_list_filter, elem_of_seq. intuition lia. Qed.

(** If [x] is outside the alternative cluster of [v], some point of the latter
    is outside the row, hence not nearer. *)
Lemma row_short S (C : list nat) v c x : v < n -> NoDup S -> NoDup c -> (forall y, y ∈ C -> y ∈ S /\ y < n /\ f y = f v) -> NoDup C -> length c <= length C ->
  (forall y, y ∈ S -> y ∉ c -> nearer G v x y = true) -> x ∈ c -> x < n -> le (d v x) lam.
Proof.
  intros Hvn HS Hc HC HCn Hl Hr Hx Hxn. destruct (decide (x ∈ C)) as [Hi|Hi].
  - destruct (HC x Hi) as (_ & _ & E). apply Hlam; auto.
  - destruct (pick_outside C c x) as (y & Hy & Hyc); auto. destruct (HC y Hy) as (HyS & Hyn & E).
    eapply (mt_trans _ _ _ HM); [apply Hnear, (Hr y HyS Hyc); done|]. by apply Hlam.
Qed.

Lemma arc_short g v x : nng_graph cfg o n G g -> seedable o n G v -> x ∈ adj g v -> le (d v x) lam.
Proof.
  intros Hg [Hp Hok] Hx. pose proof (primary_lt o n Hv Hs v Hp) as Hvn. pose proof (ov_size _ _ Hv) as Hsz. destruct (Hf v Hvn) as [Hf1 Hf2].
  assert (x < n /\ x <> v) as [Hxn Hxv].
  { destruct (nng_graph_row o n G Hv Hs g v Hg (conj Hp Hok)) as (H1 & H2 & _). rewrite Forall_forall in H2. split; [auto|].
    apply NoDup_cons in H1 as [H1 _]. by intros ->. }
  unfold nng_graph in Hg. destruct (decide (o_num_types o < 2)) as [Ht|Ht].
  - destruct (sg_row _ _ _ _ _ _ _ Hg v Hp Hok) as (c & Hc & _ & E). rewrite E in Hx. apply elem_of_arrange, elem_of_list_filter in Hx as [_ Hx].
    destruct (nearest_self_nodup G (seq 0 n) (o_size o) v c) as [_ Hnd]; [apply NoDup_seq|done|].
    eapply (row_short (seq 0 n) (alt_cluster n f v) v (self_row v c) x); auto; [apply NoDup_seq| |apply alt_NoDup| |].
    + intros y [? ?]%elem_of_alt. splits; auto. apply elem_of_seq. lia.
    + rewrite self_row_length, (nst_len _ _ _ _ _ Hc). done.
    + intros y Hy Hyc. eapply self_row_nearest; [apply NoDup_seq|exact Hc|done|done|done|done].
  - destruct Hg as [Hg Hsum]. destruct (tg_row _ _ _ _ _ _ _ _ _ _ Hg v Hp Hok) as (cs & e & Hcs & He & E). rewrite E in Hx. apply elem_of_arrange, elem_of_list_filter in Hx as [_ Hx].
    apply elem_of_app in Hx as [Hx|Hx].
    + apply elem_of_concat in Hx as (c & Hx & Hc). apply elem_of_list_lookup in Hc as [j Hj].
      destruct (Forall2_lookup_r _ _ _ _ _ Hcs Hj) as (t & Htj & Hrow). apply elem_of_list_lookup_2 in Htj as Htu. apply elem_of_used_types in Htu as [Htn Htpos].
      assert (2 <= o_num_types o) as Ht2 by lia. specialize (Hf2 Ht2 t Htn).
      destruct (type_row_facts n (tlabels_of o) (tcons_of o) G (srad_of o) v t c Htpos Hrow) as (R1 & R2 & R3 & R4). destruct Hrow as (c0 & Hc0 & _ & Ec).
      eapply (row_short (group (tlabels_of o) n t) (of_type (tlabels_of o) t (alt_cluster n f v)) v c x); auto; [apply group_NoDup| |apply NoDup_filter, alt_NoDup|lia|].
      * intros y Hy. unfold of_type in Hy. apply elem_of_list_filter in Hy as [Hy1 Hy2]. apply elem_of_alt in Hy2 as [? ?]. splits; auto. apply elem_of_group. auto.
      * intros y Hy Hyc. destruct (decide (v ∈ group (tlabels_of o) n t)) as [Hvg|Hvg]; subst c.
        -- eapply self_row_nearest; [apply group_NoDup|exact Hc0|done|done|done|done].
        -- eapply nearest_rest; [apply group_NoDup|exact Hc0|done|done|done].
    + destruct (decide (tsum (o_num_types o) (tcons_of o) < o_size o)) as [Hlt|Hlt]; [|subst e; by apply elem_of_nil in Hx].
      destruct He as (call & Hcall & _ & ->). unfold extra_row in Hx. apply in_take in Hx. apply elem_of_list_filter in Hx as [_ Hx].
      eapply (row_short (seq 0 n) (alt_cluster n f v) v call x); auto; [apply NoDup_seq| | |apply alt_NoDup| |].
      * eapply submseteq_nodup; [apply Hcall|apply NoDup_seq].
      * intros y [? ?]%elem_of_alt. splits; auto. apply elem_of_seq. lia.
      * rewrite (nst_len _ _ _ _ _ Hcall). done.
      * intros y Hy Hyc. eapply nearest_rest; [apply NoDup_seq|exact Hcall|done|done|done].
Qed.

Context (skip : Prop) (D : dist_fun) (g : list (list nat)) (ss : list nat) (L : labels) (m : nat).
Hypothesis (HR : sc_result cfg skip o n G D g ss L m).
Hypothesis (Hany : o_pum o = UM_ANY_NEIGHBOR).
Hypothesis (Hsec : o_sum o = UM_IGNORE \/ (~ skip /\ srad_of o = None /\ o_prim o = None)).

Lemma to_seed x i : lab L x = Some i -> exists s, ss !! i = Some s /\ le (d x s) (add lam lam).
Proof.
  intros Hx. destruct (any_final skip o n G D g ss L m Hv Hs HR Hany Hsec x i Hx) as (s & Hsi & Hd). exists s. split; [done|].
  pose proof (lab_lt _ _ _ Hx) as Hxn. rewrite (res_len _ _ _ _ _ _ _ _ _ HR) in Hxn.
  pose proof (elem_of_list_lookup_2 _ _ _ Hsi) as Hin. pose proof (res_seed _ _ _ _ _ _ _ _ _ Hv Hs HR s Hin) as Hsd. pose proof (sr_graph _ _ _ _ _ _ _ _ _ HR) as Hg.
  assert (forall y, y ∈ closed g s -> le (d s y) lam) as Hclose.
  { intros y Hy. apply elem_of_cons in Hy as [-> |Hy]; [|by eapply arc_short]. assert (s < n) by (destruct Hsd; by apply (primary_lt o n Hv Hs)).
    eapply (mt_trans _ _ _ HM); [apply (mt_self _ _ _ HM s x x)|]. by apply Hlam. }
  assert (forall a, le a lam -> le a (add lam lam)) as Hup.
  { intros a Ha. eapply (mt_trans _ _ _ HM); [exact Ha|]. eapply (mt_trans _ _ _ HM); [apply (mt_pos _ _ _ HM lam x x)|].
    apply (mt_add _ _ _ HM); [apply (mt_refl _ _ _ HM)|by apply Hlam]. }
  destruct Hd as [Hd|[Hng (u & Hu & Hus)]].
  - rewrite (mt_sym _ _ _ HM). auto.
  - assert (seedable o n G x) as Hsx.
    { apply (nng_graph_seedable o n G Hv Hs g x Hg). intros E. rewrite E in Hu. by apply elem_of_nil in Hu. }
    eapply (mt_trans _ _ _ HM); [apply (mt_tri _ _ _ HM x u s)|]. apply (mt_add _ _ _ HM); [by eapply arc_short|].
    rewrite (mt_sym _ _ _ HM). auto.
Qed.

(** Two points of a cluster are at most four times [lam] apart. *)
Lemma four_times x y i : lab L x = Some i -> lab L y = Some i -> le (d x y) (add (add lam lam) (add lam lam)).
Proof.
  intros Hx Hy. destruct (to_seed x i Hx) as (s & Hs1 & H1). destruct (to_seed y i Hy) as (s' & Hs2 & H2). simplify_eq.
  eapply (mt_trans _ _ _ HM); [apply (mt_tri _ _ _ HM x s y)|]. apply (mt_add _ _ _ HM); [done|]. by rewrite (mt_sym _ _ _ HM).
Qed.
End Four.

(** ** Clusters of inwards updating seeds with one neighbour each *)

Lemma greedy_in g s ord : s ∈ greedy g [] ord -> exists pre post, ord = pre ++ s :: post /\ addable g (greedy g [] pre) s.
Proof.
  induction ord as [|v ord IH] using rev_ind; [intros H; by apply elem_of_nil in H|]. rewrite greedy_snoc. intros H.
  assert (s ∈ greedy g [] ord -> exists pre post, ord ++ [v] = pre ++ s :: post /\ addable g (greedy g [] pre) s) as Hin.
  { intros (pre & post & -> & ?)%IH. exists pre, (post ++ [v]). by rewrite <- app_assoc. }
  destruct (decide (addable g (greedy g [] ord) v)) as [Ha|Ha]; [|auto]. apply elem_of_app in H as [H|H]; [auto|].
  apply elem_of_list_singleton in H as ->. exists ord, []. done.
Qed.

Lemma covered_mono g pre post u : covered g (greedy g [] pre) u -> covered g (greedy g [] (pre ++ post)) u.
Proof. intros H. rewrite greedy_app. destruct (greedy_incl g (greedy g [] pre) post) as (more & -> & _). apply covered_app. by left. Qed.

Lemma elem_length (x : nat) l : x ∈ l -> 1 <= length l.
Proof. destruct l; simpl; [intros H; by apply elem_of_nil in H|lia]. Qed.

Lemma length_elem (l : list nat) : 1 <= length l -> exists x, x ∈ l.
Proof. destruct l as [|x l]; simpl; [lia|]. exists x. left. Qed.

(** A vertex visited in time with uncovered neighbourhood becomes a seed. *)
Lemma visited_addable g pre v : v ∈ pre -> adj g v <> [] -> (forall u, u ∈ closed g v -> ~ covered g (greedy g [] pre) u) -> covered g (greedy g [] pre) v.
Proof.
  intros Hv Ha Hu. apply elem_of_list_split in Hv as (a & b & ->).
  assert (addable g (greedy g [] a) v) as Had.
  { split; [done|]. apply Forall_forall. intros u Hu' Hc. apply (Hu u Hu'). by apply covered_mono. }
  replace (a ++ v :: b) with ((a ++ [v]) ++ b) by (by rewrite <- app_assoc). apply covered_mono. rewrite greedy_snoc, decide_True by done.
  apply covered_app. right. apply covered_single. left.
Qed.

(** A function without two equal values on a finite set maps onto it. *)
Lemma inj_onto (E : list nat) (p : nat -> nat) y : NoDup E -> (forall x, x ∈ E -> p x ∈ E) ->
  (forall x x', x ∈ E -> x' ∈ E -> p x = p x' -> x = x') -> y ∈ E -> exists x, x ∈ E /\ p x = y.
Proof.
  intros HE Hp Hi Hy. assert (NoDup (p <$> E)) as Hnd.
  { apply NoDup_alt. intros i j z Hzi Hzj. rewrite list_lookup_fmap in Hzi, Hzj. apply fmap_Some in Hzi as (a & Ha & ->). apply fmap_Some in Hzj as (b & Hb & Eab).
    assert (a = b) as -> by (apply Hi; eauto using elem_of_list_lookup_2). by eapply NoDup_lookup. }
  assert ((p <$> E) ≡ₚ E) as HP.
  { apply submseteq_Permutation_length_le; [by rewrite fmap_length|]. apply NoDup_submseteq; [done|]. intros z Hz. apply elem_of_list_fmap in Hz as (a & -> & Ha). auto. }
  rewrite <- HP in Hy. apply elem_of_list_fmap in Hy as (a & -> & Ha). eauto.
Qed.

Section Star.
Context (g : list (list nat)) (ord : list nat) (s t : nat).
Hypothesis (Hone : forall v, adj g v <> [] -> exists u, adj g v = [u] /\ u <> v /\ u < length g).
Hypothesis (Hord : visits_smallest (length g) (inwards_elig g) (inwards_key g) ord).
Notation ss := (greedy g [] ord).
Hypothesis (Hin : s ∈ ss) (Hst : adj g s = [t]).

Lemma star v v' : ~ in_group g ss v -> ~ in_group g ss v' -> s ∈ adj g v -> t ∈ adj g v' -> False.
Proof.
  intros Hv Hv' Hsv Htv'. destruct (greedy_in g s ord Hin) as (pre & post & Eo & [_ Hadd]). rewrite Forall_forall in Hadd.
  set (acc := greedy g [] pre) in *. assert (forall x, covered g acc x -> in_group g ss x) as Hcov.
  { intros x Hx. rewrite Eo. by apply covered_mono. }
  assert (in_group g ss s) as Hgs by (exists s; split; [done|left]).
  destruct Hord as [Hperm Hkey].
  assert (forall x, x < length g <-> x ∈ ord) as Hall by (intros x; rewrite Hperm, elem_of_seq; lia).
  assert (NoDup ord) as Hnd by (rewrite Hperm; apply NoDup_seq).
  set (E := filter (fun x => adj g x <> [] /\ x ∉ pre /\ ~ covered g acc x) (seq 0 (length g))).
  assert (forall x, x ∈ E <-> x < length g /\ adj g x <> [] /\ x ∉ pre /\ ~ covered g acc x) as HE.
  { intros x. unfold E. rewrite elem_of_list_filter, elem_of_seq. intuition lia. }
  assert (forall x u, u ∈ adj g x -> adj g x = [u] /\ u <> x /\ u < length g) as Hrow.
  { intros x u Hu. destruct (Hone x) as (u' & E' & ? & ?); [intros E'; rewrite E' in Hu; by apply elem_of_nil in Hu|]. rewrite E' in Hu.
    apply elem_of_list_singleton in Hu as ->. done. }
  assert (forall x, ~ in_group g ss x -> (s ∈ adj g x \/ t ∈ adj g x) -> x ∈ E) as Hout.
  { intros x Hx Hd. assert (adj g x <> []) as Hne by (intros E'; rewrite E' in Hd; destruct Hd as [Hd|Hd]; by apply elem_of_nil in Hd).
    assert (~ covered g acc x) as Hnc by naive_solver. apply HE. split.
    - destruct (decide (x < length g)); [done|]. exfalso. apply Hne. apply adj_ge. lia.
    - split; [done|]. split; [|done]. intros Hp. apply Hnc. apply visited_addable; [done|done|]. intros u Hu Hc. apply elem_of_cons in Hu as [-> |Hu]; [done|].
      destruct Hd as [Hd|Hd]; apply Hrow in Hd as (Ed & _); rewrite Ed in Hu; apply elem_of_list_singleton in Hu as ->.
      + apply (Hadd s); [left|done].
      + apply (Hadd t); [right; rewrite Hst; left|done]. }
  pose proof (Hout v Hv (or_introl Hsv)) as HvE. pose proof (Hout v' Hv' (or_intror Htv')) as HvE'.
  assert (s ∈ E) as HsE.
  { apply HE. split; [apply Hall; rewrite Eo; apply elem_of_app; right; left|]. split; [by rewrite Hst|]. split; [|apply Hadd; left].
    rewrite Eo in Hnd. apply NoDup_app in Hnd as (_ & Hnd & _). intros Hp. apply (Hnd s Hp). left. }
  assert (forall u, u ∈ E -> exists x, x ∈ E /\ adj g x = [u]) as Hpred.
  { intros u Hu. assert (1 <= inwards_key g pre u) as Hk.
    { assert (1 <= inwards_key g pre s) as Hks.
      { unfold inwards_key, arcs_from. apply HE in HvE as (H1 & _ & H3 & H4).
        match goal with |- 1 <= length ?l => assert (v ∈ l) as Hvf end.
        { apply elem_of_list_filter. split; [|apply elem_of_seq; lia]. split; [|done]. by apply bool_decide_eq_true_2. }
        by apply elem_length in Hvf. }
      destruct (decide (u = s)) as [-> |Hus]; [done|]. etransitivity; [exact Hks|]. apply HE in Hu as (H1 & H2 & H3 & H4).
      apply (Hkey pre s post u Eo); [|..|by split].
      - split; [by rewrite Hst|apply Hadd; left].
      - apply Hall in H1. rewrite Eo in H1. apply elem_of_app in H1 as [?|H1]; [done|]. apply elem_of_cons in H1 as [?|?]; done. }
    unfold inwards_key, arcs_from in Hk. apply length_elem in Hk as [x Hx].
    apply elem_of_list_filter in Hx as [[Hb Hux] Hxn]. apply bool_decide_eq_true_1 in Hb as [Hb1 Hb2].
    apply Hrow in Hux as (Ex & _ & _). exists x. split; [|done]. apply HE. apply elem_of_seq in Hxn. splits; auto; [lia|by rewrite Ex]. }
  set (p := fun u => default 0 (list_find (fun x => adj g x = [u]) E ≫= fun r => Some (snd r))).
  assert (forall u, u ∈ E -> p u ∈ E /\ adj g (p u) = [u]) as Hp.
  { intros u Hu. unfold p. destruct (list_find (fun x => adj g x = [u]) E) as [[i x]|] eqn:Ef; simpl.
    - apply list_find_Some in Ef as (Hi & Ha & _). split; [by eapply elem_of_list_lookup_2|done].
    - exfalso. apply list_find_None in Ef. rewrite Forall_forall in Ef. destruct (Hpred u Hu) as (x & Hx & Ex). by apply (Ef x). }
  assert (forall y, y ∈ E -> exists x, x ∈ E /\ p x = y) as Honto.
  { intros y Hy. apply inj_onto; [apply NoDup_filter, NoDup_seq|intros x Hx; by apply Hp| |done]. intros x x' Hx Hx' Epx.
    destruct (Hp x Hx) as [_ E1]. destruct (Hp x' Hx') as [_ E2]. rewrite Epx, E2 in E1. congruence. }
  destruct (Honto s HsE) as (u & Hu & Eu). destruct (Hp u Hu) as [_ E1]. rewrite Eu, Hst in E1. injection E1 as <-.
  destruct (Honto v' HvE') as (u' & Hu' & Eu'). destruct (Hp u' Hu') as [_ E2]. rewrite Eu' in E2. apply Hrow in Htv' as (E3 & _). rewrite E3 in E2. injection E2 as <-.
  apply Hv'. by rewrite <- Eu', Eu.
Qed.
End Star.

Section Two.
Context {cfg : config} (skip : Prop) (o : options) (n : nat) (G : geometry) (D : dist_fun) (g : list (list nat)) (ss : list nat) (L : labels) (m : nat).
Hypothesis (Hv : options_valid o n) (Hs : options_sane o n) (HR : sc_result cfg skip o n G D g ss L m).
Hypothesis (Hany : o_pum o = UM_ANY_NEIGHBOR).
Hypothesis (Hsec : o_sum o = UM_IGNORE \/ (~ skip /\ srad_of o = None /\ o_prim o = None)).
Hypothesis (Hsm : o_seed o = SM_INWARDS_UPDATING) (Hk : o_size o = 2) (Ht : o_num_types o < 2).

(** [x] is a nearest neighbour of [v]. *)
Definition nearest_to (v x : nat) : Prop := v < n /\ x < n /\ x <> v /\ forall y, y < n -> y <> v -> y <> x -> nearer G v x y = true.
Definition linked (x y : nat) : Prop := nearest_to x y \/ nearest_to y x.

Lemma two_row v : adj g v <> [] -> exists u, adj g v = [u] /\ u <> v /\ u < n /\ nearest_to v u.
Proof.
  intros Hne. pose proof (sr_graph _ _ _ _ _ _ _ _ _ HR) as Hg. pose proof (proj1 (nng_graph_seedable o n G Hv Hs g v Hg) Hne) as [Hp Hf].
  pose proof (primary_lt o n Hv Hs v Hp) as Hvn. rewrite decide_True in Hf by done. unfold nng_graph in Hg. rewrite decide_True in Hg by done. pose proof (ov_size _ _ Hv).
  destruct (size_graph_row n G _ _ _ _ g v Hg) as (H1 & H4 & H3); auto; [lia|]. rewrite Hk in H4.
  destruct (adj g v) as [|u [|]] eqn:E; simpl in H4; try lia. exists u.
  assert (u <> v) as Huv. { intros ->. apply (proj1 H3). left. }
  assert (u < n) as Hun. { destruct H3 as [_ H3]. rewrite Forall_forall in H3. apply H3. left. }
  splits; auto. unfold nearest_to. splits; auto. intros y Hy Hyv Hyu. eapply (size_row_nearest _ n G _ _ _ g v u y Hg Hp Hf); [lia|rewrite E; left|done|].
  rewrite E. intros Hi. apply elem_of_cons in Hi as [?|Hi]; [done|]. by apply elem_of_list_singleton in Hi.
Qed.

Lemma two_arcs x y i : lab L x = Some i -> lab L y = Some i -> x <> y -> linked x y \/ exists z, lab L z = Some i /\ linked x z /\ linked z y.
Proof.
  intros Hx Hy Hxy. destruct (any_final skip o n G D g ss L m Hv Hs HR Hany Hsec x i Hx) as (s & Hsi & Hdx).
  destruct (any_final skip o n G D g ss L m Hv Hs HR Hany Hsec y i Hy) as (s' & Hsi' & Hdy). simplify_eq.
  pose proof (elem_of_list_lookup_2 _ _ _ Hsi) as Hin. pose proof (sr_graph _ _ _ _ _ _ _ _ _ HR) as Hg.
  pose proof (res_seed _ _ _ _ _ _ _ _ _ Hv Hs HR s Hin) as Hsd. apply (nng_graph_seedable o n G Hv Hs g s Hg) in Hsd.
  destruct (two_row s Hsd) as (t & Est & Hts & Htn & Hst).
  assert (closed g s = [s; t]) as Ecl by (unfold closed; by rewrite Est).
  assert (lab L s = Some i) as Hls by (eapply (res_group _ _ _ _ _ _ _ _ _ Hv Hs HR); [done|rewrite Ecl; left]).
  assert (lab L t = Some i) as Hlt by (eapply (res_group _ _ _ _ _ _ _ _ _ Hv Hs HR); [done|rewrite Ecl; right; left]).
  assert (forall v u, u ∈ adj g v -> nearest_to v u) as Harc.
  { intros v u Hu. destruct (two_row v) as (u' & E & ? & ? & ?); [intros E; rewrite E in Hu; by apply elem_of_nil in Hu|]. rewrite E in Hu. by apply elem_of_list_singleton in Hu as ->. }
  rewrite Ecl in Hdx, Hdy.
  (* the centre of the star *)
  assert (exists z, lab L z = Some i /\ (forall a, (a ∈ [s; t] \/ (~ in_group g ss a /\ exists u, u ∈ adj g a /\ u ∈ [s; t])) -> a = z \/ linked a z)) as (z & Hz & Hc).
  { assert (forall a (Q : nat -> Prop), (exists u, u ∈ adj g a /\ u ∈ [s; t]) -> (s ∈ adj g a -> Q s) -> (t ∈ adj g a -> Q t) -> exists u, u ∈ [s; t] /\ u ∈ adj g a /\ Q u) as Hcase.
    { intros a Q (u & Hu & Hu') H1 H2. exists u. splits; auto. apply elem_of_cons in Hu' as [-> |Hu']; [auto|]. apply elem_of_list_singleton in Hu' as ->. auto. }
    destruct (decide (Exists (fun a => ~ covered g ss a /\ s ∈ adj g a) (seq 0 n))) as [He|He].
    - apply Exists_exists in He as (v & _ & Hv1 & Hv2). exists s. split; [done|]. intros a [Ha|[Ha Hu]].
      + apply elem_of_cons in Ha as [-> |Ha]; [by left|]. apply elem_of_list_singleton in Ha as ->. right. by right.
      + right. destruct (Hcase a (fun u => u = s) Hu) as (u & _ & Hua & ->); [done| |by left; apply Harc].
        intros Hta. exfalso. pose proof (sr_spec _ _ _ _ _ _ _ _ _ HR) as Hsp. rewrite Hsm in Hsp. destruct Hsp as (ord & Hord & Ess).
        rewrite Ess in Hin, Hv1, Ha. eapply (star g ord s t); [|by eapply visits_is_smallest|done|done|exact Hv1|exact Ha|done|done].
        intros b Hb. destruct (two_row b Hb) as (u' & ? & ? & ? & _). exists u'. splits; auto. by rewrite (nng_graph_len o n G g Hg).
    - exists t. split; [done|]. intros a [Ha|[Ha Hu]].
      + apply elem_of_cons in Ha as [-> |Ha]; [right; by left|]. apply elem_of_list_singleton in Ha as ->. by left.
      + right. destruct (Hcase a (fun u => u = t) Hu) as (u & _ & Hua & ->); [|done|by left; apply Harc].
        intros Hsa. exfalso. apply He. apply Exists_exists. exists a. split; [|by split]. apply Harc in Hsa as (? & _). apply elem_of_seq. lia. }
  destruct (Hc x Hdx) as [-> |Hlx]; destruct (Hc y Hdy) as [-> |Hly]; try done.
  - left. destruct Hly; [by right|by left].
  - by left.
  - right. exists z. splits; auto. destruct Hly; [by right|by left].
Qed.
End Two.
