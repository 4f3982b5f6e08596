(** Wider radii of the last stage only add points. *)

From stdpp Require Import prelude list sorting.
From Coq Require Import NArith ZArith.
From Verif Require Import Base World Mem Digraph DigraphRep Float SortIdx Spi Dist Options Arrays GraphSpec SeedSpec AssignSpec SeedsExcl
  Nng NngGraph NngSize NngAssign NngStage TypeCount TypeRows Batch BatchSpec BatchProof OptionsProof NngClustering
  ScSpec ScProof ClusSpec ScFacts Approx ScClaims ScClaims2 ScClaims3 ScDet DistProof Example1 HierClaims2 Reach Restated.

(** All pairs of the first [n] points within [r] are within [r']. *)
Definition wider (n : nat) (G : geometry) (r r' : option double) : Prop := forall q x, q < n -> x < n -> within_opt G r q x = true -> within_opt G r' q x = true.

(** Options [o] with another radius of the primary or secondary stage. *)
Definition other_prad (o : options) (m : radius_method) (v : double) : options := other_radii o (o_srad o) (o_srad_val o) m v (o_2rad o) (o_2rad_val o).
Definition other_2rad (o : options) (m : radius_method) (v : double) : options := other_radii o (o_srad o) (o_srad_val o) (o_prad o) (o_prad_val o) m v.

Lemma filter_le (P Q : nat -> Prop) `{forall x, Decision (P x)} `{forall x, Decision (Q x)} (l : list nat) : (forall x, x ∈ l -> P x -> Q x) -> length (filter P l) <= length (filter Q l).
Proof.
  induction l as [|x l IH]; intros Hpq; [done|]. rewrite !filter_cons. specialize (IH ltac:(intros; apply Hpq; [by right|done])). specialize (Hpq x ltac:(left)).
  destruct (decide (P x)), (decide (Q x)); simpl; try lia. tauto.
Qed.

Lemma search_wider n G S T r r' L0 L1 L2 x i : no_ties n G -> wider n G r r' -> length L0 = n -> NoDup S -> Forall (fun x => x < n) S ->
  by_search G S T r L0 L1 -> by_search G S T r' L0 L2 -> x < n -> lab L1 x = Some i -> lab L2 x = Some i.
Proof.
  intros HT Hw Hl HS Hlt [E1 H1] [E2 H2] Hx Hi. specialize (H1 x ltac:(lia)). specialize (H2 x ltac:(lia)).
  destruct (decide (x ∈ T /\ ~ assigned L0 x /\ feasible G S 1 r x)) as [(A & B & C)|Hn].
  - assert (feasible G S 1 r' x) as C'.
    { unfold feasible in *. rewrite Forall_forall in Hlt. etrans; [exact C|]. apply filter_le. intros y Hy. by apply Hw; auto. }
    rewrite decide_True in H2 by done. destruct H1 as (y & N & _ & E1'), H2 as (y' & N' & _ & E2').
    assert ([y] = [y']) as [= <-] by (eapply (nearest_unique n G HT S); eauto). congruence.
  - assert (assigned L0 x) as Ha by (unfold assigned; by rewrite <- H1, Hi). rewrite decide_False in H2 by tauto. congruence.
Qed.
Lemma stage_wider n G um Sa Ss T r r' L0 L1 L2 x i : no_ties n G -> wider n G r r' -> length L0 = n -> NoDup Sa -> Forall (fun x => x < n) Sa -> NoDup Ss -> Forall (fun x => x < n) Ss ->
  stage G um Sa Ss T r L0 L1 -> stage G um Sa Ss T r' L0 L2 -> x < n -> lab L1 x = Some i -> lab L2 x = Some i.
Proof. intros. destruct um; simpl in *; try congruence; [by eapply (search_wider n G Sa)|by eapply (search_wider n G Ss)]. Qed.

Lemma result_wider cfg n G D o m2 y m3 z g1 g2 ss1 ss2 L1 L2 k1 k2 x i : let o' := other_radii o (o_srad o) (o_srad_val o) m2 y m3 z in
  options_valid o n -> options_sane o n -> no_ties n G -> fixed_order cfg (o_seed o) ->
  (forall avg, wider n G (radius_of (o_sum o) (o_2rad o) (o_2rad_val o) (srad_of o) avg) (radius_of (o_sum o) m3 z (srad_of o) avg)) ->
  (m2 = o_prad o /\ y = o_prad_val o) \/
    (o_sum o = UM_IGNORE /\ forall avg, wider n G (radius_of (o_pum o) (o_prad o) (o_prad_val o) (srad_of o) avg) (radius_of (o_pum o) m2 y (srad_of o) avg)) ->
  sc_result cfg False o n G D g1 ss1 L1 k1 -> sc_result cfg False o' n G D g2 ss2 L2 k2 -> k1 = k2 /\ (x < n -> lab L1 x = Some i -> lab L2 x = Some i).
Proof.
  intros o' Hv Hs HT Hsm W3 W2 R1 R2. pose proof R1 as [G1 S1 I1 _ M1 (La & Lb & A1 & A2 & A3)]. destruct R2 as [G2 S2 _ _ M2 (Lc & Ld & A4 & A5 & A6)].
  change (nng_graph cfg o n G g2) in G2. change (seeds_spec cfg (o_seed o) g2 ss2) in S2.
  assert (g1 = g2) as <- by (by eapply nng_graph_unique). assert (ss1 = ss2) as <- by (by eapply seeds_unique). split; [congruence|].
  assert (NoDup ss1) as Hnd by (by eapply (ss_NoDup _ _ _ _ _ _ _ _ _ R1)).
  assert (Forall (fun x => x < n) ss1) as Hlt.
  { apply Forall_forall. intros s Hin. destruct (res_closed _ _ _ _ _ _ _ _ _ Hv Hs R1 s Hin) as (_ & Hlt & _). by apply Forall_cons in Hlt as [? _]. }
  set (Sa := filter (assigned (seed_labels g1 ss1 n)) (seq 0 n)) in *.
  assert (NoDup Sa) as HndA by apply NoDup_filter, NoDup_seq.
  assert (Forall (fun x => x < n) Sa) as HltA. { apply Forall_forall. intros u [_ Hu]%elem_of_list_filter. apply elem_of_seq in Hu. lia. }
  destruct A1 as [A1|[[] _]]. destruct A2 as [A2|[[] _]]. destruct A3 as [A3|[[] _]]. destruct A4 as [A4|[[] _]]. destruct A5 as [A5|[[] _]]. destruct A6 as [A6|[[] _]].
  change (o_pum o') with (o_pum o) in *. change (o_sum o') with (o_sum o) in *. change (o_num_types o') with (o_num_types o) in *. change (primary o' n) with (primary o n) in *.
  assert (La = Lc) as <- by congruence.
  assert (length La = n) as Hl. { rewrite A1. destruct (uses_nng _ _); rewrite ?by_neighbors_length; apply seed_labels_length. }
  assert (length Lb = n) as Hlb by (by rewrite (stage_length _ _ _ _ _ _ _ _ A2)).
  intros Hx Hi. destruct W2 as [[-> ->]|[Hig W2]].
  - assert (Lb = Ld) as <- by (eapply (stage_unique n G HT (o_pum o) Sa ss1); [exact Hl|done|done|done|done|exact A2|exact A5]).
    eapply (stage_wider n G (o_sum o) Sa ss1 _ _ _ _ _ _ _ _ HT (W3 (est_dist D g1 ss1))); [exact Hlb|done|done|done|done|exact A3|exact A6|done|done].
  - rewrite Hig in A3, A6. simpl in A3, A6. subst L1 L2. eapply (stage_wider n G (o_pum o) Sa ss1 _ _ _ _ _ _ _ _ HT (W2 (est_dist D g1 ss1))); [exact Hl|done|done|done|done|exact A2|exact A5|done|done].
Qed.

Lemma claim_wider cfg n G D o m2 y m3 z P1 V1 ds1 c1 w1 c1' w1' P2 V2 ds2 c2 w2 c2' w2' : let o' := other_radii o (o_srad o) (o_srad_val o) m2 y m3 z in
  (forall avg, wider n G (radius_of (o_sum o) (o_2rad o) (o_2rad_val o) (srad_of o) avg) (radius_of (o_sum o) m3 z (srad_of o) avg)) ->
  (m2 = o_prad o /\ y = o_prad_val o) \/
    (o_sum o = UM_IGNORE /\ forall avg, wider n G (radius_of (o_pum o) (o_prad o) (o_prad_val o) (srad_of o) avg) (radius_of (o_pum o) m2 y (srad_of o) avg)) ->
  call_ok cfg P1 V1 ds1 n G D o c1 -> call_ok cfg P2 V2 ds2 n G D o' c2 -> solid P1 V1 ds1 n w1 -> solid P2 V2 ds2 n w2 ->
  no_ties n G -> fixed_order cfg (o_seed o) -> o_seed o <> SM_BATCHES ->
  sc_clustering cfg P1 ds1 (Some o) (Some c1) w1 = Ok ((ER_OK, Some c1'), w1') ->
  sc_clustering cfg P2 ds2 (Some o') (Some c2) w2 = Ok ((ER_OK, Some c2'), w2') ->
  c_k c1' = c_k c2' /\ forall x, x < n -> ~ unlabelled cfg c1' x -> label_of c2' x = label_of c1' x.
Proof.
  intros o' W3 W2 H1 H2 S1 S2 HT Hsm Hb R1 R2.
  destruct (run_plain _ _ _ _ _ _ _ _ _ H1 w1 w1' c1' R1 Hb) as (Hv & Hs & _).
  destruct (claim_procedure _ _ _ _ _ _ _ _ _ H1 _ _ _ R1 S1 Hb) as (g1 & ss1 & L1 & X1 & [_ W1]).
  destruct (claim_procedure _ _ _ _ _ _ _ _ _ H2 _ _ _ R2 S2 Hb) as (g2 & ss2 & L2 & X2 & [_ W2']).
  split; [by eapply (result_wider _ _ _ _ _ _ _ _ _ _ _ _ _ _ _ _ _ 0 0 Hv Hs HT Hsm W3 W2 X1 X2)|].
  intros x Hx Hn. specialize (W1 x Hx). specialize (W2' x Hx). destruct (lab L1 x) as [i|] eqn:E; [|done].
  destruct (result_wider _ _ _ _ _ _ _ _ _ _ _ _ _ _ _ _ _ x i Hv Hs HT Hsm W3 W2 X1 X2) as [_ HL]. rewrite (HL Hx E) in W2'. congruence.
Qed.

Lemma claim_wider_2rad cfg n G D o m z P1 V1 ds1 c1 w1 c1' w1' P2 V2 ds2 c2 w2 c2' w2' :
  (forall avg, wider n G (radius_of (o_sum o) (o_2rad o) (o_2rad_val o) (srad_of o) avg) (radius_of (o_sum o) m z (srad_of o) avg)) ->
  call_ok cfg P1 V1 ds1 n G D o c1 -> call_ok cfg P2 V2 ds2 n G D (other_2rad o m z) c2 -> solid P1 V1 ds1 n w1 -> solid P2 V2 ds2 n w2 ->
  no_ties n G -> fixed_order cfg (o_seed o) -> o_seed o <> SM_BATCHES ->
  sc_clustering cfg P1 ds1 (Some o) (Some c1) w1 = Ok ((ER_OK, Some c1'), w1') ->
  sc_clustering cfg P2 ds2 (Some (other_2rad o m z)) (Some c2) w2 = Ok ((ER_OK, Some c2'), w2') ->
  c_k c1' = c_k c2' /\ forall x, x < n -> ~ unlabelled cfg c1' x -> label_of c2' x = label_of c1' x.
Proof. intros W. apply claim_wider; [done|by left]. Qed.
Lemma claim_wider_prad cfg n G D o m z P1 V1 ds1 c1 w1 c1' w1' P2 V2 ds2 c2 w2 c2' w2' : o_sum o = UM_IGNORE ->
  (forall avg, wider n G (radius_of (o_pum o) (o_prad o) (o_prad_val o) (srad_of o) avg) (radius_of (o_pum o) m z (srad_of o) avg)) ->
  call_ok cfg P1 V1 ds1 n G D o c1 -> call_ok cfg P2 V2 ds2 n G D (other_prad o m z) c2 -> solid P1 V1 ds1 n w1 -> solid P2 V2 ds2 n w2 ->
  no_ties n G -> fixed_order cfg (o_seed o) -> o_seed o <> SM_BATCHES ->
  sc_clustering cfg P1 ds1 (Some o) (Some c1) w1 = Ok ((ER_OK, Some c1'), w1') ->
  sc_clustering cfg P2 ds2 (Some (other_prad o m z)) (Some c2) w2 = Ok ((ER_OK, Some c2'), w2') ->
  c_k c1' = c_k c2' /\ forall x, x < n -> ~ unlabelled cfg c1' x -> label_of c2' x = label_of c1' x.
Proof. intros E W. apply claim_wider; [by rewrite E|by right]. Qed.

(** ** Concrete cases *)

Lemma wider_by n G r r' : forallb (fun q => forallb (fun x => bool_decide (within_opt G r q x = true -> within_opt G r' q x = true)) (seq 0 n)) (seq 0 n) = true -> wider n G r r'.
Proof.
  intros H q x Hq Hx. assert (forall f, forallb f (seq 0 n) = true -> forall i, i < n -> f i = true) as Hall by (intros f Hf i Hi; apply (proj1 (forallb_forall f _) Hf), in_seq; lia).
  pose proof (Hall _ (Hall _ H q Hq) x Hx) as H'. by apply bool_decide_eq_true in H'.
Qed.
Definition o_first (v : Z) : options :=
  with_methods SM_LEXICAL UM_CLOSEST_ASSIGNED UM_IGNORE (with_radii RM_USE_SUPPLIED 9 RM_USE_SUPPLIED v RM_NO_RADIUS 0 (with_size 3 default_options)).

(** Point 4 is closest to point 1, but among the seeds 0 and 2 to 2. *)
Definition torn : list Z := [0; 11; 40; 38; 24]%Z.
Definition o_torn (v : Z) : options :=
  with_methods SM_LEXICAL UM_CLOSEST_ASSIGNED UM_CLOSEST_SEED (with_radii RM_USE_SUPPLIED 12 RM_USE_SUPPLIED v RM_NO_RADIUS 0 (with_size 2 default_options)).
Lemma wider_refuted : exists l o m v k labels labels', no_ties (length l) (eucl_geo (line l)) /\ fixed_order default_config (o_seed o) /\
  (forall avg, wider (length l) (eucl_geo (line l)) (radius_of (o_pum o) (o_prad o) (o_prad_val o) (srad_of o) avg) (radius_of (o_pum o) m v (srad_of o) avg)) /\
  clustered l o k labels /\ clustered l (other_prad o m v) k labels' /\ (exists x i j, labels !! x = Some i /\ i <> 4294967295%Z /\ labels' !! x = Some j /\ i <> j).
Proof.
  exists torn, (o_torn 12), RM_USE_SUPPLIED, (d_of_Z 13), 2, [0; 0; 1; 1; 1]%Z, [0; 0; 1; 1; 0]%Z.
  split; [apply no_ties_by; by vm_compute|]. split; [by left|]. split; [intros avg; apply wider_by; by vm_compute|].
  split; [apply clustered_by; by vm_compute|]. split; [apply clustered_by; by vm_compute|]. by exists 4, 1%Z, 0%Z.
Qed.
