(** Methods for unassigned points only add points to the clusters. *)

From stdpp Require Import prelude list sorting.
From Coq Require Import NArith ZArith.
From Verif Require Import Base World Mem Digraph DigraphRep Float SortIdx Spi Dist Options Arrays GraphSpec SeedSpec AssignSpec SeedsExcl
  Nng NngGraph NngSize NngAssign NngStage TypeCount TypeRows Batch BatchSpec BatchProof OptionsProof NngClustering
  ScSpec ScProof ClusSpec ScFacts Approx ScClaims ScClaims2 ScClaims3 ScDet DistProof Example1 HierClaims2 Reach Restated.

(** Options [o] with other methods for unassigned points and other radii of these. *)
Definition other_methods (o : options) (pum sum : unassigned_method) (m2 : radius_method) (y : double) (m3 : radius_method) (z : double) : options :=
  Options (o_version o) (o_size o) (o_num_types o) (o_tcons o) (o_len_tlabels o) (o_tlabels o) (o_seed o) (o_len_prim o) (o_prim o)
    pum sum (o_srad o) (o_srad_val o) m2 y m3 z (o_batch o).
(** The secondary method and its radius only. *)
Definition other_secondary (o : options) (sum : unassigned_method) (m3 : radius_method) (z : double) : options :=
  other_methods o (o_pum o) sum (o_prad o) (o_prad_val o) m3 z.

(** ** Batches *)

Section Batches.
Context (k n : nat) (N : nat -> list nat -> Prop).

(** State [s'] has the same clusters as [s], with further points. *)
Definition extends (s s' : bstate) : Prop :=
  s.1.1 = s'.1.1 /\ s.2 = s'.2 /\ length s.1.2 = n /\ length s'.1.2 = n /\
  (forall x i, lab s.1.2 x = Some i -> lab s'.1.2 x = Some i) /\ (forall x i, lab s.1.2 x = Some i -> x ∈ s.1.1).

Lemma step_extends ign v s s' t t' : v < n -> (forall c c', N v c -> N v c' -> c = c') -> extends s s' ->
  batch_step true k N v s t -> batch_step ign k N v s' t' -> extends t t'.
Proof.
  intros Hv HN (E1 & E2 & E3 & E4 & E5 & E6) H1 H2.
  destruct H1 as [A L m HA|A L m c HA Hc Hno|A L m c j x HA Hc Hf]; inversion H2 as [A' L' m' HA'|A' L' m' c' HA' Hc' Hno'|A' L' m' c' j' x' HA' Hc' Hf']; subst; simpl in *; subst; try done.
  - pose proof (HN _ _ Hc Hc') as <-. split; [done|]. split; [done|]. simpl. rewrite !give_length. split; [done|]. split; [done|]. split.
    + intros x i Hi. pose proof (lab_lt _ _ _ Hi) as Hx. rewrite give_length in Hx. rewrite lab_give in Hi |- * by lia. case_decide; auto.
    + intros x i Hi. pose proof (lab_lt _ _ _ Hi) as Hx. rewrite give_length in Hx. rewrite lab_give in Hi by lia. apply elem_of_app. case_decide; [by left|right; eauto].
  - pose proof (HN _ _ Hc Hc') as <-. apply list_find_Some in Hf' as (Hl & Hx & _). exfalso. eapply Hno; [by eapply elem_of_list_lookup_2|exact Hx].
  - pose proof (HN _ _ Hc Hc') as <-. apply list_find_Some in Hf as (Hl & Hx & _). exfalso. eapply Hno'; [by eapply elem_of_list_lookup_2|exact Hx].
  - destruct ign; [done|]. split; [done|]. split; [done|]. simpl. rewrite insert_length. split; [done|]. split; [done|]. split; [|done].
    intros y i Hi. rewrite lab_insert by lia. case_decide as Hy; [|auto]. subst y. exfalso. apply HA. eauto.
Qed.

Lemma run_extends ign vs s s' t t' : Forall (fun v => v < n) vs -> (forall v c c', v ∈ vs -> N v c -> N v c' -> c = c') -> extends s s' ->
  batch_run true k N vs s t -> batch_run ign k N vs s' t' -> extends t t'.
Proof.
  revert s s'. induction vs as [|v vs IH]; intros s s' Hvs HN He H1 H2.
  - inversion H1; inversion H2; subst. done.
  - inversion_clear H1 as [|? ? ? s1 ? S1 R1]. inversion_clear H2 as [|? ? ? s1' ? S2 R2]. apply Forall_cons in Hvs as [Hv Hvs].
    eapply (IH s1 s1'); [done| | |done|done].
    + intros u c c' Hu. apply HN. by right.
    + eapply step_extends; [exact Hv| |exact He|exact S1|exact S2]. intros c c'. apply HN. left.
Qed.
End Batches.

(** ** Claims *)

(** Labels [L2] of the second clustering contain those of the first. *)
Lemma holds_added cfg c1 c2 L1 L2 m n : config_ok cfg -> holds cfg c1 L1 m -> holds cfg c2 L2 m -> (N.of_nat m <= cl_max cfg)%N -> labels_lt m L1 -> length L1 = n -> length L2 = n ->
  (forall x i, x < n -> lab L1 x = Some i -> lab L2 x = Some i) ->
  c_k c1 = c_k c2 /\ forall x, x < n -> ~ unlabelled cfg c1 x -> label_of c2 x = label_of c1 x.
Proof.
  intros Hcfg H1 H2 Hm Hlt Hl1 Hl2 H. pose proof H1 as [_ K1]. pose proof H2 as [_ K2]. split; [congruence|]. intros x Hx Hu.
  rewrite (holds_unlabelled cfg Hcfg c1 L1 m x) in Hu by (auto; lia). destruct (lab L1 x) as [i|] eqn:E; [|done].
  rewrite (holds_label_of cfg c1 L1 m x), (holds_label_of cfg c2 L2 m x) by (auto; lia). by rewrite E, (H x i Hx E).
Qed.

Lemma claim_added cfg n G D o pum sum m2 y m3 z P1 V1 ds1 c1 w1 c1' w1' P2 V2 ds2 c2 w2 c2' w2' : let o' := other_methods o pum sum m2 y m3 z in
  o_pum o = UM_IGNORE -> o_sum o = UM_IGNORE ->
  call_ok cfg P1 V1 ds1 n G D o c1 -> call_ok cfg P2 V2 ds2 n G D o' c2 -> no_ties n G -> fixed_order cfg (o_seed o) ->
  sc_clustering cfg P1 ds1 (Some o) (Some c1) w1 = Ok ((ER_OK, Some c1'), w1') ->
  sc_clustering cfg P2 ds2 (Some o') (Some c2) w2 = Ok ((ER_OK, Some c2'), w2') ->
  c_k c1' = c_k c2' /\ forall x, x < n -> ~ unlabelled cfg c1' x -> label_of c2' x = label_of c1' x.
Proof.
  intros o' I1 I2 H1 H2 HT Hsm R1 R2. pose proof (co_cfg _ _ _ _ _ _ _ _ _ H1) as Hcfg. destruct (decide (o_seed o = SM_BATCHES)) as [Hb|Hb].
  - destruct (run_batches _ _ _ _ _ _ _ _ _ H1 w1 w1' c1' R1 Hb) as (Hv & Hs & Hn & L1 & k1 & A1 & Hh1 & Hm1 & X1).
    destruct (run_batches _ _ _ _ _ _ _ _ _ H2 w2 w2' c2' R2 Hb) as (_ & _ & _ & L2 & k2 & A2 & Hh2 & Hm2 & X2).
    pose proof (br_run _ _ _ _ _ _ _ _ X1) as B1. pose proof (br_run _ _ _ _ _ _ _ _ X2) as B2. rewrite bool_decide_eq_true_2 in B1 by done.
    assert (extends n (A1, L1, k1) (A2, L2, k2)) as (_ & E2 & E3 & E4 & E5 & _).
    { eapply run_extends; [| | |exact B1|exact B2].
      - apply Forall_forall. intros v [_ Hvs%elem_of_seq]%elem_of_list_filter. lia.
      - intros v c c' [_ Hvn%elem_of_seq]%elem_of_list_filter (d1 & (N1 & _) & ->) (d2 & (N2 & _) & ->). f_equal.
        eapply (nearest_unique n G HT (seq 0 n)); eauto; [lia|apply NoDup_seq|apply seq_all].
      - assert (forall x, lab (replicate n (@None nat)) x = None) as E.
        { intros x. unfold lab. destruct (replicate n None !! x) as [u|] eqn:E; [|done]. by apply lookup_replicate in E as [-> _]. }
        split; [done|]. split; [done|]. split; [apply replicate_length|]. split; [apply replicate_length|]. split; [done|]. intros x i Hi. simpl in Hi. by rewrite E in Hi. }
    simpl in *. subst k2. eapply holds_added; [done|exact Hh1|exact Hh2|done|by eapply bres_lt|done|done|auto].
  - destruct (run_plain _ _ _ _ _ _ _ _ _ H1 w1 w1' c1' R1 Hb) as (Hv & Hs & Hn & L1 & k1 & g1 & ss1 & Hh1 & Hm1 & X1).
    destruct (run_plain _ _ _ _ _ _ _ _ _ H2 w2 w2' c2' R2 Hb) as (_ & _ & _ & L2 & k2 & g2 & ss2 & Hh2 & Hm2 & X2).
    pose proof (res_ignore _ _ _ _ _ _ _ _ _ X1 I1 I2) as E1. pose proof (res_len _ _ _ _ _ _ _ _ _ X1) as Hl1. pose proof (res_len _ _ _ _ _ _ _ _ _ X2) as Hl2.
    pose proof (res_lt _ _ _ _ _ _ _ _ _ X1) as Hlt.
    destruct X1 as [G1 S1 _ _ M1 _]. destruct X2 as [G2 S2 _ _ M2 A2]. change (nng_graph cfg o n G g2) in G2. change (seeds_spec cfg (o_seed o) g2 ss2) in S2.
    assert (g1 = g2) as <- by (by eapply nng_graph_unique). assert (ss1 = ss2) as <- by (by eapply seeds_unique). assert (k2 = k1) as -> by congruence.
    eapply holds_added; [done|exact Hh1|exact Hh2|done|done|done|done|]. intros x i _ Hi. rewrite E1 in Hi. by eapply assignment_keeps.
Qed.

Lemma claim_added_secondary cfg n G D o sum m3 z P1 V1 ds1 c1 w1 c1' w1' P2 V2 ds2 c2 w2 c2' w2' : let o' := other_secondary o sum m3 z in
  o_sum o = UM_IGNORE ->
  call_ok cfg P1 V1 ds1 n G D o c1 -> call_ok cfg P2 V2 ds2 n G D o' c2 -> solid P1 V1 ds1 n w1 -> solid P2 V2 ds2 n w2 -> no_ties n G -> fixed_order cfg (o_seed o) -> o_seed o <> SM_BATCHES ->
  sc_clustering cfg P1 ds1 (Some o) (Some c1) w1 = Ok ((ER_OK, Some c1'), w1') ->
  sc_clustering cfg P2 ds2 (Some o') (Some c2) w2 = Ok ((ER_OK, Some c2'), w2') ->
  c_k c1' = c_k c2' /\ forall x, x < n -> ~ unlabelled cfg c1' x -> label_of c2' x = label_of c1' x.
Proof.
  intros o' I2 H1 H2 Q1 Q2 HT Hsm Hb R1 R2. pose proof (co_cfg _ _ _ _ _ _ _ _ _ H1) as Hcfg.
  destruct (run_plain _ _ _ _ _ _ _ _ _ H1 w1 w1' c1' R1 Hb) as (Hv & Hs & Hn & L1 & k1 & g1 & ss1 & Hh1 & Hm1 & X1).
  destruct (run_plain _ _ _ _ _ _ _ _ _ H2 w2 w2' c2' R2 Hb) as (_ & _ & _ & L2 & k2 & g2 & ss2 & Hh2 & Hm2 & X2).
  pose proof (res_len _ _ _ _ _ _ _ _ _ X1) as Hl1. pose proof (res_len _ _ _ _ _ _ _ _ _ X2) as Hl2. pose proof (res_lt _ _ _ _ _ _ _ _ _ X1) as Hlt.
  assert (NoDup ss1) as Hnd by (by eapply (ss_NoDup _ _ _ _ _ _ _ _ _ X1)).
  assert (Forall (fun x => x < n) ss1) as Hsl.
  { apply Forall_forall. intros s Hin. destruct (res_closed _ _ _ _ _ _ _ _ _ Hv Hs X1 s Hin) as (_ & Hlts & _). by apply Forall_cons in Hlts as [? _]. }
  destruct X1 as [G1 S1 _ _ M1 (La & Lb & A1 & A2 & A3)]. destruct X2 as [G2 S2 _ _ M2 (Lc & Ld & A4 & A5 & A6)].
  change (nng_graph cfg o n G g2) in G2. change (seeds_spec cfg (o_seed o) g2 ss2) in S2.
  assert (g1 = g2) as <- by (by eapply nng_graph_unique). assert (ss1 = ss2) as <- by (by eapply seeds_unique). assert (k2 = k1) as -> by congruence.
  destruct A1 as [A1|[Hn1 _]]; [|done]. destruct A2 as [A2|[Hn1 _]]; [|done]. destruct A4 as [A4|[Hn1 _]]; [|done]. destruct A5 as [A5|[Hn1 _]]; [|done].
  rewrite I2 in A3. simpl in A3. assert (L1 = Lb) as -> by (by destruct A3 as [->|[_ ->]]).
  change (o_pum o') with (o_pum o) in *. change (o_num_types o') with (o_num_types o) in *. change (primary o' n) with (primary o n) in *.
  assert (La = Lc) as <- by congruence.
  assert (length La = n) as Hl. { rewrite A1. destruct (uses_nng _ _); rewrite ?by_neighbors_length; apply seed_labels_length. }
  set (Sa := filter (assigned (seed_labels g1 ss1 n)) (seq 0 n)) in *.
  assert (NoDup Sa) as HndA by apply NoDup_filter, NoDup_seq.
  assert (Forall (fun x => x < n) Sa) as HltA. { apply Forall_forall. intros u [_ Hu]%elem_of_list_filter. apply elem_of_seq in Hu. lia. }
  assert (Lb = Ld) as <- by (eapply (stage_unique n G HT (o_pum o) Sa ss1); [exact Hl|done|done|done|done|exact A2|exact A5]).
  eapply holds_added; [done|exact Hh1|exact Hh2|done|done|done|done|]. intros x i _ Hi. destruct A6 as [A6|[_ ->]]; [|done]. by eapply stage_keeps.
Qed.

(** ** Concrete cases *)

(** Point 4 is closest to point 1, but among the seeds 0 and 2 to 2. *)
Definition between : list Z := [0; 11; 40; 38; 24]%Z.
Definition o_between (sm : seed_method) (pum sum : unassigned_method) : options := with_methods sm pum sum (with_size 2 default_options).
(** Another point, not a primary one. *)
Definition aside : list Z := [0; 11; 40; 38; 24; 90]%Z.
Definition o_aside (sum : unassigned_method) : options := with_primary [0; 1; 2; 3; 4] (o_between SM_LEXICAL UM_ANY_NEIGHBOR sum).
Lemma aside_no_ties : no_ties 6 (eucl_geo (line aside)).
Proof. apply no_ties_by. by vm_compute. Qed.
Lemma between_no_ties : no_ties 5 (eucl_geo (line between)).
Proof. apply no_ties_by. by vm_compute. Qed.

Lemma added_moved_refuted : exists l o pum sum m2 y m3 z k labels labels', no_ties (length l) (eucl_geo (line l)) /\ fixed_order default_config (o_seed o) /\
  clustered l o k labels /\ clustered l (other_methods o pum sum m2 y m3 z) k labels' /\
  (exists x i j, labels !! x = Some i /\ i <> 4294967295%Z /\ labels' !! x = Some j /\ j <> 4294967295%Z /\ i <> j).
Proof.
  exists between, (o_between SM_LEXICAL UM_ANY_NEIGHBOR UM_IGNORE), UM_CLOSEST_SEED, UM_IGNORE, RM_NO_RADIUS, (d_of_Z 0), RM_NO_RADIUS, (d_of_Z 0), 2, [0; 0; 1; 1; 0]%Z, [0; 0; 1; 1; 1]%Z.
  split; [exact between_no_ties|]. split; [by left|].
  split; [apply clustered_by; by vm_compute|]. split; [apply clustered_by; by vm_compute|]. by exists 4, 0%Z, 1%Z.
Qed.
