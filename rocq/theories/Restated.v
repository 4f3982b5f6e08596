(** Two ways to write the same request. *)

From stdpp Require Import prelude list sorting.
From Coq Require Import NArith ZArith.
From Verif Require Import Base World Mem Digraph DigraphRep Float SortIdx Spi Dist Options Arrays GraphSpec SeedSpec AssignSpec SeedsExcl
  Nng NngGraph NngSize NngAssign NngStage TypeCount TypeRows Batch BatchSpec BatchProof OptionsProof NngClustering
  ScSpec ScProof ClusSpec ScFacts Approx ScClaims ScClaims2 ScClaims3 ScDet DistProof Example1 HierClaims2 Reach.

(** ** Lists of primary points *)

(** Options with another list of primary points. *)
Definition other_primary (o : options) (len : nat) (p : option (list nat)) : options :=
  Options (o_version o) (o_size o) (o_num_types o) (o_tcons o) (o_len_tlabels o) (o_tlabels o) (o_seed o) len p
    (o_pum o) (o_sum o) (o_srad o) (o_srad_val o) (o_prad o) (o_prad_val o) (o_2rad o) (o_2rad_val o) (o_batch o).

(** The points that may be seeds: all if no list is given. *)
Definition eligible (o : options) (n x : nat) : Prop :=
  match o_prim o with None => x < n | Some p => exists i, i < o_len_prim o /\ p !! i = Some x end.

Lemma eligible_primary o n x : eligible o n x <-> x ∈ primary o n.
Proof.
  unfold eligible, primary, prim_list. destruct (o_prim o) as [p|].
  - rewrite elem_of_take. split; [intros (i & A & B); by exists i|intros (i & A & B); by exists i].
  - rewrite elem_of_seq. lia.
Qed.
Lemma primary_same o o' n : options_valid o n -> options_sane o n -> options_valid o' n -> options_sane o' n ->
  (forall x, x < n -> eligible o n x <-> eligible o' n x) -> primary o n = primary o' n.
Proof.
  intros Hv Hs Hv' Hs' H. destruct (prim_ok_options _ _ Hv Hs) as (_ & _ & S1 & L1). destruct (prim_ok_options _ _ Hv' Hs') as (_ & _ & S2 & L2).
  fold (primary o n) in *. fold (primary o' n) in *. rewrite Forall_forall in L1, L2. apply (sorted_unique lt).
  - intros. lia.
  - done.
  - done.
  - apply NoDup_Permutation; [by apply sorted_NoDup|by apply sorted_NoDup|]. intros x. split; intros Hx.
    + apply eligible_primary, H; [by apply L1|]. by apply eligible_primary.
    + apply eligible_primary, H; [by apply L2|]. by apply eligible_primary.
Qed.

Lemma claim_primary cfg n G D o len p P1 V1 ds1 c1 w1 c1' w1' P2 V2 ds2 c2 w2 c2' w2' : (forall x, x < n -> eligible o n x <-> eligible (other_primary o len p) n x) ->
  call_ok cfg P1 V1 ds1 n G D o c1 -> call_ok cfg P2 V2 ds2 n G D (other_primary o len p) c2 -> solid P1 V1 ds1 n w1 -> solid P2 V2 ds2 n w2 ->
  no_ties n G -> fixed_order cfg (o_seed o) ->
  sc_clustering cfg P1 ds1 (Some o) (Some c1) w1 = Ok ((ER_OK, Some c1'), w1') ->
  sc_clustering cfg P2 ds2 (Some (other_primary o len p)) (Some c2) w2 = Ok ((ER_OK, Some c2'), w2') ->
  c_k c1' = c_k c2' /\ forall x, x < n -> label_of c1' x = label_of c2' x.
Proof.
  intros HE H1 H2 S1 S2 HT Hsm R1 R2. set (o' := other_primary o len p) in *.
  destruct (decide (o_seed o = SM_BATCHES)) as [Hb|Hb].
  - destruct (run_batches _ _ _ _ _ _ _ _ _ H1 w1 w1' c1' R1 Hb) as (Hv & Hs & _). destruct (run_batches _ _ _ _ _ _ _ _ _ H2 w2 w2' c2' R2 Hb) as (Hv' & Hs' & _).
    pose proof (primary_same _ _ _ Hv Hs Hv' Hs' HE) as Ep.
    destruct (claim_procedure_batches _ _ _ _ _ _ _ _ _ H1 _ _ _ R1 Hb) as (_ & A1 & L1 & B1 & W1).
    destruct (claim_procedure_batches _ _ _ _ _ _ _ _ _ H2 _ _ _ R2 Hb) as (_ & A2 & L2 & B2 & W2).
    assert (filter (seedable o' n G) (seq 0 n) = filter (seedable o n G) (seq 0 n)) as Ef.
    { apply filter_same. intros v _. unfold seedable. by rewrite Ep. }
    assert ((A1, L1, c_k c1') = (A2, L2, c_k c2')) as E.
    { rewrite Ef in B2. eapply batch_run_unique; [|exact B1|exact B2]. intros v c c' [_ Hvn%elem_of_seq]%elem_of_list_filter (d1 & N1 & _ & ->) (d2 & N2 & _ & ->).
      f_equal. eapply (nearest_unique n G HT (seq 0 n)); eauto; [lia|apply NoDup_seq|apply seq_all]. }
    injection E as -> -> ->. split; [done|]. by eapply shows_same.
  - destruct (run_plain _ _ _ _ _ _ _ _ _ H1 w1 w1' c1' R1 Hb) as (Hv & Hs & _). destruct (run_plain _ _ _ _ _ _ _ _ _ H2 w2 w2' c2' R2 Hb) as (Hv' & Hs' & _).
    pose proof (primary_same _ _ _ Hv Hs Hv' Hs' HE) as Ep.
    destruct (claim_procedure _ _ _ _ _ _ _ _ _ H1 _ _ _ R1 S1 Hb) as (g1 & ss1 & L1 & X1 & W1).
    destruct (claim_procedure _ _ _ _ _ _ _ _ _ H2 _ _ _ R2 S2 Hb) as (g2 & ss2 & L2 & X2 & W2).
    assert (sc_result cfg False o n G D g2 ss2 L2 (c_k c2')) as X2'.
    { destruct X2 as [Y1 Y2 Y3 Y4 Y5 Y6]. unfold nng_graph in Y1. rewrite <- Ep in Y1, Y6. by constructor. }
    destruct (sc_result_unique _ _ _ _ _ _ _ _ _ _ _ _ Hv Hs HT Hsm X1 X2') as [-> ->]. split; [done|]. by eapply shows_same.
Qed.

(** ** The secondary method is for all points left *)

(** Method and radius of the secondary stage are used in the primary stage as well. *)
Definition both_stages (o : options) : options :=
  Options (o_version o) (o_size o) (o_num_types o) (o_tcons o) (o_len_tlabels o) (o_tlabels o) (o_seed o) (o_len_prim o) (o_prim o)
    (o_sum o) (o_sum o) (o_srad o) (o_srad_val o) (o_2rad o) (o_2rad_val o) (o_2rad o) (o_2rad_val o) (o_batch o).

Lemma search_twice G S T n rad L0 Lb L : length L0 = n -> Forall (fun x => x < n) S -> Forall (assigned L0) S ->
  by_search G S T rad L0 Lb -> by_search G S (seq 0 n) rad Lb L -> by_search G S (seq 0 n) rad L0 L.
Proof.
  intros Hl Hlt HS [E1 H1] [E2 H2]. split; [congruence|]. intros x Hx. pose proof (H1 x Hx) as X1. pose proof (H2 x ltac:(lia)) as X2.
  rewrite Forall_forall in HS, Hlt. assert (x ∈ seq 0 n) as Hseq by (apply elem_of_seq; lia).
  assert (forall y, nearest G S 1 x [y] -> y ∈ S) as Hin by (intros y Hy; eapply elem_of_submseteq; [|by eapply nst_sub]; left).
  assert (forall y, y ∈ S -> lab Lb y = lab L0 y) as Hkeep.
  { intros y Hy. pose proof (H1 y ltac:(rewrite Hl; by apply Hlt)) as Y. rewrite decide_False in Y; [done|]. intros (_ & A & _). by apply A, HS. }
  destruct (decide (x ∈ seq 0 n /\ ~ assigned L0 x /\ feasible G S 1 rad x)) as [(_ & Ha & Hf)|Hno].
  - destruct (decide (x ∈ T)) as [HT|HT].
    + rewrite decide_True in X1 by done. destruct X1 as (y & N & W & E). exists y. split; [done|]. split; [done|]. rewrite <- E.
      rewrite decide_False in X2; [done|]. intros (_ & A & _). apply A. unfold assigned. rewrite E. by apply HS, Hin.
    + rewrite decide_False in X1 by tauto. rewrite decide_True in X2 by (unfold assigned; rewrite X1; done). destruct X2 as (y & N & W & E). exists y. split; [done|]. split; [done|].
      rewrite E. apply Hkeep. by apply Hin.
  - rewrite decide_False in X1 by tauto. rewrite decide_False in X2; [congruence|]. unfold assigned in *. rewrite X1. tauto.
Qed.

Lemma both_result cfg n G D o g ss L m : options_valid (both_stages o) n -> options_sane (both_stages o) n -> o_pum o = UM_IGNORE -> o_sum o = UM_CLOSEST_SEED \/ (o_sum o = UM_CLOSEST_ASSIGNED /\ 2 <= o_num_types o) ->
  sc_result cfg False (both_stages o) n G D g ss L m -> sc_result cfg False o n G D g ss L m.
Proof.
  intros Hv Hs Hp Hm X.
  assert (forall s, s ∈ ss -> s < n /\ assigned (seed_labels g ss n) s) as Hss.
  { intros s Hin. destruct (res_closed _ _ _ _ _ _ _ _ _ Hv Hs X s Hin) as (_ & Hlt & _). apply Forall_cons in Hlt as [Hsn _]. split; [done|]. unfold assigned. rewrite seed_labels_lab by done.
    intros E. apply seed_label_None in E. apply E. exists s. split; [done|left]. }
  destruct X as [H1 H2 H3 H4 H5 (La & Lb & A1 & A2 & A3)].
  destruct A1 as [A1|[[] _]]. destruct A2 as [A2|[[] _]]. destruct A3 as [A3|[[] _]].
  constructor; try done. exists La, La.
  assert (uses_nng (bool_decide (o_num_types o < 2)) (o_sum o) = false) as U.
  { unfold uses_nng. apply bool_decide_eq_false_2. destruct Hm as [->|[-> Ht]]; intros [?|[Hb ?]]; try done. apply bool_decide_eq_true in Hb. lia. }
  change (o_pum (both_stages o)) with (o_sum o) in *. change (o_sum (both_stages o)) with (o_sum o) in *. change (o_num_types (both_stages o)) with (o_num_types o) in *. rewrite U in A1.
  assert (uses_nng (bool_decide (o_num_types o < 2)) UM_IGNORE = false) as U0 by (unfold uses_nng; apply bool_decide_eq_false_2; intros [?|[_ ?]]; done).
  rewrite Hp, U0. split; [by left|]. split; [by left|left].
  change (radius_of (o_sum o) (o_prad (both_stages o)) (o_prad_val (both_stages o)) (srad_of (both_stages o)) (est_dist D g ss)) with (radius_of (o_sum o) (o_2rad o) (o_2rad_val o) (srad_of o) (est_dist D g ss)) in A2.
  change (radius_of (o_sum o) (o_2rad (both_stages o)) (o_2rad_val (both_stages o)) (srad_of (both_stages o)) (est_dist D g ss)) with (radius_of (o_sum o) (o_2rad o) (o_2rad_val o) (srad_of o) (est_dist D g ss)) in A3.
  assert (length La = n) as Hl by (rewrite A1; apply seed_labels_length).
  destruct Hm as [Hm|[Hm _]]; rewrite Hm in *; simpl in A2, A3 |- *.
  - eapply search_twice; [done|..|exact A2|exact A3]; apply Forall_forall; intros s Hin; destruct (Hss s Hin); [done|by rewrite A1].
  - eapply search_twice; [done|..|exact A2|exact A3]; apply Forall_forall; intros s [Hin Hs2%elem_of_seq]%elem_of_list_filter; [lia|by rewrite A1].
Qed.

Lemma claim_both cfg n G D o P1 V1 ds1 c1 w1 c1' w1' P2 V2 ds2 c2 w2 c2' w2' : o_pum o = UM_IGNORE -> o_sum o = UM_CLOSEST_SEED \/ (o_sum o = UM_CLOSEST_ASSIGNED /\ 2 <= o_num_types o) ->
  call_ok cfg P1 V1 ds1 n G D o c1 -> call_ok cfg P2 V2 ds2 n G D (both_stages o) c2 -> solid P1 V1 ds1 n w1 -> solid P2 V2 ds2 n w2 ->
  no_ties n G -> fixed_order cfg (o_seed o) ->
  sc_clustering cfg P1 ds1 (Some o) (Some c1) w1 = Ok ((ER_OK, Some c1'), w1') ->
  sc_clustering cfg P2 ds2 (Some (both_stages o)) (Some c2) w2 = Ok ((ER_OK, Some c2'), w2') ->
  c_k c1' = c_k c2' /\ forall x, x < n -> label_of c1' x = label_of c2' x.
Proof.
  intros Hp Hm H1 H2 S1 S2 HT Hsm R1 R2.
  assert (o_seed o <> SM_BATCHES) as Hb.
  { intros Hb. destruct (run_batches _ _ _ _ _ _ _ _ _ H1 w1 w1' c1' R1 Hb) as (Hv & _). destruct (ov_batches _ _ Hv Hb) as (_ & E & _). destruct Hm as [Hm|[Hm _]]; congruence. }
  destruct (run_plain _ _ _ _ _ _ _ _ _ H1 w1 w1' c1' R1 Hb) as (Hv & Hs & _). destruct (run_plain _ _ _ _ _ _ _ _ _ H2 w2 w2' c2' R2 Hb) as (Hv' & Hs' & _).
  destruct (claim_procedure _ _ _ _ _ _ _ _ _ H1 _ _ _ R1 S1 Hb) as (g1 & ss1 & L1 & X1 & W1).
  destruct (claim_procedure _ _ _ _ _ _ _ _ _ H2 _ _ _ R2 S2 Hb) as (g2 & ss2 & L2 & X2 & W2).
  pose proof (both_result _ _ _ _ _ _ _ _ _ Hv' Hs' Hp Hm X2) as X2'.
  destruct (sc_result_unique _ _ _ _ _ _ _ _ _ _ _ _ Hv Hs HT Hsm X1 X2') as [-> ->]. split; [done|]. by eapply shows_same.
Qed.

(** ** Concrete cases *)

Definition mark : list Z := [0; 1; 22; 4; 9; 32; 15; 34]%Z.
Lemma mark_no_ties : no_ties 8 (eucl_geo (line mark)).
Proof. apply no_ties_by. by vm_compute. Qed.
Definition o_any : options := with_methods SM_LEXICAL UM_ANY_NEIGHBOR UM_IGNORE (with_size 3 default_options).
Definition o_second (um : unassigned_method) : options :=
  with_methods SM_LEXICAL UM_IGNORE um (with_radii RM_USE_SUPPLIED 9 RM_NO_RADIUS 0 RM_USE_SUPPLIED 18 (with_primary [0; 1; 3; 5; 6; 7] (with_size 3 default_options))).
Lemma mark_eligible x : x < 8 -> eligible o_any 8 x <-> eligible (other_primary o_any 8 (Some [0; 1; 2; 3; 4; 5; 6; 7])) 8 x.
Proof. intros Hx. split; [|done]. intros _. exists x. split; [exact Hx|]. do 8 (destruct x as [|x]; [done|]). lia. Qed.
