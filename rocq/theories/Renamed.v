(** The labels of types are mere names. *)

From stdpp Require Import prelude list sorting.
From Coq Require Import NArith ZArith.
From Verif Require Import Base World Mem Digraph DigraphRep Float SortIdx Spi Dist Options Arrays GraphSpec SeedSpec AssignSpec SeedsExcl
  Nng NngGraph NngSize NngAssign NngStage TypeCount TypeRows Batch BatchSpec BatchProof OptionsProof NngClustering
  ScSpec ScProof ClusSpec ScFacts Approx ScClaims ScClaims2 ScClaims3 ScDet DistProof Example1 HierClaims2 ScStable Reach.

(** Options with other types. *)
Definition other_types (o : options) (nt : nat) (tcons : option (list nat)) (len : nat) (tl : option (list nat)) : options :=
  Options (o_version o) (o_size o) nt tcons len tl (o_seed o) (o_len_prim o) (o_prim o)
    (o_pum o) (o_sum o) (o_srad o) (o_srad_val o) (o_prad o) (o_prad_val o) (o_2rad o) (o_2rad_val o) (o_batch o).

(** Types with a constraint. *)
Notation used o := (used_types (tcons_of o) (o_num_types o)).
(** [f] takes the types with a constraint of [o] to those of [o'], which have the same
    points and the same constraints. *)
Definition renames (n : nat) (f : nat -> nat) (o o' : options) : Prop :=
  f <$> used o ≡ₚ used o' /\ forall t, t ∈ used o -> tcon (tcons_of o') (f t) = tcon (tcons_of o) t /\
    forall x, x < n -> tlabels_of o' !! x = Some (f t) <-> tlabels_of o !! x = Some t.
(** The options differ in the types only, and there are at least two in both. *)
Definition same_types (n : nat) (f : nat -> nat) (o o' : options) : Prop :=
  (exists nt tcons len tl, o' = other_types o nt tcons len tl) /\ 2 <= o_num_types o /\ 2 <= o_num_types o' /\ renames n f o o'.

Lemma Forall2_perm {A B} (R : A -> B -> Prop) l l' k : l ≡ₚ l' -> Forall2 R l k -> exists k', k ≡ₚ k' /\ Forall2 R l' k'.
Proof.
  intros Hp. revert k. induction Hp as [|x l l' Hp IH|x y l|l1 l2 l3 H1 IH1 H2 IH2]; intros k Hk.
  - inversion Hk. by exists [].
  - inversion_clear Hk as [|? z ? k' Hz Hk']. destruct (IH _ Hk') as (k2 & P2 & F2). exists (z :: k2). split; [by rewrite P2|by constructor].
  - inversion_clear Hk as [|? z ? k' Hz Hk']. inversion_clear Hk' as [|? z' ? k2 Hz' Hk2]. exists (z' :: z :: k2). split; [constructor|by repeat constructor].
  - destruct (IH1 _ Hk) as (k1 & P1 & F1). destruct (IH2 _ F1) as (k2 & P2 & F2). exists k2. split; [by rewrite P1|done].
Qed.
Lemma arrange_same l l' : l ≡ₚ l' -> arrange true l = arrange true l'.
Proof.
  intros H. unfold arrange. apply (sorted_unique (≤)).
  - intros. lia.
  - apply StronglySorted_merge_sort; apply _.
  - apply StronglySorted_merge_sort; apply _.
  - by rewrite !merge_sort_Permutation.
Qed.
Section Renamed.
Context (n : nat) (G : geometry) (f : nat -> nat) (o o' : options) (Hn : renames n f o o') (Hl : o_num_types o <= length (tcons_of o)) (Hl' : o_num_types o' <= length (tcons_of o')).

Lemma renamed_group t : t ∈ used o -> group (tlabels_of o') n (f t) = group (tlabels_of o) n t.
Proof.
  intros Ht. destruct Hn as [_ H]. destruct (H t Ht) as [_ Hg]. unfold group, of_type. apply filter_same. intros x Hx%elem_of_seq. apply Hg. lia.
Qed.
Lemma renamed_sum : tsum (o_num_types o') (tcons_of o') = tsum (o_num_types o) (tcons_of o).
Proof.
  rewrite <- !used_sum by done. destruct Hn as [Hp H]. rewrite <- Hp, <- list_fmap_compose. f_equal. apply list_fmap_ext. intros i t Ht. apply elem_of_list_lookup_2 in Ht. by apply H.
Qed.
Lemma renamed_feasible rad v : type_feasible n (tlabels_of o) (tcons_of o) G rad (used o) v <-> type_feasible n (tlabels_of o') (tcons_of o') G rad (used o') v.
Proof.
  unfold type_feasible. rewrite <- (proj1 Hn), Forall_fmap, !Forall_forall. unfold compose. apply forall_proper. intros t.
  split; intros H Ht; specialize (H Ht); rewrite (renamed_group t Ht), (proj1 (proj2 Hn t Ht)) in *; done.
Qed.
Lemma renamed_ok rad v : typed_ok n (tlabels_of o) (tcons_of o) G rad (o_num_types o) (o_size o) v <-> typed_ok n (tlabels_of o') (tcons_of o') G rad (o_num_types o') (o_size o) v.
Proof. unfold typed_ok. by rewrite renamed_feasible, renamed_sum. Qed.
Lemma renamed_row rad v t c : t ∈ used o -> type_row n (tlabels_of o) (tcons_of o) G rad v t c -> type_row n (tlabels_of o') (tcons_of o') G rad v (f t) c.
Proof. intros Ht. unfold type_row. by rewrite (renamed_group t Ht), (proj1 (proj2 Hn t Ht)). Qed.
Lemma renamed_adj st rad v r : st = true \/ f <$> used o = used o' -> typed_adj n (tlabels_of o) (tcons_of o) G rad st (o_num_types o) (o_size o) v r ->
  typed_adj n (tlabels_of o') (tcons_of o') G rad st (o_num_types o') (o_size o) v r.
Proof.
  intros Hst (cs & e & F & E & ->).
  assert (Forall2 (type_row n (tlabels_of o') (tcons_of o') G rad v) (f <$> used o) cs) as F'.
  { apply Forall2_fmap_l. apply Forall2_same_length_lookup. pose proof (Forall2_length _ _ _ F). split; [done|]. intros i t c Ht Hc.
    apply renamed_row; [by eapply elem_of_list_lookup_2|]. by eapply (Forall2_lookup_lr _ _ _ _ _ _ F). }
  assert (exists cs', cs ≡ₚ cs' /\ (st = true \/ cs = cs') /\ Forall2 (type_row n (tlabels_of o') (tcons_of o') G rad v) (used o') cs') as (cs' & P & Hor & F'').
  { destruct Hst as [->|Hst]; [|rewrite Hst in F'; by exists cs; auto]. destruct (Forall2_perm _ _ _ _ (proj1 Hn) F') as (cs' & P & F2). exists cs'. auto. }
  exists cs', e. split; [done|]. split.
  - rewrite renamed_sum. destruct (decide _); [|done]. destruct E as (call & N & W & ->). exists call. split; [done|]. split; [done|]. unfold extra_row. f_equal.
    apply list_filter_iff. intros x. by rewrite P.
  - destruct Hor as [->| ->]; [|done]. apply arrange_same. by rewrite P.
Qed.
End Renamed.

Lemma renamed_result cfg n G D f o o' g ss L m : options_valid o n -> options_sane o n -> options_valid o' n -> options_sane o' n -> same_types n f o o' ->
  stable_nng cfg = true \/ f <$> used o = used o' -> sc_result cfg False o n G D g ss L m -> sc_result cfg False o' n G D g ss L m.
Proof.
  intros Hv Hs Hv' Hs' ((nt & tcons & len & tl & Eo) & Ht & Ht' & Hn) Hst [H1 H2 H3 H4 H5 H6].
  assert (o_num_types o <= length (tcons_of o)) as Hl by (by destruct (types_ok_options _ _ Hv Hs Ht) as (_ & ? & _)).
  assert (o_num_types o' <= length (tcons_of o')) as Hl' by (by destruct (types_ok_options _ _ Hv' Hs' Ht') as (_ & ? & _)).
  constructor; try done.
  - unfold nng_graph in *. rewrite decide_False in H1 by lia. rewrite decide_False by lia. destruct H1 as [[A B C] Hsum].
    assert (o_size o' = o_size o) as Ez by (by rewrite Eo). assert (primary o' n = primary o n) as Ep by (by rewrite Eo). assert (srad_of o' = srad_of o) as Er by (by rewrite Eo). rewrite Ez, Ep, Er. split.
    + constructor; [done|..].
      * intros v Hv1 Hok. eapply renamed_adj; try done. apply B; [done|]. by apply (renamed_ok n G f o o').
      * intros v Hv1. apply C. intros [X Y]. apply Hv1. split; [done|]. by apply (renamed_ok n G f o o').
    + by rewrite (renamed_sum n f o o').
  - by rewrite Eo.
  - replace (bool_decide (o_num_types o' < 2)) with (bool_decide (o_num_types o < 2)); [by rewrite Eo|]. rewrite !bool_decide_eq_false_2 by lia. done.
Qed.

Lemma claim_renamed cfg n G D f o o' P1 V1 ds1 c1 w1 c1' w1' P2 V2 ds2 c2 w2 c2' w2' : same_types n f o o' -> stable_nng cfg = true \/ f <$> used o = used o' ->
  call_ok cfg P1 V1 ds1 n G D o c1 -> call_ok cfg P2 V2 ds2 n G D o' c2 -> solid P1 V1 ds1 n w1 -> solid P2 V2 ds2 n w2 ->
  no_ties n G -> fixed_order cfg (o_seed o) ->
  sc_clustering cfg P1 ds1 (Some o) (Some c1) w1 = Ok ((ER_OK, Some c1'), w1') ->
  sc_clustering cfg P2 ds2 (Some o') (Some c2) w2 = Ok ((ER_OK, Some c2'), w2') ->
  c_k c1' = c_k c2' /\ forall x, x < n -> label_of c1' x = label_of c2' x.
Proof.
  intros HS Hst H1 H2 S1 S2 HT Hsm R1 R2. pose proof HS as ((nt & tcons & len & tl & Eo) & Ht & Ht' & Hn). assert (o_seed o' = o_seed o) as Es by (by rewrite Eo).
  assert (o_seed o <> SM_BATCHES) as Hb.
  { intros Hb. destruct (run_batches _ _ _ _ _ _ _ _ _ H1 w1 w1' c1' R1 Hb) as (Hv & _). destruct (ov_batches _ _ Hv Hb). lia. }
  destruct (run_plain _ _ _ _ _ _ _ _ _ H1 w1 w1' c1' R1 Hb) as (Hv & Hs & _). destruct (run_plain _ _ _ _ _ _ _ _ _ H2 w2 w2' c2' R2 ltac:(congruence)) as (Hv' & Hs' & _).
  destruct (claim_procedure _ _ _ _ _ _ _ _ _ H1 _ _ _ R1 S1 Hb) as (g1 & ss1 & L1 & X1 & W1).
  destruct (claim_procedure _ _ _ _ _ _ _ _ _ H2 _ _ _ R2 S2 ltac:(congruence)) as (g2 & ss2 & L2 & X2 & W2).
  pose proof (renamed_result _ _ _ _ _ _ _ _ _ _ _ Hv Hs Hv' Hs' HS Hst X1) as X1'.
  rewrite <- Es in Hsm. destruct (sc_result_unique _ _ _ _ _ _ _ _ _ _ _ _ Hv' Hs' HT Hsm X1' X2) as [-> ->]. split; [done|]. by eapply shows_same.
Qed.

Lemma renamed_seedable n G f o o' v : options_valid o n -> options_sane o n -> options_valid o' n -> options_sane o' n -> same_types n f o o' -> seedable o n G v <-> seedable o' n G v.
Proof.
  intros Hv Hs Hv' Hs' ((nt & tcons & len & tl & Eo) & Ht & Ht' & Hn).
  assert (o_num_types o <= length (tcons_of o)) as Hl by (by destruct (types_ok_options _ _ Hv Hs Ht) as (_ & ? & _)).
  assert (o_num_types o' <= length (tcons_of o')) as Hl' by (by destruct (types_ok_options _ _ Hv' Hs' Ht') as (_ & ? & _)).
  assert (o_size o' = o_size o) as Ez by (by rewrite Eo). assert (primary o' n = primary o n) as Ep by (by rewrite Eo). assert (srad_of o' = srad_of o) as Er by (by rewrite Eo).
  unfold seedable. rewrite !decide_False by lia. rewrite Ez, Ep, Er. by rewrite (renamed_ok n G f o o').
Qed.

Lemma claim_renamed_ok cfg n G D f o o' P1 V1 ds1 c1 w1 c1' w1' P2 V2 ds2 c2 w2 : same_types n f o o' ->
  call_ok cfg P1 V1 ds1 n G D o c1 -> call_ok cfg P2 V2 ds2 n G D o' c2 -> solid P1 V1 ds1 n w1 -> solid P2 V2 ds2 n w2 ->
  sc_clustering cfg P1 ds1 (Some o) (Some c1) w1 = Ok ((ER_OK, Some c1'), w1') ->
  args_valid cfg n o' c2 -> fits cfg n o' -> no_estimate o' ->
  exists c2' w2', sc_clustering cfg P2 ds2 (Some o') (Some c2) w2 = Ok ((ER_OK, Some c2'), w2').
Proof.
  intros HS H1 H2 S1 S2 R1 Ha Hf He. destruct (ok_seedable _ _ _ _ _ _ _ _ _ _ _ _ H1 S1 R1) as (v & Hv & Hsd).
  eapply claim_succeeds; eauto. exists v.
  assert (options_valid o n /\ options_sane o n) as [A B].
  { destruct (decide (o_seed o = SM_BATCHES)) as [Hb|Hb]; [by destruct (run_batches _ _ _ _ _ _ _ _ _ H1 w1 w1' c1' R1 Hb) as (? & ? & _)|by destruct (run_plain _ _ _ _ _ _ _ _ _ H1 w1 w1' c1' R1 Hb) as (? & ? & _)]. }
  destruct Ha as (_ & _ & _ & A' & _). by apply (renamed_seedable n G f o o' v A B A' (co_sane _ _ _ _ _ _ _ _ _ H2 A')).
Qed.

(** ** Concrete cases *)

(** All distances are different. *)
Definition ruler : list Z := [0; 1; 22; 4; 9; 32; 15; 34]%Z.
Definition typed_options (tcons tl : list nat) : options := with_methods SM_LEXICAL UM_ANY_NEIGHBOR UM_IGNORE (with_types tcons tl (with_size 3 default_options)).
Definition o_12 : options := typed_options [1; 2] [1; 0; 1; 1; 1; 1; 0; 0].
(** The types exchanged. *)
Definition o_21 : options := typed_options [2; 1] [0; 1; 0; 0; 0; 0; 1; 1].
(** A type without constraint and without points added in between. *)
Definition o_102 : options := typed_options [1; 0; 2] [2; 0; 2; 2; 2; 2; 0; 0].

Lemma labels_below (l k : list nat) n t u : forallb (fun x => bool_decide (l !! x = Some t <-> k !! x = Some u)) (seq 0 n) = true -> forall x, x < n -> l !! x = Some t <-> k !! x = Some u.
Proof. intros H x Hx. assert (bool_decide (l !! x = Some t <-> k !! x = Some u) = true) as E by (apply (proj1 (forallb_forall _ _) H x), in_seq; lia). by apply bool_decide_eq_true in E. Qed.
Lemma types_21 : same_types 8 (fun t => 1 - t) o_12 o_21.
Proof.
  split; [by eexists _, _, _, _|]. split; [by vm_compute; lia|]. split; [by vm_compute; lia|]. split; [apply perm_swap|].
  intros t Ht. change (t ∈ [0; 1]) in Ht. rewrite !elem_of_cons, elem_of_nil in Ht. destruct Ht as [->|[->|[]]]; (split; [done|]); apply labels_below; by vm_compute.
Qed.
Lemma types_102 : same_types 8 (fun t => 2 * t) o_12 o_102 /\ (fun t => 2 * t) <$> used o_12 = used o_102.
Proof.
  split; [|done]. split; [by eexists _, _, _, _|]. split; [by vm_compute; lia|]. split; [by vm_compute; lia|]. split; [done|].
  intros t Ht. change (t ∈ [0; 1]) in Ht. rewrite !elem_of_cons, elem_of_nil in Ht. destruct Ht as [->|[->|[]]]; (split; [done|]); apply labels_below; by vm_compute.
Qed.
Lemma ruler_12 : clustered ruler o_12 2 [0; 0; 1; 0; 1; 1; 1; 1]%Z.
Proof. apply clustered_by. by vm_compute. Qed.
Lemma ruler_21 : clustered ruler o_21 2 [0; 0; 1; 0; 0; 1; 1; 1]%Z.
Proof. apply clustered_by. by vm_compute. Qed.
Lemma ruler_102 : clustered ruler o_102 2 [0; 0; 1; 0; 1; 1; 1; 1]%Z.
Proof. apply clustered_by. by vm_compute. Qed.
Lemma ruler_no_ties : no_ties 8 (eucl_geo (line ruler)).
Proof. apply no_ties_by. by vm_compute. Qed.
(** With sorted lists of neighbours the exchange has no effect. *)
Lemma ruler_stable : clustered_in stable_config ruler o_12 2 [0; 0; 1; 0; 0; 1; 1; 1]%Z /\ clustered_in stable_config ruler o_21 2 [0; 0; 1; 0; 0; 1; 1; 1]%Z.
Proof. split; (apply clustered_in_by; [apply stable_config_ok|]); by vm_compute. Qed.

Lemma renamed_refuted : exists l o o' f k labels labels', no_ties (length l) (eucl_geo (line l)) /\ fixed_order default_config (o_seed o) /\ same_types (length l) f o o' /\
  clustered l o k labels /\ clustered l o' k labels' /\ labels <> labels'.
Proof.
  exists ruler, o_12, o_21, (fun t => 1 - t), 2, [0; 0; 1; 0; 1; 1; 1; 1]%Z, [0; 0; 1; 0; 0; 1; 1; 1]%Z.
  split; [exact ruler_no_ties|]. split; [by left|]. split; [exact types_21|]. split; [exact ruler_12|]. split; [exact ruler_21|done].
Qed.
