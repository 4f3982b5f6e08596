(** Groups of points that are far apart are found. *)

From stdpp Require Import prelude list sorting.
From Coq Require Import NArith ZArith.
From Verif Require Import Base World Mem Float Spi Dist Options AssignSpec OptionsProof NngClustering NngAssign NngStage
  ScSpec ScProof ClusSpec ScFacts Approx ScClaims ScClaims2 DistProof Example1 Groups.

(** Each group has fewer than [k] points. *)
Definition groups_below (n : nat) (grp : nat -> nat) (k : nat) : Prop :=
  forall q, q < n -> length (filter (fun x => grp x = grp q) (seq 0 n)) < k.

(** Settings with which every point is assigned. *)
Definition assigns_all (o : options) : Prop :=
  (o_prim o = None /\ o_pum o = UM_ANY_NEIGHBOR) \/ (o_prim o = None /\ is_closest (o_pum o) /\ no_radius o (o_prad o)) \/ (is_closest (o_sum o) /\ no_radius o (o_2rad o)).

Lemma cluster_NoDup c i : NoDup (cluster c i).
Proof. apply NoDup_filter, NoDup_seq. Qed.
Lemma cluster_disjoint c i j x : x ∈ cluster c i -> x ∈ cluster c j -> i = j.
Proof. intros [H1 _]%elem_of_list_filter [H2 _]%elem_of_list_filter. rewrite H1 in H2. injection H2. lia. Qed.

Lemma claim_one_cluster cfg P V ds n G D o c w w' c' grp : call_ok cfg P V ds n G D o c -> apart n G grp -> groups_of n grp (o_size o) -> groups_below n grp (2 * o_size o) ->
  types_within n grp o ->
  (is_closest (o_pum o) \/ is_closest (o_sum o) -> forall x, x < n -> exists v, v < n /\ grp v = grp x /\ seedable o n G v) ->
  sc_clustering cfg P ds (Some o) (Some c) w = Ok ((ER_OK, Some c'), w') ->
  forall i j x y, i < c_k c' -> j < c_k c' -> x ∈ cluster c' i -> y ∈ cluster c' j -> i = j <-> grp x = grp y.
Proof.
  intros H Hap Hgk Hgb Ht Hcov Hr i j x y Hi Hj Hx Hy. pose proof (claim_groups _ _ _ _ _ _ _ _ _ _ _ _ _ H Hap Hgk Ht Hcov Hr) as Hpure.
  split; [intros <-; by apply (Hpure i)|]. intros Hg. destruct (decide (i = j)) as [?|Hne]; [done|exfalso].
  assert (forall i, i < c_k c' -> o_size o <= length (cluster c' i)) as Hsz.
  { intros a Ha. destruct (decide (o_seed o = SM_BATCHES)) as [Hb|Hb]; [by eapply claim_size_batches|by eapply claim_size]. }
  destruct (run_labels _ _ _ _ _ _ _ _ _ H w w' c' Hr) as (_ & _ & _ & _ & _ & _ & Hn & _).
  assert (forall a z, z ∈ cluster c' a -> z < n) as Hlt. { intros a z [_ Hz%elem_of_seq]%elem_of_list_filter. lia. }
  assert (cluster c' i ++ cluster c' j ⊆+ filter (fun z => grp z = grp x) (seq 0 n)) as Hs%submseteq_length.
  { apply NoDup_submseteq.
    - apply NoDup_app. split; [apply cluster_NoDup|]. split; [|apply cluster_NoDup]. intros z Hzi Hzj. apply Hne. by eapply cluster_disjoint.
    - intros z Hz. apply elem_of_list_filter. apply elem_of_app in Hz as [Hz|Hz]; (split; [|apply elem_of_seq; pose proof (Hlt _ _ Hz); lia]).
      + by apply (Hpure i).
      + rewrite Hg. by apply (Hpure j). }
  rewrite app_length in Hs. pose proof (Hsz i Hi). pose proof (Hsz j Hj). specialize (Hgb x (Hlt _ _ Hx)). lia.
Qed.

Lemma claim_recovered cfg P V ds n G D o c w w' c' grp : call_ok cfg P V ds n G D o c -> solid P V ds n w ->
  apart n G grp -> groups_of n grp (o_size o) -> groups_below n grp (2 * o_size o) -> types_within n grp o -> o_srad o = RM_NO_RADIUS -> assigns_all o ->
  (forall p, o_prim o = Some p -> forall x, x < n -> exists v, v ∈ take (o_len_prim o) p /\ grp v = grp x) ->
  sc_clustering cfg P ds (Some o) (Some c) w = Ok ((ER_OK, Some c'), w') ->
  forall x, x < n -> exists i, i < c_k c' /\ forall y, y ∈ cluster c' i <-> y < n /\ grp y = grp x.
Proof.
  intros H Hsol Hap Hgk Hgb Ht Hsr Hall Hp Hr.
  destruct (run_labels _ _ _ _ _ _ _ _ _ H w w' c' Hr) as (_ & _ & _ & _ & _ & _ & Hn & _).
  assert (forall x, x < n -> in_cluster c' x) as Hin.
  { intros x Hx. destruct Hall as [[E1 E2]|[(E1 & E2 & E3)|[E1 E2]]].
    - eapply claim_any_primary; eauto. by apply primary_all.
    - eapply claim_closest_primary; eauto; by apply primary_all.
    - by eapply claim_closest_all. }
  assert (forall i j x y, i < c_k c' -> j < c_k c' -> x ∈ cluster c' i -> y ∈ cluster c' j -> i = j <-> grp x = grp y) as Hone.
  { destruct (run_valid _ _ _ _ _ _ _ _ _ _ _ _ H Hr). eapply claim_one_cluster; eauto. intros _. by eapply groups_seedable. }
  intros x Hx. destruct (Hin x Hx) as (i & Hi & Hxi). exists i. split; [done|]. intros y. split.
  - intros Hy. pose proof Hy as [_ Hyn%elem_of_seq]%elem_of_list_filter. split; [lia|]. symmetry. by apply (Hone i i x y).
  - intros [Hy Hg]. destruct (Hin y Hy) as (j & Hj & Hyj). by rewrite (proj2 (Hone i j x y Hi Hj Hxi Hyj) ltac:(done)).
Qed.

Lemma claim_recovers cfg P V ds n G D o c w grp : call_ok cfg P V ds n G D o c -> solid P V ds n w -> args_valid cfg n o c -> fits cfg n o -> no_estimate o ->
  apart n G grp -> groups_of n grp (o_size o) -> groups_below n grp (2 * o_size o) -> types_within n grp o -> o_srad o = RM_NO_RADIUS -> assigns_all o ->
  (forall p, o_prim o = Some p -> forall x, x < n -> exists v, v ∈ take (o_len_prim o) p /\ grp v = grp x) ->
  exists c' w', sc_clustering cfg P ds (Some o) (Some c) w = Ok ((ER_OK, Some c'), w') /\
  forall x, x < n -> exists i, i < c_k c' /\ forall y, y ∈ cluster c' i <-> y < n /\ grp y = grp x.
Proof.
  intros H Hsol Ha Hf He Hap Hgk Hgb Ht Hsr Hall Hp. pose proof Ha as (_ & _ & _ & Hv & _). pose proof (ov_size _ _ Hv).
  assert (options_sane o n) as Hs by (by apply (co_sane _ _ _ _ _ _ _ _ _ H)). destruct (groups_seedable n G o grp Hv Hs Hgk Ht Hsr Hp 0) as (v & _ & _ & Hsd); [lia|].
  destruct (claim_succeeds _ _ _ _ _ _ _ _ _ H w Hsol Ha Hf He ltac:(by exists v)) as (c' & w' & Hr). exists c', w'. split; [done|].
  eapply claim_recovered; eauto.
Qed.

(** ** Concrete cases *)

Lemma groups_below_by n grp k : forallb (fun q => bool_decide (length (filter (fun x => grp x = grp q) (seq 0 n)) < k)) (seq 0 n) = true -> groups_below n grp k.
Proof.
  intros H q Hq. pose proof (proj1 (forallb_forall _ _) H q ltac:(apply in_seq; lia)) as H'. by apply bool_decide_eq_true in H'.
Qed.
Lemma islands_below : groups_below 10 island 5.
Proof. apply groups_below_by. by vm_compute. Qed.

(** A group of twice the size constraint is split. *)
Lemma recovered_large_refuted : exists l grp o k labels x y i j, apart (length l) (eucl_geo (line l)) grp /\ groups_of (length l) grp (o_size o) /\ groups_below (length l) grp (2 * o_size o + 1) /\
  types_within (length l) grp o /\ o_srad o = RM_NO_RADIUS /\ o_prim o = None /\ assigns_all o /\
  clustered l o k labels /\ labels !! x = Some (Z.of_nat i) /\ labels !! y = Some (Z.of_nat j) /\ i < k /\ j < k /\ i <> j /\ grp x = grp y.
Proof.
  exists islands, island, (o_isl SM_LEXICAL UM_CLOSEST_SEED UM_IGNORE 2), 4, [0; 1; 2; 0; 1; 2; 3; 1; 2; 3]%Z, 0, 6, 0, 3.
  split; [exact islands_apart|]. split; [apply islands_groups; simpl; lia|]. split; [exact islands_below|]. split; [apply one_type; simpl; lia|]. do 2 (split; [done|]).
  split; [right; left; split; [done|]; split; [by right|by right]|]. split; [apply clustered_by; by vm_compute|]. do 2 (split; [done|]). split; [lia|]. split; [lia|]. done.
Qed.

Lemma run_args l o k labels : clustered l o k labels -> args_valid default_config (length l) o (new_clustering (length l)) /\ options_sane o (length l).
Proof.
  intros (H & _ & c' & w' & Hr & _). destruct (run_result _ _ _ _ _ _ _ _ _ H world0 w' c' Hr _ (choice_any _ _ _ _ _ _ _ _ _ H)) as (? & ? & _). done.
Qed.
