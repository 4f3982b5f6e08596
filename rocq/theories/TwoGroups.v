(** Hierarchical clustering finds two groups of points that are far apart. *)

From stdpp Require Import prelude list sorting.
From Coq Require Import NArith ZArith.
From Verif Require Import Base World Mem Float Spi Dist Options Arrays NngGraph NngStage Batch BatchProof OptionsProof NngClustering DigraphRep ScSpec ScProof ClusSpec ScFacts ScClaims ScClaims2
  DistProof Example1 FailClaims Hier HierDiv HierFind HierSpec HierRun HierTop HierClaims HierClaims2 ScDet.
From Verif Require Groups Recovered.

(** Each group has at least [k] and fewer than [2 * k] points. *)
Definition sized (n : nat) (g : nat -> bool) (k : nat) : Prop :=
  forall q, q < n -> k <= length (filter (fun x => g x = g q) (seq 0 n)) < 2 * k.

(** Equal points are of one group. *)
Lemma sized_few n G D g k : dist_sane G D n -> apart n G D g -> sized n g k -> few_duplicates n D (2 * k).
Proof.
  intros HS [HA _] Hs a l Ha Hnd Hl. eapply Nat.le_lt_trans; [|apply (Hs a Ha)]. apply submseteq_length, NoDup_submseteq; [done|].
  intros y Hy. rewrite Forall_forall in Hl. destruct (Hl y Hy) as [Hyn E]. apply elem_of_list_filter. split; [|apply elem_of_seq; lia].
  destruct (decide (g y = g a)) as [?|Hne]; [done|exfalso]. pose proof (HA a a a y Ha Ha Ha Hyn eq_refl ltac:(congruence)) as Hgt. rewrite E in Hgt.
  pose proof (dsn_nonneg _ _ _ HS a a Ha Ha) as Hnn. clear -Hgt Hnn. by destruct (D a a) as [[]|[]| |[] m e].
Qed.

Lemma sized_enough n g k c : c_k c = 0 -> c_n c = n -> sized n g k -> forall ms, ms ∈ starts_of c -> enough k g ms.
Proof.
  intros Hk Hn Hs ms Hms b. unfold starts_of in Hms. rewrite decide_True in Hms by done. apply elem_of_list_singleton in Hms as ->. rewrite Hn.
  destruct (filter (fun x => g x = b) (seq 0 n)) as [|q r] eqn:E; [by left|right]. rewrite <- E.
  assert (q ∈ filter (fun x => g x = b) (seq 0 n)) as [Hq Hqn%elem_of_seq]%elem_of_list_filter by (rewrite E; left). rewrite <- Hq. apply Hs. lia.
Qed.

Section Found.
Context (cfg : config) (P : provider) (V : pview P) (ds : p_ds P) (n : nat) (G : geometry) (D : dist_fun)
  (qs : world -> list (nat * double) -> list (nat * double)) (log2cap : nat -> nat -> nat) (k : nat) (c : clustering) (g : nat -> bool).
Hypothesis (HC : hier_call cfg P V ds n G D qs k c) (Hq : sorts qs) (Hk0 : c_k c = 0) (HA : apart n G D g) (Hs : sized n g k).
Notation run := (hierarchical_clustering cfg P qs log2cap ds k false (Some c)).

Lemma hier_one w c' w' : run w = Ok ((ER_OK, Some c'), w') ->
  (forall x, x < n -> in_cluster c' x) /\ forall i j x y, i < c_k c' -> j < c_k c' -> x ∈ cluster c' i -> y ∈ cluster c' j -> i = j <-> g x = g y.
Proof.
  intros E. pose proof (hc_n _ _ _ _ _ _ _ _ _ _ HC) as En. pose proof (sized_few _ _ _ _ _ (hc_sane _ _ _ _ _ _ _ _ _ _ HC) HA Hs) as HF.
  destruct (hier_from_scratch _ _ _ _ _ _ _ _ log2cap _ false _ HC w c' w' Hk0 HF E) as [Hin Hsz]. split; [done|].
  pose proof (hier_groups _ _ _ _ _ _ _ _ log2cap _ _ g HC Hq HA HF (sized_enough _ _ _ _ Hk0 En Hs) w c' w' E) as Hpure.
  destruct (hier_still_valid _ _ _ _ _ _ _ _ log2cap _ false _ HC w _ _ _ E) as (c1 & [= <-] & _ & Hn & _).
  intros i j x y Hi Hj Hx Hy. split; [intros <-; by apply (Hpure i)|]. intros Hg. destruct (decide (i = j)) as [?|Hne]; [done|exfalso].
  assert (forall a z, z ∈ cluster c' a -> z < n) as Hlt. { intros a z [_ Hz%elem_of_seq]%elem_of_list_filter. lia. }
  assert (cluster c' i ++ cluster c' j ⊆+ filter (fun z => g z = g x) (seq 0 n)) as Hsub%submseteq_length.
  { apply NoDup_submseteq.
    - apply NoDup_app. split; [apply Recovered.cluster_NoDup|]. split; [|apply Recovered.cluster_NoDup]. intros z Hzi Hzj. apply Hne. by eapply Recovered.cluster_disjoint.
    - intros z Hz. apply elem_of_list_filter. apply elem_of_app in Hz as [Hz|Hz]; (split; [|apply elem_of_seq; pose proof (Hlt _ _ Hz); lia]).
      + by apply (Hpure i).
      + rewrite Hg. by apply (Hpure j). }
  rewrite app_length in Hsub. pose proof (Hsz i Hi). pose proof (Hsz j Hj). pose proof (Hs x (Hlt _ _ Hx)). lia.
Qed.

Lemma hier_found w c' w' : run w = Ok ((ER_OK, Some c'), w') -> forall x, x < n -> exists i, i < c_k c' /\ forall y, y ∈ cluster c' i <-> y < n /\ g y = g x.
Proof.
  intros E x Hx. pose proof (hc_n _ _ _ _ _ _ _ _ _ _ HC) as En. destruct (hier_one _ _ _ E) as [Hin Hone].
  destruct (hier_still_valid _ _ _ _ _ _ _ _ log2cap _ false _ HC w _ _ _ E) as (c1 & [= <-] & _ & Hn & _).
  destruct (Hin x Hx) as (i & Hi & Hxi). exists i. split; [done|]. intros y. split.
  - intros Hy. pose proof Hy as [_ Hyn%elem_of_seq]%elem_of_list_filter. split; [lia|]. symmetry. by apply (Hone i i x y).
  - intros [Hy Hg]. destruct (Hin y Hy) as (j & Hj & Hyj). by rewrite (proj2 (Hone i j x y Hi Hj Hxi Hyj) ltac:(done)).
Qed.

(** No cluster is left over. *)
Lemma hier_two w c' w' : run w = Ok ((ER_OK, Some c'), w') -> (exists x y, x < n /\ y < n /\ g x <> g y) -> c_k c' = 2.
Proof.
  intros E (x & y & Hx & Hy & Hxy). pose proof (hc_n _ _ _ _ _ _ _ _ _ _ HC) as En. pose proof (sized_few _ _ _ _ _ (hc_sane _ _ _ _ _ _ _ _ _ _ HC) HA Hs) as HF.
  destruct (hier_from_scratch _ _ _ _ _ _ _ _ log2cap _ false _ HC w c' w' Hk0 HF E) as [_ Hsz]. destruct (hier_one _ _ _ E) as [Hin Hone].
  destruct (Hin x Hx) as (i & Hi & Hxi). destruct (Hin y Hy) as (j & Hj & Hyj).
  assert (i <> j) as Hij. { intros ->. by apply Hxy, (Hone j j x y). }
  pose proof (hc_size _ _ _ _ _ _ _ _ _ _ HC) as Hk.
  assert (forall l, l < c_k c' -> l = i \/ l = j) as Hall.
  { intros l Hl. destruct (cluster c' l) as [|z r] eqn:El; [specialize (Hsz l Hl); rewrite El in Hsz; simpl in Hsz; lia|].
    assert (z ∈ cluster c' l) as Hz by (rewrite El; left). destruct (decide (g z = g x)) as [Hg|Hg].
    - left. by apply (Hone l i z x).
    - right. apply (Hone l j z y); try done. clear -Hg Hxy. by destruct (g x), (g y), (g z). }
  assert (c_k c' <= 2); [|lia]. destruct (decide (3 <= c_k c')); [|lia].
  destruct (Hall 0 ltac:(lia)), (Hall 1 ltac:(lia)), (Hall 2 ltac:(lia)); lia.
Qed.
End Found.

Lemma hier_finds cfg P V ds n G D qs log2cap k c g : hier_call cfg P V ds n G D qs k c -> sorts qs -> c_k c = 0 -> apart n G D g -> sized n g k ->
  forall w, no_fail w /\ provider_reliable P V ds n -> (N.of_nat n <= cl_max cfg)%N -> (N.of_nat (4 * n + 18) <= u64max)%N ->
  exists c' w', hierarchical_clustering cfg P qs log2cap ds k false (Some c) w = Ok ((ER_OK, Some c'), w') /\
    forall x, x < n -> exists i, i < c_k c' /\ forall y, y ∈ cluster c' i <-> y < n /\ g y = g x.
Proof.
  intros HC Hq Hk HA Hs w HS H1 H2. destruct (hier_succeeds _ _ _ _ _ _ _ _ log2cap _ false _ HC w HS H1 ltac:(by rewrite Hk, Nat.mul_0_r, Nat.add_0_r) ltac:(by left)) as (c' & w' & E).
  exists c', w'. split; [done|]. by eapply hier_found.
Qed.

Lemma same_label c i x y : x ∈ cluster c i -> y < c_n c -> label_of c x = label_of c y <-> y ∈ cluster c i.
Proof.
  intros [Hx _]%elem_of_list_filter Hy. rewrite Hx. split.
  - intros E. apply elem_of_list_filter. split; [done|]. apply elem_of_seq. lia.
  - by intros [E _]%elem_of_list_filter.
Qed.

(** The clusters [scc_sc_clustering] finds. *)
Lemma hier_as_sc cfg n G D g k P1 V1 ds1 qs log2cap c1 w1 c1' w1' P2 V2 ds2 o c2 w2 c2' w2' :
  hier_call cfg P1 V1 ds1 n G D qs k c1 -> sorts qs -> c_k c1 = 0 -> apart n G D g -> sized n g k ->
  call_ok cfg P2 V2 ds2 n G D o c2 -> solid P2 V2 ds2 n w2 -> o_size o = k -> o_num_types o < 2 -> o_srad o = RM_NO_RADIUS -> o_prim o = None -> Recovered.assigns_all o ->
  hierarchical_clustering cfg P1 qs log2cap ds1 k false (Some c1) w1 = Ok ((ER_OK, Some c1'), w1') ->
  sc_clustering cfg P2 ds2 (Some o) (Some c2) w2 = Ok ((ER_OK, Some c2'), w2') ->
  forall x y, x < n -> y < n -> label_of c1' x = label_of c1' y <-> label_of c2' x = label_of c2' y.
Proof.
  intros HC Hq Hk HA Hs H2 HS Ho Ht Hsr Hpr Hall E1 E2 a b Ha Hb.
  set (grp x := if g x then 1 else 0). assert (forall x y, grp x = grp y <-> g x = g y) as Hgrp. { intros x y. unfold grp. by destruct (g x), (g y). }
  assert (forall q, filter (fun x => grp x = grp q) (seq 0 n) = filter (fun x => g x = g q) (seq 0 n)) as Hf. { intros q. apply list_filter_iff. intros x. apply Hgrp. }
  assert (forall x, x < n -> exists j, j < c_k c2' /\ forall y, y ∈ cluster c2' j <-> y < n /\ grp y = grp x) as R2.
  { eapply Recovered.claim_recovered; eauto.
    - intros q x y Hqn Hx Hy Hgx Hgy. destruct HA as [_ HA]. rewrite Hgrp in Hgx, Hgy. apply HA; congruence.
    - intros q Hqn. rewrite Hf, Ho. by apply Hs.
    - intros q Hqn. rewrite Hf, Ho. by apply Hs.
    - by apply Groups.one_type.
    - intros p Hp. congruence. }
  pose proof (hc_n _ _ _ _ _ _ _ _ _ _ HC) as En.
  destruct (hier_still_valid _ _ _ _ _ _ _ _ log2cap _ false _ HC w1 _ _ _ E1) as (c0 & [= <-] & _ & Hn1 & _).
  destruct (run_labels _ _ _ _ _ _ _ _ _ H2 w2 w2' c2' E2) as (_ & _ & _ & _ & _ & _ & Hn2 & _).
  destruct (hier_found _ _ _ _ _ _ _ _ log2cap _ _ g HC Hq Hk HA Hs _ _ _ E1 a Ha) as (i & Hi & R1). destruct (R2 a Ha) as (j & Hj & R).
  rewrite (same_label c1' i a b) by (try lia; by apply R1). rewrite (same_label c2' j a b) by (try lia; by apply R). rewrite R1, R. by rewrite Hgrp.
Qed.

(** ** Concrete cases *)

Definition sized_b (n : nat) (g : nat -> bool) (k : nat) : bool :=
  forallb (fun q => let m := length (filter (fun x => g x = g q) (seq 0 n)) in bool_decide (k <= m < 2 * k)) (seq 0 n).
Lemma sized_by n g k : sized_b n g k = true -> sized n g k.
Proof. intros H q Hq. pose proof (all_below _ _ H q Hq) as Hb. by apply bool_decide_eq_true in Hb. Qed.

(** With batch assignment groups are mixed. *)
Lemma hier_found_batches : exists l k g, let n := length l in
  hier_callable l k (new_clustering n) /\ apart n (eucl_geo (line l)) (eucl (line l)) g /\ sized n g k /\
  exists c' w', hier_line l k true (new_clustering n) world0 = Ok ((ER_OK, Some c'), w') /\
  exists i x y, i < c_k c' /\ x ∈ cluster c' i /\ y ∈ cluster c' i /\ g x <> g y.
Proof.
  exists [0; 1; 2; 100; 101; 102]%Z, 2, (fun x => bool_decide (x < 3)). intros n. split; [apply hier_callable_by; try done; simpl; lia|].
  split; [apply apart_by; by vm_compute|]. split; [apply sized_by; by vm_compute|].
  destruct (hier_line [0; 1; 2; 100; 101; 102]%Z 2 true (new_clustering n) world0) as [[[ec [c'|]] w']|u] eqn:E.
  2,3: exfalso; by vm_compute in E. exists c', w'. vm_compute in E. injection E as <- <- <-. split; [done|]. exists 1, 2, 3.
  split; [simpl; lia|]. split; [|split; [|done]]; (apply elem_of_list_filter; split; [done|apply elem_of_seq; simpl; lia]).
Qed.

(** Four points around 0 and five around 100, of which two coincide. *)
Definition pair_groups : list Z := [0; 100; 1; 101; 2; 102; 103; 3; 103]%Z.
Definition first_group (x : nat) : bool := bool_decide (x ∈ [0; 2; 4; 7]).
