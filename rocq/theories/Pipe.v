(** scc_get_clustering_stats applied to what scc_sc_clustering and
    scc_hierarchical_clustering return. *)

From stdpp Require Import prelude list sorting.
From Coq Require Import NArith ZArith Floats.SpecFloat.
From Verif Require Import Base World Mem Digraph DigraphRep DigraphUnion DigraphDiff Float FloatFacts Spi Dist Options Arrays GraphSpec SeedSpec AssignSpec SeedsExcl
  Nng NngGraph NngSize NngAssign NngStage TypeCount TypeRows Batch BatchSpec BatchProof OptionsProof NngClustering
  ScSpec ScProof ClusSpec ScFacts Approx ScClaims ScClaims2 DistProof DistClaims Example1 FailClaims Hier HierSpec HierDiv HierRun HierTop HierClaims Util CheckProof StatsProof UtilClaims.

(** ** The number of points in clusters *)

Section Count.
Context (cfg : config) (c : clustering).
Hypothesis (Hlab : forall x, x < c_n c -> unlabelled cfg c x \/ in_cluster c x).
Hypothesis (Hna : forall i, i < c_k c -> Z.of_nat i <> cl_na cfg).

Lemma cluster_nodup i : NoDup (cluster c i).
Proof. apply NoDup_filter, NoDup_seq. Qed.
Lemma cluster_unique i j x : x ∈ cluster c i -> x ∈ cluster c j -> i = j.
Proof. intros [H1 _]%elem_of_list_filter [H2 _]%elem_of_list_filter. rewrite H1 in H2. injection H2. lia. Qed.

Lemma clusters_nodup js : NoDup js -> NoDup (concat (cluster c <$> js)).
Proof.
  induction js as [|j js IH]; intros Hnd; [constructor|]. apply NoDup_cons in Hnd as [Hj Hnd]. rewrite fmap_cons. cbn [concat]. apply NoDup_app. splits; [apply cluster_nodup| |auto].
  intros x Hx Hin. apply elem_of_concat in Hin as (l & Hxl & Hl). apply elem_of_list_fmap in Hl as (i & -> & Hi). by rewrite (cluster_unique _ _ _ Hx Hxl) in Hj.
Qed.

Lemma assigned_clusters : filter (fun x => label_of c x <> Some (cl_na cfg)) (seq 0 (c_n c)) ≡ₚ concat (cluster c <$> seq 0 (c_k c)).
Proof.
  apply NoDup_Permutation; [apply NoDup_filter, NoDup_seq|apply clusters_nodup, NoDup_seq|]. intros x. rewrite elem_of_list_filter, elem_of_concat. split.
  - intros [Hx Hn]. apply elem_of_seq in Hn. destruct (Hlab x ltac:(lia)) as [?|(i & Hi & Hin)]; [done|]. exists (cluster c i). split; [done|]. apply elem_of_list_fmap. exists i. split; [done|]. apply elem_of_seq. lia.
  - intros (l & Hx & Hl). apply elem_of_list_fmap in Hl as (i & -> & Hi). apply elem_of_seq in Hi. apply elem_of_list_filter in Hx as [Hx Hn]. split; [|done]. rewrite Hx. intros [= E]. apply (Hna i); [lia|done].
Qed.

Lemma sum_between (f : nat -> nat) lo hi js : (forall j, j ∈ js -> lo <= f j <= hi) -> length js * lo <= sum_list (f <$> js) <= length js * hi.
Proof.
  induction js as [|j js IH]; intros H; [simpl; lia|]. rewrite fmap_cons. cbn [sum_list length]. pose proof (H j (elem_of_list_here _ _)). specialize (IH (fun i Hi => H i (elem_of_list_further _ _ _ Hi))). simpl. lia.
Qed.

Lemma assigned_between lo hi : (forall j, j < c_k c -> lo <= length (cluster c j) <= hi) ->
  c_k c * lo <= length (filter (fun x => label_of c x <> Some (cl_na cfg)) (seq 0 (c_n c))) <= c_k c * hi.
Proof.
  intros H. rewrite assigned_clusters, length_concat_sum, <- list_fmap_compose. pose proof (sum_between (length ∘ cluster c) lo hi (seq 0 (c_k c))) as Hs. rewrite seq_length in Hs. apply Hs.
  intros j Hj%elem_of_seq. apply H. lia.
Qed.
End Count.

Lemma keep_all {A} (Q : A -> Prop) `{!forall x, Decision (Q x)} (l : list A) : (forall x, x ∈ l -> Q x) -> filter Q l = l.
Proof.
  induction l as [|x l IH]; intros HQ; [done|]. rewrite filter_cons, decide_True by apply HQ, elem_of_list_here. f_equal. apply IH. intros y Hy. by apply HQ, elem_of_list_further.
Qed.

(** ** Statistics of a clustering with clusters of a minimum size *)

Section Stats.
Context (cfg : config) (P : provider) (V : pview P) (ds : p_ds P) (n : nat) (G : geometry) (D : dist_fun) (c : clustering).
Hypothesis (Hc : stats_call cfg P V ds n G D c).
Context (w w' : world) (s : stats).
Hypothesis (Hrun : get_clustering_stats cfg P ds (Some c) true w = Ok ((ER_OK, Some s), w')).
Hypothesis (Hna : forall i, i < c_k c -> Z.of_nat i <> cl_na cfg).

Lemma stats_min_size m : 0 < m -> (forall j, j < c_k c -> m <= length (cluster c j)) ->
  st_n s = n /\ st_k s = c_k c /\ st_pop s = c_k c /\ (N.of_nat m <= st_minsize s)%N /\ (st_minsize s <= N.of_nat (st_maxsize s))%N /\ c_k c * m <= st_assigned s <= n.
Proof.
  intros Hm Hs. destruct (stats_counts_all _ _ _ _ _ _ _ _ Hc _ _ _ Hrun) as (H1 & H2 & H3 & H4 & _ & H5 & H6 & H7). destruct Hc as [_ _ _ Hn Hk _ Hlab _].
  assert (st_pop s = c_k c) as Hp.
  { rewrite H4. replace (filter (fun j => cluster c j <> []) (seq 0 (c_k c))) with (seq 0 (c_k c)); [apply seq_length|]. symmetry. apply keep_all. intros j Hj%elem_of_seq.
    specialize (Hs j ltac:(lia)). intros E. rewrite E in Hs. simpl in Hs. lia. }
  destruct (H5 ltac:(lia)) as [(j & Hj & _ & Hmin) (i & Hi & _ & Hmax)]. splits; auto.
  - congruence.
  - rewrite Hmin. specialize (Hs j Hj). lia.
  - rewrite Hmin. specialize (H7 j Hj). lia.
  - rewrite H3. apply (assigned_between cfg c Hlab Hna m n). intros i' Hi'. split; [auto|]. unfold cluster. etransitivity; [apply filter_length|]. rewrite seq_length. lia.
  - rewrite H3. etransitivity; [apply filter_length|]. rewrite seq_length. lia.
Qed.

Lemma stats_max_size m : (forall j, j < c_k c -> length (cluster c j) <= m) -> st_maxsize s <= m /\ st_assigned s <= c_k c * m.
Proof.
  intros Hs. destruct (stats_counts_all _ _ _ _ _ _ _ _ Hc _ _ _ Hrun) as (H1 & H2 & H3 & H4 & H0 & H5 & H6 & H7). destruct Hc as [_ _ _ Hn Hk _ Hlab _]. split.
  - destruct (decide (st_pop s = 0)) as [E|E]; [destruct (H0 E) as [_ ->]; lia|]. destruct (H5 E) as [_ (i & Hi & _ & ->)]. auto.
  - rewrite H3. apply (assigned_between cfg c Hlab Hna 0 m). intros i Hi. split; [lia|auto].
Qed.

(** The largest distance has a bound that all distances between two points of a
    cluster have. *)
Lemma stats_max_below (Q : double -> Prop) : finite_dists n D -> (exists x y, mates c x y) -> (forall x y, mates c x y -> Q (D x y)) -> Q (st_max s).
Proof. intros Hd Hm HQ. destruct (stats_max _ _ _ _ _ _ _ _ Hc _ _ _ Hrun Hd Hm) as [(x & y & Hxy & ->) _]. auto. Qed.
End Stats.

(** ** After scc_sc_clustering *)

Section AfterSc.
Context (cfg : config) (P : provider) (V : pview P) (ds : p_ds P) (n : nat) (G : geometry) (D : dist_fun) (o : options) (c : clustering).
Hypothesis (Hc : call_ok cfg P V ds n G D o c).
Context (w w' : world) (c' : clustering).
Hypothesis (Hrun : sc_clustering cfg P ds (Some o) (Some c) w = Ok ((ER_OK, Some c'), w')).
Hypothesis (Hsq : (N.of_nat (n * (n - 1)) <= u64max)%N).

Lemma sc_initialized : is_initialized_clustering cfg (Some c') = true.
Proof.
  destruct (run_result cfg P V ds n G D o c Hc w w' c' Hrun _ (choice_any cfg P V ds n G D o c Hc)) as (Ha & Hs & Hn & L & m & Hh & Hm & _).
  pose proof (run_sat cfg P V ds n G D o c Hc anyub _ w (choice_any cfg P V ds n G D o c Hc)) as Hsat. unfold Msat in Hsat. rewrite Hrun in Hsat.
  destruct Hsat as (c1 & lk & [= <-] & _ & Hkept & _); [by right|]. destruct Hh as [(lb & Hcl) Hk]. clear Hrun.
  eapply result_initialized; [by destruct Ha as (? & ? & ? & ? & ?)|by rewrite Hk|apply Hkept|apply Hkept|by rewrite Hcl].
Qed.

Lemma sc_stats_call : stats_call cfg P V ds n G D c'.
Proof.
  destruct (claim_labels cfg P V ds n G D o c Hc w w' c' Hrun) as (Hn & Hk1 & Hlen & Hlab & Hna). pose proof sc_initialized as Hi. clear Hrun. constructor.
  - apply Hc.
  - apply Hc.
  - exact Hi.
  - exact Hn.
  - lia.
  - split; [congruence|]. rewrite Hn. intros x Hx. destruct (Hlab x Hx) as [Hu|(i & _ & ->)]; [|discriminate]. unfold unlabelled in Hu. rewrite Hu. discriminate.
  - rewrite Hn. intros x Hx. destruct (Hlab x Hx) as [Hu|(i & Hi' & Hl)]; [by left|]. right. exists i. split; [exact Hi'|]. apply elem_of_list_filter. split; [exact Hl|]. apply elem_of_seq. lia.
  - exact Hsq.
Qed.

Lemma sc_min_size i : i < c_k c' -> o_size o <= length (cluster c' i).
Proof. intros Hi. destruct (decide (o_seed o = SM_BATCHES)); [by eapply claim_size_batches|by eapply claim_size]. Qed.
Lemma sc_size_pos : 2 <= o_size o.
Proof.
  destruct (run_result cfg P V ds n G D o c Hc w w' c' Hrun _ (choice_any cfg P V ds n G D o c Hc)) as ((_ & _ & _ & Hv & _) & _). clear Hrun. destruct Hv as [_ [H _]]. exact H.
Qed.

Lemma sc_then_stats w1 w2 s : get_clustering_stats cfg P ds (Some c') true w1 = Ok ((ER_OK, Some s), w2) ->
  st_n s = n /\ st_k s = c_k c' /\ st_pop s = c_k c' /\ (N.of_nat (o_size o) <= st_minsize s)%N /\ (st_minsize s <= N.of_nat (st_maxsize s))%N /\
  c_k c' * o_size o <= st_assigned s <= n.
Proof.
  intros E. eapply stats_min_size; [exact sc_stats_call|exact E|apply (claim_labels cfg P V ds n G D o c Hc w w' c' Hrun)|pose proof sc_size_pos; lia|exact sc_min_size].
Qed.

Lemma sc_then_stats_exact w1 w2 s : o_num_types o < 2 -> o_pum o = UM_IGNORE -> o_sum o = UM_IGNORE ->
  get_clustering_stats cfg P ds (Some c') true w1 = Ok ((ER_OK, Some s), w2) ->
  st_minsize s = N.of_nat (o_size o) /\ st_maxsize s = o_size o /\ st_assigned s = c_k c' * o_size o.
Proof.
  intros H1 H2 H3 E. pose proof (sc_then_stats _ _ _ E) as (_ & _ & _ & F1 & F2 & F3).
  destruct (stats_max_size cfg P V ds n G D c' sc_stats_call w1 w2 s E (proj2 (proj2 (proj2 (proj2 (claim_labels cfg P V ds n G D o c Hc w w' c' Hrun))))) (o_size o)) as [F4 F5].
  { intros j Hj. rewrite (claim_exact cfg P V ds n G D o c Hc w w' c' Hrun j H1 H2 H3 Hj). lia. }
  clear Hrun E. splits; lia.
Qed.

Lemma sc_mates : exists x y, mates c' x y.
Proof.
  destruct (claim_labels cfg P V ds n G D o c Hc w w' c' Hrun) as (_ & Hk & _). pose proof sc_size_pos as Hs. pose proof (sc_min_size 0 ltac:(lia)) as H. clear Hrun.
  pose proof (cluster_nodup c' 0) as Hnd. destruct (cluster c' 0) as [|x [|y l]] eqn:E; simpl in H; try lia. exists x, y. split.
  - intros ->. apply NoDup_cons in Hnd as [Hnd _]. apply Hnd, elem_of_list_here.
  - exists 0. rewrite E. splits; [lia|apply elem_of_list_here|apply elem_of_list_further, elem_of_list_here].
Qed.

Lemma sc_then_stats_four {T} (le : T -> T -> Prop) (add : T -> T -> T) (val : double -> T) (d : nat -> nat -> T) f lam w1 w2 s :
  metric le add d -> (forall x y, x < n -> y < n -> val (D x y) = d x y) ->
  (forall q x y, q < n -> x < n -> y < n -> nearer G q x y = true -> le (d q x) (d q y)) ->
  alt_ok o n f -> (forall x y, x < n -> y < n -> f x = f y -> le (d x y) lam) ->
  o_seed o <> SM_BATCHES -> o_pum o = UM_ANY_NEIGHBOR -> one_stage P V ds n o w -> finite_dists n D ->
  get_clustering_stats cfg P ds (Some c') true w1 = Ok ((ER_OK, Some s), w2) -> le (val (st_max s)) (add (add lam lam) (add lam lam)).
Proof.
  intros HM Hval Hnear Hf Hlam Hb Hum Hone Hfin E. destruct (claim_labels cfg P V ds n G D o c Hc w w' c' Hrun) as [Hn _].
  eapply (stats_max_below cfg P V ds n G D c' sc_stats_call w1 w2 s E (fun d => le (val d) (add (add lam lam) (add lam lam))) Hfin sc_mates).
  intros x y (_ & i & Hi & Hx & Hy). assert (forall z, z ∈ cluster c' i -> z < n) as Hlt. { intros z [_ Hz%elem_of_seq]%elem_of_list_filter. lia. }
  rewrite Hval by auto. exact (claim_four cfg P V ds n G D o c Hc w w' c' Hrun le add d f lam x y i HM Hnear Hf Hlam Hb Hum Hone Hi Hx Hy).
Qed.
End AfterSc.

(** ** After scc_hierarchical_clustering *)

Section AfterHier.
Context (cfg : config) (P : provider) (V : pview P) (ds : p_ds P) (n : nat) (G : geometry) (D : dist_fun)
  (qs : world -> list (nat * double) -> list (nat * double)) (log2cap : nat -> nat -> nat) (k : nat) (batch : bool) (c : clustering).
Hypothesis (HC : hier_call cfg P V ds n G D qs k c).
Context (w w' : world) (c' : clustering).
Hypothesis (Hk : c_k c = 0) (Hdup : few_duplicates n D (2 * k)).
Hypothesis (Hrun : hierarchical_clustering cfg P qs log2cap ds k batch (Some c) w = Ok ((ER_OK, Some c'), w')).
Hypothesis (Hsq : (N.of_nat (n * (n - 1)) <= u64max)%N).

Lemma hier_some : c_k c' <> 0.
Proof.
  destruct (hier_from_scratch cfg P V ds n G D qs log2cap k batch c HC w c' w' Hk Hdup Hrun) as [Hin _]. pose proof (hc_size _ _ _ _ _ _ _ _ _ _ HC). clear Hrun.
  destruct (Hin 0 ltac:(lia)) as (i & ? & _). lia.
Qed.

Lemma hier_na i : i < c_k c' -> Z.of_nat i <> cl_na cfg.
Proof.
  intros Hi. destruct (hier_still_valid cfg P V ds n G D qs log2cap k batch c HC w _ _ _ Hrun) as (c1 & [= <-] & Hinit & _). clear Hrun. pose proof (initialized_k _ _ Hinit) as Hm.
  intros F. by apply (na_not_label cfg (hc_cfg _ _ _ _ _ _ _ _ _ _ HC) i _ Hm Hi).
Qed.

Lemma hier_stats_call : stats_call cfg P V ds n G D c'.
Proof.
  destruct (hier_from_scratch cfg P V ds n G D qs log2cap k batch c HC w c' w' Hk Hdup Hrun) as [Hin _].
  destruct (hier_labels cfg P V ds n G D qs log2cap k batch c HC w c' w' Hrun) as [Hlen _].
  destruct (hier_still_valid cfg P V ds n G D qs log2cap k batch c HC w _ _ _ Hrun) as (c1 & [= <-] & Hinit & Hn & _).
  pose proof hier_some as Hs. clear Hrun. pose proof (hc_n _ _ _ _ _ _ _ _ _ _ HC) as Hcn. constructor.
  - apply HC.
  - apply HC.
  - exact Hinit.
  - congruence.
  - exact Hs.
  - split; [congruence|]. intros x Hx. destruct (Hin x ltac:(congruence)) as (i & _ & Hi). apply elem_of_list_filter in Hi as [-> _]. discriminate.
  - intros x Hx. right. apply Hin. congruence.
  - exact Hsq.
Qed.

Lemma hier_then_stats w1 w2 s : get_clustering_stats cfg P ds (Some c') true w1 = Ok ((ER_OK, Some s), w2) ->
  st_n s = n /\ st_k s = c_k c' /\ st_pop s = c_k c' /\ st_assigned s = n /\ (N.of_nat k <= st_minsize s)%N /\ (st_minsize s <= N.of_nat (st_maxsize s))%N /\ st_maxsize s < 2 * k.
Proof.
  intros E. destruct (hier_from_scratch cfg P V ds n G D qs log2cap k batch c HC w c' w' Hk Hdup Hrun) as [Hin Hsz]. pose proof (hc_size _ _ _ _ _ _ _ _ _ _ HC) as Hk2.
  destruct (stats_min_size cfg P V ds n G D c' hier_stats_call w1 w2 s E hier_na k ltac:(lia) (fun j Hj => proj1 (Hsz j Hj))) as (H1 & H2 & H3 & H4 & H5 & _).
  destruct (stats_max_size cfg P V ds n G D c' hier_stats_call w1 w2 s E hier_na (2 * k - 1)) as [H6 _]; [intros j Hj; specialize (Hsz j Hj); lia|].
  destruct (stats_counts_all _ _ _ _ _ _ _ _ hier_stats_call _ _ _ E) as (_ & _ & H7 & _). pose proof (sl_n _ _ _ _ _ _ _ _ hier_stats_call) as Hn. pose proof hier_na as Hna. clear Hrun E. splits; auto; [|lia].
  rewrite H7, keep_all; [by rewrite seq_length|]. intros x Hx%elem_of_seq. destruct (Hin x ltac:(lia)) as (i & Hi & Hx'). apply elem_of_list_filter in Hx' as [-> _]. intros [= F]. by apply (Hna i).
Qed.
End AfterHier.

(** ** Examples *)

(** The two calls one after the other. *)
Definition sc_and_stats (l : list Z) (o : options) (P : clustering -> stats -> Prop) : Prop :=
  exists c' w' s w2, cluster_line l o world0 = Ok ((ER_OK, Some c'), w') /\ stats_line l c' w' = Ok ((ER_OK, Some s), w2) /\ P c' s.
Definition hier_and_stats (l : list Z) (k : nat) (P : clustering -> stats -> Prop) : Prop :=
  exists c' w' s w2, hier_line l k false (new_clustering (length l)) world0 = Ok ((ER_OK, Some c'), w') /\ stats_line l c' w' = Ok ((ER_OK, Some s), w2) /\ P c' s.

(** Integer part. *)
Definition d_to_Z (d : double) : Z :=
  match d with
  | S754_finite b m e => let v := (if (0 <=? e)%Z then Z.pos m * 2 ^ e else Z.pos m / 2 ^ (- e))%Z in if b then (- v)%Z else v
  | _ => 0%Z
  end.
