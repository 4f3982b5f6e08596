(** What a user can rely on after calls of scc_check_clustering and
    scc_get_clustering_stats. *)

From stdpp Require Import prelude list sorting.
From Coq Require Import NArith ZArith Floats.SpecFloat.
From Verif Require Import Base World Mem Digraph DigraphRep Float FloatFacts Spi Dist Options Arrays GraphSpec SeedSpec AssignSpec SeedsExcl
  Nng NngGraph NngSize NngAssign NngStage TypeCount TypeRows Batch BatchSpec BatchProof OptionsProof NngClustering
  ScSpec ScProof ClusSpec ScFacts ScClaims ScClaims2 DistProof DistClaims Example1 FailClaims Hier HierTop HierClaims Util CheckProof StatsProof.

(** ** scc_check_clustering *)

Lemma check_decides cfg c o : check_call cfg c o -> forall w, exists ec out w', check_clustering cfg (Some c) (Some o) true w = Ok ((ec, out), w') /\ w_live w' ≡ₚ w_live w /\
  ((ec = ER_OK /\ options_valid o (c_n c) /\ w_err w' = w_err w /\ exists b, out = Some b /\ (b = true <-> passes cfg c o)) \/
   (ec <> ER_OK /\ out = Some false /\ e_code (w_err w') = ec /\ ((~ options_valid o (c_n c) /\ options_error o (c_n c) ec) \/ (ec = ER_NO_MEMORY /\ ~ no_fail w)))).
Proof.
  intros Hc w. pose proof (Msat_check cfg c o w Hc) as H. apply Msat_none_inv in H as ([ec out] & w' & E & _ & O & H). exists ec, out, w'. splits; auto. by apply own_perm.
Qed.

Lemma check_reject cfg cl opt w : is_initialized_clustering cfg cl = false \/ (exists c, cl = Some c /\ c_k c = 0) \/
  (exists c o, cl = Some c /\ opt = Some o /\ prim_readable o /\ ~ options_valid o (c_n c)) ->
  exists ec w', check_clustering cfg cl opt true w = Ok ((ec, Some false), w') /\ ec <> ER_OK /\ w_live w' ≡ₚ w_live w /\ e_code (w_err w') = ec.
Proof.
  intros H. assert (Msat none (check_clustering cfg cl opt true) w (fun '(ec, out) w' => out = Some false /\ ec <> ER_OK /\ own w' [] w /\ e_code (w_err w') = ec)) as Hs.
  { assert (forall f l msg, Msat none (let* ec := make_error__ ER_INVALID_INPUT msg f l in Mret (ec, Some false)) w (fun '(ec, out) w' => out = Some false /\ ec <> ER_OK /\ own w' [] w /\ e_code (w_err w') = ec)) as Hm.
    { intros. apply Msat_bind, Msat_make_error__. intros w1 L1 O1 E1 _. apply Msat_ret. splits; auto. by rewrite E1. }
    unfold check_clustering. cbn [negb]. destruct (is_initialized_clustering cfg cl) eqn:Hi; cbn [negb]; [|apply Hm]. destruct cl as [c|]; [|done].
    case_decide as Hk; [apply Hm|]. destruct H as [?|[(c1 & [= <-] & ?)|(c1 & o & [= <-] & -> & Hr & Hv)]]; [done|done|].
    apply Msat_bind. eapply Msat_mono; [by apply Msat_check_options|]. intros ec w1 (L1 & O1 & [(-> & E1 & ?)|(Hne & Hec & _)]); [done|]. rewrite decide_True by done. apply Msat_ret. splits; auto. }
  apply Msat_none_inv in Hs as ([ec out] & w' & E & -> & Hne & O & Hec). exists ec, w'. splits; auto. by apply own_perm.
Qed.

(** The output parameter is required. *)
Lemma check_no_output cfg cl opt w : exists w', check_clustering cfg cl opt false w = Ok ((ER_INVALID_INPUT, None), w') /\ w_live w' = w_live w /\ e_code (w_err w') = ER_INVALID_INPUT.
Proof. eexists. split; [done|]. done. Qed.

Section AfterClustering.
Context (cfg : config) (P : provider) (V : pview P) (ds : p_ds P) (n : nat) (G : geometry) (D : dist_fun) (o : options) (c : clustering).
Hypothesis (Hc : call_ok cfg P V ds n G D o c).
Context (w w' : world) (c' : clustering).
Hypothesis (Hrun : sc_clustering cfg P ds (Some o) (Some c) w = Ok ((ER_OK, Some c'), w')).

(** All points listed as primary are in clusters. *)
Definition listed_covered : Prop := o_prim o = None \/ forall x, x ∈ primary o n -> in_cluster c' x.

Lemma result_initialized : is_initialized_clustering cfg (Some c) = true -> (N.of_nat (c_k c') <= cl_max cfg)%N -> c_version c' = c_version c -> c_n c' = c_n c -> is_Some (c_label c') ->
  is_initialized_clustering cfg (Some c') = true.
Proof.
  unfold is_initialized_clustering. intros Hi Hk -> -> [a ->]. destruct (decide (c_version c <> clustering_version)); [done|]. destruct (decide (c_n c = 0)); [done|].
  destruct (pi_max cfg <? N.of_nat (c_n c))%N; [done|]. destruct (N.ltb_spec (cl_max cfg) (N.of_nat (c_k c'))); [lia|done].
Qed.

Lemma result_check_call : (2 <= o_num_types o -> (N.of_nat (o_num_types o * n) <= u64max)%N) -> check_call cfg c' o /\ options_valid o (c_n c').
Proof.
  intros Hprod. destruct (run_result cfg P V ds n G D o c Hc w w' c' Hrun _ (choice_any cfg P V ds n G D o c Hc)) as (Ha & Hs & Hn & L & m & Hh & Hm & _).
  destruct (claim_labels cfg P V ds n G D o c Hc w w' c' Hrun) as (_ & Hk1 & Hlen & Hlab & Hna).
  pose proof (claim_count cfg P V ds n G D o c Hc w w' c' Hrun) as Hcnt.
  assert (options_valid o n) as Hv by (by destruct Ha as (? & ? & ? & ? & ?)). split; [|by rewrite Hn].
  pose proof (run_sat cfg P V ds n G D o c Hc anyub _ w (choice_any cfg P V ds n G D o c Hc)) as Hsat. unfold Msat in Hsat. rewrite Hrun in Hsat.
  destruct Hsat as (c1 & lk & [= <-] & _ & Hkept & _); [by right|]. destruct Hh as [(lb & Hcl) Hk].
  constructor.
  - apply Hc.
  - apply result_initialized; [by destruct Ha as (? & ? & ? & ? & ?)|by rewrite Hk|apply Hkept|apply Hkept|by rewrite Hcl].
  - lia.
  - split; [congruence|]. rewrite Hn. intros x Hx. destruct (Hlab x Hx) as [Hu|(i & _ & ->)]; [|done]. unfold unlabelled in Hu. by rewrite Hu.
  - apply Hc.
  - intros _. rewrite Hn. destruct Hs as [H1 H2 H3 _ _]. constructor; auto. intros Ht. specialize (Hprod Ht). destruct Hv as [_ Hsz _ _ _ _ _ _ _ _ _ _]. nia.
Qed.

Lemma result_passes : (2 <= o_num_types o -> (N.of_nat (o_num_types o * n) <= u64max)%N) -> listed_covered -> passes cfg c' o.
Proof.
  intros Hprod Hcov. destruct (claim_labels cfg P V ds n G D o c Hc w w' c' Hrun) as (Hn & Hk1 & Hlen & Hlab & Hna).
  destruct (result_check_call Hprod) as [Hcc Hv]. rewrite Hn in Hv. constructor.
  - rewrite Hn. intros x Hx. destruct (Hlab x Hx) as [Hu|(i & Hi & Hl)]; [by left|]. right. exists i. split; [done|]. apply elem_of_list_filter. split; [done|]. apply elem_of_seq. lia.
  - intros p i x Hp Hi Hx. destruct Hcov as [?|Hcov]; [congruence|].
    assert (x ∈ primary o n) as Hpx. { unfold primary, prim_list. rewrite Hp. apply elem_of_list_lookup. exists i. by rewrite lookup_take. }
    destruct (Hcov x Hpx) as (j & Hj & Hin). apply elem_of_list_filter in Hin as [Hin _]. unfold unlabelled. rewrite Hin. intros [= E]. by apply (Hna j).
  - intros i Hi. destruct (decide (o_seed o = SM_BATCHES)); [by eapply claim_size_batches|by eapply claim_size].
  - intros Ht i t m Hi Htt Hm. destruct (claim_types cfg P V ds n G D o c Hc w w' c' Hrun i t Ht Hi Htt) as [H _]. unfold tcon in H. by rewrite Hm in H.
Qed.

Lemma result_checks : (2 <= o_num_types o -> (N.of_nat (o_num_types o * n) <= u64max)%N) -> listed_covered ->
  forall w1, exists ec out w2, check_clustering cfg (Some c') (Some o) true w1 = Ok ((ec, out), w2) /\ w_live w2 ≡ₚ w_live w1 /\
    ((ec = ER_OK /\ out = Some true) \/ (ec = ER_NO_MEMORY /\ ~ no_fail w1)).
Proof.
  intros Hprod Hcov w1. destruct (result_check_call Hprod) as [Hcc Hv]. destruct (check_decides cfg c' o Hcc w1) as (ec & out & w2 & E & Hl & H). exists ec, out, w2. splits; auto.
  destruct H as [(-> & _ & _ & b & -> & Hb)|(_ & _ & _ & [(? & _)|?])]; [|done|by right]. left. split; [done|]. f_equal. by apply Hb, result_passes.
Qed.

(** Options with which all listed points are assigned. *)
Definition all_assigned : Prop := o_prim o = None \/ (solid P V ds n w /\
  ((o_pum o = UM_ANY_NEIGHBOR /\ o_srad o = RM_NO_RADIUS) \/ (is_closest (o_pum o) /\ no_radius o (o_prad o)))).

Lemma all_assigned_covered : all_assigned -> listed_covered.
Proof.
  intros [?|(Hs & [[H1 H2]|[H1 H2]])]; [by left|right|right]; intros x Hx; [by eapply claim_any_primary|by eapply claim_closest_primary].
Qed.
End AfterClustering.

(** ** scc_get_clustering_stats *)

(** Requirements that are not checked: labels have been written and are those of
    clusters, and the squared number of points does not exceed uint64_t. *)
Record stats_call (cfg : config) (P : provider) (V : pview P) (ds : p_ds P) (n : nat) (G : geometry) (D : dist_fun) (c : clustering) : Prop := {
  sl_cfg : config_ok cfg;
  sl_prov : provider_ok P V ds n G D;
  sl_init : is_initialized_clustering cfg (Some c) = true;
  sl_n : c_n c = n;
  sl_some : c_k c <> 0;
  sl_written : all_written c;
  sl_labels : forall x, x < c_n c -> unlabelled cfg c x \/ in_cluster c x;
  sl_square : (N.of_nat (n * (n - 1)) <= u64max)%N
}.

Lemma initialized_n cfg c : config_ok cfg -> is_initialized_clustering cfg (Some c) = true -> (N.of_nat (c_n c) <= u64max)%N.
Proof.
  intros Hcfg. unfold is_initialized_clustering. destruct (decide (c_version c <> clustering_version)); [done|]. destruct (decide (c_n c = 0)); [done|].
  destruct (N.ltb_spec (pi_max cfg) (N.of_nat (c_n c))); [done|]. intros _. destruct Hcfg as (Hpi & _). unfold u32max, u64max, i32max in *. lia.
Qed.

Section StatsClaims.
Context (cfg : config) (P : provider) (V : pview P) (ds : p_ds P) (n : nat) (G : geometry) (D : dist_fun) (c : clustering).
Hypothesis (Hc : stats_call cfg P V ds n G D c).

Lemma stats_run w : exists ec out w', get_clustering_stats cfg P ds (Some c) true w = Ok ((ec, out), w') /\ w_live w' ≡ₚ w_live w /\
  ((ec = ER_OK /\ w_err w' = w_err w /\ exists s, out = Some s) \/
   (out = Some null_stats /\ e_code (w_err w') = ec /\ ((ec = ER_NO_MEMORY /\ ~ no_fail w) \/ (ec = ER_DIST_SEARCH_ERROR /\ ~ (no_fail w /\ provider_reliable P V ds n))))).
Proof.
  destruct Hc. pose proof (Msat_stats cfg P V ds n G D c sl_cfg0 sl_prov0 sl_n0 (initialized_k _ _ sl_init0) sl_some0 sl_written0 sl_labels0 sl_square0) as H.
  specialize (H ltac:(rewrite <- sl_n0; by eapply initialized_n) w sl_init0). apply Msat_none_inv in H as ([ec out] & w' & E & _ & O & H). exists ec, out, w'. splits; auto; [by apply own_perm|].
  destruct H as [(-> & He & s & _ & _ & ->)|H]; [left|by right]. splits; eauto.
Qed.

Context (w w' : world) (s : stats).
Hypothesis (Hrun : get_clustering_stats cfg P ds (Some c) true w = Ok ((ER_OK, Some s), w')).

Lemma stats_result : exists s0, counts_ok cfg c s0 /\ start_dists s0 /\ s = if decide (st_pop s0 = 0) then s0 else finish_stats (foldl (dist_step D c) s0 (seq 0 (c_k c))).
Proof.
  destruct Hc. pose proof (Msat_stats cfg P V ds n G D c sl_cfg0 sl_prov0 sl_n0 (initialized_k _ _ sl_init0) sl_some0 sl_written0 sl_labels0 sl_square0) as H.
  specialize (H ltac:(rewrite <- sl_n0; by eapply initialized_n) w sl_init0). unfold Msat in H. rewrite Hrun in H. cbn [Rsat] in H.
  destruct H as (_ & _ & [(_ & _ & s0 & H1 & H2 & [= ->])|(_ & He & [[? _]|[? _]])]); [|done|done]. eauto.
Qed.

Lemma stats_counts : counts_ok cfg c s.
Proof.
  destruct stats_result as (s0 & H1 & _ & ->). case_decide; [done|]. eapply counts_same; [exact H1|]. eapply same_counts_trans; [apply dist_steps_counts|done].
Qed.

Lemma stats_counts_all : st_n s = c_n c /\ st_k s = c_k c /\
  st_assigned s = length (filter (fun x => label_of c x <> Some (cl_na cfg)) (seq 0 (c_n c))) /\
  st_pop s = length (filter (fun j => cluster c j <> []) (seq 0 (c_k c))) /\
  (st_pop s = 0 -> st_minsize s = u64max /\ st_maxsize s = 0) /\
  (st_pop s <> 0 -> (exists j, j < c_k c /\ cluster c j <> [] /\ st_minsize s = N.of_nat (length (cluster c j))) /\
                    (exists j, j < c_k c /\ cluster c j <> [] /\ st_maxsize s = length (cluster c j))) /\
  (forall j, j < c_k c -> cluster c j <> [] -> (st_minsize s <= N.of_nat (length (cluster c j)))%N) /\
  (forall j, j < c_k c -> length (cluster c j) <= st_maxsize s).
Proof. destruct stats_counts as [H1 H2 H3 H4 (H5 & H6 & H7) (H8 & H9 & H10)]. splits; auto. Qed.

(** Two different points of cluster [j]. *)
Definition mates (x y : nat) : Prop := x <> y /\ exists j, j < c_k c /\ x ∈ cluster c j /\ y ∈ cluster c j.

(** Distances are finite numbers and symmetric. *)
Record finite_dists : Prop := {
  fd_nonneg : forall x y, x < n -> y < n -> d_nonneg (D x y);
  fd_finite : forall x y, x < n -> y < n -> d_le (D x y) d_max = true;
  fd_sym : forall x y, x < n -> y < n -> D x y = D y x
}.

Lemma elem_pairs l x y : (x, y) ∈ pairs l -> x ∈ l /\ y ∈ l.
Proof.
  induction l as [|z l IH]; simpl; [by rewrite elem_of_nil|]. rewrite elem_of_app, elem_of_list_fmap. intros [(y' & [= -> ->] & Hy)|H]; [split; [apply elem_of_list_here|by apply elem_of_list_further]|].
  destruct (IH H). split; by apply elem_of_list_further.
Qed.
Lemma pairs_distinct l x y : NoDup l -> (x, y) ∈ pairs l -> x <> y.
Proof.
  induction l as [|z l IH]; simpl; [by rewrite elem_of_nil|]. intros [Hz Hl]%NoDup_cons. rewrite elem_of_app, elem_of_list_fmap. intros [(y' & [= -> ->] & Hy)|H]; [|auto]. by intros ->.
Qed.
Lemma pairs_complete l x y : x ∈ l -> y ∈ l -> x <> y -> (x, y) ∈ pairs l \/ (y, x) ∈ pairs l.
Proof.
  induction l as [|z l IH]; [by rewrite elem_of_nil|]. intros Hx Hy Hne. simpl. rewrite !elem_of_app, !elem_of_list_fmap. apply elem_of_cons in Hx as [->|Hx], Hy as [->|Hy].
  - done.
  - left. left. eauto.
  - right. left. eauto.
  - destruct (IH Hx Hy Hne); auto.
Qed.

Lemma cluster_lt j x : x ∈ cluster c j -> x < n.
Proof. intros H. apply elem_of_list_filter in H as [_ H]. apply elem_of_seq in H. rewrite (sl_n _ _ _ _ _ _ _ _ Hc) in H. lia. Qed.

Lemma dists_of_mates (Hf : finite_dists) j d : j < c_k c -> d ∈ cluster_pairs D c j -> exists x y, mates x y /\ d = D x y /\ d_nonneg d /\ d_le d d_max = true.
Proof.
  intros Hj H. apply elem_of_list_fmap in H as ([x y] & -> & H). simpl. pose proof (elem_pairs _ _ _ H) as [Hx Hy]. exists x, y.
  apply elem_of_list_In, in_rev, elem_of_list_In in Hx, Hy. assert (x <> y). { eapply pairs_distinct; [|exact H]. apply (NoDup_Permutation_proper _ _ (Permutation_rev (cluster c j))), NoDup_filter, NoDup_seq. }
  pose proof (cluster_lt _ _ Hx). pose proof (cluster_lt _ _ Hy). splits; auto; [|by apply Hf|by apply Hf]. split; [done|]. eauto.
Qed.

Lemma mates_dist (Hf : finite_dists) x y : mates x y -> exists j, j < c_k c /\ 2 <= length (cluster c j) /\ D x y ∈ cluster_pairs D c j.
Proof.
  intros (Hne & j & Hj & Hx & Hy). exists j. split; [done|]. split.
  - destruct (cluster c j) as [|a [|b l]]; simpl; [by apply elem_of_nil in Hx| |lia]. apply elem_of_list_singleton in Hx, Hy. congruence.
  - unfold cluster_pairs. apply elem_of_list_fmap. pose proof (cluster_lt _ _ Hx). pose proof (cluster_lt _ _ Hy).
    destruct (pairs_complete (rev (cluster c j)) x y) as [H'|H']; auto; [by apply elem_of_list_In, in_rev; rewrite rev_involutive; apply elem_of_list_In|by apply elem_of_list_In, in_rev; rewrite rev_involutive; apply elem_of_list_In|exists (x, y); auto|exists (y, x); split; [|done]; simpl; by apply Hf].
Qed.

Lemma d_le_antisym x y : d_nonneg x -> d_nonneg y -> d_le x y = true -> d_le y x = true -> x = y.
Proof.
  intros Hx Hy. rewrite !d_le_rank by done. unfold rank_le. destruct x as [a|a| |a m e], y as [b|b| |b m' e']; simpl in *; subst; try done; intros H1 H2; try lia.
  assert (e = e') as -> by lia. assert (m = m') as -> by lia. done.
Qed.

Definition least (d : double) (xs : list double) : Prop := d ∈ xs /\ forall x, x ∈ xs -> d_le d x = true.
Definition greatest (d : double) (xs : list double) : Prop := d ∈ xs /\ forall x, x ∈ xs -> d_le x d = true.

Lemma dmin_least xs : xs <> [] -> Forall d_nonneg xs -> least (dmin xs) xs.
Proof.
  intros Hne Hn. destruct xs as [|x r]; [done|]. clear Hne. cbn [dmin]. induction r as [|y r IH] using rev_ind.
  - split; [apply elem_of_list_here|]. rewrite Forall_singleton in Hn. intros z Hz%elem_of_list_singleton. subst z. cbn [foldl]. apply d_le_refl. exact Hn.
  - rewrite app_comm_cons in Hn. apply Forall_app in Hn as [Hn Hy]. rewrite Forall_singleton in Hy. destruct (IH Hn) as [H1 H2]. rewrite foldl_app. simpl. set (d := foldl _ x r) in *.
    rewrite Forall_forall in Hn. pose proof (Hn _ H1) as Hd. rewrite app_comm_cons. unfold least. unfold d_gt. rewrite d_lt_le by (by apply nonneg_number). destruct (d_le d y) eqn:E; cbn [negb].
    + split; [rewrite elem_of_app; auto|]. intros z [Hz| ->%elem_of_list_singleton]%elem_of_app; auto.
    + assert (d_le y d = true) as E' by (destruct (d_le_total d y Hd Hy); congruence). split; [rewrite elem_of_app, elem_of_list_singleton; auto|]. intros z [Hz| ->%elem_of_list_singleton]%elem_of_app; [|by apply d_le_refl].
      apply (d_le_trans y d z); auto.
Qed.

Lemma dmax_greatest xs : xs <> [] -> Forall d_nonneg xs -> greatest (dmax xs) xs.
Proof.
  intros Hne Hn. destruct xs as [|x r]; [done|]. clear Hne. cbn [dmax]. induction r as [|y r IH] using rev_ind.
  - split; [apply elem_of_list_here|]. rewrite Forall_singleton in Hn. intros z Hz%elem_of_list_singleton. subst z. cbn [foldl]. apply d_le_refl. exact Hn.
  - rewrite app_comm_cons in Hn. apply Forall_app in Hn as [Hn Hy]. rewrite Forall_singleton in Hy. destruct (IH Hn) as [H1 H2]. rewrite foldl_app. simpl. set (d := foldl _ x r) in *.
    rewrite Forall_forall in Hn. pose proof (Hn _ H1) as Hd. rewrite app_comm_cons. unfold greatest. rewrite d_lt_le by (by apply nonneg_number). destruct (d_le y d) eqn:E; cbn [negb].
    + split; [rewrite elem_of_app; auto|]. intros z [Hz| ->%elem_of_list_singleton]%elem_of_app; auto.
    + assert (d_le d y = true) as E' by (destruct (d_le_total d y Hd Hy); congruence). split; [rewrite elem_of_app, elem_of_list_singleton; auto|]. intros z [Hz| ->%elem_of_list_singleton]%elem_of_app; [|by apply d_le_refl].
      apply (d_le_trans z d y); auto.
Qed.

(** The distances of clusters below [i]. *)
Definition dists_upto (i : nat) : list double := concat (cluster_pairs D c <$> seq 0 i).
Definition single (j : nat) : Prop := length (cluster c j) = 1.

Lemma small_no_pairs j : length (cluster c j) < 2 -> cluster_pairs D c j = [].
Proof. intros H. unfold cluster_pairs. rewrite <- (rev_length (cluster c j)) in H. destruct (rev (cluster c j)) as [|a [|b l]]; simpl in *; [done|done|lia]. Qed.
Lemma large_pairs j : 2 <= length (cluster c j) -> cluster_pairs D c j <> [].
Proof. intros H. unfold cluster_pairs. rewrite <- (rev_length (cluster c j)) in H. destruct (rev (cluster c j)) as [|a [|b l]]; simpl in *; [lia|lia|done]. Qed.

Lemma steps_min (Hf : finite_dists) s0 i : i <= c_k c -> st_min s0 = d_max ->
  let s' := foldl (dist_step D c) s0 (seq 0 i) in d_nonneg (st_min s') /\
  ((exists j, j < i /\ single j) -> st_min s' = d_zero) /\
  ((forall j, j < i -> ~ single j) -> least (st_min s') (d_max :: dists_upto i)).
Proof.
  intros Hi H0. induction i as [|i IH]; [simpl; rewrite H0; splits; [done|intros (j & ? & _); lia|intros _; split; [apply elem_of_list_here|]; intros x ->%elem_of_list_singleton; by apply d_le_refl]|].
  specialize (IH ltac:(lia)). cbn zeta in *. rewrite seq_S, foldl_app. cbn [foldl]. rewrite Nat.add_0_l. set (s1 := foldl _ s0 _) in *. destruct IH as (Hn & Hz & Hl).
  assert (dists_upto (S i) = dists_upto i ++ cluster_pairs D c i) as Hu. { unfold dists_upto. rewrite seq_S, fmap_app, concat_app. simpl. by rewrite app_nil_r. }
  rewrite Hu. unfold dist_step. destruct (decide (length (cluster c i) < 2)) as [Hs|Hs].
  { rewrite (small_no_pairs i Hs), app_nil_r. case_decide as H1; simpl.
    - splits; [done|done|]. intros Hx. by destruct (Hx i ltac:(lia)).
    - splits; [done| |intros Hx; apply Hl; intros j Hj; apply Hx; lia]. intros (j & Hj & Hsj). apply Hz. exists j. split; [|done]. destruct (decide (j = i)) as [->|]; [done|lia]. }
  assert (Forall d_nonneg (cluster_pairs D c i)) as Hfn. { apply Forall_forall. intros d Hd. destruct (dists_of_mates Hf i d ltac:(lia) Hd) as (? & ? & _ & _ & ? & _). done. }
  destruct (dmin_least (cluster_pairs D c i) (large_pairs i ltac:(lia)) Hfn) as [Hm1 Hm2]. set (lo := dmin _) in *. pose proof Hfn as Hfn'. rewrite Forall_forall in Hfn'. pose proof (Hfn' _ Hm1) as Hlo.
  cbn [add_cluster st_min]. unfold d_gt. rewrite d_lt_le by (by apply nonneg_number). splits.
  - by destruct (d_le (st_min s1) lo).
  - intros (j & Hj & Hsj). assert (st_min s1 = d_zero) as ->. { apply Hz. exists j. split; [|done]. destruct (decide (j = i)) as [->|]; [unfold single in *; lia|lia]. }
    assert (d_le d_zero lo = true) as -> by (apply d_le_rank; [done|done|]; unfold rank_le; destruct lo as [?|?| |? ? ?]; simpl in *; subst; simpl; try done; lia). done.
  - intros Hx. destruct (Hl ltac:(intros j Hj; apply Hx; lia)) as [H1 H2]. rewrite app_comm_cons. destruct (d_le (st_min s1) lo) eqn:E; cbn [negb].
    + split; [rewrite elem_of_app; auto|]. intros z [Hzz|Hzz]%elem_of_app; auto. apply (d_le_trans _ lo); auto.
    + assert (d_le lo (st_min s1) = true) as E' by (destruct (d_le_total (st_min s1) lo Hn Hlo); congruence). split; [rewrite elem_of_app; auto|]. intros z [Hzz|Hzz]%elem_of_app; [|auto].
      apply (d_le_trans _ (st_min s1)); auto. apply elem_of_cons in Hzz as [->|Hzz]; [done|]. apply elem_of_list_In, in_concat in Hzz as (l & Hl1 & Hl2). apply elem_of_list_In, elem_of_list_fmap in Hl1 as (j & -> & Hj).
      apply elem_of_seq in Hj. apply elem_of_list_In in Hl2. destruct (dists_of_mates Hf j z ltac:(lia) Hl2) as (? & ? & _ & _ & ? & _). done.
Qed.

Lemma upto_nonneg (Hf : finite_dists) i z : i <= c_k c -> z ∈ dists_upto i -> exists x y, mates x y /\ z = D x y /\ d_nonneg z /\ d_le z d_max = true.
Proof.
  intros Hi Hzz. apply elem_of_list_In, in_concat in Hzz as (l & Hl1 & Hl2). apply elem_of_list_In, elem_of_list_fmap in Hl1 as (j & -> & Hj).
  apply elem_of_seq in Hj. apply elem_of_list_In in Hl2. apply (dists_of_mates Hf j z ltac:(lia) Hl2).
Qed.

Lemma steps_max (Hf : finite_dists) s0 i : i <= c_k c -> st_max s0 = d_zero ->
  let s' := foldl (dist_step D c) s0 (seq 0 i) in d_nonneg (st_max s') /\ greatest (st_max s') (d_zero :: dists_upto i).
Proof.
  intros Hi H0. induction i as [|i IH]; [simpl; rewrite H0; splits; [done|split; [apply elem_of_list_here|]; intros x ->%elem_of_list_singleton; by apply d_le_refl]|].
  specialize (IH ltac:(lia)). cbn zeta in *. rewrite seq_S, foldl_app. cbn [foldl]. rewrite Nat.add_0_l. set (s1 := foldl _ s0 _) in *. destruct IH as (Hn & Hl).
  assert (dists_upto (S i) = dists_upto i ++ cluster_pairs D c i) as Hu. { unfold dists_upto. rewrite seq_S, fmap_app, concat_app. simpl. by rewrite app_nil_r. }
  rewrite Hu. unfold dist_step. destruct (decide (length (cluster c i) < 2)) as [Hs|Hs].
  { rewrite (small_no_pairs i Hs), app_nil_r. case_decide; done. }
  assert (Forall d_nonneg (cluster_pairs D c i)) as Hfn. { apply Forall_forall. intros d Hd. destruct (dists_of_mates Hf i d ltac:(lia) Hd) as (? & ? & _ & _ & ? & _). done. }
  destruct (dmax_greatest (cluster_pairs D c i) (large_pairs i ltac:(lia)) Hfn) as [Hm1 Hm2]. set (hi := dmax _) in *. pose proof Hfn as Hfn'. rewrite Forall_forall in Hfn'. pose proof (Hfn' _ Hm1) as Hhi.
  cbn [add_cluster st_max]. rewrite d_lt_le by (by apply nonneg_number). split; [by destruct (d_le hi (st_max s1))|].
  destruct Hl as [H1 H2]. rewrite app_comm_cons. destruct (d_le hi (st_max s1)) eqn:E; cbn [negb].
  + split; [rewrite elem_of_app; auto|]. intros z [Hzz|Hzz]%elem_of_app; auto. apply (d_le_trans _ hi); auto.
  + assert (d_le (st_max s1) hi = true) as E' by (destruct (d_le_total (st_max s1) hi Hn Hhi); congruence). split; [rewrite elem_of_app; auto|]. intros z [Hzz|Hzz]%elem_of_app; [|auto].
    apply (d_le_trans _ (st_max s1)); auto. apply elem_of_cons in Hzz as [->|Hzz]; [done|]. destruct (upto_nonneg Hf i z ltac:(lia) Hzz) as (? & ? & _ & _ & ? & _). done.
Qed.

Lemma mates_upto (Hf : finite_dists) x y : mates x y -> D x y ∈ dists_upto (c_k c).
Proof.
  intros H. destruct (mates_dist Hf x y H) as (j & Hj & _ & Hd). unfold dists_upto. apply elem_of_list_In, in_concat. exists (cluster_pairs D c j). split; [|by apply elem_of_list_In].
  apply elem_of_list_In, elem_of_list_fmap. exists j. split; [done|]. apply elem_of_seq. lia.
Qed.

Lemma mates_some_pop x y : mates x y -> st_pop s <> 0.
Proof.
  intros (_ & j & Hj & Hx & _). rewrite (ct_pop _ _ _ stats_counts). intros H. apply nil_length_inv in H. assert (j ∈ filter (fun j => cluster c j <> []) (seq 0 (c_k c))) as Hin.
  { apply elem_of_list_filter. split; [intros E; rewrite E in Hx; by apply elem_of_nil in Hx|apply elem_of_seq; lia]. } rewrite H in Hin. by apply elem_of_nil in Hin.
Qed.

Lemma single_some_pop j : j < c_k c -> length (cluster c j) = 1 -> st_pop s <> 0.
Proof.
  intros Hj Hx. rewrite (ct_pop _ _ _ stats_counts). intros H. apply nil_length_inv in H. assert (j ∈ filter (fun j => cluster c j <> []) (seq 0 (c_k c))) as Hin.
  { apply elem_of_list_filter. split; [intros E; by rewrite E in Hx|apply elem_of_seq; lia]. } rewrite H in Hin. by apply elem_of_nil in Hin.
Qed.

Lemma stats_min (Hf : finite_dists) : (forall j, j < c_k c -> length (cluster c j) <> 1) -> (exists x y, mates x y) ->
  (exists x y, mates x y /\ st_min s = D x y) /\ forall x y, mates x y -> d_le (st_min s) (D x y) = true.
Proof.
  intros Hns (x & y & Hm). pose proof (mates_some_pop _ _ Hm) as Hp. destruct stats_result as (s0 & Hc0 & (_ & _ & H0 & _) & Es). case_decide as Hd; [by rewrite Es in Hp|].
  destruct (steps_min Hf s0 (c_k c) ltac:(done) H0) as (Hn & _ & Hl). destruct (Hl Hns) as [H1 H2]. clear Hl.
  assert (st_min s = st_min (foldl (dist_step D c) s0 (seq 0 (c_k c)))) as Es' by (by rewrite Es). rewrite <- Es' in *. split.
  - apply elem_of_cons in H1 as [H1|H1].
    + exists x, y. split; [done|]. pose proof (mates_upto Hf x y Hm) as Hxy. destruct (upto_nonneg Hf _ _ ltac:(done) Hxy) as (_ & _ & _ & _ & Hnn & Hle). apply d_le_antisym; [done|done| |by rewrite H1].
      apply H2. by apply elem_of_list_further.
    + destruct (upto_nonneg Hf _ _ ltac:(done) H1) as (x' & y' & Hm' & E & _). eauto.
  - intros x' y' Hm'. apply H2, elem_of_list_further. by apply mates_upto.
Qed.

Lemma stats_max (Hf : finite_dists) : (exists x y, mates x y) ->
  (exists x y, mates x y /\ st_max s = D x y) /\ forall x y, mates x y -> d_le (D x y) (st_max s) = true.
Proof.
  intros (x & y & Hm). pose proof (mates_some_pop _ _ Hm) as Hp. destruct stats_result as (s0 & Hc0 & (_ & _ & _ & H0 & _) & Es). case_decide as Hd; [by rewrite Es in Hp|].
  destruct (steps_max Hf s0 (c_k c) ltac:(done) H0) as (Hn & H1 & H2).
  assert (st_max s = st_max (foldl (dist_step D c) s0 (seq 0 (c_k c)))) as Es' by (by rewrite Es). rewrite <- Es' in *. split.
  - apply elem_of_cons in H1 as [H1|H1].
    + exists x, y. split; [done|]. pose proof (mates_upto Hf x y Hm) as Hxy. destruct (upto_nonneg Hf _ _ ltac:(done) Hxy) as (_ & _ & _ & _ & Hnn & Hle). apply d_le_antisym; [done|done| |].
      * rewrite H1. apply d_le_rank; [done|done|]. unfold rank_le. destruct (D x y) as [?|?| |? ? ?]; simpl in *; subst; simpl; try done; lia.
      * apply H2. by apply elem_of_list_further.
    + destruct (upto_nonneg Hf _ _ ltac:(done) H1) as (x' & y' & Hm' & E & _). eauto.
  - intros x' y' Hm'. apply H2, elem_of_list_further. by apply mates_upto.
Qed.

Lemma stats_single (Hf : finite_dists) j : j < c_k c -> length (cluster c j) = 1 -> st_min s = d_zero.
Proof.
  intros Hj H1. pose proof (single_some_pop j Hj H1) as Hp. destruct stats_result as (s0 & Hc0 & (_ & _ & H0 & _) & Es). case_decide as Hd; [by rewrite Es in Hp|].
  destruct (steps_min Hf s0 (c_k c) ltac:(done) H0) as (Hn & Hz & _). rewrite Es. apply Hz. eauto.
Qed.

(** Sums and averages. *)
Definition multi : list nat := filter (fun j => 2 <= length (cluster c j)) (seq 0 (c_k c)).
Definition total (f : nat -> double) : double := foldl d_add d_zero (f <$> multi).
Definition csum (j : nat) : double := dsum (cluster_pairs D c j).
Definition cpairs (j : nat) : double := d_of_nat (length (cluster c j) * (length (cluster c j) - 1) / 2).

Lemma steps_sums s0 l : let s' := foldl (dist_step D c) s0 l in let ms := filter (fun j => 2 <= length (cluster c j)) l in
  st_sum s' = foldl d_add (st_sum s0) (csum <$> ms) /\
  st_avgmin s' = foldl d_add (st_avgmin s0) ((fun j => dmin (cluster_pairs D c j)) <$> ms) /\
  st_avgmax s' = foldl d_add (st_avgmax s0) ((fun j => dmax (cluster_pairs D c j)) <$> ms) /\
  st_avgw s' = foldl d_add (st_avgw s0) ((fun j => d_div (d_mul (d_of_nat (length (cluster c j))) (csum j)) (cpairs j)) <$> ms) /\
  st_avgu s' = foldl d_add (st_avgu s0) ((fun j => d_div (csum j) (cpairs j)) <$> ms).
Proof.
  revert s0. induction l as [|j l IH]; intros s0; [done|]. cbn zeta in *. cbn [foldl]. specialize (IH (dist_step D c s0 j)). destruct IH as (-> & -> & -> & -> & ->). rewrite filter_cons.
  unfold dist_step. destruct (decide (length (cluster c j) < 2)) as [H|H].
  - rewrite (decide_False (P := 2 <= length (cluster c j))) by lia. destruct (decide (length (cluster c j) = 1)); done.
  - rewrite (decide_True (P := 2 <= length (cluster c j))) by lia. cbn [fmap list_fmap foldl add_cluster st_sum st_avgmin st_avgmax st_avgw st_avgu]. done.
Qed.

Lemma stats_sums : st_pop s <> 0 ->
  st_sum s = total csum /\
  st_avgsize s = d_div (d_of_nat (st_assigned s)) (d_of_nat (st_pop s)) /\
  st_avgmin s = d_div (total (fun j => dmin (cluster_pairs D c j))) (d_of_nat (st_pop s)) /\
  st_avgmax s = d_div (total (fun j => dmax (cluster_pairs D c j))) (d_of_nat (st_pop s)) /\
  st_avgw s = d_div (total (fun j => d_div (d_mul (d_of_nat (length (cluster c j))) (csum j)) (cpairs j))) (d_of_nat (st_assigned s)) /\
  st_avgu s = d_div (total (fun j => d_div (csum j) (cpairs j))) (d_of_nat (st_pop s)).
Proof.
  intros Hp. destruct stats_result as (s0 & Hc0 & (_ & Z1 & _ & _ & Z2 & Z3 & Z4 & Z5) & Es). case_decide as Hd; [by rewrite Es in Hp|].
  pose proof (steps_sums s0 (seq 0 (c_k c))) as (H1 & H2 & H3 & H4 & H5). rewrite Z1 in H1. rewrite Z2 in H2. rewrite Z3 in H3. rewrite Z4 in H4. rewrite Z5 in H5. fold multi in *.
  set (s1 := foldl (dist_step D c) s0 (seq 0 (c_k c))) in *. rewrite Es. cbn [finish_stats st_sum st_avgsize st_assigned st_pop st_avgmin st_avgmax st_avgw st_avgu].
  rewrite H1, H2, H3, H4, H5. done.
Qed.
End StatsClaims.

Lemma stats_reject cfg P ds cl w : is_initialized_clustering cfg cl = false \/ p_check P ds = false \/ (exists c, cl = Some c /\ (c_k c = 0 \/ p_num P ds <> c_n c)) ->
  exists w', get_clustering_stats cfg P ds cl true w = Ok ((ER_INVALID_INPUT, Some null_stats), w') /\ w_live w' = w_live w /\ e_code (w_err w') = ER_INVALID_INPUT.
Proof.
  intros H. unfold get_clustering_stats. cbn [negb]. destruct (is_initialized_clustering cfg cl) eqn:Hi; cbn [negb]; [|by eexists]. destruct cl as [c|]; [|done].
  destruct (decide (c_k c = 0)); [by eexists|]. destruct (p_check P ds); cbn [negb]; [|by eexists]. destruct (decide (p_num P ds <> c_n c)); [by eexists|].
  destruct H as [?|[?|(c1 & [= <-] & [?|?])]]; done.
Qed.

(** ** Concrete calls *)

Lemma valid_written cfg c : length (cells c) = c_n c -> labels_valid cfg c -> all_written c /\ forall x, x < c_n c -> unlabelled cfg c x \/ in_cluster c x.
Proof.
  intros Hl Hv. split; [split; [done|]|]; intros x Hx; destruct (Hv x Hx) as (z & Hz & H); unfold unlabelled, label_of; rewrite Hz; [done|]. destruct H as [->|H]; [by left|right].
  exists (Z.to_nat z). split; [lia|]. apply elem_of_list_filter. unfold label_of. rewrite Hz. simpl. rewrite Z2Nat.id by lia. split; [done|]. apply elem_of_seq. lia.
Qed.

Definition stats_callable (l : list Z) (c : clustering) : Prop :=
  stats_call default_config builtin (builtin_view (line l) (length l)) (Some (line l)) (length l) (eucl_geo (line l)) (eucl (line l)) c.
Lemma stats_callable_by l c : l <> [] -> finite_b l = true -> is_initialized_clustering default_config (Some c) = true -> c_n c = length l -> c_k c <> 0 ->
  labels_valid_b c = true -> (N.of_nat (length l * (length l - 1)) <= u64max)%N -> stats_callable l c.
Proof.
  intros H1 H2 H3 H4 H5 H6 H7. pose proof H6 as H6'. apply labels_valid_by in H6. unfold labels_valid_b in H6'. apply andb_true_iff in H6' as [Hl%bool_decide_eq_true_1 _].
  destruct (valid_written default_config c Hl H6). constructor; auto; [apply default_config_ok|]. by apply builtin_ok, line_data.
Qed.

Definition stats_line (l : list Z) (c : clustering) (w : world) : R (ecode * option stats * world) := get_clustering_stats default_config builtin (Some (line l)) (Some c) true w.

Lemma stats_example : stats_callable pts old3 /\ exists s w', stats_line pts old3 (world_old (fun _ => false)) = Ok ((ER_OK, Some s), w') /\
  st_assigned s = 11 /\ st_pop s = 3 /\ st_minsize s = 3%N /\ st_maxsize s = 5 /\ st_min s = d_of_Z 1 /\ st_max s = d_of_Z 63 /\ w_live w' = [0].
Proof.
  split; [apply stats_callable_by; by vm_compute|]. destruct (stats_line pts old3 (world_old (fun _ => false))) as [[[[] [s|]] w']|] eqn:E; vm_compute in E; try done.
  injection E as <- <-. eexists _, _. split; [done|]. vm_compute. done.
Qed.

Definition finite_dists_b (n : nat) (D : dist_fun) : bool :=
  forallb (fun x => forallb (fun y => match D x y with S754_zero false => true | S754_finite false _ _ => true | _ => false end && d_le (D x y) d_max && d_le (D x y) (D y x)) (seq 0 n)) (seq 0 n).
Lemma finite_dists_by n D : finite_dists_b n D = true -> finite_dists n D.
Proof.
  unfold finite_dists_b. rewrite forallb_forall. intros H.
  assert (forall x y, x < n -> y < n -> d_nonneg (D x y) /\ d_le (D x y) d_max = true /\ d_le (D x y) (D y x) = true) as H'.
  { intros x y Hx Hy. specialize (H x). rewrite forallb_forall in H. specialize (H ltac:(apply in_seq; lia) y ltac:(apply in_seq; lia)). rewrite !andb_true_iff in H.
    destruct H as ((H1 & H2) & H3). splits; auto. destruct (D x y) as [[]|[]| |[] ? ?]; done. }
  constructor; intros; [by apply H'|by apply H'|]. apply d_le_antisym; by apply H'.
Qed.

Lemma extremes_example : finite_dists 12 (eucl (line pts)) /\ (forall j, j < c_k old3 -> length (cluster old3 j) <> 1) /\ mates old3 0 2.
Proof.
  split; [apply finite_dists_by; by vm_compute|]. split.
  - intros [|[|[|[|j]]]] Hj; try (vm_compute; lia). simpl in Hj. lia.
  - split; [done|]. exists 0. split; [simpl; lia|]. split; vm_compute; repeat constructor.
Qed.

(** The distance between the two points overflows: the reported minimum is the
    largest finite number. *)
Definition distant : list Z := [- 2 ^ 1000; 2 ^ 1000]%Z.
Lemma infinite_witness : let c := old_clustering 1 [0; 0]%Z in stats_callable distant c /\ eucl (line distant) 0 1 = S754_infinity false /\
  exists s w', stats_line distant c (world_old (fun _ => false)) = Ok ((ER_OK, Some s), w') /\ st_min s = d_max /\ st_max s = S754_infinity false.
Proof.
  intros c. split; [apply stats_callable_by; by vm_compute|]. split; [by vm_compute|]. destruct (stats_line distant c (world_old (fun _ => false))) as [[[[] [s|]] w']|] eqn:E; vm_compute in E; try done.
  injection E as <- <-. eexists _, _. split; [done|]. vm_compute. done.
Qed.

(** A clustering that passes, and one with a cluster that is too small. *)
Definition check_line (c : clustering) (o : options) : R (ecode * option bool * world) := check_clustering default_config (Some c) (Some o) true (world_old (fun _ => false)).
Lemma check_callable_by c o : is_initialized_clustering default_config (Some c) = true -> c_k c <> 0 -> labels_valid_b c = true -> sane_b o (c_n c) = true ->
  (N.of_nat (o_num_types o * c_k c) <= u64max)%N -> check_call default_config c o.
Proof.
  intros H1 H2 H3 H4 H5. pose proof H3 as H3'. apply labels_valid_by in H3. unfold labels_valid_b in H3'. apply andb_true_iff in H3' as [Hl%bool_decide_eq_true_1 _].
  destruct (valid_written default_config c Hl H3) as [Hw _]. unfold sane_b in H4. rewrite !andb_true_iff in H4. destruct H4 as (((((S1 & S2) & S3) & S4) & S5) & S6).
  constructor; auto; [apply default_config_ok| |].
  - intros p Hp. rewrite Hp in S1. apply andb_true_iff in S1 as [S1 _]. by apply bool_decide_eq_true_1 in S1.
  - intros _. constructor; auto.
    + intros p Hp. rewrite Hp in S1. apply andb_true_iff in S1 as [S1 S1']. apply bool_decide_eq_true_1 in S1, S1'. done.
    + intros p Hp. rewrite Hp in S2. by apply bool_decide_eq_true_1 in S2.
    + intros p Hp. rewrite Hp in S3. apply andb_true_iff in S3 as [S3 S3']. apply bool_decide_eq_true_1 in S3, S3'. done.
Qed.

Definition part3 : clustering := old_clustering 3 [0; 0; 0; 4294967295; 1; 1; 1; 1; 1; 2; 2; 2]%Z.
Definition says (r : R (ecode * option bool * world)) (b : bool) : Prop := exists w', r = Ok ((ER_OK, Some b), w').
Lemma says_by r b : match r with Ok ((ER_OK, Some b'), _) => bool_decide (b' = b) | _ => false end = true -> says r b.
Proof. destruct r as [[[[] [b'|]] w']|]; try done. intros <-%bool_decide_eq_true_1. by eexists. Qed.

Definition type_options : options := with_types [1; 1] [0; 1; 0; 0; 0; 1; 0; 1; 0; 1; 0; 1] (with_size 3 default_options).
Lemma check_example : check_call default_config part3 (with_size 3 default_options) /\ check_call default_config part3 type_options /\
  check_call default_config part3 (with_primary [3] (with_size 3 default_options)) /\ 
  says (check_line part3 (with_size 3 default_options)) true /\ says (check_line part3 (with_size 4 default_options)) false /\
  says (check_line part3 type_options) true /\ says (check_line part3 (with_types [2; 2] (tlabels_of type_options) (with_size 4 default_options))) false /\
  says (check_line part3 (with_primary [2; 4] (with_size 3 default_options))) true /\ says (check_line part3 (with_primary [2; 3] (with_size 3 default_options))) false /\
  says (check_line old3 (with_size 3 default_options)) false.
Proof. splits; try (apply check_callable_by; by vm_compute); apply says_by; by vm_compute. Qed.
